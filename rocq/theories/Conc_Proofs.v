(** Proofs about the concurrent code. *)
From Verif Require Import Conc_Model Conc_Spec.

(** ** Compile *)
Lemma put_same : forall s t x, put s t x t = x.
Proof. intros. unfold put. rewrite Nat.eqb_refl. reflexivity. Qed.
Lemma put_other : forall s t x u, u <> t -> put s t x u = s u.
Proof. intros s t x u H. unfold put. apply Nat.eqb_neq in H. rewrite H. reflexivity. Qed.

Lemma first_free_spec : forall {A} (mods : list (pystr * A)) cands n,
  first_free mods cands = Some n -> ahas n mods = false /\ In n cands.
Proof.
  intros A mods cands n. induction cands as [|c r IH]; cbn [first_free]; [discriminate|].
  destruct (ahas c mods) eqn:E.
  - intro H. destruct (IH H) as [H1 H2]. split; [exact H1|right; exact H2].
  - intro H. injection H as <-. split; [exact E|left; reflexivity].
Qed.

Definition idle_or_waiting (l : list frame) : Prop :=
  l = [] \/ exists w, f_pc w = Waiting /\ l = [w].

(** Who holds the lock and what the other threads do. *)
Definition threads_ok (h : option (nat * frame)) (thr : nat -> list frame) : Prop :=
  match h with
  | None => forall t, idle_or_waiting (thr t)
  | Some (u, f) =>
      f_pc f <> Waiting
      /\ (thr u = [f] \/ exists w n m, f_pc w = Waiting /\ f_pc f = Running n m /\ thr u = [w; f])
      /\ forall t, t <> u -> idle_or_waiting (thr t)
  end.

Section Compile.
Variable mods0 : list (pystr * nat).

Definition name_fresh (s : cstate) (n : pystr) : Prop :=
  aget n mods0 = None /\ forall r, In r (c_res s) -> r_name r <> n.
Definition mod_fresh (s : cstate) (m : nat) : Prop := forall r, In r (c_res s) -> r_mod r <> m.

Definition frame_ok (s : cstate) (f : frame) : Prop :=
  match f_pc f with
  | Waiting | Locked | Failed => True
  | Named n => name_fresh s n
  | Running n m | Ran n m => name_fresh s n /\ mod_fresh s m /\ nth_error (c_made s) m = Some (f_src f)
  | Registered n m => name_fresh s n /\ mod_fresh s m /\ nth_error (c_made s) m = Some (f_src f)
                      /\ aget n (c_mods s) = Some m
  end.

Definition results_ok (s : cstate) : Prop :=
  (forall r, In r (c_res s) -> aget (r_name r) (c_mods s) = Some (r_mod r)
                               /\ nth_error (c_made s) (r_mod r) = Some (r_src r)
                               /\ aget (r_name r) mods0 = None)
  /\ NoDup (map r_name (c_res s)) /\ NoDup (map r_mod (c_res s))
  /\ (forall n i, aget n mods0 = Some i -> aget n (c_mods s) = Some i).

Definition cinv (s : cstate) : Prop := exists h,
  c_lock s = (match h with Some _ => true | None => false end)
  /\ threads_ok h (c_thr s)
  /\ match h with Some (_, f) => frame_ok s f | None => True end
  /\ results_ok s.

Lemma idle_put_other : forall thr u x t, t <> u -> idle_or_waiting (thr t) -> idle_or_waiting (put thr u x t).
Proof. intros thr u x t H I. rewrite put_other by exact H. exact I. Qed.

Lemma cinv_init : forall made, cinv (cinit mods0 made).
Proof.
  intro made. exists None. split; [reflexivity|]. split; [intro t; left; reflexivity|].
  split; [exact I|]. split; [intros r []|]. split; [constructor|]. split; [constructor|]. auto.
Qed.

Lemma nth_error_grow : forall {A} (l : list A) x m v, nth_error l m = Some v -> nth_error (l ++ [x]) m = Some v.
Proof.
  intros A l x m v H. rewrite nth_error_app1; [exact H|]. apply nth_error_Some. congruence.
Qed.

(** Changing only the holder's frame. *)
Lemma cinv_holder : forall s u f f', c_lock s = true -> c_thr s u = [f] -> f_pc f' <> Waiting ->
  (forall t, t <> u -> idle_or_waiting (c_thr s t)) -> results_ok s -> frame_ok s f' ->
  cinv (mkC (c_lock s) (c_mods s) (c_made s) (put (c_thr s) u [f']) (c_res s)).
Proof.
  intros s u f f' Hl Ht Hn Hoth Hr Hf. exists (Some (u, f')). split; [exact Hl|].
  split; [|split; [exact Hf|exact Hr]].
  split; [exact Hn|]. split; [left; apply put_same|].
  intros t Hne. cbn [c_thr]. apply idle_put_other; [exact Hne|exact (Hoth t Hne)].
Qed.

Lemma cinv_step : forall l s s', cinv s -> (forall t, l <> Act t Interrupt) ->
  cstep l s = Some s' -> cinv s'.
Proof.
  intros l s s' (h & Hl & Ht & Hf & Hr) Hni Hs.
  destruct l as [t a|n].
  - destruct h as [[u f]|].
    + destruct Ht as (Hin & Hu & Hoth).
      destruct (Nat.eq_dec t u) as [->|Hne].
      * destruct Hu as [Hu|(w & n & m & Hw & Hrun & Hu)].
        -- (* the holder itself *)
           unfold cstep in Hs. rewrite Hu in Hs. destruct f as [src base p].
           cbn [f_pc] in Hin.
           destruct a; destruct p; try discriminate; try congruence.
           ++ (* Call in running code *)
              injection Hs as <-. exists (Some (u, mkF src base (Running n m))).
              split; [exact Hl|]. split; [|split; [exact Hf|exact Hr]].
              split; [cbn; congruence|]. split.
              ** right. exists (mkF src0 base0 Waiting), n, m. cbn [c_thr]. rewrite put_same.
                 repeat split.
              ** intros t Hne. cbn [c_thr]. apply idle_put_other; [exact Hne|exact (Hoth t Hne)].
           ++ (* Name *)
              destruct (genUniqueModuleName (c_mods s) base draws) as [n|] eqn:G; [|discriminate].
              injection Hs as <-.
              apply (cinv_holder s u _ (mkF src base (Named n)) Hl Hu); try assumption; [discriminate|].
              apply first_free_spec in G as [G _]. unfold frame_ok. cbn [f_pc].
              destruct Hr as (R1 & _ & _ & R4). unfold ahas in G. split.
              ** destruct (aget n mods0) as [i|] eqn:E; [|reflexivity]. rewrite (R4 _ _ E) in G. discriminate.
              ** intros r Hr E. destruct (R1 r Hr) as [R _]. rewrite E in R. rewrite R in G. discriminate.
           ++ (* Exec *)
              injection Hs as <-. exists (Some (u, mkF src base (Running n (length (c_made s))))).
              split; [exact Hl|]. split; [|split].
              ** split; [discriminate|]. split; [left; apply put_same|].
                 intros t Hne. cbn [c_thr]. apply idle_put_other; [exact Hne|exact (Hoth t Hne)].
              ** unfold frame_ok in *. cbn [f_pc f_src c_made c_res] in *. split; [exact Hf|]. split.
                 --- intros r Hir E. destruct Hr as (R1 & _). destruct (R1 r Hir) as (_ & R & _).
                     assert (r_mod r < length (c_made s)) by (apply nth_error_Some; congruence).
                     cbn [c_res] in *. lia.
                 --- rewrite nth_error_app2 by lia. rewrite Nat.sub_diag. reflexivity.
              ** destruct Hr as (R1 & R2 & R3 & R4). split; [|split; [exact R2|split; [exact R3|exact R4]]].
                 intros r Hir. destruct (R1 r Hir) as (Q1 & Q2 & Q3). split; [exact Q1|]. split; [|exact Q3].
                 cbn [c_made]. apply nth_error_grow. exact Q2.
           ++ (* Finish *)
              injection Hs as <-.
              apply (cinv_holder s u _ (mkF src base (Ran n m)) Hl Hu); try assumption. discriminate.
           ++ (* Register *)
              injection Hs as <-. exists (Some (u, mkF src base (Registered n m))).
              split; [exact Hl|]. unfold frame_ok in Hf. cbn [f_pc f_src] in Hf.
              destruct Hf as ((F1 & F2) & F3 & F4). split; [|split].
              ** split; [discriminate|]. split; [left; apply put_same|].
                 intros t Hne. cbn [c_thr]. apply idle_put_other; [exact Hne|exact (Hoth t Hne)].
              ** unfold frame_ok. cbn [f_pc f_src c_made c_mods].
                 split; [split; [exact F1|exact F2]|]. split; [exact F3|]. split; [exact F4|]. apply aget_aset_same.
              ** destruct Hr as (R1 & R2 & R3 & R4). split; [|split; [exact R2|split; [exact R3|]]].
                 --- intros r Hir. destruct (R1 r Hir) as (Q1 & Q2 & Q3). split; [|split; [exact Q2|exact Q3]].
                     cbn [c_mods]. rewrite aget_aset_other; [exact Q1|]. exact (F2 r Hir).
                 --- intros k i Hk. cbn [c_mods]. rewrite aget_aset_other; [exact (R4 k i Hk)|]. congruence.
           ++ injection Hs as <-. apply (cinv_holder s u _ (mkF src base Failed) Hl Hu); try assumption; first [discriminate|exact I].
           ++ injection Hs as <-. apply (cinv_holder s u _ (mkF src base Failed) Hl Hu); try assumption; first [discriminate|exact I].
           ++ injection Hs as <-. apply (cinv_holder s u _ (mkF src base Failed) Hl Hu); try assumption; first [discriminate|exact I].
           ++ injection Hs as <-. apply (cinv_holder s u _ (mkF src base Failed) Hl Hu); try assumption; first [discriminate|exact I].
           ++ (* Release after registering *)
              injection Hs as <-. exists None. split; [reflexivity|]. split; [|split; [exact I|]].
              ** intro t. cbn [c_thr]. destruct (Nat.eq_dec t u) as [->|Hne].
                 --- rewrite put_same. left. reflexivity.
                 --- apply idle_put_other; [exact Hne|exact (Hoth t Hne)].
              ** unfold frame_ok in Hf. cbn [f_pc f_src] in Hf.
                 destruct Hf as ((F1 & F2) & F3 & F4 & F5). destruct Hr as (R1 & R2 & R3 & R4).
                 split; [|split; [|split; [|exact R4]]].
                 --- intros r [<-|Hir]; [|exact (R1 r Hir)]. cbn. split; [exact F5|]. split; [exact F4|exact F1].
                 --- cbn [c_res map r_name]. constructor; [|exact R2].
                     intro F. apply in_map_iff in F as (r & E & Hir). exact (F2 r Hir E).
                 --- cbn [c_res map r_mod]. constructor; [|exact R3].
                     intro F. apply in_map_iff in F as (r & E & Hir). exact (F3 r Hir E).
           ++ (* Release after a failure *)
              injection Hs as <-. exists None. split; [reflexivity|]. split; [|split; [exact I|exact Hr]].
              intro t. cbn [c_thr]. destruct (Nat.eq_dec t u) as [->|Hne].
              ** rewrite put_same. left. reflexivity.
              ** apply idle_put_other; [exact Hne|exact (Hoth t Hne)].
        -- (* blocked on itself *)
           unfold cstep in Hs. rewrite Hu in Hs. destruct w as [ws wb wp]. cbn [f_pc] in Hw. subst wp.
           destruct a; try discriminate.
           ++ rewrite Hl in Hs. discriminate.
           ++ exfalso. exact (Hni u eq_refl).
      * (* another thread *)
        destruct (Hoth t Hne) as [E|(w & Hw & E)]; unfold cstep in Hs; rewrite E in Hs.
        -- destruct a; try discriminate. injection Hs as <-.
           exists (Some (u, f)). split; [exact Hl|]. split; [|split; [exact Hf|exact Hr]].
           split; [exact Hin|]. cbn [c_thr]. split.
           ++ rewrite put_other by congruence. exact Hu.
           ++ intros t' Hne'. destruct (Nat.eq_dec t' t) as [->|Hd].
              ** rewrite put_same. right. exists (mkF src base Waiting). split; reflexivity.
              ** apply idle_put_other; [exact Hd|exact (Hoth t' Hne')].
        -- destruct w as [ws wb wp]. cbn [f_pc] in Hw. subst wp. destruct a; try discriminate.
           ++ rewrite Hl in Hs. discriminate.
           ++ exfalso. exact (Hni t eq_refl).
    + (* the lock is free *)
      destruct (Ht t) as [E|(w & Hw & E)]; unfold cstep in Hs; rewrite E in Hs.
      * destruct a; try discriminate. injection Hs as <-. exists None. split; [exact Hl|].
        split; [|split; [exact I|exact Hr]]. intro t'. cbn [c_thr].
        destruct (Nat.eq_dec t' t) as [->|Hd].
        -- rewrite put_same. right. exists (mkF src base Waiting). split; reflexivity.
        -- apply idle_put_other; [exact Hd|exact (Ht t')].
      * destruct w as [ws wb wp]. cbn [f_pc] in Hw. subst wp. destruct a; try discriminate.
        -- rewrite Hl in Hs. injection Hs as <-. exists (Some (t, mkF ws wb Locked)).
           split; [reflexivity|]. split; [|split; [exact I|exact Hr]].
           split; [discriminate|]. cbn [c_thr]. split; [left; apply put_same|].
           intros t' Hd. apply idle_put_other; [exact Hd|exact (Ht t')].
        -- exfalso. exact (Hni t eq_refl).
  - (* an import elsewhere *)
    cbn [cstep] in Hs. destruct (ahas n (c_mods s)) eqn:E; [discriminate|]. injection Hs as <-.
    assert (Hno : forall k i, aget k (c_mods s) = Some i -> k <> n).
    { intros k i Hk ->. unfold ahas in E. rewrite Hk in E. discriminate. }
    exists h. split; [exact Hl|]. split; [exact Ht|]. split.
    + destruct h as [[u f]|]; [|exact I]. unfold frame_ok, name_fresh, mod_fresh in *.
      cbn [c_res c_made c_mods] in *.
      destruct (f_pc f); try exact Hf.
      * destruct Hf as (F1 & F2 & F3). split; [exact F1|]. split; [exact F2|]. apply nth_error_grow. exact F3.
      * destruct Hf as (F1 & F2 & F3). split; [exact F1|]. split; [exact F2|]. apply nth_error_grow. exact F3.
      * destruct Hf as (F1 & F2 & F3 & F4). split; [exact F1|]. split; [exact F2|].
        split; [apply nth_error_grow; exact F3|]. rewrite aget_aset_other; [exact F4|].
        intro F. exact (Hno _ _ F4 F).
    + destruct Hr as (R1 & R2 & R3 & R4). split; [|split; [exact R2|split; [exact R3|]]].
      * intros r Hir. destruct (R1 r Hir) as (Q1 & Q2 & Q3). cbn [c_mods c_made].
        split; [|split; [apply nth_error_grow; exact Q2|exact Q3]].
        rewrite aget_aset_other; [exact Q1|]. intro F. exact (Hno _ _ Q1 F).
      * intros k i Hk. cbn [c_mods]. rewrite aget_aset_other; [exact (R4 k i Hk)|].
        intro F. exact (Hno _ _ (R4 k i Hk) F).
Qed.

Lemma cinv_run : forall ls s s', cinv s -> uninterrupted ls -> crun ls s = Some s' -> cinv s'.
Proof.
  induction ls as [|l ls IH]; intros s s' Hi Hu Hr; cbn [crun] in Hr.
  - injection Hr as <-. exact Hi.
  - destruct (cstep l s) as [s1|] eqn:E; [|discriminate].
    apply (IH s1); [|intros t F; exact (Hu t (or_intror F))|exact Hr].
    apply (cinv_step l s); [exact Hi| |exact E].
    intros t F. apply (Hu t). left. exact F.
Qed.
End Compile.

Lemma own_modules : forall mods made ls s, uninterrupted ls -> crun ls (cinit mods made) = Some s ->
  (forall r, In r (c_res s) ->
     aget (r_name r) (c_mods s) = Some (r_mod r)
     /\ nth_error (c_made s) (r_mod r) = Some (r_src r)
     /\ aget (r_name r) mods = None)
  /\ NoDup (map r_name (c_res s)) /\ NoDup (map r_mod (c_res s))
  /\ (forall n i, aget n mods = Some i -> aget n (c_mods s) = Some i).
Proof.
  intros mods made ls s Hu Hr.
  destruct (cinv_run mods ls _ _ (cinv_init mods made) Hu Hr) as (h & _ & _ & _ & R). exact R.
Qed.

Lemma one_inside : forall mods made ls s, uninterrupted ls -> crun ls (cinit mods made) = Some s ->
  forall t u f g, In f (c_thr s t) -> In g (c_thr s u) -> inside f -> inside g -> t = u /\ f = g.
Proof.
  intros mods made ls s Hu Hr t u f g Hf Hg If Ig.
  destruct (cinv_run mods ls _ _ (cinv_init mods made) Hu Hr) as (h & _ & Ht & _ & _).
  assert (W : forall l x, idle_or_waiting l -> In x l -> inside x -> False).
  { intros l x [->|(w & Hw & ->)] Hx Ix; [destruct Hx|]. destruct Hx as [<-|[]]. exact (Ix Hw). }
  destruct h as [[v k]|]; [|exfalso; exact (W _ _ (Ht t) Hf If)].
  destruct Ht as (Hk & Hv & Hoth).
  assert (O : forall t f, In f (c_thr s t) -> inside f -> t = v /\ f = k).
  { intros t' f' Hin Hi. destruct (Nat.eq_dec t' v) as [->|Hne];
      [|exfalso; exact (W _ _ (Hoth t' Hne) Hin Hi)].
    split; [reflexivity|]. destruct Hv as [Hv|(w & n & m & Hw & Hrun & Hv)]; rewrite Hv in Hin.
    - destruct Hin as [<-|[]]. reflexivity.
    - destruct Hin as [<-|[<-|[]]]; [exfalso; exact (Hi Hw)|reflexivity]. }
  destruct (O t f Hf If) as [-> ->]. destruct (O u g Hg Ig) as [-> ->]. split; reflexivity.
Qed.

Lemma lock_iff_inside : forall mods made ls s, uninterrupted ls -> crun ls (cinit mods made) = Some s ->
  (c_lock s = true <-> exists t f, In f (c_thr s t) /\ inside f).
Proof.
  intros mods made ls s Hu Hr.
  destruct (cinv_run mods ls _ _ (cinv_init mods made) Hu Hr) as (h & Hl & Ht & _ & _).
  rewrite Hl. destruct h as [[v k]|].
  - split; [|reflexivity]. intros _. destruct Ht as (Hk & Hv & _). exists v, k. split; [|exact Hk].
    destruct Hv as [->|(w & n & m & _ & _ & ->)]; [left; reflexivity|right; left; reflexivity].
  - split; [discriminate|]. intros (t & f & Hf & If). exfalso.
    destruct (Ht t) as [E|(w & Hw & E)]; rewrite E in Hf; [destruct Hf|].
    destruct Hf as [<-|[]]. exact (If Hw).
Qed.

(** From every point inside, an exception leads out and frees the lock. *)
Lemma failure_frees : forall s t f fs, c_thr s t = f :: fs -> inside f ->
  exists ls s', incl ls [Act t Fail; Act t Release] /\ crun ls s = Some s'
    /\ c_lock s' = false /\ c_thr s' t = fs.
Proof.
  intros s t [src base p] fs Ht Hi. unfold inside in Hi. cbn [f_pc] in Hi.
  assert (G : forall q, p = q ->
    (q = Failed \/ (exists n m, q = Registered n m) -> exists s', cstep (Act t Release) s = Some s'
        /\ c_lock s' = false /\ c_thr s' t = fs)
    /\ (~ (q = Failed \/ (exists n m, q = Registered n m)) ->
        exists s1, cstep (Act t Fail) s = Some s1 /\ c_thr s1 t = mkF src base Failed :: fs)).
  { intros q <-. split.
    - intros [->|(n & m & ->)]; unfold cstep; rewrite Ht; eexists; (split; [reflexivity|]);
        (split; [reflexivity|apply put_same]).
    - intros Hn. unfold cstep. rewrite Ht.
      destruct p; try congruence; try (exfalso; apply Hn; left; reflexivity);
        try (exfalso; apply Hn; right; eauto; fail);
        eexists; (split; [reflexivity|apply put_same]). }
  destruct (G p eq_refl) as [G1 G2].
  assert (D : (p = Failed \/ exists n m, p = Registered n m) \/ ~ (p = Failed \/ exists n m, p = Registered n m)).
  { destruct p; try (right; intros [F|(n' & m' & F)]; discriminate).
    - left. right. eauto.
    - left. left. reflexivity. }
  destruct D as [D|D].
  - destruct (G1 D) as (s' & E & R). exists [Act t Release], s'.
    split; [intros x [<-|[]]; right; left; reflexivity|]. split; [|exact R].
    cbn [crun]. rewrite E. reflexivity.
  - destruct (G2 D) as (s1 & E & R).
    exists [Act t Fail; Act t Release]. unfold crun. rewrite E. unfold cstep. rewrite R.
    eexists. split; [apply incl_refl|]. split; [reflexivity|]. split; [reflexivity|apply put_same].
Qed.

(** A call made by the code of a module being compiled waits for ever. *)
Lemma nested_stuck : forall ls s s' t w f, uninterrupted ls ->
  c_lock s = true -> c_thr s t = [w; f] -> f_pc w = Waiting ->
  (forall u, u <> t -> idle_or_waiting (c_thr s u)) ->
  crun ls s = Some s' -> c_lock s' = true /\ c_thr s' t = [w; f].
Proof.
  induction ls as [|l ls IH]; intros s s' t w f Hu Hl Ht Hw Hoth Hr; cbn [crun] in Hr.
  - injection Hr as <-. split; assumption.
  - destruct (cstep l s) as [s1|] eqn:E; [|discriminate].
    assert (Hu' : uninterrupted ls) by (intros u F; exact (Hu u (or_intror F))).
    assert (Hni : forall u, l <> Act u Interrupt) by (intros u F; apply (Hu u); left; exact F).
    destruct l as [u a|n].
    + destruct w as [ws wb wp]. cbn [f_pc] in Hw. subst wp.
      unfold cstep in E. destruct (Nat.eq_dec u t) as [->|Hne].
      * rewrite Ht in E. destruct a; try discriminate.
        -- rewrite Hl in E. discriminate.
        -- exfalso. exact (Hni t eq_refl).
      * destruct (Hoth u Hne) as [Eu|(w2 & Hw2 & Eu)]; rewrite Eu in E.
        -- destruct a; try discriminate. injection E as <-.
           refine (IH _ s' t (mkF ws wb Waiting) f Hu' _ _ eq_refl _ Hr); [exact Hl| |].
           ++ cbn [c_thr]. rewrite put_other by congruence. exact Ht.
           ++ intros v Hv. cbn [c_thr]. destruct (Nat.eq_dec v u) as [->|Hd].
              ** rewrite put_same. right. exists (mkF src base Waiting). split; reflexivity.
              ** apply idle_put_other; [exact Hd|exact (Hoth v Hv)].
        -- destruct w2 as [vs vb vp]. cbn [f_pc] in Hw2. subst vp. destruct a; try discriminate.
           ++ rewrite Hl in E. discriminate.
           ++ exfalso. exact (Hni u eq_refl).
    + cbn [cstep] in E. destruct (ahas n (c_mods s)); [discriminate|]. injection E as <-.
      refine (IH _ s' t w f Hu' _ _ Hw _ Hr); assumption.
Qed.

(** ** Import lock *)
Lemma lput_same : forall s t x, lput s t x t = x.
Proof. intros. unfold lput. rewrite Nat.eqb_refl. reflexivity. Qed.
Lemma lput_other : forall s t x u, u <> t -> lput s t x u = l_thr s u.
Proof. intros s t x u H. unfold lput. apply Nat.eqb_neq in H. rewrite H. reflexivity. Qed.

(** A thread outside. *)
Definition outside (s : lstate) (u : nat) : Prop :=
  t_depth (l_thr s u) = 0
  /\ (t_pc (l_thr s u) = Idle \/ t_pc (l_thr s u) = A_get
      \/ (t_pc (l_thr s u) = A_who /\ l_who s <> Some u)).

(** The thread that has the lock. *)
Definition owner (s : lstate) (h : nat) : Prop :=
  match t_pc (l_thr s h) with
  | A_sign => t_depth (l_thr s h) = 0
  | A_zero => t_depth (l_thr s h) = 0 /\ l_who s = Some h
  | Idle | A_who | A_more =>
      l_who s = Some h /\ t_depth (l_thr s h) = S (l_count s)
  | R_less => l_who s = Some h /\ t_depth (l_thr s h) = S (l_count s) /\ l_count s <> 0
  | R_free => l_who s = Some h /\ t_depth (l_thr s h) = 1 /\ l_count s = 0
  | A_get => False
  end.

Definition linv (s : lstate) : Prop :=
  if l_locked s then exists h, owner s h /\ forall u, u <> h -> outside s u
  else forall u, outside s u.

Lemma outside_keep : forall s s' u, l_thr s' u = l_thr s u ->
  (l_who s' = l_who s \/ l_who s' <> Some u) -> outside s u -> outside s' u.
Proof.
  intros s s' u E W [H1 H2]. unfold outside. rewrite E. split; [exact H1|].
  destruct H2 as [H|[H|[H H3]]]; [left; exact H|right; left; exact H|]. right; right. split; [exact H|].
  destruct W as [W|W]; [rewrite W; exact H3|exact W].
Qed.

Lemma linv_step : forall s t a s', linv s -> a <> Escape ->
  (forall u, u <> t -> t_pc (l_thr s u) <> A_sign /\ t_pc (l_thr s u) <> A_zero) ->
  istep t a s = Some s' -> linv s'.
Proof.
  intros s t a s' Hi Hne Hq Hs. unfold linv in Hi. unfold istep in Hs.
  destruct (l_thr s t) as [p d] eqn:Et.
  destruct (l_locked s) eqn:El.
  - destruct Hi as (h & Ho & Hout).
    destruct (Nat.eq_dec t h) as [->|Hth].
    + (* the owner moves *)
      unfold owner in Ho. rewrite Et in Ho. cbn [t_pc t_depth] in Ho.
      assert (K : forall who' cnt' x, (l_who s = who' \/ who' = Some h) ->
                  forall u, u <> h -> outside (mkL true who' cnt' (lput s h x)) u).
      { intros who' cnt' x Hw u Hu. apply (outside_keep s); [cbn [l_thr]; apply lput_other; exact Hu| |exact (Hout u Hu)].
        cbn [l_who]. destruct Hw as [->| ->]; [left; reflexivity|right; congruence]. }
      destruct a; [| | |congruence]; destruct p; try discriminate; try contradiction.
      * (* StartAcquire *) injection Hs as <-. unfold linv. cbn [l_locked]. exists h.
        split; [|apply K; left; reflexivity]. unfold owner. cbn [l_thr]. rewrite lput_same. exact Ho.
      * (* StartRelease *) destruct Ho as [Ho1 Ho2]. destruct d as [|d]; [discriminate|].
        destruct (l_count s) as [|c] eqn:Ec; injection Hs as <-; unfold linv; cbn [l_locked]; exists h;
          (split; [|apply K; left; reflexivity]); unfold owner; cbn [l_thr]; rewrite lput_same;
          cbn [t_pc t_depth l_who l_count].
        -- split; [exact Ho1|]. split; [exact Ho2|reflexivity].
        -- split; [exact Ho1|]. split; [exact Ho2|discriminate].
      * (* A_who *) destruct Ho as [Ho1 Ho2]. rewrite Ho1, Nat.eqb_refl in Hs. injection Hs as <-.
        unfold linv. cbn [l_locked]. exists h. split; [|apply K; right; reflexivity].
        unfold owner. cbn [l_thr]. rewrite lput_same. cbn. split; [reflexivity|exact Ho2].
      * (* A_more *) destruct Ho as [Ho1 Ho2]. injection Hs as <-. unfold linv. cbn [l_locked].
        exists h. split; [|apply K; left; reflexivity]. unfold owner. cbn [l_thr]. rewrite lput_same. cbn.
        split; [exact Ho1|lia].
      * (* A_sign *) injection Hs as <-. unfold linv. cbn [l_locked]. exists h.
        split; [|apply K; right; reflexivity]. unfold owner. cbn [l_thr]. rewrite lput_same. cbn.
        split; [exact Ho|reflexivity].
      * (* A_zero *) destruct Ho as [Ho1 Ho2]. injection Hs as <-. unfold linv. cbn [l_locked]. exists h.
        split; [|apply K; left; reflexivity]. unfold owner. cbn [l_thr]. rewrite lput_same. cbn.
        split; [exact Ho2|congruence].
      * (* R_less *) destruct Ho as (Ho1 & Ho2 & Ho3). injection Hs as <-. unfold linv. cbn [l_locked]. exists h.
        split; [|apply K; left; reflexivity]. unfold owner. cbn [l_thr]. rewrite lput_same. cbn.
        split; [exact Ho1|lia].
      * (* R_free *) destruct Ho as (Ho1 & Ho2 & Ho3). injection Hs as <-. unfold linv. cbn [l_locked].
        intro u. destruct (Nat.eq_dec u h) as [->|Hu].
        -- unfold outside. cbn [l_thr]. rewrite lput_same. cbn. split; [subst d; reflexivity|left; reflexivity].
        -- apply (outside_keep s); [cbn [l_thr]; apply lput_other; exact Hu|left; reflexivity|exact (Hout u Hu)].
    + (* another thread moves *)
      pose proof (Hout t Hth) as [Hd Hp]. rewrite Et in Hd, Hp. cbn [t_pc t_depth] in Hd, Hp. subst d.
      assert (Hw : l_who s = Some h).
      { destruct (Hq h (fun F => Hth (eq_sym F))) as [Q1 Q2].
        unfold owner in Ho. destruct (t_pc (l_thr s h)); try congruence; try (exact (proj1 Ho)). contradiction. }
      assert (K : forall x, t_depth x = 0 -> (t_pc x = A_who \/ t_pc x = A_get \/ t_pc x = Idle) ->
                  linv (mkL true (l_who s) (l_count s) (lput s t x))).
      { intros x Hx1 Hx2. unfold linv. cbn [l_locked]. exists h. split.
        - unfold owner. cbn [l_thr]. rewrite lput_other by congruence. exact Ho.
        - intros u Hu. destruct (Nat.eq_dec u t) as [->|Hut].
          + unfold outside. cbn [l_thr l_who]. rewrite lput_same. split; [exact Hx1|].
            destruct Hx2 as [H|[H|H]]; [right; right; split; [exact H|congruence]|right; left; exact H|left; exact H].
          + apply (outside_keep s); [cbn [l_thr]; apply lput_other; exact Hut|left; reflexivity|exact (Hout u Hu)]. }
      destruct a; [| | |congruence]; destruct p; try discriminate;
        try (exfalso; destruct Hp as [H|[H|[H _]]]; discriminate).
      * injection Hs as <-. apply K; [reflexivity|left; reflexivity].
      * (* A_who *) rewrite Hw in Hs. destruct (Nat.eqb_spec h t) as [E|_]; [congruence|].
        injection Hs as <-. rewrite <- Hw. apply K; [reflexivity|right; left; reflexivity].
  - (* the lock is free *)
    pose proof (Hi t) as [Hd Hp]. rewrite Et in Hd, Hp. cbn [t_pc t_depth] in Hd, Hp. subst d.
    assert (K : forall x, t_depth x = 0 -> t_pc x = A_get ->
                linv (mkL false (l_who s) (l_count s) (lput s t x))).
    { intros x Hx1 Hx2. unfold linv. cbn [l_locked]. intro u. destruct (Nat.eq_dec u t) as [->|Hut].
      - unfold outside. cbn [l_thr l_who]. rewrite lput_same. split; [exact Hx1|right; left; exact Hx2].
      - apply (outside_keep s); [cbn [l_thr]; apply lput_other; exact Hut|left; reflexivity|exact (Hi u)]. }
    destruct a; [| | |congruence]; destruct p; try discriminate;
      try (exfalso; destruct Hp as [H|[H|[H _]]]; discriminate).
    + injection Hs as <-. apply K; reflexivity.
    + destruct Hp as [H|[H|[_ Hw]]]; try discriminate.
      destruct (l_who s) as [w|] eqn:Ew.
      * destruct (Nat.eqb_spec w t) as [->|_]; [congruence|]. injection Hs as <-.
        apply K; reflexivity.
      * injection Hs as <-. apply K; reflexivity.
    + injection Hs as <-. unfold linv. cbn [l_locked]. exists t. split.
      * unfold owner. cbn [l_thr]. rewrite lput_same. reflexivity.
      * intros u Hu. apply (outside_keep s); [cbn [l_thr]; apply lput_other; exact Hu|left; reflexivity|exact (Hi u)].
Qed.

Lemma linv_run : forall ls s s', linv s -> no_escape ls -> undisturbed ls s -> irun ls s = Some s' -> linv s'.
Proof.
  induction ls as [|[t a] ls IH]; intros s s' Hi Hn Hu Hr; cbn [irun] in Hr.
  - injection Hr as <-. exact Hi.
  - cbn [undisturbed] in Hu. destruct Hu as [Hu1 Hu2].
    destruct (istep t a s) as [s1|] eqn:E; [|discriminate].
    apply (IH s1); [|intros u F; exact (Hn u (or_intror F))|exact Hu2|exact Hr].
    apply (linv_step s t a); try assumption. intros ->. apply (Hn t). left. reflexivity.
Qed.

Lemma linv_init : linv linit.
Proof. intro u. split; [reflexivity|left; reflexivity]. Qed.

Lemma import_exclusion : forall ls s, no_escape ls -> undisturbed ls linit -> irun ls linit = Some s ->
  forall t u, in_section s t -> in_section s u -> t = u.
Proof.
  intros ls s Hn Hu Hr t u Ht Hu'. pose proof (linv_run ls _ _ linv_init Hn Hu Hr) as Hi.
  unfold in_section in *. unfold linv in Hi. destruct (l_locked s).
  - destruct Hi as (h & _ & Ho). destruct (Nat.eq_dec t h) as [->|H1].
    + destruct (Nat.eq_dec u h) as [->|H2]; [reflexivity|]. destruct (Ho u H2) as [E _]. lia.
    + destruct (Ho t H1) as [E _]. lia.
  - destruct (Hi t) as [E _]. lia.
Qed.

Lemma import_lock_iff : forall ls s, no_escape ls -> undisturbed ls linit -> irun ls linit = Some s ->
  (forall t, t_pc (l_thr s t) = Idle) ->
  (l_locked s = true <-> exists t, in_section s t).
Proof.
  intros ls s Hn Hu Hr Hq. pose proof (linv_run ls _ _ linv_init Hn Hu Hr) as Hi.
  unfold in_section, linv in *. destruct (l_locked s).
  - split; [|reflexivity]. intros _. destruct Hi as (h & Ho & _). exists h. unfold owner in Ho.
    rewrite Hq in Ho. destruct Ho as [_ Ho]. lia.
  - split; [discriminate|]. intros [t Ht]. destruct (Hi t) as [E _]. lia.
Qed.

Lemma import_reentry : forall ls s, no_escape ls -> undisturbed ls linit -> irun ls linit = Some s ->
  forall t, in_section s t -> t_pc (l_thr s t) = Idle ->
  exists s', irun [(t, StartAcquire); (t, Next); (t, Next)] s = Some s'
    /\ t_depth (l_thr s' t) = S (t_depth (l_thr s t)) /\ t_pc (l_thr s' t) = Idle.
Proof.
  intros ls s Hn Hu Hr t Ht Hq. pose proof (linv_run ls _ _ linv_init Hn Hu Hr) as Hi.
  unfold in_section, linv in *. destruct (l_locked s) eqn:El.
  - destruct Hi as (h & Ho & Hout). destruct (Nat.eq_dec t h) as [->|H1].
    + unfold owner in Ho. rewrite Hq in Ho. destruct Ho as [Hw _].
      unfold irun, istep. destruct (l_thr s h) as [p d] eqn:Et. cbn in Hq. subst p.
      rewrite El. cbn [l_thr l_who l_locked l_count lput].
      unfold lput at 1. rewrite Nat.eqb_refl. cbn [l_thr l_who l_locked l_count].
      rewrite Hw, Nat.eqb_refl. cbn [l_thr l_who l_locked l_count].
      unfold lput at 1. rewrite Nat.eqb_refl. eexists. split; [reflexivity|].
      cbn [l_thr]. rewrite !lput_same. split; reflexivity.
    + destruct (Hout t H1) as [E _]. lia.
  - destruct (Hi t) as [E _]. lia.
Qed.

(** ** Process pool *)
Lemma starts_app : forall a b, starts (a ++ b) = starts a ++ starts b.
Proof. intros. unfold starts. apply flat_map_app. Qed.
Lemma reaps_app : forall a b, reaps (a ++ b) = reaps a ++ reaps b.
Proof. intros. unfold reaps. apply flat_map_app. Qed.

Lemma take_at_perm : forall l k, l <> [] -> exists x r, take_at k l = Some (x, r) /\ Permutation l (x :: r).
Proof.
  induction l as [|x l IH]; intros k H; [congruence|]. cbn [take_at].
  destruct k as [|k]; [exists x, l; split; [reflexivity|apply Permutation_refl]|].
  destruct l as [|y l].
  - exists x, []. split; [reflexivity|apply Permutation_refl].
  - destruct (IH k) as (z & r & E & P); [discriminate|]. rewrite E. exists z, (x :: r).
    split; [reflexivity|]. rewrite P. apply perm_swap.
Qed.

Section Pool.
Variable outcome : nat -> ending.
Variable size : nat.
Hypothesis size_pos : 1 <= size.

Definition good (b : nat) : Prop := wexitstatus (outcome b) = 0.

(** The log, latest first: never more children alive than the pool allows. *)
Fixpoint bounded (log : list event) : Prop :=
  match log with
  | [] => True
  | e :: r => length (starts log) <= length (reaps log) + size /\ bounded r
  end.

(** [done]: the bundles started, latest first. *)
Definition pinv (done : list nat) (s : pstate) : Prop :=
  starts (p_log s) = done
  /\ Permutation (starts (p_log s)) (p_pool s ++ reaps (p_log s))
  /\ bounded (p_log s).

Lemma wait_inv : forall done s k, pinv done s -> p_pool s <> [] ->
  exists b pool', child_wait outcome k (p_pool s) (p_log s)
      = (wexitstatus (outcome b), pool', Reaped b :: p_log s)
    /\ Permutation (p_pool s) (b :: pool')
    /\ forall bad, pinv done (mkP bad pool' (Reaped b :: p_log s)).
Proof.
  intros done s k (H1 & H2 & H3) Hne. unfold child_wait.
  destruct (take_at_perm (p_pool s) k Hne) as (b & pool' & E & P). rewrite E.
  exists b, pool'. split; [reflexivity|]. split; [exact P|]. intro bad. split; [exact H1|].
  assert (Q : Permutation (starts (p_log s)) (pool' ++ b :: reaps (p_log s))).
  { rewrite H2. rewrite P. cbn [app]. apply Permutation_middle. }
  split; [exact Q|]. cbn [p_log bounded]. split; [|exact H3].
  change (starts (Reaped b :: p_log s)) with (starts (p_log s)).
  change (reaps (Reaped b :: p_log s)) with (b :: reaps (p_log s)).
  apply Permutation_length in P. apply Permutation_length in H2. rewrite app_length in H2.
  destruct (p_log s) as [|e l] eqn:El.
  - cbn in *. destruct (p_pool s); [congruence|]. cbn in H2. lia.
  - cbn [bounded] in H3. destruct H3 as [H3 _]. cbn [length] in *. lia.
Qed.

Lemma first_loop_spec : forall todo ks s s' ks' done,
  pinv done s -> length (p_pool s) < size -> p_bad s = 0 -> Forall good (reaps (p_log s)) ->
  first_loop outcome size todo ks s = (s', ks') ->
  exists done', (exists rest, rev todo ++ done = rest ++ done')
    /\ pinv done' s'
    /\ ((p_bad s' = 0 /\ done' = rev todo ++ done /\ Forall good (reaps (p_log s')))
        \/ (p_bad s' <> 0 /\ Exists (fun b => ~ good b) (reaps (p_log s')))).
Proof.
  induction todo as [|b todo IH]; intros ks s s' ks' done Hp Hlen Hbad Hgood H; cbn [first_loop] in H.
  - injection H as <- <-. exists done. split; [exists []; reflexivity|]. split; [exact Hp|].
    left. split; [exact Hbad|]. split; [reflexivity|exact Hgood].
  - assert (P1 : forall bad, pinv (b :: done) (mkP bad (b :: p_pool s) (Started b :: p_log s))).
    { intro bad. destruct Hp as (H1 & H2 & H3). split; [cbn; f_equal; exact H1|].
      split; [cbn; apply perm_skip; exact H2|]. cbn [p_log bounded]. split; [|exact H3].
      change (starts (Started b :: p_log s)) with (b :: starts (p_log s)).
      change (reaps (Started b :: p_log s)) with (reaps (p_log s)).
      apply Permutation_length in H2. rewrite app_length in H2. cbn [length]. lia. }
    assert (R : rev (b :: todo) ++ done = rev todo ++ b :: done)
      by (cbn [rev]; rewrite <- app_assoc; reflexivity).
    rewrite R.
    destruct (Nat.eqb_spec (length (b :: p_pool s)) size) as [Es|Es].
    + destruct (wait_inv (b :: done) (mkP 0 (b :: p_pool s) (Started b :: p_log s)) (hd 0 ks) (P1 0))
        as (c & pool' & Ew & Pp & Pi); [discriminate|].
      cbn [p_pool p_log] in Ew, Pp, Pi. rewrite Ew in H.
      destruct (wexitstatus (outcome c)) as [|e] eqn:Ee.
      * refine (IH _ _ s' ks' (b :: done) (Pi 0) _ eq_refl _ H).
        -- cbn [p_pool]. apply Permutation_length in Pp. cbn [length] in *. lia.
        -- cbn. constructor; [exact Ee|exact Hgood].
      * injection H as <- <-. exists (b :: done). split; [exists (rev todo); reflexivity|].
        split; [apply Pi|]. right. split; [cbn; discriminate|]. cbn. left. unfold good. rewrite Ee. discriminate.
    + refine (IH _ _ s' ks' (b :: done) (P1 _) _ Hbad _ H).
      * cbn [p_pool]. cbn [length] in *. lia.
      * cbn. exact Hgood.
Qed.

Lemma second_loop_spec : forall n ks s done, pinv done s -> length (p_pool s) = n ->
  (p_bad s = 0 <-> Forall good (reaps (p_log s))) ->
  pinv done (second_loop outcome n ks s)
  /\ p_pool (second_loop outcome n ks s) = []
  /\ (p_bad (second_loop outcome n ks s) = 0
      <-> Forall good (reaps (p_log (second_loop outcome n ks s)))).
Proof.
  induction n as [|n IH]; intros ks s done Hp Hn Hb; cbn [second_loop].
  - split; [exact Hp|]. split; [destruct (p_pool s); [reflexivity|discriminate]|exact Hb].
  - destruct (wait_inv done s (hd 0 ks) Hp) as (b & pool' & Ew & Pp & Pi);
      [destruct (p_pool s); discriminate|].
    rewrite Ew. apply IH; [apply Pi| |].
    + cbn [p_pool]. apply Permutation_length in Pp. cbn [length] in Pp. lia.
    + cbn [p_bad p_log].
      change (reaps (Reaped b :: p_log s)) with (b :: reaps (p_log s)). rewrite Forall_cons_iff, <- Hb.
      unfold good. destruct (p_bad s); [tauto|]. split; [discriminate|]. intros [_ F]. exact F.
Qed.

Lemma exists_not_forall : forall l, Exists (fun b => ~ good b) l -> ~ Forall good l.
Proof.
  intros l He Hf. apply Exists_exists in He as (b & Hb & Hn). rewrite Forall_forall in Hf.
  exact (Hn (Hf b Hb)).
Qed.

Lemma bounded_suffix : forall a b, bounded (a ++ b) -> length (starts b) <= length (reaps b) + size.
Proof.
  induction a as [|e a IH]; intros b H.
  - destruct b as [|e b]; [cbn; lia|]. exact (proj1 H).
  - apply IH. exact (proj2 H).
Qed.

Lemma starts_rev : forall l, starts (rev l) = rev (starts l).
Proof.
  induction l as [|e l IH]; [reflexivity|]. cbn [rev]. rewrite starts_app, IH.
  destruct e; cbn; [reflexivity|apply app_nil_r].
Qed.
Lemma reaps_rev : forall l, reaps (rev l) = rev (reaps l).
Proof.
  induction l as [|e l IH]; [reflexivity|]. cbn [rev]. rewrite reaps_app, IH.
  destruct e; cbn; [apply app_nil_r|reflexivity].
Qed.

Lemma parallel_spec : forall bundles ks ok log, parallel outcome size bundles ks = (ok, log) ->
  (forall k, length (starts (firstn k log)) <= length (reaps (firstn k log)) + size)
  /\ (exists rest, rev bundles = starts log ++ rest)
  /\ Permutation (starts log) (reaps log)
  /\ (ok = true <-> starts log = rev bundles /\ forall b, In b bundles -> good b).
Proof.
  intros bundles ks ok log H. unfold parallel in H.
  destruct (first_loop outcome size (rev bundles) ks (mkP 0 [] [])) as [s ks'] eqn:E1.
  assert (I0 : pinv [] (mkP 0 [] [])) by (split; [reflexivity|split; [apply Permutation_refl|exact I]]).
  destruct (first_loop_spec (rev bundles) ks (mkP 0 [] []) s ks' [] I0) as (done & (rest & Er) & Hp & Hc);
    [cbn; lia|reflexivity|constructor|exact E1|].
  rewrite app_nil_r, rev_involutive in Er.
  assert (Hb : p_bad s = 0 <-> Forall good (reaps (p_log s))).
  { destruct Hc as [(B & _ & G)|(B & G)]; [tauto|]. split; [congruence|].
    intro F. exfalso. exact (exists_not_forall _ G F). }
  destruct (second_loop_spec (length (p_pool s)) ks' s done Hp eq_refl Hb) as ((S1 & S2 & S3) & S4 & S5).
  set (s2 := second_loop outcome (length (p_pool s)) ks' s) in *.
  injection H as <- <-.
  rewrite S4 in S2. cbn [app] in S2.
  split; [|split; [|split]].
  - intro k.
    assert (exists pre, p_log s2 = pre ++ rev (firstn k (rev (p_log s2)))).
    { exists (rev (skipn k (rev (p_log s2)))).
      rewrite <- rev_app_distr, firstn_skipn, rev_involutive. reflexivity. }
    destruct H as [pre Epre]. rewrite Epre in S3. apply bounded_suffix in S3.
    rewrite starts_rev, reaps_rev, !rev_length in S3. exact S3.
  - rewrite starts_rev, S1. exists (rev rest). rewrite Er, rev_app_distr. reflexivity.
  - rewrite starts_rev, reaps_rev. rewrite <- !Permutation_rev. exact S2.
  - rewrite starts_rev, S1.
    assert (X : (match p_bad s2 with 0 => true | S _ => false end = true) <-> p_bad s2 = 0)
      by (destruct (p_bad s2); split; congruence).
    rewrite X, S5. split.
    + intro F. assert (B : p_bad s = 0).
      { destruct (p_bad s) as [|e] eqn:Eb; [reflexivity|]. exfalso.
        assert (p_bad s2 = 0) by (apply S5; exact F).
        assert (K : forall n ks st, p_bad st <> 0 -> p_bad (second_loop outcome n ks st) <> 0).
        { clear. induction n as [|n IH]; intros ks st Hb; [exact Hb|]. cbn [second_loop].
          destruct (child_wait outcome (hd 0 ks) (p_pool st) (p_log st)) as [[a b] c].
          apply IH. cbn. destruct (p_bad st); congruence. }
        apply (K (length (p_pool s)) ks' s); [rewrite Eb; discriminate|exact H]. }
      destruct Hc as [(_ & Ed & _)|(B2 & _)]; [|congruence].
      rewrite app_nil_r, rev_involutive in Ed. subst done. split; [reflexivity|].
      intros b Hb'. rewrite Forall_forall in F. apply F.
      apply (Permutation_in b S2). rewrite S1. exact Hb'.
    + intros [Es Hg]. apply Forall_forall. intros b Hb'.
      apply Hg. apply Permutation_sym in S2. apply (Permutation_in b S2) in Hb'. rewrite S1 in Hb'.
      rewrite Er. apply in_app_iff. right. exact Hb'.
Qed.
End Pool.
