(** Proofs about the TurboGears plug-in. *)
From Verif Require Import Base PyStr Alist Turbo_Model Turbo_Spec.
Local Open Scope list_scope.

Section WithE.
Variable E : tenv.

Lemma file_write : forall n m mt t s, file_of n (L "tmpl") (write m mt t s) = if str_eqb m n then Some (mt, t) else file_of n (L "tmpl") s.
Proof.
  intros n m mt t s. unfold file_of, write. cbn [t_files find fst snd]. unfold pair_eqb at 1. cbn [fst snd].
  destruct (str_eqb_spec m n) as [Em|Em]; cbn [andb]; [|reflexivity].
  destruct (str_eqb_spec (L "tmpl") (L "tmpl")) as [_|X]; [reflexivity|congruence].
Qed.

Lemma file_same : forall n e s s', t_files s' = t_files s -> file_of n e s' = file_of n e s.
Proof. intros n e s s' H. unfold file_of. rewrite H. reflexivity. Qed.

(** Loading keeps the files. *)
Lemma recompile_files : forall n b s, t_files (snd (recompile E n b s)) = t_files s.
Proof. intros n b s. unfold recompile. destruct (file_of _ _ s) as [[mt t]|]; [|reflexivity]. destruct (v_compile E t); reflexivity. Qed.

Lemma import_files : forall n s, t_files (snd (py_import E n s)) = t_files s.
Proof. intros n s. unfold py_import. destruct (aget _ _); [reflexivity|]. destruct (v_import E n); reflexivity. Qed.

Lemma load_files : forall x p i n s, t_files (snd (load E x p i n s)) = t_files s.
Proof.
  intros x p i n s. unfold load. destruct (base_name n) as [b|]; [|reflexivity].
  match goal with |- t_files (snd (let '(m, s0) := ?e in _)) = _ => assert (H : t_files (snd e) = t_files s) end.
  - destruct p; [apply import_files|]. destruct (aget n (t_ct s i)) as [old|].
    + destruct (file_of n x s) as [[mt t]|]; [|reflexivity]. destruct (negb (old =? mt)%N); [|apply import_files].
      cbv zeta. destruct (ahas n _); [rewrite recompile_files; reflexivity|reflexivity].
    + destruct (file_of n x s) as [[mt t]|]; [rewrite recompile_files; reflexivity|reflexivity].
  - destruct (if p then _ else _) as [m s1]. cbn [snd] in *. exact H.
Qed.

Lemma text_correct : forall n l s, option_map snd (file_of n (L "tmpl") (steps E l s)) = text_after n l (option_map snd (file_of n (L "tmpl") s)).
Proof.
  intros n. induction l as [|o l IH]; intros s; [reflexivity|]. cbn [steps fold_left]. change (fold_left (fun s o => step E o s) l ?x) with (steps E l x).
  rewrite IH. destruct o as [m mt t|i m]; cbn [step text_after].
  - rewrite file_write. destruct (str_eqb m n); reflexivity.
  - rewrite (file_same n _ s) by apply load_files. reflexivity.
Qed.

(** ** Freshness *)

(** Times that were noted are past; a template whose time is noted is in sys.modules, and as it is now if the time is that of
    its file. *)
Definition inv (now : N) (s : tst) : Prop :=
  NoDup (keys (t_mods s)) /\
  (forall n mt t, file_of n (L "tmpl") s = Some (mt, t) -> (mt <= now)%N /\ v_compile E t <> None) /\
  (forall i n mt, aget n (t_ct s i) = Some mt -> (mt <= now)%N /\ exists b code, base_name n = Some b /\ aget n (t_mods s) = Some (TMade b code) /\
     forall t, file_of n (L "tmpl") s = Some (mt, t) -> v_compile E t = Some code).

Lemma start_inv : forall now s, start E now s -> inv now s.
Proof.
  intros now s (H0 & H1 & H2). split; [exact H0|]. split; [exact H2|]. intros i n mt H. rewrite H1 in H. discriminate H.
Qed.

Lemma write_inv : forall now n mt t s, inv now s -> (now < mt)%N -> v_compile E t <> None -> inv mt (write n mt t s).
Proof.
  intros now n mt t s (H0 & H1 & H2) Hl Hc. split; [exact H0|]. split.
  - intros m mt' t' H. rewrite file_write in H. destruct (str_eqb n m).
    + injection H as <- <-. split; [lia|exact Hc].
    + destruct (H1 m mt' t' H). split; [lia|assumption].
  - intros i m mt' H. cbn [write t_ct t_mods] in *. destruct (H2 i m mt' H) as (Hle & b & code & Hb & Hm & Hf). split; [lia|].
    exists b, code. split; [exact Hb|]. split; [exact Hm|]. intros t' Ht. rewrite file_write in Ht. destruct (str_eqb n m).
    + injection Ht as <- _. lia.
    + exact (Hf t' Ht).
Qed.

(** What a load does that compiles. *)
Lemma compiled_inv : forall now i n b mt t code s d ct',
  inv now s -> base_name n = Some b -> file_of n (L "tmpl") s = Some (mt, t) -> v_compile E t = Some code ->
  NoDup (keys d) -> (forall k, k <> n -> aget k d = aget k (t_mods s)) ->
  ct' = t_ct (note i n mt s) ->
  inv now (mkTS (t_files s) (aset n (TMade b code) d) ct').
Proof.
  intros now i n b mt t code s d ct' (H0 & H1 & H2) Hb Hf Hc Hnd Hd ->. split; [apply NoDup_aset; exact Hnd|]. split; [exact H1|].
  intros j m mt' H. cbn [t_ct t_mods note] in *.
  change (forall t0, file_of m (L "tmpl") (mkTS (t_files s) ?a ?c) = Some (mt', t0) -> ?P) with
    (forall t0, file_of m (L "tmpl") s = Some (mt', t0) -> P).
  rewrite aget_aset. destruct (str_eqb_spec m n) as [->|Hn].
  - split.
    + destruct (Nat.eqb j i) eqn:Ej.
      * rewrite aget_aset_same in H. injection H as <-. apply (H1 n mt t Hf).
      * apply (H2 j n mt' H).
    + exists b, code. split; [exact Hb|]. split; [reflexivity|]. intros t' Ht.
      change (file_of n (L "tmpl") s = Some (mt', t')) in Ht. rewrite Hf in Ht. injection Ht as _ <-. exact Hc.
  - assert (H' : aget m (t_ct s j) = Some mt').
    { destruct (Nat.eqb j i); [rewrite aget_aset_other in H by exact Hn; exact H|exact H]. }
    destruct (H2 j m mt' H') as (Hle & b' & code' & Hb' & Hm & Hg). split; [exact Hle|].
    exists b', code'. split; [exact Hb'|]. split; [rewrite Hd by exact Hn; exact Hm|exact Hg].
Qed.

Lemma load_fresh : forall now i n b mt t s, inv now s -> base_name n = Some b -> file_of n (L "tmpl") s = Some (mt, t) ->
  exists code s', v_compile E t = Some code /\ load E (L "tmpl") false i n s = (Ok (CTmpl code), s') /\ inv now s'.
Proof.
  intros now i n b mt t s Hi Hb Hf. pose proof Hi as (H0 & H1 & H2).
  destruct (v_compile E t) as [code|] eqn:Hc; [|exfalso; exact (proj2 (H1 n mt t Hf) Hc)].
  assert (Sb : str_eqb b b = true) by (destruct (str_eqb_spec b b); congruence).
  unfold load. rewrite Hb. destruct (aget n (t_ct s i)) as [old|] eqn:Ho.
  - rewrite Hf. destruct (H2 i n old Ho) as (Hle & b' & code' & Hb' & Hm & Hg). rewrite Hb in Hb'. injection Hb' as <-.
    destruct (N.eqb_spec old mt) as [->|Hne]; cbn [negb].
    + unfold py_import. rewrite Hm. unfold class_in. rewrite Sb. exists code', s. specialize (Hg t Hf). rewrite Hc in Hg. injection Hg as ->.
      split; [reflexivity|]. split; [reflexivity|exact Hi].
    + cbv zeta. unfold ahas. cbn [note t_mods t_files t_ct]. rewrite Hm. unfold recompile.
      change (file_of n (L "tmpl") (mkTS (t_files s) ?a ?c)) with (file_of n (L "tmpl") s). rewrite Hf, Hc.
      unfold class_in. rewrite Sb. exists code. eexists. split; [reflexivity|]. split; [reflexivity|].
      cbn [t_files t_mods t_ct].
      apply (compiled_inv now i n b mt t code s (adel n (t_mods s)) _ Hi Hb Hf Hc); [apply NoDup_adel; exact H0| |reflexivity].
      intros k Hk. rewrite aget_adel by exact H0. destruct (str_eqb_spec k n) as [X|_]; [contradiction|reflexivity].
  - rewrite Hf. unfold recompile. rewrite (file_same n _ s (note i n mt s) eq_refl), Hf, Hc. unfold class_in. rewrite Sb.
    exists code. eexists. split; [reflexivity|]. split; [reflexivity|]. cbn [note t_files t_mods].
    apply (compiled_inv now i n b mt t code s (t_mods s) _ Hi Hb Hf Hc H0); [reflexivity|reflexivity].
Qed.

Lemma load_inv : forall now i n s, inv now s -> inv now (snd (load E (L "tmpl") false i n s)).
Proof.
  intros now i n s Hi. destruct (base_name n) as [b|] eqn:Hb.
  - destruct (file_of n (L "tmpl") s) as [[mt t]|] eqn:Hf.
    + destruct (load_fresh now i n b mt t s Hi Hb Hf) as (code & s' & _ & E' & H). rewrite E'. exact H.
    + unfold load. rewrite Hb. destruct (aget n (t_ct s i)); rewrite Hf; exact Hi.
  - unfold load. rewrite Hb. exact Hi.
Qed.

Fixpoint last_time (now : N) (l : list op) : N :=
  match l with [] => now | Write _ mt _ :: l => last_time mt l | Load _ _ :: l => last_time now l end.

Lemma steps_inv : forall l now s, inv now s -> paced now l -> good E l -> inv (last_time now l) (steps E l s).
Proof.
  induction l as [|o l IH]; intros now s Hi Hp Hg; [exact Hi|]. cbn [steps fold_left].
  assert (Hg' : good E l) by (intros n mt t H; apply (Hg n mt t); right; exact H).
  destruct o as [n mt t|i n]; cbn [paced last_time step] in *.
  - destruct Hp as (Hl & Hp). apply IH; try assumption. apply (write_inv now); try assumption. apply (Hg n mt t). left. reflexivity.
  - apply IH; try assumption. apply load_inv. exact Hi.
Qed.

Lemma always_current : forall now s l i n b, start E now s -> paced now l -> good E l -> base_name n = Some b ->
  match text_after n l (option_map snd (file_of n (L "tmpl") s)) with
  | Some t => exists code, v_compile E t = Some code /\ fst (load E (L "tmpl") false i n (steps E l s)) = Ok (CTmpl code)
  | None => fst (load E (L "tmpl") false i n (steps E l s)) = Raise EStat
  end.
Proof.
  intros now s l i n b Hs Hp Hg Hb. pose proof (steps_inv l now s (start_inv now s Hs) Hp Hg) as Hi.
  rewrite <- text_correct. destruct (file_of n (L "tmpl") (steps E l s)) as [[mt t]|] eqn:Hf; cbn [option_map snd].
  - destruct (load_fresh _ i n b mt t _ Hi Hb Hf) as (code & s' & Hc & El & _). exists code. split; [exact Hc|]. rewrite El. reflexivity.
  - unfold load. rewrite Hb. destruct (aget n (t_ct (steps E l s) i)); rewrite Hf; reflexivity.
Qed.

(** ** After a failure *)

Definition broken (i : nat) (n : pystr) (s : tst) : Prop :=
  NoDup (keys (t_mods s)) /\ aget n (t_mods s) = None /\ exists old, aget n (t_ct s i) = Some old.

Lemma broken_load : forall x i n s, broken i n s -> v_import E n = None ->
  (exists e, fst (load E x false i n s) = Raise e) /\ broken i n (snd (load E x false i n s)).
Proof.
  intros x i n s (H0 & H1 & old & H2) Hv. unfold load. destruct (base_name n) as [b|]; [|split; [eexists; reflexivity|]; split; [|split]; eauto].
  rewrite H2. destruct (file_of n x s) as [[mt t]|]; [|split; [eexists; reflexivity|]; split; [|split]; eauto].
  destruct (N.eqb_spec old mt) as [->|Hne]; cbn [negb].
  - unfold py_import. rewrite H1, Hv. split; [eexists; reflexivity|]. split; [|split]; eauto.
  - cbv zeta. unfold ahas. cbn [note t_mods]. rewrite H1. split; [eexists; reflexivity|]. split; [exact H0|]. split; [exact H1|].
    cbn [note t_ct snd]. rewrite Nat.eqb_refl, aget_aset_same. eexists. reflexivity.
Qed.

Lemma recompile_broken : forall i n m b s, broken i n s -> m <> n -> broken i n (snd (recompile E m b s)).
Proof.
  intros i n m b s (H0 & H1 & H2) Hm. unfold recompile. destruct (file_of _ _ s) as [[mt t]|]; [|split; [|split]; assumption].
  destruct (v_compile E t) as [code|]; [|split; [|split]; assumption]. split; [apply NoDup_aset; exact H0|]. cbn [t_mods t_ct snd].
  split; [rewrite aget_aset_other by congruence; exact H1|exact H2].
Qed.

Lemma note_broken : forall i n m mt s, broken i n s -> broken i n (note i m mt s).
Proof.
  intros i n m mt s (H0 & H1 & old & H2). split; [exact H0|]. split; [exact H1|]. cbn [note t_ct]. rewrite Nat.eqb_refl, aget_aset.
  destruct (str_eqb n m); eexists; [reflexivity|exact H2].
Qed.

Lemma import_broken : forall i n m s, broken i n s -> m <> n -> broken i n (snd (py_import E m s)).
Proof.
  intros i n m s (H0 & H1 & H2) Hm. unfold py_import. destruct (aget m (t_mods s)); [split; [|split]; assumption|].
  destruct (v_import E m); [|split; [|split]; assumption]. split; [apply NoDup_aset; exact H0|]. cbn [t_mods t_ct snd].
  split; [rewrite aget_aset_other by congruence; exact H1|exact H2].
Qed.

Lemma other_load : forall i n m s, broken i n s -> m <> n -> broken i n (snd (load E (L "tmpl") false i m s)).
Proof.
  intros i n m s Hb Hm. unfold load. destruct (base_name m) as [b|]; [|exact Hb].
  match goal with |- broken i n (snd (let '(m, s0) := ?e in _)) => assert (H : broken i n (snd e)) end.
  - destruct (aget m (t_ct s i)) as [old|].
    + destruct (file_of m _ s) as [[mt t]|]; [|exact Hb]. destruct (negb (old =? mt)%N); [|apply import_broken; assumption].
      cbv zeta. destruct (ahas m _); [|apply note_broken; exact Hb]. apply recompile_broken; [|exact Hm].
      destruct (note_broken i n m mt s Hb) as (A & B & C). split; [apply NoDup_adel; exact A|]. split; [|exact C].
      cbn [t_mods]. rewrite aget_adel by exact A. destruct (str_eqb n m); [reflexivity|exact B].
    + destruct (file_of m _ s) as [[mt t]|]; [|exact Hb]. apply recompile_broken; [apply note_broken; exact Hb|exact Hm].
  - cbv iota in H. destruct (match aget m (t_ct s i) with Some _ => _ | None => _ end) as [r s1]. exact H.
Qed.

Lemma broken_steps : forall i n l s, broken i n s -> v_import E n = None -> alone i l -> broken i n (steps E l s).
Proof.
  intros i n. induction l as [|o l IH]; intros s Hb Hv Ha; [exact Hb|]. cbn [steps fold_left].
  assert (Ha' : alone i l) by (intros j m H; apply (Ha j m); right; exact H).
  destruct o as [m mt t|j m]; cbn [step]; apply IH; try assumption.
  rewrite (Ha j m (or_introl eq_refl)). destruct (str_eqb_spec m n) as [->|Hn].
  - apply broken_load; assumption.
  - apply other_load; assumption.
Qed.

Lemma failure_breaks : forall i n s s', NoDup (keys (t_mods s)) ->
  aget n (t_mods s) = None \/ (exists old, aget n (t_ct s i) = Some old) ->
  load E (L "tmpl") false i n s = (Raise ECompile, s') -> broken i n s'.
Proof.
  intros i n s s' H0 Hn H. unfold load in H. destruct (base_name n) as [b|] eqn:Eb; [|discriminate H].
  assert (Hcl : forall m, class_in E b m <> Raise ECompile).
  { intros [b' c|k] X; cbn in X; [destruct (str_eqb b' b)|destruct (v_attr E k b)]; discriminate X. }
  destruct (aget n (t_ct s i)) as [old|] eqn:Eo.
  - destruct (file_of n _ s) as [[mt t]|] eqn:Ef; [|discriminate H].
    destruct (negb (old =? mt)%N).
    + cbv zeta in H. destruct (ahas n (t_mods (note i n mt s))) eqn:Eh; [|discriminate H].
      unfold recompile in H. change (file_of n (L "tmpl") (mkTS (t_files (note i n mt s)) ?a ?c)) with (file_of n (L "tmpl") s) in H.
      rewrite Ef in H. destruct (v_compile E t); apply pair_equal_spec in H; destruct H as (Hm & <-); [exfalso; exact (Hcl _ Hm)|].
      split; [apply NoDup_adel; exact H0|]. cbn [t_mods t_ct note]. rewrite aget_adel by exact H0.
      destruct (str_eqb_spec n n) as [_|X]; [|congruence]. split; [reflexivity|]. rewrite Nat.eqb_refl, aget_aset_same. eexists. reflexivity.
    + unfold py_import in H. destruct (aget n (t_mods s)); [|destruct (v_import E n)]; apply pair_equal_spec in H; destruct H as (Hm & _); [exfalso; exact (Hcl _ Hm)|exfalso; exact (Hcl _ Hm)|discriminate Hm].
  - destruct (file_of n _ s) as [[mt t]|] eqn:Ef; [|discriminate H].
    unfold recompile in H. rewrite (file_same n _ s (note i n mt s) eq_refl), Ef in H.
    destruct (v_compile E t); apply pair_equal_spec in H; destruct H as (Hm & <-); [exfalso; exact (Hcl _ Hm)|].
    split; [exact H0|]. cbn [t_mods t_ct note]. rewrite Nat.eqb_refl, aget_aset_same.
    split; [|eexists; reflexivity]. destruct Hn as [Hn|(old & Hn)]; [exact Hn|congruence].
Qed.

Lemma never_again : forall i n s s' l, NoDup (keys (t_mods s)) -> v_import E n = None ->
  aget n (t_mods s) = None \/ (exists old, aget n (t_ct s i) = Some old) ->
  load E (L "tmpl") false i n s = (Raise ECompile, s') -> alone i l ->
  exists e, fst (load E (L "tmpl") false i n (steps E l s')) = Raise e.
Proof.
  intros i n s s' l H0 Hv Hn H Ha. apply broken_load; [|exact Hv]. apply broken_steps; try assumption. exact (failure_breaks i n s s' H0 Hn H).
Qed.
End WithE.
