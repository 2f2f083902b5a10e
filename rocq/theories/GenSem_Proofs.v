(** Proofs: generated code does what the template means. *)
From Verif Require Import Base PyStr Alist StrConst_Model Gen_Model Gen_Spec GenSem_Model GenSem_Spec.

(** ** Lists of texts *)
Lemma put_len i t h : length (put i t h) = length h.
Proof. revert i. induction h as [|x h IH]; intros [|i]; cbn [put length]; auto. Qed.
Lemma put_same i t h : (i < length h)%nat -> getvalue i (put i t h) = getvalue i h ++ t.
Proof.
  unfold getvalue. revert i. induction h as [|x h IH]; intros [|i] H; cbn [put nth length] in *; try lia; auto.
  apply IH. lia.
Qed.
Lemma put_other i j t h : i <> j -> getvalue i (put j t h) = getvalue i h.
Proof.
  unfold getvalue. revert i j. induction h as [|x h IH]; intros [|i] [|j] H; cbn [put nth]; auto; try congruence.
Qed.
Lemma put_nil i h : put i [] h = h.
Proof. revert i. induction h as [|x h IH]; intros [|i]; cbn [put]; rewrite ?app_nil_r, ?IH; auto. Qed.
Lemma getvalue_old i h x : (i < length h)%nat -> getvalue i (h ++ x) = getvalue i h.
Proof. unfold getvalue. apply app_nth1. Qed.
Lemma getvalue_new h : getvalue (length h) (h ++ [[]]) = [].
Proof. unfold getvalue. rewrite app_nth2, Nat.sub_diag by lia. reflexivity. Qed.

Lemma tag_eqb_refl t : tag_eqb t t = true.
Proof. destruct t; reflexivity. Qed.
Lemma tag_eqb_eq t u : tag_eqb t u = true -> t = u.
Proof. destruct t, u; simpl; congruence. Qed.

(** The made-up names are different for different regions and purposes. *)
Lemma local_name_inj t i t' i' : local_name t i = local_name t' i' -> t = t' /\ i = i'.
Proof.
  intros H. assert (Ht : t = t').
  { destruct t, t'; try reflexivity; exfalso; cbn in H; discriminate H. }
  subst t'. split; [reflexivity|]. unfold local_name in H. apply app_inv_head in H. exact H.
Qed.

Section Sim.
Context {W V F E I : Type}.
Variable K : oracle W V F E I.
Variable G : gset.
Variable fuel : nat.
Notation mst := (mst W V F).
Notation ast := (ast W F).
Notation act := (act (W:=W) (F:=F) (E:=E)).
Notation exec := (exec K fuel).
Notation sem := (sem K G fuel).

Lemma upd_same t id v (l : tag -> pystr -> option (lval F)) : upd t id v l t id = v.
Proof. unfold upd. rewrite tag_eqb_refl, str_eqb_refl. reflexivity. Qed.
Lemma upd_tag t id v (l : tag -> pystr -> option (lval F)) t' i' : tag_eqb t t' = false -> upd t id v l t' i' = l t' i'.
Proof. unfold upd. intros ->. reflexivity. Qed.
Lemma upd_id t id v (l : tag -> pystr -> option (lval F)) t' i' : id <> i' -> upd t id v l t' i' = l t' i'.
Proof.
  unfold upd. intros H. destruct (str_eqb_spec id i') as [Ei|Ei]; [contradiction|].
  rewrite andb_false_r. reflexivity.
Qed.

(** ** The relation *)
Definition R (p : pystr) (a : ast) (s : mst) : Prop :=
  ms_w s = a_w a /\ (ms_trans s < length (ms_heap s))%nat
  /\ a_out a = getvalue (ms_trans s) (ms_heap s) ++ p
  /\ ms_write s = ms_trans s /\ ms_filt s = a_filt a /\ ms_cur s = a_filt a
  /\ ms_buf s = a_buf a /\ ms_flts s = a_flts a /\ (a_top a = true -> ms_trans s = 0%nat).

Definition frame (D : list pystr) (s s' : mst) : Prop :=
  ms_trans s' = ms_trans s /\ (length (ms_heap s) <= length (ms_heap s'))%nat
  /\ (forall i, (i < length (ms_heap s))%nat -> i <> ms_trans s ->
        getvalue i (ms_heap s') = getvalue i (ms_heap s))
  /\ (forall t id, ~ In id D -> ms_loc s' t id = ms_loc s t id).

Lemma frame_refl D s : frame D s s.
Proof. repeat split; auto. Qed.
Lemma frame_weak D D' s s' : (forall x, In x D -> In x D') -> frame D s s' -> frame D' s s'.
Proof. intros H (A & B & C & L). repeat split; auto. Qed.
Lemma frame_trans D s s1 s2 : frame D s s1 -> frame D s1 s2 -> frame D s s2.
Proof.
  intros (A & B & C & L) (A' & B' & C' & L'). split; [congruence|]. split; [lia|]. split.
  - intros i Hi Hn. rewrite C' by (try lia; congruence). apply C; assumption.
  - intros t id H. rewrite L' by exact H. apply L; exact H.
Qed.
Lemma frame_trans2 D1 D2 s s1 s2 : frame D1 s s1 -> frame D2 s1 s2 -> frame (D1 ++ D2) s s2.
Proof.
  intros H1 H2. eapply frame_trans; [apply (frame_weak D1); [|exact H1]|apply (frame_weak D2); [|exact H2]];
    intros x Hx; apply in_or_app; auto.
Qed.
Lemma frame_nil D s s' : frame [] s s' -> frame D s s'.
Proof. apply frame_weak. intros x []. Qed.

(** User code. *)
Definition kept (s s' : mst) : Prop := exists w h, s' = ms_set_heap h (ms_set_w w s).

Lemma R_heap a s w h : R [] a s -> length h = length (ms_heap s) ->
  forall t, getvalue (ms_trans s) h = getvalue (ms_trans s) (ms_heap s) ++ t ->
  R [] (emit t (a_set_w w a)) (ms_set_heap h (ms_set_w w s)).
Proof.
  intros (H1 & H2 & H3 & H4 & H5 & H6 & H7 & H8 & H9) Hl t Ht. unfold R. simpl. repeat split; auto; try lia.
  rewrite Ht, H3, !app_nil_r. reflexivity.
Qed.
Lemma emit_nil (a : ast) : emit [] a = a.
Proof. destruct a; unfold emit; simpl. rewrite app_nil_r. reflexivity. Qed.

Lemma go_perform {A} (x : act A) a a' r s : go x a = Some (a', r) -> R [] a s ->
  exists s', perform x s = (s', r) /\ R [] a' s' /\ frame [] s s' /\ kept s s'.
Proof.
  intros Hg HR. pose proof HR as (H1 & H2 & H3 & H4 & H5 & H6 & H7 & H8 & H9).
  unfold go, perform in *. rewrite <- H7, <- H6, <- H1 in Hg.
  destruct (x (ms_buf s) (ms_cur s) (ms_w s)) as [[w t] r0]. unfold direct in Hg.
  destruct t as [|c t].
  - injection Hg as <- <-. eexists. split; [reflexivity|]. rewrite put_nil. split.
    + pose proof (R_heap a s w (ms_heap s) HR eq_refl []) as Q. rewrite emit_nil in Q. apply Q.
      symmetry. apply app_nil_r.
    + split; [|eexists _, _; reflexivity]. repeat split; simpl; auto.
  - change (a_top (a_set_w w a)) with (a_top a) in Hg. destruct (a_top a) eqn:Et; [|discriminate Hg].
    assert (Ea : emit (c :: t) (a_set_w w a) = a') by congruence. assert (Er : r0 = r) by congruence. subst a' r0.
    specialize (H9 eq_refl). eexists. split; [reflexivity|]. split; [|split; [|eexists _, _; reflexivity]].
    + apply R_heap; [exact HR|apply put_len|]. rewrite H9 in *. apply put_same. exact H2.
    + split; [reflexivity|]. cbn [ms_heap ms_set_heap]. rewrite put_len. split; [lia|]. split; [|reflexivity].
      intros i Hi Hn. apply put_other. congruence.
Qed.

Definition same (a a' : ast) : Prop :=
  a_filt a' = a_filt a /\ a_buf a' = a_buf a /\ a_top a' = a_top a.
Lemma same_refl a : same a a.
Proof. repeat split. Qed.
Lemma same_trans a b c : same a b -> same b c -> same a c.
Proof. unfold same. intros (A & B & C) (A' & B' & C'). repeat split; congruence. Qed.
Lemma direct_same t (a a' : ast) : direct t a = Some a' -> same a a'.
Proof.
  unfold direct. destruct t; intros H; [injection H as <-; apply same_refl|].
  destruct (a_top a); [|discriminate H]. assert (E1 : emit (n :: t) a = a') by congruence. subst a'. repeat split.
Qed.
Lemma go_same {A} (x : act A) (a a' : ast) r : go x a = Some (a', r) -> same a a'.
Proof.
  unfold go. destruct (x (a_buf a) (a_filt a) (a_w a)) as [[w t] r0]. intros H.
  destruct (direct t (a_set_w w a)) eqn:Ed; [|discriminate H]. injection H as <- <-. exact (direct_same _ _ _ Ed).
Qed.

Lemma ask_use {A} (x : act A) a kk r s : ask x a kk = Some r -> R [] a s ->
  (exists e a1 s1, r = (ORaise e, a1) /\ perform x s = (s1, Raise e) /\ R [] a1 s1 /\ frame [] s s1 /\ kept s s1 /\ same a a1)
  \/ (exists v a1 s1, kk v a1 = Some r /\ perform x s = (s1, Ok v) /\ R [] a1 s1 /\ frame [] s s1 /\ kept s s1 /\ same a a1).
Proof.
  unfold ask. intros H HR. destruct (go x a) as [[a1 [v|e]]|] eqn:Eg; [| |discriminate H].
  - right. destruct (go_perform x a a1 (Ok v) s Eg HR) as (s1 & P & Q).
    apply go_same in Eg. exists v, a1, s1. tauto.
  - left. injection H as <-. destruct (go_perform x a a1 (Raise e) s Eg HR) as (s1 & P & Q). apply go_same in Eg.
    exists e, a1, s1. tauto.
Qed.

(** Writing. *)
Lemma R_write a s t : R [] a s -> R [] (emit t a) (write t s).
Proof.
  intros (H1 & H2 & H3 & H4 & H5 & H6 & H7 & H8 & H9). unfold R, write. simpl. rewrite put_len, H4.
  repeat split; auto. rewrite put_same by exact H2. rewrite H3, !app_nil_r. reflexivity.
Qed.
Lemma frame_write a s t : R [] a s -> frame [] s (write t s).
Proof.
  intros (H1 & H2 & H3 & H4 & H5 & H6 & H7 & H8 & H9). unfold frame, write. simpl. rewrite put_len, H4.
  repeat split; auto. intros i Hi Hn. apply put_other. exact Hn.
Qed.
Lemma R_text p a s t : R p a s -> R (p ++ t) (emit t a) s.
Proof.
  intros (H1 & H2 & H3 & H4 & H5 & H6 & H7 & H8 & H9). unfold R. simpl. repeat split; auto.
  rewrite H3, app_assoc. reflexivity.
Qed.

(** ** Code that does not continue the statement before *)
Definition plain (k : code) : Prop := forall m s,
  exec m k s = match pending m with ONormal => exec MNo k s | o => Some (o, s) end.
Definition fin_k (o : out E) (k : code) (s : mst) : option (out E * mst) :=
  match o with ONormal => exec MNo k s | _ => Some (o, s) end.

Lemma plain_nil : plain CNil.
Proof. intros m s. cbn. destruct (pending m); reflexivity. Qed.
Lemma plain_line l nt k : remark l = false -> plain (CLine l nt k).
Proof. intros H m s. cbn [GenSem_Model.exec]. rewrite H. cbn [pending]. destruct (pending m); reflexivity. Qed.
Lemma plain_remark l nt k : remark l = true -> plain k -> plain (CLine l nt k).
Proof. intros H Hk m s. cbn [GenSem_Model.exec]. rewrite H. apply Hk. Qed.
Lemma plain_any l nt k : plain k -> plain (CLine l nt k).
Proof. intros Hk. destruct (remark l) eqn:Er; [apply plain_remark|apply plain_line]; assumption. Qed.
Lemma plain_part h nt b k : cont h = false -> plain (CPart h nt b k).
Proof. intros H m s. destruct h; try discriminate H; cbn [GenSem_Model.exec pending]; destruct (pending m); reflexivity. Qed.
Lemma plain_lines l k : plain k -> plain (lines l k).
Proof. intros H. induction l as [|x l IH]; [exact H|]. apply plain_any. exact IH. Qed.
Lemma plain_flush p k : plain k -> plain (flush p k).
Proof. intros H. destruct p; [exact H|]. apply plain_line. reflexivity. Qed.
Lemma plain_show x fa raw lc tail k : plain (show_code G x fa raw lc tail k).
Proof. unfold show_code. destruct (g_alwaysNone G), (g_useFilters G); apply plain_line; reflexivity. Qed.

Lemma plain_normal k m s : plain k -> pending m = ONormal -> exec m k s = exec MNo k s.
Proof. intros H E0. rewrite H, E0. reflexivity. Qed.

(** ** Pieces of code *)
Lemma flush_sim p a s : R p a s -> exists s', R [] a s' /\ frame [] s s'
  /\ forall k m, plain k -> pending m = ONormal -> exec m (flush p k) s = exec MNo k s'.
Proof.
  intros HR. destruct p as [|c p].
  - exists s. split; [exact HR|]. split; [apply frame_refl|]. intros k m Hk Hm. apply plain_normal; assumption.
  - set (t := c :: p) in *. exists (write t s). destruct HR as (H1 & H2 & H3 & H4 & H5 & H6 & H7 & H8 & H9).
    split.
    + unfold R, write. simpl. rewrite put_len, H4. repeat split; auto.
      rewrite put_same by exact H2. rewrite H3, app_nil_r. reflexivity.
    + split.
      * unfold frame, write. simpl. rewrite put_len, H4. repeat split; auto.
        intros i Hi Hn. apply put_other. exact Hn.
      * intros k m Hk Hm. unfold flush, t. cbn [GenSem_Model.exec remark]. rewrite Hm. reflexivity.
Qed.

Lemma exec_one l nt k s m : remark l = false -> pending m = ONormal ->
  exec m (CLine l nt k) s = match exec_line K l s with Some (ONormal, s) => exec MNo k s | x => x end.
Proof. intros H1 H2. cbn [GenSem_Model.exec]. rewrite H1, H2. reflexivity. Qed.

(** Fields user code keeps. *)
Lemma kept_loc s s' : kept s s' -> ms_loc s' = ms_loc s.
Proof. intros (w & h & ->). reflexivity. Qed.
Lemma kept_trans s s' : kept s s' -> ms_trans s' = ms_trans s.
Proof. intros (w & h & ->). reflexivity. Qed.
Lemma kept_filt s s' : kept s s' -> ms_filt s' = ms_filt s.
Proof. intros (w & h & ->). reflexivity. Qed.
Lemma kept_txt s s' : kept s s' -> ms_txt s' = ms_txt s.
Proof. intros (w & h & ->). reflexivity. Qed.
Lemma kept_fname s s' : kept s s' -> ms_fname s' = ms_fname s.
Proof. intros (w & h & ->). reflexivity. Qed.

Lemma R_v a s v : R [] a s -> R [] a (ms_set_v v s).
Proof. intros H. exact H. Qed.
Lemma frame_v s v : frame [] s (ms_set_v v s).
Proof. repeat split; auto. Qed.

Lemma use_perform {A} (x : act A) (s s1 : mst) r kk : perform x s = (s1, r) ->
  use x s kk = match r with Ok v => kk v s1 | Raise e => Some (ORaise e, s1) end.
Proof. unfold use. intros ->. reflexivity. Qed.

Lemma show_sim gx x fa raw a o a' s : show K G x (all_args G fa raw) a = Some (o, a') -> R [] a s ->
  gexp_act K gx s = Some x ->
  exists s', R [] a' s' /\ frame [] s s' /\ ms_loc s' = ms_loc s /\ same a a'
  /\ forall lc tail k m, pending m = ONormal -> exec m (show_code G gx fa raw lc tail k) s = fin_k o k s'.
Proof.
  unfold show. intros H HR Hx.
  destruct (ask_use _ _ _ _ _ H HR) as [(e & a1 & s1 & E1 & P1 & R1 & F1 & K1 & S1)|(v & a1 & s1 & H1 & P1 & R1 & F1 & K1 & S1)].
  - injection E1 as -> ->. exists s1. split; [exact R1|]. split; [exact F1|]. split; [apply kept_loc; exact K1|]. split; [exact S1|].
    intros lc tail k m Hm. unfold show_code.
    destruct (g_alwaysNone G); [|destruct (g_useFilters G)]; rewrite exec_one by (try exact Hm; reflexivity);
      cbn [exec_line]; rewrite Hx, (use_perform _ _ _ _ _ P1); reflexivity.
  - destruct (g_alwaysNone G && o_none K v) eqn:En.
    + injection H1 as <- <-. apply andb_true_iff in En as [Ea En].
      exists (ms_set_v (Some v) s1). split; [exact R1|]. split; [exact F1|]. split; [exact (kept_loc _ _ K1)|]. split; [exact S1|].
      intros lc tail k m Hm. unfold show_code. rewrite Ea. rewrite exec_one by (try exact Hm; reflexivity).
      cbn [exec_line]. rewrite Hx, (use_perform _ _ _ _ _ P1). unfold GenSem_Model.done.
      destruct (g_useFilters G); rewrite exec_one by reflexivity; cbn [exec_line ms_v ms_set_v]; rewrite En; reflexivity.
    + assert (Hf : ms_filt s1 = a_filt a1) by apply R1.
      set (y := if g_useFilters G then o_filter K (a_filt a1) v (all_args G fa raw) else o_str K v) in *.
      assert (Q : forall s0, (s0 = s1 \/ s0 = ms_set_v (Some v) s1) ->
        exists s', R [] a' s' /\ frame [] s0 s' /\ ms_loc s' = ms_loc s0 /\ same a1 a'
          /\ use y s0 (fun t s => GenSem_Model.done (write t s)) = Some (o, s')).
      { intros s0 Hs0. assert (R0 : R [] a1 s0) by (destruct Hs0; subst; exact R1).
        destruct (ask_use _ _ _ _ _ H1 R0) as [(e & a2 & s2 & E2 & P2 & R2 & F2 & K2 & S2)|(t & a2 & s2 & H2 & P2 & R2 & F2 & K2 & S2)].
        - injection E2 as -> ->. exists s2. rewrite (use_perform _ _ _ _ _ P2). split; [exact R2|].
          split; [exact F2|]. split; [apply kept_loc; exact K2|]. split; [exact S2|reflexivity].
        - injection H2 as <- <-. exists (write t s2). rewrite (use_perform _ _ _ _ _ P2).
          split; [apply R_write; exact R2|]. split; [eapply frame_trans; [exact F2|eapply frame_write; exact R2]|].
          split; [exact (kept_loc _ _ K2)|]. split; [exact S2|reflexivity]. }
      destruct (g_alwaysNone G) eqn:Ea.
      * cbn [andb] in En. destruct (Q (ms_set_v (Some v) s1) (or_intror eq_refl)) as (s' & R' & F' & L' & S' & U').
        exists s'. split; [exact R'|]. split; [eapply frame_trans; [exact F1|exact F']|].
        split; [rewrite L'; exact (kept_loc _ _ K1)|]. split; [exact (same_trans _ _ _ S1 S')|].
        intros lc tail k m Hm. unfold show_code. rewrite Ea. rewrite exec_one by (try exact Hm; reflexivity).
        cbn [exec_line]. rewrite Hx, (use_perform _ _ _ _ _ P1). unfold GenSem_Model.done at 1.
        unfold y in U'. destruct (g_useFilters G); rewrite exec_one by reflexivity; cbn [exec_line ms_v ms_set_v];
          rewrite En; cbn [ms_filt ms_set_v]; rewrite ?Hf, U'; destruct o; reflexivity.
      * destruct (Q s1 (or_introl eq_refl)) as (s' & R' & F' & L' & S' & U').
        exists s'. split; [exact R'|]. split; [eapply frame_trans; [exact F1|exact F']|].
        split; [rewrite L'; exact (kept_loc _ _ K1)|]. split; [exact (same_trans _ _ _ S1 S')|].
        intros lc tail k m Hm. unfold show_code. rewrite Ea.
        unfold y in U'. destruct (g_useFilters G); rewrite exec_one by (try exact Hm; reflexivity); cbn [exec_line];
          rewrite Hx, (use_perform _ _ _ _ _ P1), ?Hf, U'; destruct o; reflexivity.
Qed.

(** ** Putting pieces together *)
Definition sim (D : list pystr) (a : ast) (s : mst) (o : out E) (a' : ast) (k : code)
    (x : option (out E * mst)) : Prop :=
  exists s', R [] a' s' /\ frame D s s' /\ same a a' /\ x = fin_k o k s'.

Lemma sim_weak D D' a s o a' k x : (forall i, In i D -> In i D') -> sim D a s o a' k x -> sim D' a s o a' k x.
Proof. intros H (s' & HR & HF & HS & HX). exists s'. split; [exact HR|]. split; [exact (frame_weak _ _ _ _ H HF)|]. auto. Qed.
Lemma sim_before D a s a1 s1 o a' k x : frame D s s1 -> same a a1 -> sim D a1 s1 o a' k x -> sim D a s o a' k x.
Proof.
  intros F1 S1 (s' & HR & HF & HS & HX). exists s'. split; [exact HR|]. split; [exact (frame_trans _ _ _ _ F1 HF)|].
  split; [exact (same_trans _ _ _ S1 HS)|exact HX].
Qed.
Lemma sim_then D1 D a s o1 a1 k1 x kk o a' k : sim D1 a s o1 a1 k1 x ->
  andthen (Some (o1, a1)) kk = Some (o, a') -> (forall i, In i D1 -> In i D) ->
  (forall s1, R [] a1 s1 -> frame D1 s s1 -> kk a1 = Some (o, a') -> sim D a1 s1 o a' k (exec MNo k1 s1)) ->
  sim D a s o a' k x.
Proof.
  intros (s' & HR & HF & HS & HX) H HD HN. unfold andthen in H.
  assert (Q : o1 = ONormal \/ (o1 = o /\ a1 = a' /\ o1 <> ONormal)).
  { destruct o1; auto; right; split; try congruence; split; congruence. }
  destruct Q as [->|(-> & -> & Hn)].
  - apply (sim_before D a s a1 s'); [exact (frame_weak _ _ _ _ HD HF)|exact HS|].
    rewrite HX. cbn [fin_k]. apply HN; assumption.
  - exists s'. split; [exact HR|]. split; [exact (frame_weak _ _ _ _ HD HF)|]. split; [exact HS|].
    rewrite HX. destruct o; try reflexivity. contradiction Hn; reflexivity.
Qed.
(** The user's code at the start. *)
Lemma sim_ask {A} (x : act A) a kk o a' s D k y mk : ask x a kk = Some (o, a') -> R [] a s ->
  y = use x s mk ->
  (forall v a1 s1, R [] a1 s1 -> kk v a1 = Some (o, a') -> frame [] s s1 -> kept s s1 -> same a a1 ->
     sim D a1 s1 o a' k (mk v s1)) ->
  sim D a s o a' k y.
Proof.
  intros H HR -> HN.
  destruct (ask_use _ _ _ _ _ H HR) as [(e & a1 & s1 & E1 & P1 & R1 & F1 & K1 & S1)|(v & a1 & s1 & H1 & P1 & R1 & F1 & K1 & S1)].
  - injection E1 as -> ->. exists s1. rewrite (use_perform _ _ _ _ _ P1). split; [exact R1|].
    split; [apply frame_nil; exact F1|]. split; [exact S1|reflexivity].
  - rewrite (use_perform _ _ _ _ _ P1). apply (sim_before D a s a1 s1); [apply frame_nil; exact F1|exact S1|].
    apply HN; assumption.
Qed.
Lemma sim_flush D p a s o a' k k0 : R p a s -> plain k0 ->
  (forall s1, R [] a s1 -> sim D a s1 o a' k (exec MNo k0 s1)) ->
  forall m, pending m = ONormal -> sim D a s o a' k (exec m (flush p k0) s).
Proof.
  intros HR HP HN m Hm. destruct (flush_sim p a s HR) as (s1 & R1 & F1 & H1).
  apply (sim_before D a s a s1); [apply frame_nil; exact F1|apply same_refl|].
  rewrite (H1 k0 m HP Hm). apply HN. exact R1.
Qed.
Lemma sim_show gx x fa raw a o a' s lc tail k m : show K G x (all_args G fa raw) a = Some (o, a') -> R [] a s ->
  gexp_act K gx s = Some x -> pending m = ONormal ->
  sim [] a s o a' k (exec m (show_code G gx fa raw lc tail k) s).
Proof.
  intros H HR Hx Hm. destruct (show_sim _ _ _ _ _ _ _ _ H HR Hx) as (s' & R' & F' & L' & S' & X').
  exists s'. split; [exact R'|]. split; [exact F'|]. split; [exact S'|]. apply X'. exact Hm.
Qed.

Lemma sim_stmt e a o a' s nt k m : doing K e a = Some (o, a') -> R [] a s -> pending m = ONormal ->
  sim [] a s o a' k (exec m (CLine (GStmt e) nt k) s).
Proof.
  intros H HR Hm. rewrite exec_one by (try exact Hm; reflexivity). cbn [exec_line].
  pose (x := fun b f w => let '(w, t, o) := o_stmt K e b f w in (w, t, Ok o) : W * pystr * res E (out E)).
  assert (Hg : go x a = Some (a', Ok o)).
  { unfold go, x. unfold doing in H. destruct (o_stmt K e (a_buf a) (a_filt a) (a_w a)) as [[w t] o0].
    destruct (direct t (a_set_w w a)); [|discriminate H]. injection H as <- <-. reflexivity. }
  destruct (go_perform x a a' (Ok o) s Hg HR) as (s' & P & R' & F' & _).
  exists s'. split; [exact R'|]. split; [exact F'|]. split; [exact (go_same _ _ _ _ Hg)|].
  unfold perform, x in P. destruct (o_stmt K e (ms_buf s) (ms_cur s) (ms_w s)) as [[w t] o0].
  injection P as <- ->. destruct o; reflexivity.
Qed.

(** Loops. *)
Lemma sim_loop {X} D (next : X -> ast -> option (ast * res E (option X)))
    (next' : X -> mst -> option (mst * res E (option X))) (body : ast -> option (out E * ast)) body' :
  (forall x a s a1 r, next x a = Some (a1, r) -> R [] a s ->
     exists s1, next' x s = Some (s1, r) /\ R [] a1 s1 /\ frame D s s1 /\ same a a1) ->
  (forall a s o a', body a = Some (o, a') -> R [] a s ->
     exists s1, body' s = Some (o, s1) /\ R [] a' s1 /\ frame D s s1 /\ same a a') ->
  forall f x a s o a', loop f next body x a = Some (o, a') -> R [] a s ->
  exists s1, loop f next' body' x s = Some (o, s1) /\ R [] a' s1 /\ frame D s s1 /\ same a a'.
Proof.
  intros Hn Hb. induction f as [|f IH]; intros x a s o a' H HR; [discriminate H|].
  cbn [loop] in *. destruct (next x a) as [[a1 r]|] eqn:En; [|discriminate H].
  destruct (Hn _ _ _ _ _ En HR) as (s1 & -> & R1 & F1 & S1).
  destruct r as [[x'|]|e].
  - destruct (body a1) as [[o2 a2]|] eqn:Eb; [|discriminate H].
    destruct (Hb _ _ _ _ Eb R1) as (s2 & -> & R2 & F2 & S2).
    assert (Q : forall a'', same a2 a'' -> same a a'').
    { intros a'' Hs. exact (same_trans _ _ _ S1 (same_trans _ _ _ S2 Hs)). }
    pose proof (frame_trans _ _ _ _ F1 F2) as F12.
    assert (Q2 : forall o3, Some (o3, a2) = Some (o, a') ->
      exists s3, Some (o3, s2) = Some (o, s3) /\ R [] a' s3 /\ frame D s s3 /\ same a a').
    { intros o3 E3. injection E3 as -> ->. exists s2. split; [reflexivity|]. split; [exact R2|].
      split; [exact F12|]. apply Q. apply same_refl. }
    destruct o2; try (apply Q2; exact H).
    + destruct (IH _ _ _ _ _ H R2) as (s3 & E3 & R3 & F3 & S3). exists s3. split; [exact E3|]. split; [exact R3|].
      split; [exact (frame_trans _ _ _ _ F12 F3)|]. apply Q. exact S3.
    + destruct (IH _ _ _ _ _ H R2) as (s3 & E3 & R3 & F3 & S3). exists s3. split; [exact E3|]. split; [exact R3|].
      split; [exact (frame_trans _ _ _ _ F12 F3)|]. apply Q. exact S3.
  - injection H as <- <-. exists s1. auto.
  - injection H as <- <-. exists s1. auto.
Qed.
Lemma sim_run D a s o a' x : sim D a s o a' CNil x ->
  exists s1, x = Some (o, s1) /\ R [] a' s1 /\ frame D s s1 /\ same a a'.
Proof. intros (s' & HR & HF & HS & ->). exists s'. split; [destruct o; reflexivity|auto]. Qed.
Lemma run_sim D a s o a' k x s1 : R [] a' s1 -> frame D s s1 -> same a a' ->
  x = Some (o, s1) -> sim D a s o a' k (match x with Some (ONormal, s) => exec MNo k s | y => y end).
Proof. intros HR HF HS ->. exists s1. split; [exact HR|]. split; [exact HF|]. split; [exact HS|]. destruct o; reflexivity. Qed.

(** ** Regions with an output of their own *)
Definition entered (tg : tag) (id : pystr) (s s1 : mst) : Prop :=
  ms_w s1 = ms_w s /\ ms_heap s1 = ms_heap s ++ [[]] /\ ms_trans s1 = length (ms_heap s)
  /\ ms_write s1 = length (ms_heap s) /\ ms_filt s1 = ms_filt s /\ ms_cur s1 = ms_cur s
  /\ ms_flts s1 = ms_flts s
  /\ ms_loc s1 TgOrig id = Some (LTrans (ms_trans s))
  /\ ms_loc s1 tg id = Some (LTrans (length (ms_heap s)))
  /\ (forall t i, i <> id -> ms_loc s1 t i = ms_loc s t i).

Lemma enter_R tg id a s s1 b : entered tg id s s1 -> R [] a s -> ms_buf s1 = b || ms_buf s -> R [] (inner b a) s1.
Proof.
  intros (H1 & H2 & H3 & H4 & H5 & H6 & H7 & H8 & H9 & H10) (Q1 & Q2 & Q3 & Q4 & Q5 & Q6 & Q7 & Q8 & Q9) Hb.
  unfold R, inner. cbn [a_w a_out a_top a_filt a_buf a_flts]. rewrite H1, H2, H3, H4, H5, H6, H7, Hb, Q7.
  rewrite getvalue_new, app_length. cbn [length app]. repeat split; auto; try lia; try congruence; try discriminate.
Qed.
Lemma leave_R tg id a s s1 b y s1' s2 D : entered tg id s s1 -> R [] a s -> R [] y s1' -> frame D s1 s1' ->
  same (inner b a) y -> ms_w s2 = ms_w s1' -> ms_heap s2 = ms_heap s1' -> ms_trans s2 = ms_trans s ->
  ms_write s2 = ms_trans s -> ms_filt s2 = ms_filt s1' -> ms_cur s2 = ms_cur s1' -> ms_flts s2 = ms_flts s1' ->
  ms_buf s2 = a_buf a -> (forall t i, i <> id -> ms_loc s2 t i = ms_loc s1' t i) ->
  R [] (back a y) s2 /\ frame (id :: D) s s2.
Proof.
  intros (H1 & H2 & H3 & H4 & H5 & H6 & H7 & H8 & H9 & H10) (Q1 & Q2 & Q3 & Q4 & Q5 & Q6 & Q7 & Q8 & Q9)
    (Y1 & Y2 & Y3 & Y4 & Y5 & Y6 & Y7 & Y8 & Y9) (F1 & F2 & F3 & F4) (S1 & S2 & S3) W1 W2 W3 W4 W5 W6 W7 W8 W9.
  cbn [inner a_filt a_buf a_top] in *. rewrite H2, app_length in F2. cbn [length] in F2.
  assert (HV : forall i, (i < length (ms_heap s))%nat -> getvalue i (ms_heap s1') = getvalue i (ms_heap s)).
  { intros i Hi. rewrite F3; [|rewrite H2, app_length; cbn [length]; lia|rewrite H3; lia].
    rewrite H2. apply getvalue_old. exact Hi. }
  split.
  - unfold R, back. cbn [a_w a_out a_top a_filt a_buf a_flts]. rewrite W2, W3, W4, W5, W6, W7, W8, Y5, Y6, S1.
    rewrite HV by exact Q2. repeat split; auto; try lia; congruence.
  - unfold frame. rewrite W2, W3. repeat split; try lia.
    + intros i Hi _. apply HV. exact Hi.
    + intros t i Hi. apply not_in_cons in Hi as [Hi1 Hi2]. rewrite W9 by exact Hi1. rewrite F4 by exact Hi2.
      apply H10. exact Hi1.
Qed.
Lemma frame_loc D s s' t i : frame D s s' -> ~ In i D -> ms_loc s' t i = ms_loc s t i.
Proof. intros (_ & _ & _ & H). apply H. Qed.
Lemma kept_frame_loc s s' : kept s s' -> forall t i, ms_loc s' t i = ms_loc s t i.
Proof. intros (w & h & ->) t i. reflexivity. Qed.

Lemma exec_cons l ls k m s o s1 : remark l = false -> pending m = ONormal -> exec_line K l s = Some (ONormal, s1) ->
  o = exec MNo (lines ls k) s1 -> exec m (lines (l :: ls) k) s = o.
Proof. intros H1 H2 H3 ->. change (lines (l :: ls) k) with (CLine l [] (lines ls k)). rewrite exec_one by assumption. rewrite H3. reflexivity. Qed.
Lemma exec_comment c ls k m s : remark c = true -> exec m (lines (c :: ls) k) s = exec m (lines ls k) s.
Proof. intros H. change (lines (c :: ls) k) with (CLine c [] (lines ls k)). cbn [GenSem_Model.exec]. rewrite H. reflexivity. Qed.

Ltac floc := cbn [ms_loc ms_w ms_heap ms_trans ms_write ms_filt ms_cur ms_buf ms_flts ms_v ms_fname ms_txt
                  set_local ms_set_loc ms_set_trans ms_set_write ms_set_buf ms_set_heap ms_set_w ms_set_filt ms_set_both
                  ms_set_flts ms_set_v ms_set_fname ms_set_txt].

Lemma start_ok tg c id s : tg = TgCapt \/ tg = TgCall ->
  exists s1, entered tg id s s1 /\ ms_buf s1 = true /\ ms_loc s1 TgBuf id = Some (LBool (ms_buf s))
  /\ forall k m, pending m = ONormal ->
     exec m (lines [GComment c; GSaveTrans id; GSaveBuf id; GBufOn; GCollect tg id; GWriteTo tg id] k) s = exec MNo k s1.
Proof.
  intros Ht. destruct s as [w h tr wr loc f cu bu fl v fn tx].
  set (loc3 := upd tg id (Some (LTrans (length h))) (upd TgBuf id (Some (LBool bu)) (upd TgOrig id (Some (LTrans tr)) loc))).
  exists (mkMs w (h ++ [[]]) (length h) (length h) loc3 f cu true fl v fn tx).
  assert (L1 : loc3 tg id = Some (LTrans (length h))) by apply upd_same.
  assert (L2 : loc3 TgBuf id = Some (LBool bu)).
  { unfold loc3. rewrite upd_tag by (destruct Ht; subst tg; reflexivity). apply upd_same. }
  assert (L3 : loc3 TgOrig id = Some (LTrans tr)).
  { unfold loc3. rewrite upd_tag by (destruct Ht; subst tg; reflexivity). rewrite upd_tag by reflexivity. apply upd_same. }
  split; [|split; [reflexivity|split; [exact L2|]]].
  - unfold entered. floc. repeat split; auto. intros t i Hi. unfold loc3.
    rewrite !upd_id by congruence. reflexivity.
  - intros k m Hm. rewrite exec_comment by reflexivity.
    eapply exec_cons; [reflexivity|exact Hm|reflexivity|]. symmetry.
    eapply exec_cons; [reflexivity|reflexivity|reflexivity|]. symmetry.
    eapply exec_cons; [reflexivity|reflexivity|reflexivity|]. symmetry.
    eapply exec_cons; [reflexivity|reflexivity|reflexivity|]. symmetry.
    eapply exec_cons; [reflexivity|reflexivity| |reflexivity].
    cbn [exec_line]. floc. fold loc3. rewrite L1. reflexivity.
Qed.

Lemma reset_ok id s t0 b0 : ms_loc s TgOrig id = Some (LTrans t0) -> ms_loc s TgBuf id = Some (LBool b0) ->
  exists s2, ms_w s2 = ms_w s /\ ms_heap s2 = ms_heap s /\ ms_trans s2 = t0 /\ ms_write s2 = t0
  /\ ms_filt s2 = ms_filt s /\ ms_cur s2 = ms_cur s /\ ms_flts s2 = ms_flts s /\ ms_buf s2 = b0
  /\ (forall t i, (i <> id \/ (t <> TgOrig /\ t <> TgBuf)) -> ms_loc s2 t i = ms_loc s t i)
  /\ forall k m, pending m = ONormal -> exec m (call_reset id k) s = exec MNo k s2.
Proof.
  intros H1 H2. destruct s as [w h tr wr loc f cu bu fl v fn tx]. cbn [ms_loc] in *.
  exists (mkMs w h t0 t0 (upd TgOrig id None (upd TgBuf id None loc)) f cu b0 fl v fn tx). floc.
  repeat (split; [reflexivity|]). split.
  - intros t i [Hi|[Ha Hb]]; [rewrite !upd_id by congruence; reflexivity|].
    rewrite !upd_tag by (destruct t; try reflexivity; congruence). reflexivity.
  - intros k m Hm. unfold call_reset.
    eapply exec_cons; [reflexivity|exact Hm|cbn [exec_line]; floc; rewrite H1; reflexivity|]. symmetry.
    eapply exec_cons; [reflexivity|reflexivity|reflexivity|]. symmetry.
    eapply exec_cons; [reflexivity|reflexivity|cbn [exec_line]; floc; rewrite H2; reflexivity|]. symmetry.
    eapply exec_cons; [reflexivity|reflexivity|cbn [exec_line]; floc; rewrite H2; reflexivity|]. symmetry.
    eapply exec_cons; [reflexivity|reflexivity| |reflexivity].
    cbn [exec_line]. floc. rewrite upd_tag by reflexivity. rewrite H1. reflexivity.
Qed.

Lemma R_loc p a s l : R p a s -> R p a (ms_set_loc l s).
Proof. intros H. exact H. Qed.
Lemma frame_local D t id v s : In id D -> frame D s (set_local t id v s).
Proof.
  intros H. unfold frame. floc. repeat split; auto. intros t' i Hi. apply upd_id. congruence.
Qed.
Lemma frame_set_loc D l s : (forall t i, ~ In i D -> l t i = ms_loc s t i) -> frame D s (ms_set_loc l s).
Proof. intros H. unfold frame. floc. repeat split; auto. Qed.

Lemma dels_ok id l : NoDup l -> forall s, (forall t, In t l -> ms_loc s t id <> None) ->
  exists loc', (forall t i, i <> id -> loc' t i = ms_loc s t i)
  /\ forall k m, pending m = ONormal -> l <> [] ->
     exec m (lines (map (fun t => GDel t id) l) k) s = exec MNo k (ms_set_loc loc' s).
Proof.
  induction l as [|t l IH]; intros Hd s H.
  - exists (ms_loc s). split; [reflexivity|]. intros k m _ Hl. contradiction Hl; reflexivity.
  - inversion Hd as [|? ? Hn Hd']; subst.
    destruct (ms_loc s t id) as [v|] eqn:Ev; [|exfalso; apply (H t); [left; reflexivity|exact Ev]].
    destruct (IH Hd' (set_local t id None s)) as (loc' & L' & X').
    { intros t' Ht'. floc. rewrite upd_tag; [apply H; right; exact Ht'|].
      destruct (tag_eqb t t') eqn:Et; [|reflexivity]. apply tag_eqb_eq in Et. subst t'. contradiction. }
    exists (match l with [] => upd t id None (ms_loc s) | _ => loc' end). split.
    + intros t' i Hi. destruct l; [apply upd_id; congruence|]. rewrite L' by exact Hi. floc. apply upd_id. congruence.
    + intros k m Hm _. cbn [map].
      eapply exec_cons; [reflexivity|exact Hm|cbn [exec_line]; rewrite Ev; reflexivity|]. symmetry.
      destruct l as [|t' l]; [reflexivity|]. rewrite X' by (try reflexivity; discriminate). reflexivity.
Qed.

(** What is known of a body. *)
Definition runs (d : bool) (b : tm) (n : nat) : Prop := forall p k a s o a',
  sem d b a = Some (o, a') -> R p a s -> plain k -> forall m, pending m = ONormal ->
  sim (ids b) a s o a' k (exec m (prog G d n p b k) s).

Lemma sim_fin D a s k x s' a' : R [] a' s' -> frame D s s' -> same a a' -> x = exec MNo k s' -> sim D a s ONormal a' k x.
Proof. intros A B C ->. exists s'. split; [exact A|]. split; [exact B|]. split; [exact C|reflexivity]. Qed.
Lemma fin_inv (a : ast) o a' : fin a = Some (o, a') -> (o : out E) = ONormal /\ a' = a.
Proof. unfold fin. intros H. injection H as <- <-. split; reflexivity. Qed.

Lemma back_same a (y : ast) : same a (back a y).
Proof. repeat split. Qed.

Lemma body_text y s : R [] y s -> getvalue (ms_trans s) (ms_heap s) = a_out y.
Proof. intros (_ & _ & H & _). rewrite H, app_nil_r. reflexivity. Qed.

Lemma capture_sim d b n v id lc a y s o1 a1 k after m : runs d b n -> ~ In id (ids b) ->
  R [] a s -> sem d b (inner true a) = Some (ONormal, y) ->
  ask (o_assign K v (a_out y)) (back a y) (fun _ a => fin a) = Some (o1, a1) -> pending m = ONormal ->
  sim (id :: ids b) a s o1 a1 k
    (exec m (region_start G (RCapture v) id lc (prog G d n [] b (region_end G (RCapture v) id lc k)) after) s).
Proof.
  intros HB Hid HR Hb Ha Hm. unfold region_start.
  destruct (start_ok TgCapt (L "## START CAPTURE REGION: " ++ id ++ L " " ++ v ++ L " at " ++ at_lc lc
                       ++ L " in the source.") id s (or_introl eq_refl)) as (s1 & En & B1 & L1 & X1).
  rewrite X1 by exact Hm. pose proof (enter_R _ _ _ _ _ true En HR B1) as R1.
  pose proof En as (E1 & E2 & E3 & E4 & E5 & E6 & E7 & E8 & E9 & E10).
  assert (HP : plain (region_end G (RCapture v) id lc k)) by (apply plain_line; reflexivity).
  destruct (HB [] _ _ _ _ _ Hb R1 HP MNo eq_refl) as (s2 & R2 & F2 & S2 & X2). rewrite X2. cbn [fin_k]. clear X1 X2.
  assert (L2 : ms_loc s2 TgOrig id = Some (LTrans (ms_trans s))) by (rewrite (frame_loc _ _ _ _ _ F2 Hid); exact E8).
  assert (L3 : ms_loc s2 TgBuf id = Some (LBool (ms_buf s))) by (rewrite (frame_loc _ _ _ _ _ F2 Hid); exact L1).
  assert (L4 : ms_loc s2 TgCapt id = Some (LTrans (length (ms_heap s)))) by (rewrite (frame_loc _ _ _ _ _ F2 Hid); exact E9).
  set (s3 := ms_set_buf (ms_buf s) (ms_set_write (ms_trans s) (ms_set_trans (ms_trans s) s2))).
  assert (Hbuf : ms_buf s = a_buf a) by apply HR.
  destruct (leave_R _ _ _ _ _ _ _ _ s3 _ En HR R2 F2 S2 eq_refl eq_refl eq_refl eq_refl eq_refl eq_refl eq_refl Hbuf
              (fun _ _ _ => eq_refl)) as [R3 F3].
  apply (sim_before _ a s (back a y) s3 _ _ _ _ F3 (back_same a y)).
  assert (Ht : getvalue (length (ms_heap s)) (ms_heap s3) = a_out y).
  { unfold s3. floc. rewrite <- E3. replace (ms_trans s1) with (ms_trans s2) by apply F2. apply body_text. exact R2. }
  eapply (sim_ask _ _ _ _ _ s3 _ _ _ (fun _ s => exec MNo (lines [GDel TgOrig id; GDel TgCapt id; GDel TgBuf id] k) s) Ha R3).
  - unfold region_end.
    eapply exec_cons; [reflexivity|reflexivity|cbn [exec_line]; rewrite L2; reflexivity|]. symmetry.
    eapply exec_cons; [reflexivity|reflexivity|reflexivity|]. symmetry.
    eapply exec_cons; [reflexivity|reflexivity|cbn [exec_line]; floc; rewrite L3; reflexivity|]. symmetry.
    change (lines (GAssignCap v id :: ?l) k) with (CLine (GAssignCap v id) [] (lines l k)).
    rewrite exec_one by reflexivity. cbn [exec_line]. fold s3.
    change (ms_loc s3 TgCapt id) with (ms_loc s2 TgCapt id). rewrite L4, Ht. unfold use.
    destruct (perform (o_assign K v (a_out y)) s3) as [s4 [u|e]]; reflexivity.
  - intros u a2 s4 R4 H4 F4 K4 S4. apply fin_inv in H4 as [-> ->].
    assert (HL : forall t, ms_loc s4 t id = ms_loc s2 t id) by (intros t; rewrite (kept_loc _ _ K4); reflexivity).
    destruct (dels_ok id [TgOrig; TgCapt; TgBuf] ltac:(repeat constructor; cbn; intuition discriminate) s4) as (l' & L' & X').
    { intros t [<-|[<-|[<-|[]]]]; rewrite HL; congruence. }
    cbn [map] in X'. rewrite X' by (try reflexivity; discriminate).
    eapply sim_fin; [apply R_loc; exact R4| |apply same_refl|reflexivity].
    apply frame_set_loc. intros t i Hi. apply L'. intros ->. apply Hi. left; reflexivity.
Qed.

Lemma call_sim d b n fn args id lc a y s o1 a1 k after m : runs d b n -> ~ In id (ids b) ->
  R [] a s -> sem d b (inner true a) = Some (ONormal, y) ->
  show K G (o_call K fn args (a_out y)) [] (back a y) = Some (o1, a1) -> pending m = ONormal ->
  sim (id :: ids b) a s o1 a1 k
    (exec m (region_start G (RCall fn args) id lc (prog G d n [] b (region_end G (RCall fn args) id lc k)) after) s).
Proof.
  intros HB Hid HR Hb Ha Hm. unfold region_start.
  destruct (start_ok TgCall (L "## START CALL REGION: " ++ id ++ L " of " ++ fn ++ L " at " ++ at_lc lc
                       ++ L " in the source.") id s (or_intror eq_refl)) as (s1 & En & B1 & L1 & X1).
  rewrite X1 by exact Hm. pose proof (enter_R _ _ _ _ _ true En HR B1) as R1.
  pose proof En as (E1 & E2 & E3 & E4 & E5 & E6 & E7 & E8 & E9 & E10).
  assert (HP : plain (region_end G (RCall fn args) id lc k)) by (apply plain_line; reflexivity).
  destruct (HB [] _ _ _ _ _ Hb R1 HP MNo eq_refl) as (s2 & R2 & F2 & S2 & X2). rewrite X2. cbn [fin_k]. clear X1 X2.
  assert (L2 : ms_loc s2 TgOrig id = Some (LTrans (ms_trans s))) by (rewrite (frame_loc _ _ _ _ _ F2 Hid); exact E8).
  assert (L3 : ms_loc s2 TgBuf id = Some (LBool (ms_buf s))) by (rewrite (frame_loc _ _ _ _ _ F2 Hid); exact L1).
  assert (L4 : ms_loc s2 TgCall id = Some (LTrans (length (ms_heap s)))) by (rewrite (frame_loc _ _ _ _ _ F2 Hid); exact E9).
  assert (Hbuf : ms_buf s = a_buf a) by apply HR.
  destruct (reset_ok _ _ _ _ L2 L3) as (s3 & Q1 & Q2 & Q3 & Q4 & Q5 & Q6 & Q7 & Q8 & Q9 & X3).
  destruct (leave_R _ _ _ _ _ _ _ _ s3 _ En HR R2 F2 S2 Q1 Q2 Q3 Q4 Q5 Q6 Q7 (eq_trans Q8 Hbuf)
              (fun t i H => Q9 t i (or_introl H))) as [R3 F3].
  apply (sim_before _ a s (back a y) s3 _ _ _ _ F3 (back_same a y)).
  assert (Ht : getvalue (length (ms_heap s)) (ms_heap s3) = a_out y).
  { rewrite Q2, <- E3. replace (ms_trans s1) with (ms_trans s2) by apply F2. apply body_text. exact R2. }
  unfold region_end. rewrite X3 by reflexivity. clear X3.
  assert (L5 : ms_loc s3 TgCall id = Some (LTrans (length (ms_heap s)))).
  { rewrite Q9; [exact L4|right; split; discriminate]. }
  set (s4 := set_local TgCall id None (set_local TgVal id (Some (LText (a_out y))) s3)).
  assert (X4 : forall k, exec MNo (lines [GArgVal id; GDel TgCall id] k) s3 = exec MNo k s4).
  { intros k0. eapply exec_cons; [reflexivity|reflexivity|cbn [exec_line]; rewrite L5, Ht; reflexivity|]. symmetry.
    eapply exec_cons; [reflexivity|reflexivity| |reflexivity]. cbn [exec_line]. floc.
    rewrite upd_tag by reflexivity. rewrite L5. reflexivity. }
  rewrite X4. clear X4.
  assert (L6 : ms_loc s4 TgVal id = Some (LText (a_out y))).
  { unfold s4. floc. rewrite upd_tag by reflexivity. apply upd_same. }
  assert (R4 : R [] (back a y) s4) by exact R3.
  assert (F4 : frame (id :: ids b) s3 s4).
  { eapply frame_trans; apply frame_local; left; reflexivity. }
  apply (sim_before _ (back a y) s3 (back a y) s4 _ _ _ _ F4 (same_refl _)).
  assert (Hx : gexp_act K (XCall fn args id) s4 = Some (o_call K fn args (a_out y))) by (cbn [gexp_act]; rewrite L6; reflexivity).
  change (@nil N) with (all_args G [] []) in Ha.
  destruct (show_sim _ _ _ _ _ _ _ _ Ha R4 Hx) as (s5 & R5 & F5 & L7 & S5 & X5).
  rewrite X5 by reflexivity. destruct o1; try (exists s5; split; [exact R5|]; split; [apply frame_nil; exact F5|];
    split; [exact S5|reflexivity]).
  cbn [fin_k]. rewrite exec_one by reflexivity. cbn [exec_line]. rewrite L7, L6.
  unfold GenSem_Model.done, call_tail. rewrite !exec_comment by reflexivity.
  eapply sim_fin; [| |exact S5|reflexivity]; [exact R5|].
  eapply frame_trans; [apply frame_nil; exact F5|apply frame_local; left; reflexivity].
Qed.

(** The parts of a [#call]. *)
Definition incall (id : pystr) (t0 : nat) (b0 : bool) (kws : list (pystr * pystr)) (s : mst) : Prop :=
  ms_loc s TgOrig id = Some (LTrans t0) /\ ms_loc s TgBuf id = Some (LBool b0)
  /\ ms_loc s TgKws id = Some (LKws kws) /\ ms_loc s TgCall id = Some (LTrans (ms_trans s)).
(** Only texts from [base] on may change. *)
Definition above (base : nat) (D : list pystr) (s s' : mst) : Prop :=
  (length (ms_heap s) <= length (ms_heap s'))%nat
  /\ (forall i, (i < base)%nat -> getvalue i (ms_heap s') = getvalue i (ms_heap s))
  /\ (base <= ms_trans s')%nat
  /\ (forall t i, ~ In i D -> ms_loc s' t i = ms_loc s t i).
Lemma above_trans base D s s1 s2 : above base D s s1 -> above base D s1 s2 -> above base D s s2.
Proof.
  intros (A & B & C & J) (A' & B' & C' & J'). split; [lia|]. split; [intros i Hi; rewrite B', B by exact Hi; reflexivity|].
  split; [exact C'|]. intros t i Hi. rewrite J', J by exact Hi. reflexivity.
Qed.
Lemma frame_above base D D' s s' : frame D s s' -> (forall i, In i D -> In i D') -> (base <= ms_trans s)%nat ->
  (base <= length (ms_heap s))%nat -> above base D' s s'.
Proof.
  intros (A & B & C & J) H Hb Hl. split; [exact B|]. split; [intros i Hi; apply C; lia|]. split; [lia|].
  intros t i Hi. apply J. intros Hi'. apply Hi, H, Hi'.
Qed.

Lemma next_ok id cur t0 b0 kws y s base : R [] y s -> incall id t0 b0 kws s -> (base <= length (ms_heap s))%nat ->
  a_buf y = true ->
  exists s1, R [] (inner true y) s1 /\ incall id t0 b0 (aset cur (a_out y) kws) s1
  /\ above base [id] s s1
  /\ forall k m, pending m = ONormal -> exec m (arg_next id cur k) s = exec MNo k s1.
Proof.
  intros HR (H1 & H2 & H3 & H4) Hb Hbuf. pose proof (body_text _ _ HR) as Ht.
  set (loc' := upd TgCall id (Some (LTrans (length (ms_heap s)))) (upd TgCall id None
                 (upd TgKws id (Some (LKws (aset cur (a_out y) kws))) (ms_loc s)))).
  exists (mkMs (ms_w s) (ms_heap s ++ [[]]) (length (ms_heap s)) (length (ms_heap s)) loc' (ms_filt s) (ms_cur s)
            (ms_buf s) (ms_flts s) (ms_v s) (ms_fname s) (ms_txt s)).
  destruct HR as (Q1 & Q2 & Q3 & Q4 & Q5 & Q6 & Q7 & Q8 & Q9).
  assert (L1 : loc' TgCall id = Some (LTrans (length (ms_heap s)))) by apply upd_same.
  assert (L2 : forall t, tag_eqb TgCall t = false -> tag_eqb TgKws t = false -> loc' t id = ms_loc s t id).
  { intros t Ha Hb'. unfold loc'. rewrite !upd_tag by assumption. reflexivity. }
  split; [|split; [|split]].
  - unfold R, inner. floc. cbn [a_w a_out a_top a_filt a_buf a_flts]. rewrite getvalue_new, app_length. cbn [length app].
    repeat split; auto; try lia; try discriminate.
  - unfold incall. floc. rewrite !L2 by reflexivity. repeat split; auto.
    unfold loc'. rewrite !upd_tag by reflexivity. apply upd_same.
  - unfold above. floc. rewrite app_length. split; [lia|]. split; [intros i Hi; apply getvalue_old; lia|].
    split; [exact Hb|]. intros t i Hi. unfold loc'. rewrite !upd_id by (intros ->; apply Hi; left; reflexivity). reflexivity.
  - intros k m Hm. unfold arg_next. destruct s as [w h tr wr loc f cu bu fl v fn tx]. cbn [ms_loc ms_trans ms_heap] in *.
    eapply exec_cons; [reflexivity|exact Hm|cbn [exec_line]; floc; rewrite H3, H4, Ht; reflexivity|]. symmetry.
    eapply exec_cons; [reflexivity|reflexivity|cbn [exec_line]; floc; rewrite upd_tag by reflexivity; rewrite H4; reflexivity|].
    symmetry. eapply exec_cons; [reflexivity|reflexivity|reflexivity|]. symmetry.
    eapply exec_cons; [reflexivity|reflexivity| |reflexivity].
    cbn [exec_line]. floc. fold loc'. rewrite L1. reflexivity.
Qed.

Definition runs_p (d : bool) (ps : parts) : Prop := forall n id cur k t0 b0 kws y s base kk r,
  ~ In id (ids_p ps) -> R [] y s -> a_buf y = true -> incall id t0 b0 kws s -> (base <= ms_trans s)%nat ->
  (base <= length (ms_heap s))%nat ->
  sem_p K G fuel d ps (aset cur (a_out y) kws) (inner true y) kk = Some r ->
  exists kws' z s', kk kws' z = Some r /\ R [] z s' /\ incall id t0 b0 kws' s' /\ above base (id :: ids_p ps) s s'
  /\ a_filt z = a_filt y /\ forall m, pending m = ONormal -> exec m (prog_p G d n id cur ps k) s = exec MNo k s'.

Lemma plain_next id cur k : plain (arg_next id cur k).
Proof. apply plain_line. reflexivity. Qed.
Lemma plain_prog_p d n id cur ps k : plain (prog_p G d n id cur ps k).
Proof. destruct ps; apply plain_next. Qed.

Lemma runs_p_nil d : runs_p d PNil.
Proof.
  intros n id cur k t0 b0 kws y s base kk r _ HR Hbuf Hin _ Hl H.
  destruct (next_ok id cur t0 b0 kws y s base HR Hin Hl Hbuf) as (s1 & R1 & I1 & A1 & X1).
  exists (aset cur (a_out y) kws), (inner true y), s1. split; [exact H|]. split; [exact R1|]. split; [exact I1|].
  split; [exact A1|]. split; [reflexivity|]. intros m Hm. apply X1. exact Hm.
Qed.
Lemma runs_p_cons d nm b ps : (forall n, runs d b n) -> runs_p d ps -> runs_p d (PCons nm b ps).
Proof.
  intros HB HP n id cur k t0 b0 kws y s base kk r Hid HR Hbuf Hin Hb Hl H.
  cbn [ids_p] in Hid. assert (Hid1 : ~ In id (ids b)) by (intros Hi; apply Hid, in_or_app; auto).
  assert (Hid2 : ~ In id (ids_p ps)) by (intros Hi; apply Hid, in_or_app; auto).
  destruct (next_ok id cur t0 b0 kws y s base HR Hin Hl Hbuf) as (s1 & R1 & I1 & A1 & X1).
  change (text_of_body (sem d b (inner true y)) (fun t y0 => sem_p K G fuel d ps (aset nm t (aset cur (a_out y) kws)) (inner true y0) kk) = Some r) in H.
  unfold text_of_body in H.
  destruct (sem d b (inner true y)) as [[o1 y1]|] eqn:Eb; [|discriminate H]. destruct o1; try discriminate H.
  destruct (HB n [] _ _ _ _ _ Eb R1 (plain_prog_p d (n + reps d b) id nm ps k) MNo eq_refl) as (s2 & R2 & F2 & S2 & X2).
  assert (I2 : incall id t0 b0 (aset cur (a_out y) kws) s2).
  { destruct I1 as (J1 & J2 & J3 & J4). unfold incall. rewrite !(frame_loc _ _ _ _ _ F2 Hid1). repeat split; auto.
    rewrite J4. f_equal. f_equal. symmetry. apply F2. }
  assert (Hb1 : (base <= ms_trans s1)%nat) by apply A1.
  assert (Hl1 : (base <= length (ms_heap s1))%nat) by (destruct A1; lia).
  assert (Hbuf2 : a_buf y1 = true) by (destruct S2 as (_ & S2 & _); rewrite S2; reflexivity).
  assert (Hb2 : (base <= ms_trans s2)%nat) by (destruct F2 as (-> & _); exact Hb1).
  assert (Hl2 : (base <= length (ms_heap s2))%nat) by (destruct F2 as (_ & F2 & _); lia).
  destruct (HP (n + reps d b)%nat id nm k t0 b0 _ y1 s2 base kk r Hid2 R2 Hbuf2 I2 Hb2 Hl2 H)
    as (kws' & z & s3 & H3 & R3 & I3 & A3 & S3 & X3).
  exists kws', z, s3. split; [exact H3|]. split; [exact R3|]. split; [exact I3|]. split; [|split].
  - assert (A1' : above base (id :: ids_p (PCons nm b ps)) s s1).
    { destruct A1 as (C1 & C2 & C3 & C4). repeat split; auto. intros t i Hi. apply C4. cbn. intros [<-|[]].
      apply Hi. left; reflexivity. }
    assert (A2' : above base (id :: ids_p (PCons nm b ps)) s1 s2).
    { apply (frame_above base (ids b) _ s1 s2 F2); try assumption. intros i Hi. right. cbn [ids_p]. apply in_or_app; auto. }
    assert (A3' : above base (id :: ids_p (PCons nm b ps)) s2 s3).
    { destruct A3 as (C1 & C2 & C3 & C4). repeat split; auto. intros t i Hi. apply C4. intros [<-|Hi'];
      apply Hi; [left; reflexivity|right; cbn [ids_p]; apply in_or_app; auto]. }
    exact (above_trans _ _ _ _ _ (above_trans _ _ _ _ _ A1' A2') A3').
  - rewrite S3. destruct S2 as (S2 & _). rewrite S2. reflexivity.
  - intros m Hm. cbn [prog_p]. rewrite X1 by exact Hm. rewrite X2. cbn [fin_k]. apply X3. reflexivity.
Qed.

Lemma callkw_sim d b more n fn args id nm lc a y s kk o a' k k1 m D : (forall i, In i (id :: ids b ++ ids_p more) -> In i D) -> runs d b n -> runs_p d more ->
  ~ In id (ids b) -> ~ In id (ids_p more) -> R [] a s -> sem d b (inner true a) = Some (ONormal, y) ->
  sem_p K G fuel d more [(nm, a_out y)] (inner true (back a y)) (fun kws z =>
      andthen (show K G (o_callkw K fn args kws) [] (back a z)) kk) = Some (o, a') -> pending m = ONormal ->
  (forall a1 s1, R [] a1 s1 -> kk a1 = Some (o, a') -> sim D a1 s1 o a' k (exec MNo k1 s1)) ->
  forall n1, sim D a s o a' k
    (exec m (region_start G (RCall fn args) id lc
        (lines [GKwsNew id; GArgName id nm]
          (prog G d n [] b
            (prog_p G d n1 id nm more
              (call_reset id
                (show_code G (XCallKw fn args id) [] [] None []
                  (CLine (GDel TgKws id) []
                    (call_tail fn id lc k1))))))) CNil) s).
Proof.
  intros HD HB HP Hid1 Hid2 HR Hb Hp Hm Hk n1. unfold region_start.
  destruct (start_ok TgCall (L "## START CALL REGION: " ++ id ++ L " of " ++ fn ++ L " at " ++ at_lc lc
                       ++ L " in the source.") id s (or_intror eq_refl)) as (s1 & En & B1 & L1 & X1).
  rewrite X1 by exact Hm. clear X1. pose proof (enter_R _ _ _ _ _ true En HR B1) as R1.
  pose proof En as (E1 & E2 & E3 & E4 & E5 & E6 & E7 & E8 & E9 & E10).
  set (s1' := set_local TgArgName id (Some (LText nm)) (set_local TgKws id (Some (LKws [])) s1)).
  assert (X1 : forall k, exec MNo (lines [GKwsNew id; GArgName id nm] k) s1 = exec MNo k s1') by reflexivity.
  rewrite X1. clear X1.
  assert (R1' : R [] (inner true a) s1') by exact R1.
  match goal with |- sim _ _ _ _ _ _ (exec MNo (prog G d n [] b ?kb) _) =>
    destruct (HB [] kb _ _ _ _ Hb R1' (plain_prog_p _ _ _ _ _ _) MNo eq_refl) as (s2 & R2 & F2 & S2 & X2) end.
  rewrite X2. cbn [fin_k]. clear X2.
  assert (LL : forall t, ms_loc s2 t id = ms_loc s1' t id) by (intros t; apply (frame_loc _ _ _ _ _ F2 Hid1)).
  assert (LS : forall t, tag_eqb TgArgName t = false -> tag_eqb TgKws t = false -> ms_loc s1' t id = ms_loc s1 t id).
  { intros t Ha Hb'. unfold s1'. floc. rewrite !upd_tag by assumption. reflexivity. }
  assert (Tr2 : ms_trans s2 = length (ms_heap s)) by (destruct F2 as (F2 & _); rewrite F2; exact E3).
  assert (I2 : incall id (ms_trans s) (ms_buf s) [] s2).
  { unfold incall. rewrite !LL, (LS TgOrig), (LS TgBuf), (LS TgCall) by reflexivity. rewrite E8, L1, E9, Tr2. repeat split.
    unfold s1'. floc. rewrite upd_tag by reflexivity. apply upd_same. }
  assert (Hbuf2 : a_buf y = true) by (destruct S2 as (_ & S2 & _); rewrite S2; reflexivity).
  assert (Hl2 : (length (ms_heap s) <= length (ms_heap s2))%nat).
  { destruct F2 as (_ & F2 & _). change (ms_heap s1') with (ms_heap s1) in F2. rewrite E2, app_length in F2. lia. }
  assert (Hin : inner true (back a y) = inner true y).
  { unfold inner, back. cbn. destruct S2 as (S2 & _ & _). cbn in S2. rewrite S2. reflexivity. }
  rewrite Hin in Hp.
  match goal with |- context [prog_p G d n1 id nm more ?kp] =>
    destruct (HP n1 id nm kp (ms_trans s) (ms_buf s) [] y s2 (length (ms_heap s)) _ _ Hid2 R2 Hbuf2 I2
                ltac:(lia) Hl2 Hp) as (kws & z & s3 & H3 & R3 & I3 & A3 & S3 & X3) end.
  rewrite X3 by reflexivity. clear X3. destruct I3 as (J1 & J2 & J3 & J4).
  destruct (reset_ok _ _ _ _ J1 J2) as (s4 & Q1 & Q2 & Q3 & Q4 & Q5 & Q6 & Q7 & Q8 & Q9 & X4).
  rewrite X4 by reflexivity. clear X4.
  pose proof HR as (P1 & P2 & P3 & P4 & P5 & P6 & P7 & P8 & P9).
  assert (HV : forall i, (i < length (ms_heap s))%nat -> getvalue i (ms_heap s4) = getvalue i (ms_heap s)).
  { intros i Hi. rewrite Q2. destruct A3 as (_ & A3 & _). rewrite A3 by exact Hi.
    destruct F2 as (_ & _ & F2 & _). change (ms_heap s1') with (ms_heap s1) in F2. rewrite F2.
    - rewrite E2. apply getvalue_old. exact Hi.
    - rewrite E2, app_length. lia.
    - change (ms_trans s1') with (ms_trans s1). rewrite E3. lia. }
  assert (Hlen : (length (ms_heap s) <= length (ms_heap s4))%nat) by (rewrite Q2; destruct A3 as (A3 & _); lia).
  assert (R4 : R [] (back a z) s4).
  { destruct R3 as (T1 & T2 & T3 & T4 & T5 & T6 & T7 & T8 & T9).
    unfold R, back. cbn [a_w a_out a_top a_filt a_buf a_flts]. rewrite Q3, Q4, Q5, Q6, Q7, Q8, HV by exact P2.
    destruct S2 as (S2 & _). cbn [inner a_filt] in S2. repeat split; auto; try lia; try congruence. }
  assert (F4 : frame D s s4).
  { unfold frame. rewrite Q3. split; [reflexivity|]. split; [exact Hlen|]. split; [intros i Hi _; apply HV; exact Hi|].
    intros t i Hi0. assert (Hi : ~ In i (id :: ids b ++ ids_p more)) by (intros Hi; apply Hi0, HD, Hi).
    assert (Hne : i <> id) by (intros ->; apply Hi; left; reflexivity).
    rewrite Q9 by (left; exact Hne). destruct A3 as (_ & _ & _ & A3). rewrite A3.
    - destruct F2 as (_ & _ & _ & F2). rewrite F2; [|intros Hi'; apply Hi; right; apply in_or_app; auto].
      unfold s1'. floc. rewrite !upd_id by congruence. apply E10. exact Hne.
    - intros [He|Hi']; [congruence|]. apply Hi. right. apply in_or_app; auto. }
  apply (sim_before D a s (back a z) s4 _ _ _ _ F4 (back_same a z)).
  assert (L6 : ms_loc s4 TgKws id = Some (LKws kws)) by (rewrite Q9; [exact J3|right; split; discriminate]).
  assert (Hx : gexp_act K (XCallKw fn args id) s4 = Some (o_callkw K fn args kws)) by (cbn [gexp_act]; rewrite L6; reflexivity).
  change (@nil N) with (all_args G [] []) in H3.
  destruct (show K G (o_callkw K fn args kws) (all_args G [] []) (back a z)) as [[o5 a5]|] eqn:E5'; [|discriminate H3].
  destruct (show_sim _ _ _ _ _ _ _ _ E5' R4 Hx) as (s5 & R5 & F5 & L7 & S5 & X5).
  rewrite X5 by reflexivity. clear X5.
  apply (sim_before D (back a z) s4 a5 s5 _ _ _ _ (frame_nil _ _ _ F5) S5).
  assert (Q : o5 = ONormal \/ (o5 = o /\ a5 = a' /\ o5 <> ONormal)).
  { unfold andthen in H3. destruct o5; auto; right; split; try congruence; split; congruence. }
  destruct Q as [->|(-> & -> & Hn)].
  - cbn [fin_k]. rewrite exec_one by reflexivity. cbn [exec_line]. rewrite L7, L6.
    unfold GenSem_Model.done, call_tail. rewrite !exec_comment by reflexivity.
    apply (sim_before D a5 s5 a5 (set_local TgKws id None s5)); [apply frame_local; apply HD; left; reflexivity|apply same_refl|].
    apply Hk; [exact R5|exact H3].
  - exists s5. split; [exact R5|]. split; [apply frame_refl|]. split; [apply same_refl|].
    destruct o; try reflexivity. contradiction Hn; reflexivity.
Qed.

(** Conditions. *)
Definition is_test (h : head) : bool :=
  match h with HIf _ _ | HHasFilter _ | HIsNew _ | HExpired _ | HFresh _ | HStale _ => true | _ => false end.
Lemma exec_test h nt b r m s : is_test h = true -> pending m = ONormal ->
  exec m (CPart h nt b r) s = head_test K h s (fun t s =>
    if t then match exec MNo b s with Some (ONormal, s) => exec (MIf true) r s | x => x end
    else exec (MIf false) r s).
Proof. intros H Hm. destruct h; try discriminate H; cbn [GenSem_Model.exec]; rewrite Hm; reflexivity. Qed.

(** A filter region. *)
Lemma R_both a (s : mst) f : R [] a s -> R [] (a_set_filt f a) (ms_set_both f s).
Proof. intros (H1 & H2 & H3 & H4 & H5 & H6 & H7 & H8 & H9). unfold R. floc. cbn [a_set_filt a_w a_out a_top a_filt a_buf a_flts]. repeat split; auto. Qed.
Lemma frame_both D (s : mst) f : frame D s (ms_set_both f s).
Proof. unfold frame. floc. repeat split; auto. Qed.

Lemma filter_sim d b n f (klass : bool) id lc a s o a' kk k k1 after m D :
  (forall i, In i (id :: ids b) -> In i D) -> runs d b n -> ~ In id (ids b) -> R [] a s ->
  (fun body : ast -> option (out E * ast) => if klass then ask (o_klass K f) a (fun x a => body (a_set_filt x a))
               else if str_eqb (lower f) (L "none") then None
               else named K f a body)
   (fun x => match sem d b x with
             | Some (ONormal, y) => kk (a_set_filt (a_filt a) y)
             | _ => None
             end) = Some (o, a') -> pending m = ONormal ->
  (forall a1 s1, same a a1 -> R [] a1 s1 -> kk a1 = Some (o, a') -> sim D a1 s1 o a' k (exec MNo k1 s1)) ->
  sim D a s o a' k
    (exec m (region_start G (RFilter f klass) id lc (prog G d n [] b (region_end G (RFilter f klass) id lc k1)) after) s).
Proof.
  intros HD HB Hid HR H Hm Hk. cbv beta in H. unfold region_start, region_end.
  set (kb := CLine (GFiltRest id) [] k1). set (s0 := set_local TgFilt id (Some (LFilt (ms_filt s))) s).
  assert (R0 : R [] a s0) by exact HR.
  assert (L0 : ms_loc s0 TgFilt id = Some (LFilt (ms_filt s))) by (unfold s0; floc; apply upd_same).
  assert (HidD : In id D) by (apply HD; left; reflexivity).
  apply (sim_before D a s a s0); [apply frame_local; exact HidD|apply same_refl|].
  assert (Hf : ms_filt s = a_filt a) by apply HR.
  (* the body and what follows *)
  assert (Body : forall x s1, R [] x s1 -> a_buf x = a_buf a -> a_top x = a_top a ->
    ms_loc s1 TgFilt id = Some (LFilt (ms_filt s)) ->
    match sem d b x with Some (ONormal, y) => kk (a_set_filt (a_filt a) y) | _ => None end = Some (o, a') ->
    exists s', R [] a' s' /\ frame D s1 s' /\ same a a' /\ exec MNo (prog G d n [] b kb) s1 = fin_k o k s').
  { intros x s1 R1 B1 T1 L1 H1. destruct (sem d b x) as [[o2 y]|] eqn:Eb; [|discriminate H1].
    destruct o2; try discriminate H1.
    assert (HP : plain kb) by (apply plain_line; reflexivity).
    destruct (HB [] kb _ _ _ _ Eb R1 HP MNo eq_refl) as (s2 & R2 & F2 & S2 & X2). rewrite X2. cbn [fin_k].
    unfold kb. rewrite exec_one by reflexivity. cbn [exec_line]. rewrite (frame_loc _ _ _ _ _ F2 Hid), L1.
    unfold GenSem_Model.done.
    assert (Sa : same a (a_set_filt (a_filt a) y)).
    { destruct S2 as (_ & S2 & S3). repeat split; cbn; congruence. }
    rewrite Hf. destruct (Hk _ _ Sa (R_both y s2 (a_filt a) R2) H1) as (s3 & R3 & F3 & S3 & X3).
    exists s3. split; [exact R3|]. split; [|split; [exact (same_trans _ _ _ Sa S3)|exact X3]].
    apply (frame_trans D s1 s2); [apply (frame_weak (ids b)); [intros i Hi; apply HD; right; exact Hi|exact F2]|].
    exact (frame_trans _ _ _ _ (frame_both D s2 (a_filt a)) F3). }
  rewrite exec_one by (try exact Hm; reflexivity).
  change (exec_line K (GSaveFilt id) s) with (Some (@ONormal E, s0)).
  destruct klass.
  - rewrite exec_one by reflexivity. cbn [exec_line].
    eapply (sim_ask _ _ _ _ _ s0 _ _ _ (fun f s => exec MNo (prog G d n [] b kb) (ms_set_both f s)) H R0).
    + unfold use. destruct (perform (o_klass K f) s0) as [s1 [x|e]]; reflexivity.
    + intros x a1 s1 R1 H1 F1 K1 S1. pose proof S1 as (_ & S1b & S1c).
      destruct (Body _ _ (R_both a1 s1 x R1) S1b S1c) as (s2 & R2 & F2 & S2 & X2);
        [cbn [ms_loc ms_set_both]; rewrite (kept_loc _ _ K1); exact L0|exact H1|].
      exists s2. split; [exact R2|]. split; [exact (frame_trans _ _ _ _ (frame_both D s1 x) F2)|].
      split; [|exact X2]. destruct S1 as (S1 & S1' & S1''), S2 as (S2 & S2' & S2''). repeat split; congruence.
  - destruct (str_eqb (lower f) (L "none")); [discriminate H|]. rewrite exec_one by reflexivity.
    cbn [exec_line]. unfold GenSem_Model.done. set (s1 := ms_set_fname f s0).
    assert (R1 : R [] a s1) by exact R0.
    apply (sim_before D a s0 a s1); [repeat split; auto|apply same_refl|].
    rewrite exec_test by reflexivity. cbn [head_test]. unfold ahas. unfold named in H.
    replace (ms_flts s1) with (a_flts a) by (symmetry; apply HR).
    destruct (aget f (a_flts a)) as [x|] eqn:Ef.
    + rewrite exec_one by reflexivity. cbn [exec_line]. change (ms_fname s1) with f.
      replace (ms_flts s1) with (a_flts a) by (symmetry; apply HR). rewrite Ef. unfold GenSem_Model.done.
      cbn [GenSem_Model.exec pending].
      destruct (Body _ _ (R_both a s1 x R1) eq_refl eq_refl) as (s2 & R2 & F2 & S2 & X2); [exact L0|exact H|].
      exists s2. split; [exact R2|]. split; [exact (frame_trans _ _ _ _ (frame_both D s1 x) F2)|]. split; [exact S2|exact X2].
    + change (exec (MIf false) (CPart HElse [] (CLine GFiltNew [] CNil) (prog G d n [] b kb)) s1)
        with (match exec MNo (CLine GFiltNew [] CNil) s1 with Some (ONormal, s) => exec MNo (prog G d n [] b kb) s | x => x end).
      rewrite exec_one by reflexivity. cbn [exec_line].
      change (ms_fname s1) with f.
      eapply (sim_ask _ _ _ _ _ s1 _ _ _ (fun f0 s => exec MNo (prog G d n [] b kb)
               (ms_set_both f0 (ms_set_flts (aset (ms_fname s) f0 (ms_flts s)) s))) H R1).
      * unfold use. destruct (perform (o_lib K f) s1) as [s2 [x|e]]; reflexivity.
      * intros x a1 s2 R2 H1 F1 K1 S1. rewrite (kept_fname _ _ K1). change (ms_fname s1) with f.
        replace (ms_flts s2) with (a_flts a1) by (symmetry; apply R2).
        assert (R3 : R [] (a_set_flts (aset f x (a_flts a1)) a1) (ms_set_flts (aset f x (a_flts a1)) s2)).
        { destruct R2 as (Q1 & Q2 & Q3 & Q4 & Q5 & Q6 & Q7 & Q8 & Q9). unfold R. floc.
          cbn [a_set_flts a_w a_out a_top a_filt a_buf a_flts]. repeat split; auto. }
        pose proof S1 as (_ & S1b & S1c).
        destruct (Body _ _ (R_both _ _ x R3) S1b S1c) as (s3 & R4 & F4 & S4 & X4);
          [cbn [ms_loc ms_set_both ms_set_flts]; rewrite (kept_loc _ _ K1); exact L0|exact H1|].
        exists s3. split; [exact R4|]. split; [|split; [|exact X4]].
        -- eapply frame_trans; [|exact F4]. unfold frame. floc. repeat split; auto.
        -- destruct S1 as (S1 & S1' & S1''), S4 as (S4 & S4' & S4''). repeat split; congruence.
Qed.

(** ** A cache region *)
Lemma use_bind {A} (x : act A) s mk (f : mst -> option (out E * mst)) :
  match use x s mk with Some (ONormal, s) => f s | y => y end
  = use x s (fun v s => match mk v s with Some (ONormal, s) => f s | y => y end).
Proof. unfold use. destruct (perform x s) as [s1 [v|e]]; reflexivity. Qed.

Definition cache_suite (i : pystr) (iv : option pystr) (body : code) : code :=
  lines ([GSaveTrans i; GCollect TgCache i; GWriteTo TgCache i]
         ++ match iv with Some n => [GExpiry i n] | None => [] end) body.
Definition cache_end (i : pystr) : code :=
  lines [GRestTrans i; GWriteTrans; GData i; GSetData i; GWriteData; GDelData; GDel TgCache i; GDel TgOrig i] CNil.

Definition fresh_eff (d : bool) (b : tm) (i : pystr) (iv : option pystr) (a0 : ast)
    (k : ast -> option (out E * ast)) : option (out E * ast) :=
  (fun k' => match iv with
             | Some n => match go (o_cache K (QExpiry i n)) (inner false a0) with
                         | Some (x, Ok _) => k' x
                         | _ => None
                         end
             | None => k' (inner false a0)
             end)
  (fun x => text_of_body (sem d b x) (fun t y =>
              cached K (QSet i t) (back a0 y) (fun _ z => k (emit t z)))).

Lemma start_cache i s : exists s1, entered TgCache i s s1 /\ ms_buf s1 = ms_buf s
  /\ forall k, exec MNo (lines [GSaveTrans i; GCollect TgCache i; GWriteTo TgCache i] k) s = exec MNo k s1.
Proof.
  destruct s as [w h tr wr loc f cu bu fl v fn tx].
  set (loc3 := upd TgCache i (Some (LTrans (length h))) (upd TgOrig i (Some (LTrans tr)) loc)).
  exists (mkMs w (h ++ [[]]) (length h) (length h) loc3 f cu bu fl v fn tx).
  assert (L1 : loc3 TgCache i = Some (LTrans (length h))) by apply upd_same.
  split; [|split; [reflexivity|]].
  - unfold entered. floc. repeat split; auto; [|intros t j Hj; unfold loc3; rewrite !upd_id by congruence; reflexivity].
    unfold loc3. rewrite upd_tag by reflexivity. apply upd_same.
  - intros k. eapply exec_cons; [reflexivity|reflexivity|reflexivity|]. symmetry.
    eapply exec_cons; [reflexivity|reflexivity|reflexivity|]. symmetry.
    eapply exec_cons; [reflexivity|reflexivity| |reflexivity]. cbn [exec_line]. floc. fold loc3. rewrite L1. reflexivity.
Qed.

Lemma fresh_sim d b n i iv a s kk o a' k (f : mst -> option (out E * mst)) D :
  (forall j, In j (i :: ids b) -> In j D) -> runs d b n -> ~ In i (ids b) -> R [] a s ->
  fresh_eff d b i iv a kk = Some (o, a') ->
  (forall a1 s1, same a a1 -> R [] a1 s1 -> kk a1 = Some (o, a') -> sim D a1 s1 o a' k (f s1)) ->
  sim D a s o a' k (match exec MNo (cache_suite i iv (prog G d n [] b (cache_end i))) s with
                    | Some (ONormal, s) => f s | x => x end).
Proof.
  intros HD HB Hid HR H Hk. unfold fresh_eff in H. cbv beta in H. unfold cache_suite.
  assert (HiD : In i D) by (apply HD; left; reflexivity).
  destruct (start_cache i s) as (s1 & En & B1 & X1).
  pose proof (enter_R _ _ _ _ _ false En HR B1) as R1.
  pose proof En as (E1 & E2 & E3 & E4 & E5 & E6 & E7 & E8 & E9 & E10).
  set (k' := fun x => text_of_body (sem d b x) (fun t y => cached K (QSet i t) (back a y) (fun _ z => kk (emit t z)))) in *.
  assert (Q : exists x s2, k' x = Some (o, a') /\ R [] x s2 /\ frame [] s1 s2 /\ kept s1 s2 /\ same (inner false a) x
    /\ exec MNo (lines ([GSaveTrans i; GCollect TgCache i; GWriteTo TgCache i]
         ++ match iv with Some n => [GExpiry i n] | None => [] end) (prog G d n [] b (cache_end i))) s
       = exec MNo (prog G d n [] b (cache_end i)) s2).
  { destruct iv as [nn|].
    - destruct (go (o_cache K (QExpiry i nn)) (inner false a)) as [[x [u|e]]|] eqn:Eg; try discriminate H.
      destruct (go_perform _ _ _ _ _ Eg R1) as (s2 & P2 & R2 & F2 & K2). exists x, s2.
      split; [exact H|]. split; [exact R2|]. split; [exact F2|]. split; [exact K2|]. split; [exact (go_same _ _ _ _ Eg)|].
      change (lines ([GSaveTrans i; GCollect TgCache i; GWriteTo TgCache i] ++ [GExpiry i nn]) ?kb)
        with (lines [GSaveTrans i; GCollect TgCache i; GWriteTo TgCache i] (CLine (GExpiry i nn) [] kb)).
      rewrite X1. rewrite exec_one by reflexivity. cbn [exec_line]. rewrite (use_perform _ _ _ _ _ P2). reflexivity.
    - exists (inner false a), s1. split; [exact H|]. split; [exact R1|]. split; [apply frame_refl|].
      split; [exists (ms_w s1), (ms_heap s1); destruct s1; reflexivity|]. split; [apply same_refl|]. apply X1. }
  destruct Q as (x & s2 & H2 & R2 & F2 & K2 & S2 & X2). rewrite X2. clear X1 X2 H. unfold k' in H2. clear k'.
  unfold text_of_body in H2. destruct (sem d b x) as [[o3 y]|] eqn:Eb; [|discriminate H2].
  destruct o3; try discriminate H2.
  assert (HP : plain (cache_end i)) by (apply plain_line; reflexivity).
  destruct (HB [] (cache_end i) _ _ _ _ Eb R2 HP MNo eq_refl) as (s3 & R3 & F3 & S3 & X3). rewrite X3. cbn [fin_k]. clear X3.
  assert (LL : forall t, ms_loc s3 t i = ms_loc s1 t i).
  { intros t. rewrite (frame_loc _ _ _ _ _ F3 Hid), (kept_loc _ _ K2). reflexivity. }
  set (s4 := ms_set_write (ms_trans s) (ms_set_trans (ms_trans s) s3)).
  assert (F13 : frame (ids b) s1 s3) by (eapply frame_trans; [apply frame_nil; exact F2|exact F3]).
  pose proof (same_trans _ _ _ S2 S3) as S13.
  assert (Hbuf : ms_buf s4 = a_buf a).
  { change (ms_buf s4) with (ms_buf s3). replace (ms_buf s3) with (a_buf y) by (symmetry; apply R3).
    destruct S13 as (_ & S13 & _). rewrite S13. reflexivity. }
  destruct (leave_R _ _ _ _ _ _ _ _ s4 _ En HR R3 F13 S13 eq_refl eq_refl eq_refl eq_refl eq_refl eq_refl eq_refl Hbuf
              (fun _ _ _ => eq_refl)) as [R4 F4].
  assert (Ht : getvalue (length (ms_heap s)) (ms_heap s3) = a_out y).
  { rewrite <- E3. replace (ms_trans s1) with (ms_trans s3) by apply F13. apply body_text. exact R3. }
  set (s5 := ms_set_txt (Some (a_out y)) s4).
  assert (R5 : R [] (back a y) s5) by exact R4.
  assert (F5 : frame D s s5).
  { apply (frame_weak (i :: ids b)); [exact HD|]. exact F4. }
  apply (sim_before D a s (back a y) s5 _ _ _ _ F5 (back_same a y)).
  assert (X5 : exec MNo (cache_end i) s3
    = use (o_cache K (QSet i (a_out y))) s5 (fun _ s => exec MNo (lines [GWriteData; GDelData; GDel TgCache i; GDel TgOrig i] CNil) s)).
  { unfold cache_end.
    eapply exec_cons; [reflexivity|reflexivity|cbn [exec_line]; rewrite LL, E8; reflexivity|]. symmetry.
    eapply exec_cons; [reflexivity|reflexivity|reflexivity|]. symmetry.
    eapply exec_cons; [reflexivity|reflexivity|cbn [exec_line]; floc; rewrite LL, E9, Ht; reflexivity|]. symmetry.
    change (lines (GSetData i :: ?l) ?kb) with (CLine (GSetData i) [] (lines l kb)).
    rewrite exec_one by reflexivity. cbn [exec_line ms_txt ms_set_txt]. fold s4. fold s5.
    rewrite use_bind. unfold use. destruct (perform (o_cache K (QSet i (a_out y))) s5) as [s6 [u|e]]; reflexivity. }
  rewrite X5, use_bind. clear X5.
  eapply (sim_ask _ _ _ _ _ s5 _ _ _ _ H2 R5 eq_refl).
  intros u a6 s6 R6 H6 F6 K6 S6. cbv beta.
  assert (T6 : ms_txt s6 = Some (a_out y)) by (rewrite (kept_txt _ _ K6); reflexivity).
  assert (L6 : forall t, ms_loc s6 t i = ms_loc s1 t i) by (intros t; rewrite (kept_loc _ _ K6); apply LL).
  set (s7 := write (a_out y) s6).
  pose proof (R_write _ _ (a_out y) R6) as R7. fold s7 in R7.
  pose proof (frame_write _ _ (a_out y) R6) as F7. fold s7 in F7.
  set (s8 := ms_set_txt None s7).
  destruct (dels_ok i [TgCache; TgOrig] ltac:(repeat constructor; cbn; intuition discriminate) s8) as (l' & L' & X').
  { intros t [<-|[<-|[]]]; unfold s8, s7, write; floc; rewrite L6, ?E8, ?E9; discriminate. }
  cbn [map] in X'.
  assert (X8 : exec MNo (lines [GWriteData; GDelData; GDel TgCache i; GDel TgOrig i] CNil) s6 = Some (ONormal, ms_set_loc l' s8)).
  { eapply exec_cons; [reflexivity|reflexivity|cbn [exec_line]; rewrite T6; reflexivity|]. symmetry.
    eapply exec_cons; [reflexivity|reflexivity|cbn [exec_line write ms_txt ms_set_heap]; rewrite T6; reflexivity|]. symmetry.
    fold s7. fold s8. rewrite X' by (try reflexivity; discriminate). reflexivity. }
  rewrite X8. clear X8 X'.
  apply (sim_before D a6 s6 (emit (a_out y) a6) (ms_set_loc l' s8)).
  - apply (frame_trans D s6 s7); [apply frame_nil; exact F7|]. apply (frame_trans D s7 s8); [repeat split; auto|].
    apply frame_set_loc. intros t j Hj. apply L'. intros ->. apply Hj. exact HiD.
  - repeat split.
  - apply Hk; [|exact R7|exact H6]. exact (same_trans _ _ _ (back_same a y) (same_trans _ _ _ S6 (conj eq_refl (conj eq_refl eq_refl)))).
Qed.

Lemma step_stale {A} (x : act A) (g : A -> bool) h i old a s kk o a' D k r m :
  In i D -> R [] a s -> ms_loc s TgRecache i = Some (LBool old) -> is_test h = true ->
  (forall s kk, head_test K h s kk = use x s (fun v s => kk (g v) s)) -> plain r -> pending m = ONormal ->
  ask x a kk = Some (o, a') ->
  (forall v a1 s1, R [] a1 s1 -> same a a1 -> kk v a1 = Some (o, a') ->
     ms_loc s1 TgRecache i = Some (LBool (old || g v)) -> sim D a1 s1 o a' k (exec MNo r s1)) ->
  sim D a s o a' k (exec m (CPart h [] (CLine (GRecache i true) [] CNil) r) s).
Proof.
  intros Hi HR HL Ht Hh Hr Hm H Hk. rewrite exec_test by assumption. rewrite Hh.
  eapply (sim_ask _ _ _ _ _ s _ _ _ _ H HR eq_refl). intros v a1 s1 R1 H1 F1 K1 S1. cbv beta.
  specialize (Hk v a1). destruct (g v).
  - set (s2 := set_local TgRecache i (Some (LBool true)) s1).
    change (exec MNo (CLine (GRecache i true) [] CNil) s1) with (Some (@ONormal E, s2)).
    apply (sim_before D a1 s1 a1 s2); [apply frame_local; exact Hi|apply same_refl|].
    rewrite plain_normal by (try exact Hr; reflexivity). apply Hk; try assumption.
    rewrite orb_true_r. unfold s2. floc. apply upd_same.
  - rewrite plain_normal by (try exact Hr; reflexivity). apply Hk; try assumption.
    rewrite orb_false_r, (kept_loc _ _ K1). exact HL.
Qed.

Lemma after_run i rest m s : plain rest -> pending m = ONormal ->
  exec m (lines [GComment (L "## END CACHE REGION: " ++ i); GBlank] rest) s = exec MNo rest s.
Proof. intros H Hm. rewrite !exec_comment by reflexivity. apply plain_normal; assumption. Qed.

Lemma cache_sim d b n ci id lc a s o a' kk k rest m D :
  let i := rid (RCache ci) id in
  (forall j, In j (i :: ids b) -> In j D) -> runs d b n -> ~ In i (ids b) -> R [] a s -> plain rest ->
  stale K G ci i a (fun old a =>
        if old then fresh_eff d b i (ci_interval ci) a kk
        else cached K (QRefresh i) a (fun ref a =>
          if fst ref then
            match go (o_cache K (QRender i)) a with
            | Some (a, Ok x) =>
                cached K (QRefresh i) (emit (snd x) a) (fun ref a =>
                  if fst ref then kk a else fresh_eff d b i (ci_interval ci) a kk)
            | Some (a, Raise e) => if o_keyerr K e then fresh_eff d b i (ci_interval ci) a kk else Some (ORaise e, a)
            | None => None
            end
          else cached K (QRefresh i) a (fun ref a =>
                 if fst ref then kk a else fresh_eff d b i (ci_interval ci) a kk))) = Some (o, a') ->
  pending m = ONormal ->
  (forall a1 s1, R [] a1 s1 -> kk a1 = Some (o, a') -> sim D a1 s1 o a' k (exec MNo rest s1)) ->
  sim D a s o a' k
    (exec m (region_start G (RCache ci) id lc (prog G d n [] b (region_end G (RCache ci) id lc (region_after (RCache ci) id rest)))
               (region_after (RCache ci) id rest)) s).
Proof.
  intros i HD HB Hid HR Hrest H Hm Hk.
  assert (HiD : In i D) by (apply HD; left; reflexivity).
  unfold region_start, region_end, region_after.
  change (match ci_id ci with Some (c :: r) => c :: r | _ => id end) with i. cbv zeta.
  set (after := lines [GComment (L "## END CACHE REGION: " ++ i); GBlank] rest).
  assert (Hafter : forall m s, pending m = ONormal -> exec m after s = exec MNo rest s).
  { intros m0 s0 Hm0. apply after_run; assumption. }
  fold (cache_end i).
  change (lines ([GSaveTrans i; GCollect TgCache i; GWriteTo TgCache i]
                 ++ match ci_interval ci with Some n => [GExpiry i n] | None => [] end)
            (prog G d n [] b (cache_end i)))
    with (cache_suite i (ci_interval ci) (prog G d n [] b (cache_end i))).
  set (suite := cache_suite i (ci_interval ci) (prog G d n [] b (cache_end i))).
  set (st := CLine (GRecache i true) [] CNil).
  set (part2 := CPart (HStale i) [] suite after).
  set (try_ := CPart HTry [] (CLine (GRender i) [] CNil)
         (CPart HKeyErr [] st
         (CPart HElse [] (lines [GWriteOut; GDelOut] CNil) CNil))).
  set (part1 := CPart (HFresh i) [] try_ part2).
  (* the body is run *)
  assert (Hfresh : forall a1 s1, R [] a1 s1 -> fresh_eff d b i (ci_interval ci) a1 kk = Some (o, a') ->
    sim D a1 s1 o a' k (match exec MNo suite s1 with Some (ONormal, s) => exec (MIf true) after s | x => x end)).
  { intros a1 s1 R1 H1. apply (fresh_sim d b n i (ci_interval ci) a1 s1 kk o a' k); try assumption.
    intros a2 s2 _ R2 H2. rewrite Hafter by reflexivity. apply Hk; assumption. }
  (* the second question *)
  assert (Hask2 : forall m a1 s1, pending m = ONormal -> R [] a1 s1 -> ms_loc s1 TgRecache i = Some (LBool false) ->
    cached K (QRefresh i) a1 (fun ref a => if fst ref then kk a else fresh_eff d b i (ci_interval ci) a kk) = Some (o, a') ->
    sim D a1 s1 o a' k (exec m part2 s1)).
  { intros m1 a1 s1 Hm1 R1 L1 H1. unfold part2. rewrite exec_test by (try exact Hm1; reflexivity).
    cbn [head_test]. rewrite L1.
    eapply (sim_ask _ _ _ _ _ s1 _ _ _ _ H1 R1 eq_refl). intros v a2 s2 R2 H2 F2 K2 S2. cbv beta.
    destruct (fst v); cbn [negb].
    - rewrite Hafter by reflexivity. apply Hk; assumption.
    - apply Hfresh; assumption. }
  assert (Hdo2 : forall m a1 s1, pending m = ONormal -> R [] a1 s1 -> ms_loc s1 TgRecache i = Some (LBool true) ->
    fresh_eff d b i (ci_interval ci) a1 kk = Some (o, a') -> sim D a1 s1 o a' k (exec m part2 s1)).
  { intros m1 a1 s1 Hm1 R1 L1 H1. unfold part2. rewrite exec_test by (try exact Hm1; reflexivity).
    cbn [head_test]. rewrite L1. apply Hfresh; assumption. }
  (* from the first question on *)
  assert (Htail : forall old a1 s1, R [] a1 s1 -> ms_loc s1 TgRecache i = Some (LBool old) ->
    (if old then fresh_eff d b i (ci_interval ci) a1 kk
     else cached K (QRefresh i) a1 (fun ref a =>
          if fst ref then
            match go (o_cache K (QRender i)) a with
            | Some (a, Ok x) =>
                cached K (QRefresh i) (emit (snd x) a) (fun ref a =>
                  if fst ref then kk a else fresh_eff d b i (ci_interval ci) a kk)
            | Some (a, Raise e) => if o_keyerr K e then fresh_eff d b i (ci_interval ci) a kk else Some (ORaise e, a)
            | None => None
            end
          else cached K (QRefresh i) a (fun ref a =>
                 if fst ref then kk a else fresh_eff d b i (ci_interval ci) a kk))) = Some (o, a') ->
    sim D a1 s1 o a' k (exec MNo part1 s1)).
  { intros old a1 s1 R1 L1 H1. unfold part1. rewrite exec_test by reflexivity. cbn [head_test]. rewrite L1.
    destruct old; [apply Hdo2; try assumption; reflexivity|].
    eapply (sim_ask _ _ _ _ _ s1 _ _ _ _ H1 R1 eq_refl). intros v a2 s2 R2 H2 F2 K2 S2. cbv beta.
    assert (L2 : ms_loc s2 TgRecache i = Some (LBool false)) by (rewrite (kept_loc _ _ K2); exact L1).
    destruct (fst v); [|apply Hask2; try assumption; reflexivity].
    destruct (go (o_cache K (QRender i)) a2) as [[a3 r3]|] eqn:Eg; [|discriminate H2].
    destruct (go_perform _ _ _ _ _ Eg R2) as (s3 & P3 & R3 & F3 & K3).
    assert (X3 : exec MNo try_ s2 = match r3 with
      | Ok x => Some (ONormal, ms_set_txt None (write (snd x) (ms_set_txt (Some (snd x)) s3)))
      | Raise e => if o_keyerr K e then Some (ONormal, set_local TgRecache i (Some (LBool true)) s3) else Some (ORaise e, s3)
      end).
    { unfold try_, st. cbn [GenSem_Model.exec pending remark exec_line lines fold_right]. rewrite (use_perform _ _ _ _ _ P3).
      destruct r3 as [x|e]; cbn [GenSem_Model.done head_catch].
      - cbn [GenSem_Model.exec remark pending exec_line ms_txt ms_set_txt write ms_set_heap]. reflexivity.
      - destruct (o_keyerr K e); cbn [GenSem_Model.exec remark pending exec_line]; reflexivity. }
    rewrite X3. clear X3. apply (sim_before D a2 s2 a3 s3); [apply frame_nil; exact F3|exact (go_same _ _ _ _ Eg)|].
    assert (L3 : ms_loc s3 TgRecache i = Some (LBool false)) by (rewrite (kept_loc _ _ K3); exact L2).
    destruct r3 as [x|e].
    - set (s4 := ms_set_txt None (write (snd x) (ms_set_txt (Some (snd x)) s3))).
      assert (R4 : R [] (emit (snd x) a3) s4) by exact (R_write a3 (ms_set_txt (Some (snd x)) s3) (snd x) R3).
      assert (F4 : frame [] s3 s4) by exact (frame_write a3 (ms_set_txt (Some (snd x)) s3) (snd x) R3).
      apply (sim_before D a3 s3 (emit (snd x) a3) s4); [apply frame_nil; exact F4|repeat split|].
      apply Hask2; [reflexivity|exact R4|exact L3|exact H2].
    - destruct (o_keyerr K e).
      + set (s4 := set_local TgRecache i (Some (LBool true)) s3).
        apply (sim_before D a3 s3 a3 s4); [apply frame_local; exact HiD|apply same_refl|].
        apply Hdo2; [reflexivity|exact R3| |exact H2]. unfold s4. floc. apply upd_same.
      + injection H2 as <- <-. exists s3. split; [exact R3|]. split; [apply frame_refl|]. split; [apply same_refl|reflexivity]. }
  unfold stale in H.
  (* up to the first question *)
  rewrite !exec_comment by reflexivity.
  set (s0 := set_local TgRecache i (Some (LBool false)) s).
  assert (R0 : R [] a s0) by exact HR.
  assert (L0 : ms_loc s0 TgRecache i = Some (LBool false)) by (unfold s0; floc; apply upd_same).
  apply (sim_before D a s a s0); [apply frame_local; exact HiD|apply same_refl|].
  match goal with |- sim _ _ _ _ _ _ (exec m (lines [_; ?l2] ?kr) s) =>
    change (lines [GRecache i false; l2] kr) with (CLine (GRecache i false) [] (CLine l2 [] kr)) end.
  rewrite exec_one by (try exact Hm; reflexivity).
  change (exec_line K (GRecache i false) s) with (Some (@ONormal E, s0)). cbv match.
  rewrite exec_one by reflexivity. cbn [exec_line]. rewrite use_bind.
  eapply (sim_ask _ _ _ _ _ s0 _ _ _ _ H R0 eq_refl). intros v1 a1 s1 R1 H1 F1 K1 S1. cbv beta. unfold GenSem_Model.done at 1.
  set (s1' := set_local TgRegion i (Some (LText [])) s1).
  apply (sim_before D a1 s1 a1 s1'); [apply frame_local; exact HiD|apply same_refl|].
  assert (L1 : ms_loc s1' TgRecache i = Some (LBool false)).
  { unfold s1'. floc. rewrite upd_tag by reflexivity. rewrite (kept_loc _ _ K1). exact L0. }
  unfold cached in H1 at 1.
  refine (step_stale (o_cache K (QIsNew i)) fst (HIsNew i) i false a1 s1' _ o a' D k _ MNo HiD R1 L1 eq_refl
            (fun _ _ => eq_refl) _ eq_refl H1 _); [apply plain_line; reflexivity|].
  intros v2 a2 s2 R2 S2 H2 L2. cbn [orb] in L2.
  rewrite exec_one by reflexivity. cbn [exec_line]. rewrite use_bind.
  eapply (sim_ask _ _ _ _ _ s2 _ _ _ _ H2 R2 eq_refl). intros v3 a3 s3 R3 H3 F3 K3 S3. cbv beta. unfold GenSem_Model.done at 1.
  set (s3' := set_local TgItem i (Some (LText [])) s3).
  apply (sim_before D a3 s3 a3 s3'); [apply frame_local; exact HiD|apply same_refl|].
  assert (L3 : ms_loc s3' TgRecache i = Some (LBool (fst v2))).
  { unfold s3'. floc. rewrite upd_tag by reflexivity. rewrite (kept_loc _ _ K3). exact L2. }
  unfold cached in H3 at 1.
  assert (Hpp : plain part1) by (apply plain_part; reflexivity).
  refine (step_stale (o_cache K (QExpired i)) fst (HExpired i) i (fst v2) a3 s3' _ o a' D k _ MNo HiD R3 L3 eq_refl
            (fun _ _ => eq_refl) _ eq_refl H3 _);
    [destruct (ci_test ci) as [[|]|]; [exact Hpp|apply plain_part; reflexivity|exact Hpp]|].
  intros v4 a4 s4 R4 S4 H4 L4. cbv zeta in H4.
  destruct (ci_test ci) as [[|c0 r0]|]; [apply (Htail _ _ _ R4 L4 H4)| |apply (Htail _ _ _ R4 L4 H4)].
  refine (step_stale (o_test K (c0 :: r0)) (fun t => t) (HIf false (c0 :: r0)) i _ a4 s4 _ o a' D k _ MNo HiD R4 L4 eq_refl
            _ Hpp eq_refl H4 _).
  { intros s5 kk5. cbn [head_test]. unfold use. destruct (perform (o_test K (c0 :: r0)) s5) as [s6 [[]|e]]; reflexivity. }
  intros v5 a5 s5 R5 S5 H5 L5. apply (Htail _ _ _ R5 L5 H5).
Qed.

(** ** All together *)
Lemma sem_eq d t a : sem d t a =
  match t with
  | TNil => fin a
  | TText s cut r => sem d r (emit (text_of s cut) a)
  | TRem _ r | TSlurp r => sem d r a
  | TPlace e fa raw _ sil r =>
      let x := show K G (o_eval K e) (all_args G fa raw) a in
      andthen (match x with
               | Some (ORaise ex, a) => if sil && o_notfound K ex then fin a else x
               | _ => x
               end) (sem d r)
  | TExpr k e r =>
      andthen (match k with
               | KEcho => show K G (o_eval K e) [] a
               | KStop => Some (OStop (a_out a), a)
               | _ => doing K e a
               end) (sem d r)
  | TSet g lv op rv r =>
      andthen (doing K (if g then set_global_text lv op rv
                      else lv ++ L " " ++ op ++ L " " ++ strip rv) a) (sem d r)
  | TTern c x y _ r =>
      andthen (ask (o_test K c) a (fun b a => show K G (o_eval K (if b then x else y)) [] a)) (sem d r)
  | TBlk _ o _ b ms r =>
      andthen
        (match o with
         | BIf e => ask (o_test K e) a (fun t a =>
                      if t then andthen (sem d b a) (sem_m K G fuel d (MIf true) ms)
                      else sem_m K G fuel d (MIf false) ms a)
         | BUnless e => ask (o_test K e) a (fun t a =>
                      if negb t then andthen (sem d b a) (sem_m K G fuel d (MIf true) ms)
                      else sem_m K G fuel d (MIf false) ms a)
         | BTry => match sem d b a with
                   | Some (x, a) => sem_m K G fuel d (MTry x false) ms a
                   | None => None
                   end
         | BFor t e => ask (o_iter K e) a (fun i a =>
                      andthen (loop fuel (fun i a => go (o_next K t i) a) (sem d b) i a)
                              (sem_m K G fuel d MNo ms))
         | BRepeat e => ask (o_count K e) a (fun n a =>
                      andthen (loop fuel (fun n a => Some (a, Ok (match n with O => None | S n => Some n end)))
                                    (sem d b) n a) (sem_m K G fuel d MNo ms))
         | BWhile e =>
             andthen (loop fuel (fun (_ : unit) a =>
                        match go (o_test K e) a with
                        | Some (a, Ok t) => Some (a, Ok (if t then Some tt else None))
                        | Some (a, Raise x) => Some (a, Raise x)
                        | None => None
                        end) (sem d b) tt a) (sem_m K G fuel d MNo ms)
         end)
        (sem d r)
  | TReg _ (RCapture v) _ _ b r =>
      text_of_body (sem d b (inner true a)) (fun t b =>
        andthen (ask (o_assign K v t) (back a b) (fun _ a => fin a)) (sem d r))
  | TReg _ (RCall fn args) _ _ b r =>
      text_of_body (sem d b (inner true a)) (fun t b =>
        andthen (show K G (o_call K fn args t) [] (back a b)) (sem d r))
  | TReg _ (RFilter f klass) _ _ b r =>
      (fun body => if klass then ask (o_klass K f) a (fun x a => body (a_set_filt x a))
                   else if str_eqb (lower f) (L "none") then None
                   else named K f a body)
      (fun x => match sem d b x with
                | Some (ONormal, y) => sem d r (a_set_filt (a_filt a) y)
                | _ => None
                end)
  | TReg _ (RCache ci) id _ b r =>
      let i := match ci_id ci with Some (c :: rest) => c :: rest | _ => id end in
      
      let fresh a0 k :=
        (fun k' => match ci_interval ci with
                   | Some n => match go (o_cache K (QExpiry i n)) (inner false a0) with
                               | Some (x, Ok _) => k' x
                               | _ => None
                               end
                   | None => k' (inner false a0)
                   end)
        (fun x => text_of_body (sem d b x) (fun t y =>
                    cached K (QSet i t) (back a0 y) (fun _ z => k (emit t z)))) in
      GenSem_Spec.stale K G ci i a (fun old a =>
        if old then fresh a (sem d r)
        else cached K (QRefresh i) a (fun ref a =>
          if fst ref then
            match go (o_cache K (QRender i)) a with
            | Some (a, Ok x) =>
                
                cached K (QRefresh i) (emit (snd x) a) (fun ref a =>
                  if fst ref then sem d r a else fresh a (sem d r))
            | Some (a, Raise e) => if o_keyerr K e then fresh a (sem d r) else Some (ORaise e, a)
            | None => None
            end
          else cached K (QRefresh i) a (fun ref a =>
                 if fst ref then sem d r a else fresh a (sem d r))))
  | TCall fn args _ _ n b more r =>
      text_of_body (sem d b (inner true a)) (fun t y =>
        sem_p K G fuel d more [(n, t)] (inner true (back a y)) (fun kws z =>
          andthen (show K G (o_callkw K fn args kws) [] (back a z)) (sem d r)))
  | TDef _ o name _ _ _ r =>
      match o with
      | DBlock => andthen (ask (o_block K name) a (fun t a => fin (emit t a))) (sem d r)
      | _ => if own_method d o then sem d r a else None
      end
  end.
Proof. destruct t; reflexivity. Qed.
Lemma sem_m_eq d m ms a : sem_m K G fuel d m ms a =
  match ms with
  | MNil => Some (pending m, a)
  | MCons x _ b r =>
      match x, m with
      | MElif _, MIf true => sem_m K G fuel d m r a
      | MElif e, MIf false =>
          ask (o_test K e) a (fun t a =>
            if t then andthen (sem d b a) (sem_m K G fuel d (MIf true) r) else sem_m K G fuel d m r a)
      | MElse, MIf true => sem_m K G fuel d MNo r a
      | MElse, MIf false => andthen (sem d b a) (sem_m K G fuel d MNo r)
      | MElse, MTry ONormal false =>
          match sem d b a with Some (o, a) => sem_m K G fuel d (MTry o true) r a | None => None end
      | MElse, MTry o _ => sem_m K G fuel d (MTry o true) r a
      | MExcept c, MTry (ORaise e) false =>
          ask (o_catch K c e) a (fun t a =>
            if t then match sem d b a with Some (o, a) => sem_m K G fuel d (MTry o true) r a | None => None end
            else sem_m K G fuel d m r a)
      | MExcept _, MTry _ _ => sem_m K G fuel d m r a
      | MFinally, MTry o _ =>
          match sem d b a with
          | Some (ONormal, a) => sem_m K G fuel d (MTry o true) r a
          | Some (o', a) => sem_m K G fuel d (MTry o' true) r a
          | None => None
          end
      | _, _ => None
      end
  end.
Proof. destruct ms; reflexivity. Qed.
Lemma prog_eq d n p t k : prog G d n p t k =
  match t with
  | TNil => flush p k
  | TText s cut r => prog G d n (p ++ text_of s cut) r k
  | TRem s r =>
      flush p (CLine (GComment (L "#" ++ repeat 32%N (g_offset G) ++ s)) [] (prog G d n [] r k))
  | TSlurp r => flush p (prog G d n [] r k)
  | TPlace e fa raw lc sil r =>
      let tail := if g_rowcol G then L " # from " ++ at_lc lc ++ L "." else [] in
      let k' := prog G d n [] r k in
      flush p
       (if sil then CPart HTry [] (show_code G (XUser e) fa raw (Some lc) [] CNil)
                     (CPart HNotFound tail CNil k')
        else show_code G (XUser e) fa raw (Some lc) tail k')
  | TExpr x e r =>
      let k' := prog G d n [] r k in
      flush p (match x with
               | KEcho => show_code G (XUser e) [] [] None [] k'
               | KStop => CLine GStop [] k'
               | _ => CLine (GStmt e) [] k'
               end)
  | TSet g lv op rv r =>
      flush p (CLine (GStmt (if g then set_global_text lv op rv
                             else lv ++ L " " ++ op ++ L " " ++ strip rv)) [] (prog G d n [] r k))
  | TTern c a b lc r =>
      flush p (CPart (HIf false c) (gen_from lc) (show_code G (XUser a) [] [] None [] CNil)
              (CPart HElse [] (show_code G (XUser b) [] [] None [] CNil) (prog G d n [] r k)))
  | TBlk _ o lc b ms r =>
      let n1 := n + bop_count o in
      let n2 := n1 + reps d b in
      flush p (CPart (bop_head n o) (bop_note o lc) (prog G d n1 [] b CNil)
              (prog_m G d n2 ms (prog G d (n2 + reps_m d ms) [] r k)))
  | TReg _ o id lc b r =>
      let rest := region_after o id (prog G d (n + reps d b) [] r k) in
      flush p (region_start G o id lc (prog G d n [] b (region_end G o id lc rest)) rest)
  | TCall fn args id lc a b more r =>
      let n1 := n + reps d b in
      flush p (region_start G (RCall fn args) id lc
        (lines [GKwsNew id; GArgName id a]
          (prog G d n [] b
            (prog_p G d n1 id a more
              (call_reset id
                (show_code G (XCallKw fn args id) [] [] None []
                  (CLine (GDel TgKws id) []
                    (call_tail fn id lc (prog G d (n1 + reps_p d more) [] r k)))))))) CNil)
  | TDef _ o name args rem b r =>
      match o with
      | DBlock => flush p (CLine (GCallBlock name) [] (prog G d n [] r k))
      | _ =>
          if own_method d o then prog G d n p r k
          else flush p (CPart (HDef name args) []
                          (CLine (GComment (L "#" ++ rem)) [] (prog G d n [] b CNil))
                          (prog G d (n + reps d b) [] r k))
      end
  end.
Proof. destruct t; reflexivity. Qed.

Lemma plain_region o id lc body after : plain (region_start G o id lc body after).
Proof.
  destruct o as [ci|fn args|v|f klass]; unfold region_start.
  - apply plain_remark; [reflexivity|]. apply plain_remark; [reflexivity|apply plain_line; reflexivity].
  - apply plain_remark; [reflexivity|apply plain_line; reflexivity].
  - apply plain_remark; [reflexivity|apply plain_line; reflexivity].
  - apply plain_line; reflexivity.
Qed.
Lemma plain_prog d k : plain k -> forall t n p, plain (prog G d n p t k).
Proof.
  intros Hk. induction t; intros nn p; rewrite prog_eq; cbv beta match zeta.
  - apply plain_flush. exact Hk.
  - apply IHt.
  - apply plain_flush. apply plain_remark; [reflexivity|apply IHt].
  - apply plain_flush. apply IHt.
  - apply plain_flush. destruct silent; [apply plain_part; reflexivity|apply plain_show].
  - apply plain_flush. destruct k0; try apply plain_show; apply plain_line; reflexivity.
  - apply plain_flush. apply plain_line; reflexivity.
  - apply plain_flush. apply plain_part; reflexivity.
  - apply plain_flush. apply plain_part. destruct o; reflexivity.
  - apply plain_flush. apply plain_region.
  - apply plain_flush. apply plain_region.
  - destruct o; cbv match; try (destruct (own_method d _); [apply IHt2|apply plain_flush; apply plain_part; reflexivity]).
    apply plain_flush. apply plain_line; reflexivity.
Qed.
Lemma plain_try k o h s : plain k -> exec (MTry o h) k s = fin_k o k s.
Proof. intros Hk. rewrite Hk. destruct o; reflexivity. Qed.

Lemma andthen_inv (x : option (out E * ast)) kk r : andthen x kk = Some r -> exists o1 a1, x = Some (o1, a1).
Proof. destruct x as [[o1 a1]|]; [eauto|discriminate]. Qed.
Lemma text_inv (x : option (out E * ast)) kk r : text_of_body x kk = Some r ->
  exists y, x = Some (ONormal, y) /\ kk (a_out y) y = Some r.
Proof. unfold text_of_body. destruct x as [[o1 a1]|]; [|discriminate]. destruct o1; try discriminate. eauto. Qed.

Definition Pt (t : tm) : Prop := forall d n, apart t -> runs d t n.
Definition Pm (ms : mids) : Prop := forall d n m k a s o a', apart_m ms ->
  sem_m K G fuel d m ms a = Some (o, a') -> R [] a s -> plain k ->
  sim (ids_m ms) a s o a' k (exec m (prog_m G d n ms k) s).
Definition Pp (ps : parts) : Prop := forall d, apart_p ps -> runs_p d ps.

Ltac side := try assumption; try reflexivity.
Lemma in_l {A} (x : A) p q : In x p -> In x (p ++ q). Proof. intros; apply in_or_app; auto. Qed.
Lemma in_r {A} (x : A) p q : In x q -> In x (p ++ q). Proof. intros; apply in_or_app; auto. Qed.

(** The rest of a template. *)
Lemma rest_sim r d n k D : Pt r -> apart r -> plain k -> (forall i, In i (ids r) -> In i D) ->
  forall a1 s1 o a', R [] a1 s1 -> sem d r a1 = Some (o, a') -> forall m, pending m = ONormal ->
  sim D a1 s1 o a' k (exec m (prog G d n [] r k) s1).
Proof.
  intros Hr Ha Hk HD a1 s1 o a' R1 H1 m Hm. eapply sim_weak; [exact HD|]. eapply (Hr d n Ha []); eassumption.
Qed.

Lemma prog_m_cons d n m lc b r k : prog_m G d n (MCons m lc b r) k
  = CPart (mid_head m) (gen_from lc) (prog G d n [] b CNil) (prog_m G d (n + reps d b) r k).
Proof. reflexivity. Qed.

(** A body that is run for itself. *)
Lemma run_body b d n D a s o a' : Pt b -> apart b -> (forall i, In i (ids b) -> In i D) ->
  sem d b a = Some (o, a') -> R [] a s ->
  exists s1, exec MNo (prog G d n [] b CNil) s = Some (o, s1) /\ R [] a' s1 /\ frame D s s1 /\ same a a'.
Proof.
  intros Hb Ha HD H HR. pose proof (Hb d n Ha [] CNil a s o a' H HR plain_nil MNo eq_refl) as Q.
  destruct (sim_run _ _ _ _ _ _ Q) as (s1 & X1 & R1 & F1 & S1). exists s1. split; [exact X1|]. split; [exact R1|].
  split; [exact (frame_weak _ _ _ _ HD F1)|exact S1].
Qed.

Lemma mid_then b r d n k D m' a s o a' : Pt b -> Pm r -> apart b -> apart_m r -> plain k ->
  (forall i, In i (ids b) -> In i D) -> (forall i, In i (ids_m r) -> In i D) -> R [] a s ->
  andthen (sem d b a) (sem_m K G fuel d m' r) = Some (o, a') ->
  forall n', sim D a s o a' k (match exec MNo (prog G d n [] b CNil) s with
                    | Some (ONormal, s) => exec m' (prog_m G d n' r k) s | x => x end).
Proof.
  intros Hb Hr Ab Ar Hk D1 D2 HR H n'.
  destruct (andthen_inv _ _ _ H) as (o1 & a1 & E1). rewrite E1 in H.
  destruct (run_body b d n D a s o1 a1 Hb Ab D1 E1 HR) as (s1 & X1 & R1 & F1 & S1). rewrite X1.
  apply (sim_before D a s a1 s1 _ _ _ _ F1 S1). unfold andthen in H.
  assert (Q : o1 = ONormal \/ (o1 = o /\ a1 = a' /\ o1 <> ONormal)).
  { destruct o1; auto; right; split; try congruence; split; congruence. }
  destruct Q as [->|(-> & -> & Hn)].
  - eapply sim_weak; [exact D2|]. eapply Hr; eassumption.
  - exists s1. split; [exact R1|]. split; [apply frame_refl|]. split; [apply same_refl|].
    destruct o; try reflexivity. contradiction Hn; reflexivity.
Qed.
Lemma mid_try b r d n k D (g : out E -> mode E) a s o a' : Pt b -> Pm r -> apart b -> apart_m r -> plain k ->
  (forall i, In i (ids b) -> In i D) -> (forall i, In i (ids_m r) -> In i D) -> R [] a s ->
  match sem d b a with Some (o, a) => sem_m K G fuel d (g o) r a | None => None end = Some (o, a') ->
  forall n', sim D a s o a' k (match exec MNo (prog G d n [] b CNil) s with
                    | Some (o, s) => exec (g o) (prog_m G d n' r k) s | None => None end).
Proof.
  intros Hb Hr Ab Ar Hk D1 D2 HR H n'. destruct (sem d b a) as [[o1 a1]|] eqn:E1; [|discriminate H].
  destruct (run_body b d n D a s o1 a1 Hb Ab D1 E1 HR) as (s1 & X1 & R1 & F1 & S1). rewrite X1.
  apply (sim_before D a s a1 s1 _ _ _ _ F1 S1). eapply sim_weak; [exact D2|]. eapply Hr; eassumption.
Qed.

Lemma pm_nil : Pm MNil.
Proof.
  intros d n m k a s o a' _ H HR Hk. rewrite sem_m_eq in H. injection H as <- <-.
  change (prog_m G d n MNil k) with k. rewrite Hk. exists s. split; [exact HR|]. split; [apply frame_refl|].
  split; [apply same_refl|]. destruct (pending m); reflexivity.
Qed.

Lemma pm_cons m0 lc b r : Pt b -> Pm r -> Pm (MCons m0 lc b r).
Proof.
  intros Hb Hr d n m k a s o a' [Ab Ar] H HR Hk. rewrite sem_m_eq in H. rewrite prog_m_cons.
  set (D := ids_m (MCons m0 lc b r)).
  assert (D1 : forall i, In i (ids b) -> In i D) by (intros i; apply in_l).
  assert (D2 : forall i, In i (ids_m r) -> In i D) by (intros i; apply in_r).
  assert (Next : forall m' a1 s1, R [] a1 s1 -> sem_m K G fuel d m' r a1 = Some (o, a') ->
    sim D a1 s1 o a' k (exec m' (prog_m G d (n + reps d b) r k) s1)).
  { intros m' a1 s1 R1 H1. eapply sim_weak; [exact D2|]. eapply Hr; eassumption. }
  destruct m0 as [|e|c|]; cbv beta match in H; cbn [mid_head].
  - destruct m as [|[]|o0 h]; try discriminate H; cbn [GenSem_Model.exec].
    + apply Next; assumption.
    + eapply mid_then; eassumption.
    + destruct o0; try (apply Next; assumption). destruct h; [apply Next; assumption|].
      apply (mid_try b r d n k D (fun o => MTry o true)); assumption.
  - destruct m as [|[]|]; try discriminate H; cbn [GenSem_Model.exec].
    + apply Next; assumption.
    + eapply (sim_ask _ _ _ _ _ s _ _ _ _ H HR eq_refl). intros v a1 s1 R1 H1 F1 K1 S1. cbv beta.
      destruct v; [|apply Next; assumption]. eapply mid_then; eassumption.
  - destruct m as [|[]|o0 h]; try discriminate H; cbn [GenSem_Model.exec].
    destruct o0; try (apply Next; assumption). destruct h; [apply Next; assumption|]. cbn [head_catch].
    eapply (sim_ask _ _ _ _ _ s _ _ _ _ H HR eq_refl). intros v a1 s1 R1 H1 F1 K1 S1. cbv beta.
    destruct v; [|apply Next; assumption]. apply (mid_try b r d n k D (fun o => MTry o true)); assumption.
  - destruct m as [|[]|o0 h]; try discriminate H; cbn [GenSem_Model.exec].
    assert (Q : forall x s1, (match x with Some (ONormal, s) => exec (MTry o0 true) (prog_m G d (n + reps d b) r k) s
      | Some (o', s) => exec (MTry o' true) (prog_m G d (n + reps d b) r k) s | None => None end)
      = match (x : option (out E * mst)) with
        | Some (o, s) => exec ((fun o => match o with ONormal => MTry o0 true | o' => MTry o' true end) o)
                           (prog_m G d (n + reps d b) r k) s | None => s1 end \/ x = None).
    { intros [[ox sx]|] s1; [left; destruct ox; reflexivity|right; reflexivity]. }
    match goal with |- sim _ _ _ _ _ _ ?y =>
      replace y with (match exec MNo (prog G d n [] b CNil) s with
        | Some (o, s) => exec ((fun o => match o with ONormal => MTry o0 true | o' => MTry o' true end) o)
                           (prog_m G d (n + reps d b) r k) s | None => None end) end.
    2:{ destruct (exec MNo (prog G d n [] b CNil) s) as [[ox sx]|]; [destruct ox; reflexivity|reflexivity]. }
    apply (mid_try b r d n k D (fun o => match o with ONormal => MTry o0 true | o' => MTry o' true end)); try assumption.
    destruct (sem d b a) as [[ox ax]|]; [destruct ox; exact H|discriminate H].
Qed.

Lemma pt_nil : Pt TNil.
Proof.
  intros d n _ p k a s o a' H HR Hk m Hm. rewrite sem_eq in H. apply fin_inv in H as [-> ->].
  rewrite prog_eq. apply (sim_flush _ p); side. intros s1 R1.
  eapply sim_fin; [exact R1|apply frame_refl|apply same_refl|reflexivity].
Qed.
Lemma pt_text s0 cut r : Pt r -> Pt (TText s0 cut r).
Proof.
  intros Hr d n Ha p k a s o a' H HR Hk m Hm. rewrite sem_eq in H. rewrite prog_eq. cbv beta match in *.
  destruct (Hr d n Ha (p ++ text_of s0 cut) k _ s o a' H (R_text _ _ _ _ HR) Hk m Hm) as (s' & Q1 & Q2 & Q3 & Q4).
  exists s'. split; [exact Q1|]. split; [exact Q2|]. split; [exact (same_trans _ _ _ (conj eq_refl (conj eq_refl eq_refl)) Q3)|exact Q4].
Qed.
Lemma pt_rem s0 r : Pt r -> Pt (TRem s0 r).
Proof.
  intros Hr d n Ha p k a s o a' H HR Hk m Hm. rewrite sem_eq in H. rewrite prog_eq. cbv beta match in *.
  apply (sim_flush _ p); side.
  - apply plain_remark; [reflexivity|]. apply plain_prog. exact Hk.
  - intros s1 R1. cbn [GenSem_Model.exec remark]. eapply rest_sim; side. auto.
Qed.

Lemma pt_slurp r : Pt r -> Pt (TSlurp r).
Proof.
  intros Hr d n Ha p k a s o a' H HR Hk m Hm. rewrite sem_eq in H. rewrite prog_eq. cbv beta match in *.
  apply (sim_flush _ p); side.
  - apply plain_prog. exact Hk.
  - intros s1 R1. eapply rest_sim; side. auto.
Qed.

Lemma pt_place e fa raw lc sil r : Pt r -> Pt (TPlace e fa raw lc sil r).
Proof.
  intros Hr d n Ha p k a s o a' H HR Hk m Hm. rewrite sem_eq in H. rewrite prog_eq. cbv beta match zeta in *.
  pose proof (plain_prog d k Hk r n []) as Hp.
  apply (sim_flush _ p); side; [destruct sil; [apply plain_part; reflexivity|apply plain_show]|].
  intros s1 R1. destruct (show K G (o_eval K e) (all_args G fa raw) a) as [[o1 a1]|] eqn:Es; [|discriminate H].
  assert (Hx : gexp_act K (XUser e) s1 = Some (o_eval K e)) by reflexivity.
  destruct sil.
  - destruct (show_sim _ _ _ _ _ _ _ _ Es R1 Hx) as (s2 & R2 & F2 & L2 & S2 & X2).
    assert (Q : exists o2, andthen (Some (o2, a1)) (sem d r) = Some (o, a')
      /\ exec MNo (CPart HTry [] (show_code G (XUser e) fa raw (Some lc) [] CNil)
           (CPart HNotFound (if g_rowcol G then L " # from " ++ at_lc lc ++ L "." else []) CNil (prog G d n [] r k))) s1
         = fin_k o2 (prog G d n [] r k) s2).
    { exists (match o1 with ORaise ex => if o_notfound K ex then ONormal else o1 | _ => o1 end). split.
      - destruct o1; try exact H. cbn [andb] in H. destruct (o_notfound K e0); exact H.
      - cbn [GenSem_Model.exec pending]. rewrite X2 by reflexivity.
        replace (fin_k o1 CNil s2) with (Some (o1, s2)) by (destruct o1; reflexivity).
        destruct o1; try (apply plain_try; exact Hp). cbn [head_catch].
        destruct (o_notfound K e0); [|apply plain_try; exact Hp].
        cbn [GenSem_Model.exec pending]. apply plain_try; exact Hp. }
    destruct Q as (o2 & H2 & X3). refine (eq_ind_r (sim _ a s1 o a' k) _ X3).
    eapply (sim_then [] _ a s1 o2 a1 (prog G d n [] r k) _ (sem d r)); [exists s2; auto|exact H2|intros i []|].
    intros s3 R3 F3 H3. eapply rest_sim; side. auto.
  - eapply (sim_then [] _ a s1 o1 a1 (prog G d n [] r k) _ (sem d r)); [|destruct o1; exact H|intros i []|].
    + eapply sim_show; side. exact Es.
    + intros s3 R3 F3 H3. eapply rest_sim; side. auto.
Qed.

Lemma pt_expr x e r : Pt r -> Pt (TExpr x e r).
Proof.
  intros Hr d n Ha p k a s o a' H HR Hk m Hm. rewrite sem_eq in H. rewrite prog_eq. cbv beta match zeta in *.
  pose proof (plain_prog d k Hk r n []) as Hp.
  apply (sim_flush _ p); side; [destruct x; try apply plain_show; apply plain_line; reflexivity|].
  intros s1 R1. destruct (andthen_inv _ _ _ H) as (o1 & a1 & E1).
  assert (Q : sim [] a s1 o1 a1 (prog G d n [] r k) (exec MNo match x with
               | KEcho => show_code G (XUser e) [] [] None [] (prog G d n [] r k)
               | KStop => CLine GStop [] (prog G d n [] r k)
               | _ => CLine (GStmt e) [] (prog G d n [] r k)
               end s1)).
  { destruct x; try (eapply sim_stmt; side; exact E1).
    - apply (sim_show (XUser e) (o_eval K e) [] []); side.
    - injection E1 as <- <-. rewrite exec_one by reflexivity. cbn [exec_line]. exists s1. split; [exact R1|].
      split; [apply frame_refl|]. split; [apply same_refl|]. rewrite (body_text _ _ R1). reflexivity. }
  rewrite E1 in H. eapply (sim_then [] _ a s1 o1 a1 (prog G d n [] r k) _ (sem d r)); [exact Q|exact H|intros i []|].
  intros s3 R3 F3 H3. eapply rest_sim; side. auto.
Qed.

Lemma pt_set g lv op rv r : Pt r -> Pt (TSet g lv op rv r).
Proof.
  intros Hr d n Ha p k a s o a' H HR Hk m Hm. rewrite sem_eq in H. rewrite prog_eq. cbv beta match zeta in *.
  pose proof (plain_prog d k Hk r n []) as Hp.
  apply (sim_flush _ p); side; [apply plain_line; reflexivity|].
  intros s1 R1. destruct (andthen_inv _ _ _ H) as (o1 & a1 & E1). rewrite E1 in H.
  eapply (sim_then [] _ a s1 o1 a1 (prog G d n [] r k) _ (sem d r)); [eapply sim_stmt; side; exact E1|exact H|intros i []|].
  intros s3 R3 F3 H3. eapply rest_sim; side. auto.
Qed.

Lemma pt_tern c x y lc r : Pt r -> Pt (TTern c x y lc r).
Proof.
  intros Hr d n Ha p k a s o a' H HR Hk m Hm. rewrite sem_eq in H. rewrite prog_eq. cbv beta match zeta in *.
  pose proof (plain_prog d k Hk r n []) as Hp.
  apply (sim_flush _ p); side; [apply plain_part; reflexivity|].
  intros s1 R1. destruct (andthen_inv _ _ _ H) as (o1 & a1 & E1). rewrite E1 in H.
  eapply (sim_then [] _ a s1 o1 a1 (prog G d n [] r k) _ (sem d r)); [|exact H|intros i []|].
  - rewrite exec_test by reflexivity. cbn [head_test].
    eapply (sim_ask _ _ _ _ _ s1 _ _ _ _ E1 R1 eq_refl). intros v a2 s2 R2 H2 F2 K2 S2. cbv beta.
    assert (Hx : forall u, gexp_act K (XUser u) s2 = Some (o_eval K u)) by reflexivity.
    change (@nil N) with (all_args G [] []) in H2.
    destruct v; cbn [xorb].
    + destruct (show_sim _ _ _ _ _ _ _ _ H2 R2 (Hx x)) as (s3 & R3 & F3 & L3 & S3 & X3).
      rewrite X3 by reflexivity. exists s3. split; [exact R3|]. split; [exact F3|]. split; [exact S3|].
      destruct o1; reflexivity.
    + destruct (show_sim _ _ _ _ _ _ _ _ H2 R2 (Hx y)) as (s3 & R3 & F3 & L3 & S3 & X3).
      cbn [GenSem_Model.exec].
      rewrite X3 by reflexivity. exists s3. split; [exact R3|]. split; [exact F3|]. split; [exact S3|].
      destruct o1; reflexivity.
  - intros s3 R3 F3 H3. eapply rest_sim; side. auto.
Qed.

Lemma pt_def sh o0 name args rem b r : Pt r -> Pt (TDef sh o0 name args rem b r).
Proof.
  intros Hr d n Ha p k a s o a' H HR Hk m Hm. rewrite sem_eq in H. rewrite prog_eq. cbv beta match zeta in *.
  assert (Own : own_method d o0 = true -> (if own_method d o0 then sem d r a else None) = Some (o, a') ->
    sim (ids r) a s o a' k (exec m (prog G d n p r k) s)).
  { intros E0 H0. rewrite E0 in H0. eapply (Hr d n Ha p); eassumption. }
  destruct o0.
  - destruct (own_method d DDef) eqn:E0; [|discriminate H]. apply Own; [reflexivity|exact H].
  - discriminate H.
  - pose proof (plain_prog d k Hk r n []) as Hp.
    apply (sim_flush _ p); side; [apply plain_line; reflexivity|].
    intros s1 R1. destruct (andthen_inv _ _ _ H) as (o1 & a1 & E1). rewrite E1 in H.
    eapply (sim_then [] _ a s1 o1 a1 (prog G d n [] r k) _ (sem d r)); [|exact H|intros i []|].
    + rewrite exec_one by reflexivity. cbn [exec_line]. rewrite use_bind.
      eapply (sim_ask _ _ _ _ _ s1 _ _ _ _ E1 R1 eq_refl). intros t a2 s2 R2 H2 F2 K2 S2. cbv beta.
      apply fin_inv in H2 as [-> ->]. unfold GenSem_Model.done.
      assert (Ew : ms_write s2 = ms_trans s2) by apply R2.
      replace (ms_set_heap (put (ms_trans s2) t (ms_heap s2)) s2) with (write t s2) by (unfold write; rewrite Ew; reflexivity).
      eapply sim_fin; [apply R_write; exact R2|eapply frame_write; exact R2|repeat split|reflexivity].
    + intros s3 R3 F3 H3. eapply rest_sim; side. auto.
Qed.

Lemma pt_reg sh o0 id lc b r : Pt b -> Pt r -> Pt (TReg sh o0 id lc b r).
Proof.
  intros Hb Hr d n (Ai & Ab & Ar) p k a s o a' H HR Hk m Hm. rewrite sem_eq in H. rewrite prog_eq. cbv beta match zeta in *.
  apply (sim_flush _ p); side; [apply plain_region|]. intros s1 R1.
  set (D := ids (TReg sh o0 id lc b r)).
  assert (D1 : forall i, In i (rid o0 id :: ids b) -> In i D).
  { intros i [Hi|Hi]; [left; exact Hi|right; apply in_l; exact Hi]. }
  assert (D2 : forall i, In i (ids r) -> In i D) by (intros i Hi; right; apply in_r; exact Hi).
  pose proof (Hb d n Ab) as HB.
  pose proof (plain_prog d k Hk r (n + reps d b) []) as Hp.
  destruct o0 as [ci|fn args|v|f klass]; cbn [region_after rid] in *.
  - eapply (cache_sim d b n ci id lc a s1 o a' (sem d r)); side.
    intros a1 s2 R2 H2. eapply rest_sim; side.
  - destruct (text_inv _ _ _ H) as (y & Ey & H1). cbv beta in H1.
    destruct (andthen_inv _ _ _ H1) as (o1 & a1 & E1). rewrite E1 in H1.
    eapply (sim_then (id :: ids b) D a s1 o1 a1 (prog G d (n + reps d b) [] r k) _ (sem d r));
      [eapply call_sim; side; [exact Ey|exact E1]|exact H1|exact D1|].
    intros s3 R3 F3 H3. eapply rest_sim; side.
  - destruct (text_inv _ _ _ H) as (y & Ey & H1). cbv beta in H1.
    destruct (andthen_inv _ _ _ H1) as (o1 & a1 & E1). rewrite E1 in H1.
    eapply (sim_then (id :: ids b) D a s1 o1 a1 (prog G d (n + reps d b) [] r k) _ (sem d r));
      [eapply capture_sim; side; [exact Ey|exact E1]|exact H1|exact D1|].
    intros s3 R3 F3 H3. eapply rest_sim; side.
  - eapply filter_sim; side; [exact H|]. intros a1 s2 _ R2 H2. eapply rest_sim; side.
Qed.

Lemma pt_call fn args id lc nm b more r : Pt b -> Pp more -> Pt r -> Pt (TCall fn args id lc nm b more r).
Proof.
  intros Hb Hm0 Hr d n (Ai & Ai2 & Ab & Am & Ar) p k a s o a' H HR Hk m Hm.
  rewrite sem_eq in H. rewrite prog_eq. cbv beta match zeta in *.
  apply (sim_flush _ p); side; [apply plain_region|]. intros s1 R1.
  set (D := ids (TCall fn args id lc nm b more r)).
  destruct (text_inv _ _ _ H) as (y & Ey & H1). cbv beta in H1.
  eapply (callkw_sim d b more n fn args id nm lc a y s1 (sem d r)); side.
  - intros i [Hi|Hi]; [left; exact Hi|right]. apply in_app_or in Hi as [Hi|Hi]; [apply in_l|apply in_r, in_l]; exact Hi.
  - apply Hb; assumption.
  - apply Hm0; assumption.
  - intros a1 s2 R2 H2. eapply rest_sim; side. intros i Hi. right. apply in_r, in_r. exact Hi.
Qed.

Lemma sim_loop_part {X} b d n D (next : X -> ast -> option (ast * res E (option X)))
    (next' : X -> mst -> option (mst * res E (option X))) : Pt b -> apart b -> (forall i, In i (ids b) -> In i D) ->
  (forall x a s a1 r, next x a = Some (a1, r) -> R [] a s ->
     exists s1, next' x s = Some (s1, r) /\ R [] a1 s1 /\ frame [] s s1 /\ same a a1) ->
  forall ms r' m' x a s o a' k, Pm ms -> apart_m ms -> plain k -> (forall i, In i (ids_m ms) -> In i D) ->
  andthen (loop fuel next (sem d b) x a) (sem_m K G fuel d m' ms) = Some (o, a') -> R [] a s ->
  sim D a s o a' k (match loop fuel next' (exec MNo (prog G d n [] b CNil)) x s with
                    | Some (ONormal, s) => exec m' (prog_m G d r' ms k) s | y => y end).
Proof.
  intros Hb Ab D1 Hn ms r' m' x a s o a' k Hms Am Hk D2 H HR.
  destruct (andthen_inv _ _ _ H) as (o1 & a1 & E1). rewrite E1 in H.
  assert (Q : exists s1, loop fuel next' (exec MNo (prog G d n [] b CNil)) x s = Some (o1, s1) /\ R [] a1 s1 /\ frame D s s1 /\ same a a1).
  { apply (sim_loop D next next' (sem d b) (exec MNo (prog G d n [] b CNil))) with (a := a); side.
    - intros x0 a0 s0 a2 r0 H0 R0. destruct (Hn _ _ _ _ _ H0 R0) as (s2 & Q1 & Q2 & Q3 & Q4). exists s2.
      split; [exact Q1|]. split; [exact Q2|]. split; [apply frame_nil; exact Q3|exact Q4].
    - intros a0 s0 o0 a2 H0 R0. eapply run_body; eassumption. }
  destruct Q as (s1 & X1 & R1 & F1 & S1). rewrite X1. apply (sim_before D a s a1 s1 _ _ _ _ F1 S1).
  unfold andthen in H.
  assert (Q : o1 = ONormal \/ (o1 = o /\ a1 = a' /\ o1 <> ONormal)).
  { destruct o1; auto; right; split; try congruence; split; congruence. }
  destruct Q as [->|(-> & -> & Hno)].
  - eapply sim_weak; [exact D2|]. eapply Hms; eassumption.
  - exists s1. split; [exact R1|]. split; [apply frame_refl|]. split; [apply same_refl|].
    destruct o; try reflexivity. contradiction Hno; reflexivity.
Qed.

Lemma pt_blk sh o0 lc b ms r : Pt b -> Pm ms -> Pt r -> Pt (TBlk sh o0 lc b ms r).
Proof.
  intros Hb Hms Hr d n (Ab & Am & Ar) p k a s o a' H HR Hk m Hm. rewrite sem_eq in H. rewrite prog_eq. cbv beta match zeta in *.
  apply (sim_flush _ p); side; [apply plain_part; destruct o0; reflexivity|]. intros s1 R1.
  set (D := ids (TBlk sh o0 lc b ms r)).
  set (D0 := ids b ++ ids_m ms).
  assert (D1 : forall i, In i (ids b) -> In i D0) by (intros i; apply in_l).
  assert (D2 : forall i, In i (ids_m ms) -> In i D0) by (intros i; apply in_r).
  assert (D3 : forall i, In i (ids r) -> In i D) by (intros i Hi; apply in_r, in_r; exact Hi).
  assert (D4 : forall i, In i D0 -> In i D).
  { intros i Hi. apply in_app_or in Hi as [Hi|Hi]; [apply in_l|apply in_r, in_l]; exact Hi. }
  set (n1 := (n + bop_count o0)%nat). set (n2 := (n1 + reps d b)%nat).
  set (rest := prog G d (n2 + reps_m d ms) [] r k).
  assert (Hp : plain rest) by (apply plain_prog; exact Hk).
  destruct (andthen_inv _ _ _ H) as (o1 & a1 & E1). rewrite E1 in H.
  eapply (sim_then D0 D a s1 o1 a1 rest _ (sem d r)); [|exact H|exact D4|].
  2:{ intros s3 R3 F3 H3. eapply rest_sim; side. }
  clear H.
  destruct o0 as [e|e|t e|e|e|]; cbn [bop_head].
  - rewrite exec_test by reflexivity. cbn [head_test].
    eapply (sim_ask _ _ _ _ _ s1 _ _ _ _ E1 R1 eq_refl). intros v a2 s2 R2 H2 F2 K2 S2. cbv beta.
    destruct v; cbn [xorb].
    + eapply mid_then; eassumption.
    + eapply sim_weak; [exact D2|]. eapply Hms; eassumption.
  - rewrite exec_test by reflexivity. cbn [head_test].
    eapply (sim_ask _ _ _ _ _ s1 _ _ _ _ E1 R1 eq_refl). intros v a2 s2 R2 H2 F2 K2 S2. cbv beta.
    destruct v; cbn [xorb negb] in *.
    + eapply sim_weak; [exact D2|]. eapply Hms; eassumption.
    + eapply mid_then; eassumption.
  - cbn [GenSem_Model.exec pending].
    eapply (sim_ask _ _ _ _ _ s1 _ _ _ _ E1 R1 eq_refl). intros v a2 s2 R2 H2 F2 K2 S2. cbv beta.
    apply (sim_loop_part b d n1 D0 (fun i a => go (o_next K t i) a) (fun i s => Some (perform (o_next K t i) s))) with (a := a2); side.
    intros x0 a0 s0 a3 r0 H0 R0. destruct (go_perform _ _ _ _ _ H0 R0) as (s3 & P3 & R3 & F3 & _).
    exists s3. rewrite P3. split; [reflexivity|]. split; [exact R3|]. split; [exact F3|exact (go_same _ _ _ _ H0)].
  - cbn [GenSem_Model.exec pending].
    apply (sim_loop_part b d n1 D0 (fun (_ : unit) a =>
                        match go (o_test K e) a with
                        | Some (a, Ok t) => Some (a, Ok (if t then Some tt else None))
                        | Some (a, Raise x) => Some (a, Raise x)
                        | None => None
                        end) (fun (_ : unit) s =>
                               let '(s, t) := perform (o_test K e) s in
                               Some (s, match t with
                                        | Ok true => Ok (Some tt) | Ok false => Ok None
                                        | Raise x => Raise x end))) with (a := a); side.
    intros x0 a0 s0 a3 r0 H0 R0. destruct (go (o_test K e) a0) as [[a4 r4]|] eqn:Eg; [|discriminate H0].
    destruct (go_perform _ _ _ _ _ Eg R0) as (s3 & P3 & R3 & F3 & _). rewrite P3.
    exists s3. pose proof (go_same _ _ _ _ Eg) as S3. destruct r4 as [[]|]; injection H0 as <- <-; auto.
  - cbn [GenSem_Model.exec pending].
    eapply (sim_ask _ _ _ _ _ s1 _ _ _ _ E1 R1 eq_refl). intros v a2 s2 R2 H2 F2 K2 S2. cbv beta.
    apply (sim_loop_part b d n1 D0 (fun n a => Some (a, Ok (match n with O => None | S n => Some n end)))
             (fun n s => Some (s, Ok (match n with O => None | S n => Some n end)))) with (a := a2); side.
    intros x0 a0 s0 a3 r0 H0 R0. injection H0 as <- <-. exists s0. split; [reflexivity|]. split; [exact R0|].
    split; [apply frame_refl|apply same_refl].
  - cbn [GenSem_Model.exec pending].
    apply (mid_try b ms d n1 rest D0 (fun o => MTry o false)); side.
Qed.

Theorem sim_all : (forall t, Pt t) /\ (forall ms, Pm ms) /\ (forall ps, Pp ps).
Proof.
  apply tm_mids_parts.
  - exact pt_nil.
  - intros; apply pt_text; assumption.
  - intros; apply pt_rem; assumption.
  - intros; apply pt_slurp; assumption.
  - intros; apply pt_place; assumption.
  - intros; apply pt_expr; assumption.
  - intros; apply pt_set; assumption.
  - intros; apply pt_tern; assumption.
  - intros; apply pt_blk; assumption.
  - intros; apply pt_reg; assumption.
  - intros; apply pt_call; assumption.
  - intros; apply pt_def; assumption.
  - exact pm_nil.
  - intros; apply pm_cons; assumption.
  - intros d _. apply runs_p_nil.
  - intros a b Hb r Hr d [Ab Ar]. apply runs_p_cons; [intros n; apply Hb; assumption|apply Hr; assumption].
Qed.

(** ** Consequences *)
Lemma R_view s : proper s -> R [] (view s) s.
Proof.
  intros (H1 & H2 & H3). unfold R, view. simpl. rewrite app_nil_r.
  repeat split; auto. apply Nat.eqb_eq.
Qed.
Lemma view_R a s : R [] a s -> a_top a = Nat.eqb (ms_trans s) 0 -> view s = a /\ proper s.
Proof.
  intros (H1 & H2 & H3 & H4 & H5 & H6 & H7 & H8 & H9) Ht. split; [|repeat split; congruence].
  rewrite app_nil_r in H3. destruct a. unfold view. simpl in *. congruence.
Qed.
Lemma same_restored a a' s s' : R [] a s -> R [] a' s' -> same a a' -> ms_trans s' = ms_trans s -> restored s s'.
Proof.
  intros (H1 & H2 & H3 & H4 & H5 & H6 & H7 & H8 & H9) (J1 & J2 & J3 & J4 & J5 & J6 & J7 & J8 & J9) (S1 & S2 & S3) Ht.
  unfold restored. repeat split; congruence.
Qed.

Theorem run_all d n t s o a' : apart t -> proper s -> sem d t (view s) = Some (o, a') ->
  exists s', exec MNo (prog G d n [] t CNil) s = Some (o, s') /\ view s' = a' /\ proper s'
  /\ restored s s' /\ others_same s s'.
Proof.
  intros Ha Hp H. destruct sim_all as (HP & _).
  pose proof (HP t d n Ha [] CNil (view s) s o a' H (R_view s Hp) plain_nil MNo eq_refl) as Q.
  destruct (sim_run _ _ _ _ _ _ Q) as (s' & X & R' & F' & S').
  exists s'. split; [exact X|]. pose proof F' as (F1 & F2 & F3 & F4).
  destruct (view_R a' s' R') as [V1 V2]; [destruct S' as (_ & _ & S3); rewrite S3, F1; reflexivity|].
  split; [exact V1|]. split; [exact V2|]. split; [exact (same_restored _ _ _ _ (R_view s Hp) R' S' F1)|].
  split; [exact F2|exact F3].
Qed.

(** The body of a [#block]: with markers around. *)
Theorem run_block d t s a' name : apart t -> proper s ->
  sem d t (emit (mark_start G name) (view s)) = Some (ONormal, a') ->
  exists s', exec MNo (meth_code G d DBlock name t) s = Some (ONormal, s') /\ view s' = emit (mark_end G name) a'
  /\ proper s' /\ restored s s' /\ others_same s s'.
Proof.
  intros Ha Hp H. destruct sim_all as (HP & _). unfold meth_code.
  assert (HR : R (mark_start G name) (emit (mark_start G name) (view s)) s) by exact (R_text [] _ _ _ (R_view s Hp)).
  pose proof (HP t d 0%nat Ha _ (flush (mark_end G name) CNil) _ s ONormal a' H HR (plain_flush _ _ plain_nil) MNo eq_refl) as Q.
  destruct Q as (s1 & R1 & F1 & S1 & X1).
  pose proof (R_text _ _ _ (mark_end G name) R1) as R2. cbn [app] in R2.
  destruct (flush_sim _ _ _ R2) as (s2 & R3 & F3 & X3).
  exists s2. split; [rewrite X1; cbn [fin_k]; rewrite X3 by (try exact plain_nil; reflexivity); reflexivity|].
  pose proof (frame_trans _ _ _ _ F1 (frame_nil _ _ _ F3)) as FF. pose proof FF as (G1 & G2 & G3 & G4).
  assert (SS : same (view s) (emit (mark_end G name) a')) by exact (same_trans (view s) _ _ (conj eq_refl (conj eq_refl eq_refl)) S1).
  destruct (view_R _ s2 R3) as [V1 V2]; [destruct SS as (_ & _ & S3); rewrite S3, G1; reflexivity|].
  split; [exact V1|]. split; [exact V2|]. split; [exact (same_restored _ _ _ _ (R_view s Hp) R3 SS G1)|].
  split; [exact G2|exact G3].
Qed.

(** A method. *)
Theorem method_ok body x arg o (s : mst) dummy a' r : setup arg x = (s, dummy) ->
  (exists s', exec MNo body s = Some (o, s') /\ view s' = a' /\ ms_trans s' = ms_trans s /\ others_same s s' /\ restored s s') ->
  answer dummy o a' = Some r ->
  exists x', call_method K fuel body arg x = Some (r, x') /\ ob_w x' = a_w a' /\ ob_flts x' = a_flts a'
  /\ ob_tx x' = ob_tx x /\ ob_cur x' = ms_cur s /\ ob_buf x' = ms_buf s
  /\ getvalue (ms_trans s) (ob_heap x') = a_out a'
  /\ (forall i, (i < length (ms_heap s))%nat -> i <> ms_trans s -> getvalue i (ob_heap x') = getvalue i (ms_heap s)).
Proof.
  intros Hs (s' & X & V1 & T1 & (_ & O1) & (_ & _ & B1 & _ & C1)) Hr. unfold call_method. rewrite Hs, X.
  subst a'. exists (mkObj (ms_w s') (ms_heap s') (ob_tx x) (ms_cur s') (ms_buf s') (ms_flts s')).
  split; [|split; [reflexivity|split; [reflexivity|split; [reflexivity|split; [exact C1|split; [exact B1|split; [|exact O1]]]]]]].
  - destruct o; cbn [answer] in Hr; try discriminate Hr; injection Hr as <-; reflexivity.
  - unfold view. simpl. rewrite T1. reflexivity.
Qed.
End Sim.
