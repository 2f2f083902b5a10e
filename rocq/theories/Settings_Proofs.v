(** Proofs about the settings merge (C18, C19). *)
From Verif Require Import Base Alist Settings_Model Settings_Spec.

Fixpoint sval_ind' (P : sval -> Prop) (Ha : forall n, P (SAtom n))
    (Hd : forall d, (forall k v, In (k, v) d -> P v) -> P (SDict d)) (v : sval) : P v :=
  match v with
  | SAtom n => Ha n
  | SDict d => Hd d ((fix go (d : tree) : forall k v, In (k, v) d -> P v :=
      match d with
      | [] => fun k v H => match H with end
      | (k1, v1) :: r => fun k v H =>
          match H with
          | or_introl e => eq_ind v1 P (sval_ind' P Ha Hd v1) v (f_equal snd e)
          | or_intror H' => go r k v H'
          end
      end) d)
  end.

Lemma over_dict : forall a b, over (Some (SDict a)) (SDict b) = SDict (merge a b).
Proof.
  reflexivity.
Qed.

Definition isdict (v : option sval) := match v with Some (SDict _) => true | _ => false end.
Lemma over_nondict : forall a v, isdict a = false -> over a v = v.
Proof. intros [[n|a]|] [m|b] H; try reflexivity. discriminate. Qed.
Lemma over_nondict_cases : forall a v, isdict a = false \/ (exists n, v = SAtom n) -> over a v = v.
Proof. intros a v [H|[n ->]]; [apply over_nondict; assumption|reflexivity]. Qed.
Lemma over_atom : forall a n, over a (SAtom n) = SAtom n.
Proof. reflexivity. Qed.

(** ** Lookup in a merge *)
Lemma merge_aget_notin : forall b a k, ~ In k (keys b) -> aget k (merge a b) = aget k a.
Proof.
  induction b as [|[k' w] b IH]; intros a k H; simpl; [reflexivity|].
  simpl in H. rewrite IH by tauto. apply aget_aset_other. intros E. apply H. auto.
Qed.
Lemma merge_aget_in : forall b a k w, NoDup (keys b) -> aget k b = Some w ->
  aget k (merge a b) = Some (over (aget k a) w).
Proof.
  induction b as [|[k' w'] b IH]; intros a k w Hn Hg; [discriminate|].
  cbn [merge]. cbn [aget] in Hg. inversion Hn as [|? ? Hni Hn']; subst.
  destruct (str_eqb_spec k k') as [->|Hk].
  - inversion Hg; subst. rewrite merge_aget_notin by assumption. apply aget_aset_same.
  - rewrite (IH _ k w); [|assumption|assumption]. rewrite aget_aset_other by assumption. reflexivity.
Qed.
Lemma merge_lookup : forall a b k, NoDup (keys b) ->
  aget k (merge a b) =
  match aget k b with
  | None => aget k a
  | Some w => Some (over (aget k a) w)
  end.
Proof.
  intros a b k Hn. destruct (aget k b) as [w|] eqn:E; [apply merge_aget_in; assumption|].
  apply merge_aget_notin. apply aget_None_keys. assumption.
Qed.

(** ** Keys of a merge and equality of dictionaries *)
Definition notin (l : list pystr) (k : pystr) : bool := negb (existsb (str_eqb k) l).
Lemma notin_spec : forall l k, notin l k = true <-> ~ In k l.
Proof.
  intros l k. unfold notin. rewrite negb_true_iff. induction l as [|x l IH]; simpl; [tauto|].
  rewrite orb_false_iff, IH, str_eqb_neq. split; [intros [H1 H2] [H|H]; congruence|].
  intros H. split; [intros ->; tauto|tauto].
Qed.
Lemma keys_aset : forall {V} k (v : V) d, keys (aset k v d) = if notin (keys d) k then keys d ++ [k] else keys d.
Proof.
  intros V k v d. induction d as [|[k' v'] d IH]; [reflexivity|]. cbn [aset].
  unfold notin in *. cbn [keys map fst existsb]. destruct (str_eqb k k'); [reflexivity|].
  cbn [keys map fst]. fold (keys (aset k v d)). rewrite IH. simpl.
  destruct (existsb (str_eqb k) (keys d)) eqn:E; unfold keys in *; rewrite E; reflexivity.
Qed.
Lemma keys_merge : forall b a, NoDup (keys b) -> keys (merge a b) = keys a ++ filter (notin (keys a)) (keys b).
Proof.
  induction b as [|[k w] b IH]; intros a Hn; [simpl; rewrite app_nil_r; reflexivity|].
  inversion Hn as [|? ? Hni Hn']; subst. cbn [merge]. rewrite IH by assumption. rewrite keys_aset.
  cbn [keys map fst filter]. fold (keys b). destruct (notin (keys a) k) eqn:E.
  - rewrite <- app_assoc. cbn [app]. f_equal. f_equal. apply filter_ext_in. intros x Hx.
    unfold notin. rewrite existsb_app. cbn [existsb]. rewrite orb_false_r.
    replace (str_eqb x k) with false; [rewrite orb_false_r; reflexivity|].
    symmetry. apply str_eqb_neq. intros ->. contradiction.
  - reflexivity.
Qed.
Lemma NoDup_app_filter : forall (a b : list pystr), NoDup a -> NoDup b -> NoDup (a ++ filter (notin a) b).
Proof.
  intros a b Ha Hb.
  assert (H : forall b, NoDup b -> NoDup (a ++ filter (notin a) b)); [|auto].
  clear b Hb. induction b as [|x b IH]; intros Hb; simpl; [rewrite app_nil_r; assumption|].
  inversion Hb; subst. destruct (notin a x) eqn:E; [|auto].
  apply NoDup_Add with (a := x) (l := a ++ filter (notin a) b).
  - apply Add_app.
  - split; [auto|]. rewrite in_app_iff, filter_In. apply notin_spec in E. tauto.
Qed.
Lemma NoDup_merge : forall a b, NoDup (keys a) -> NoDup (keys b) -> NoDup (keys (merge a b)).
Proof. intros. rewrite keys_merge by assumption. apply NoDup_app_filter; assumption. Qed.

Lemma alist_ext : forall {V} (a b : list (pystr * V)), NoDup (keys a) -> keys a = keys b ->
  (forall k, aget k a = aget k b) -> a = b.
Proof.
  intros V a. induction a as [|[k v] a IH]; intros [|[k' v'] b] Hn Hk Hg; try reflexivity; try discriminate.
  inversion Hk; subst k'. inversion Hn as [|? ? Hni Hn']; subst.
  assert (v = v').
  { specialize (Hg k). simpl in Hg. rewrite str_eqb_refl in Hg. congruence. }
  subst v'. f_equal. apply IH; auto. intros x. specialize (Hg x). simpl in Hg.
  destruct (str_eqb_spec x k) as [E|]; [subst x|assumption].
  rewrite (proj2 (aget_None_keys k a)) by assumption.
  rewrite (proj2 (aget_None_keys k b)); [reflexivity|]. rewrite <- H1. assumption.
Qed.

(** ** Laws *)
Lemma merge_nil_r : forall a, merge a [] = a.
Proof. reflexivity. Qed.
Lemma merge_nil_l : forall b, NoDup (keys b) -> merge [] b = b.
Proof.
  intros b Hn. apply alist_ext.
  - apply NoDup_merge; [constructor|assumption].
  - rewrite keys_merge by assumption. cbn [keys map app]. clear. generalize (keys b) as l. induction l as [|x l IHl]; simpl; [reflexivity|]. f_equal. exact IHl.
  - intros k. rewrite merge_lookup by assumption. destruct (aget k b); [|reflexivity].
    simpl. destruct s; reflexivity.
Qed.

Lemma wf_keys : forall d, wf (SDict d) -> NoDup (keys d).
Proof. intros d H. inversion H; assumption. Qed.
Lemma wf_aget : forall d k v, wf (SDict d) -> aget k d = Some v -> wf v.
Proof. intros d k v H Hg. inversion H; subst. eapply H2. apply aget_Some_In. eassumption. Qed.

Lemma over_wf : forall v a, wf v -> (forall x, a = Some x -> wf x) -> wf (over a v).
Proof.
  induction v as [n|b IH] using sval_ind'; intros a Hv Ha; [constructor|].
  destruct (isdict a) eqn:E; [|rewrite over_nondict by assumption; assumption].
  destruct a as [[m|d]|]; try discriminate. rewrite over_dict.
  assert (Hd : wf (SDict d)) by auto.
  constructor; [apply NoDup_merge; apply wf_keys; assumption|].
  intros k v Hin. apply In_aget in Hin; [|apply NoDup_merge; apply wf_keys; assumption].
  rewrite merge_lookup in Hin by (apply wf_keys; assumption).
  destruct (aget k b) as [w|] eqn:Ew.
  - inversion Hin; subst. eapply IH; [apply aget_Some_In; eassumption|eapply (wf_aget b); eassumption|].
    intros x Hx. eapply (wf_aget d); eassumption.
  - eapply (wf_aget d); eassumption.
Qed.
Lemma merge_wf : forall a b, wf (SDict a) -> wf (SDict b) -> wf (SDict (merge a b)).
Proof. intros a b Ha Hb. rewrite <- over_dict. apply over_wf; [assumption|]. intros x [= <-]. assumption. Qed.

Lemma over_self : forall v, wf v -> over (Some v) v = v.
Proof.
  induction v as [n|b IH] using sval_ind'; intros H; [reflexivity|].
  rewrite over_dict. f_equal. assert (Hb := wf_keys _ H). apply alist_ext.
  - apply NoDup_merge; assumption.
  - rewrite keys_merge by assumption. rewrite <- (app_nil_r (keys b)) at 4. f_equal.
    assert (forall l, incl l (keys b) -> filter (notin (keys b)) l = []); [|apply H0; apply incl_refl].
    induction l as [|x l IHl]; intros Hi; [reflexivity|]. simpl.
    destruct (notin (keys b) x) eqn:E; [apply notin_spec in E; exfalso; apply E, Hi; left; reflexivity|].
    apply IHl. intros y Hy. apply Hi. right. assumption.
  - intros k. rewrite merge_lookup by assumption. destruct (aget k b) as [w|] eqn:E; [|reflexivity].
    f_equal. apply (IH k); [apply aget_Some_In; assumption|eapply (wf_aget b); eassumption].
Qed.

Lemma over_over_same : forall v a, wf v -> over (Some (over a v)) v = over a v.
Proof.
  induction v as [n|b IH] using sval_ind'; intros a H; [reflexivity|].
  destruct (isdict a) eqn:Ed; [|rewrite (over_nondict a) by assumption; apply over_self; assumption].
  destruct a as [[m|a]|]; try discriminate. rewrite over_dict, over_dict. f_equal.
  assert (Hb := wf_keys _ H).
  (* every key of b is already there *)
  assert (G : forall k w, aget k b = Some w -> over (aget k (merge a b)) w = over (aget k a) w).
  { intros k w Hw. rewrite merge_lookup, Hw by assumption.
    apply (IH k); [apply aget_Some_In; assumption|eapply (wf_aget b); eassumption]. }
  assert (K : forall l d, (forall k w, In (k, w) l -> aget k d = Some (over (aget k d) w)) -> merge d l = d).
  { induction l as [|[k w] l IHl]; intros d Hl; [reflexivity|]. cbn [merge].
    assert (Es : aset k (over (aget k d) w) d = d).
    { specialize (Hl k w (or_introl eq_refl)). remember (over (aget k d) w) as x. clear - Hl.
      induction d as [|[k' v'] d IHd]; [discriminate|]. simpl in *.
      destruct (str_eqb_spec k k'); [congruence|]. f_equal. auto. }
    rewrite Es. apply IHl. intros; apply Hl; right; assumption. }
  apply K. intros k w Hin. apply In_aget in Hin; [|assumption].
  rewrite (G _ _ Hin). rewrite merge_lookup, Hin by assumption. reflexivity.
Qed.
Lemma merge_idem : forall a b, wf (SDict b) -> merge (merge a b) b = merge a b.
Proof.
  intros a b H. assert (E := over_over_same (SDict b) (Some (SDict a)) H).
  rewrite !over_dict in E. injection E as E. exact E.
Qed.

Definition ov (a b : option sval) : option sval :=
  match b with None => a | Some v => Some (over a v) end.
Lemma merge_ov : forall a b k, NoDup (keys b) -> aget k (merge a b) = ov (aget k a) (aget k b).
Proof. intros. rewrite merge_lookup by assumption. reflexivity. Qed.

Lemma filter_assoc : forall a b c : list pystr,
  (a ++ filter (notin a) b) ++ filter (notin (a ++ filter (notin a) b)) c =
  a ++ filter (notin a) (b ++ filter (notin b) c).
Proof.
  intros a b c. rewrite filter_app, <- app_assoc. f_equal. f_equal.
  induction c as [|x c IH]; [reflexivity|]. simpl.
  destruct (notin b x) eqn:Eb; simpl.
  - destruct (notin a x) eqn:Ea.
    + replace (notin (a ++ filter (notin a) b) x) with true; [congruence|].
      symmetry. apply notin_spec. rewrite in_app_iff, filter_In. apply notin_spec in Ea, Eb. tauto.
    + replace (notin (a ++ filter (notin a) b) x) with false; [congruence|].
      symmetry. apply not_true_is_false. rewrite notin_spec, in_app_iff. intros H.
      rewrite <- not_true_iff_false, notin_spec in Ea. tauto.
  - replace (notin (a ++ filter (notin a) b) x) with false; [assumption|].
    symmetry. apply not_true_is_false. rewrite notin_spec, in_app_iff, filter_In. intros H.
    rewrite <- not_true_iff_false, notin_spec in Eb. apply Eb. intros Hb. apply H. right. split; [assumption|].
    apply notin_spec. tauto.
Qed.

Lemma over_assoc : forall c a b, wf c -> (forall x, a = Some x -> wf x) -> (forall x, b = Some x -> wf x) ->
  layered a b (Some c) -> over (ov a b) c = over a (over b c).
Proof.
  induction c as [n|c IH] using sval_ind'; intros a b Hc Ha Hb Hl; [reflexivity|].
  inversion Hl; subst; try reflexivity.
  - (* all dictionaries *)
    cbn [ov]. rewrite !over_dict. f_equal.
    rename a0 into a, b0 into b.
    assert (Na : NoDup (keys a)) by (apply wf_keys; auto).
    assert (Nb : NoDup (keys b)) by (apply wf_keys; auto).
    assert (Nc : NoDup (keys c)) by (apply wf_keys; auto).
    apply alist_ext.
    + apply NoDup_merge; [apply NoDup_merge; assumption|assumption].
    + rewrite !keys_merge by (try apply NoDup_merge; assumption). apply filter_assoc.
    + intros k. rewrite !merge_ov by (try apply NoDup_merge; assumption).
      destruct (aget k c) as [w|] eqn:Ew; [|reflexivity]. cbn [ov]. f_equal.
      apply (IH k w); [apply aget_Some_In; assumption|eapply (wf_aget c); eassumption|..].
      * intros x Hx. eapply (wf_aget a); [|eassumption]. auto.
      * intros x Hx. eapply (wf_aget b); [|eassumption]. auto.
      * rewrite <- Ew. auto.
  - destruct b as [v|]; [|simpl; destruct c; reflexivity].
    cbn [ov]. rewrite (over_nondict None v), (over_nondict None) by reflexivity. reflexivity.
  - rewrite (over_nondict (Some (SAtom n))) by reflexivity. destruct b as [v|].
    + cbn [ov]. rewrite (over_nondict (Some (SAtom n)) v) by reflexivity. reflexivity.
    + cbn [ov]. rewrite (over_nondict (Some (SAtom n))) by reflexivity. symmetry. apply over_nondict. reflexivity.
Qed.
Lemma merge_assoc : forall a b c, wf (SDict a) -> wf (SDict b) -> wf (SDict c) ->
  layered (Some (SDict a)) (Some (SDict b)) (Some (SDict c)) ->
  merge (merge a b) c = merge a (merge b c).
Proof.
  intros a b c Ha Hb Hc Hl.
  assert (E := over_assoc (SDict c) (Some (SDict a)) (Some (SDict b)) Hc). cbn [ov] in E.
  rewrite !over_dict in E. specialize (E ltac:(intros x [= <-]; assumption) ltac:(intros x [= <-]; assumption) Hl).
  injection E as E. exact E.
Qed.

(** Paths: the leaf of [b] wins. *)
Lemma look_over_atom : forall p v a n, wf v -> look p v = Some (SAtom n) -> look p (over a v) = Some (SAtom n).
Proof.
  induction p as [|k p IH]; intros v a n Hv H; simpl in *.
  - inversion H; subst. reflexivity.
  - destruct v as [m|b]; [discriminate|].
    destruct (isdict a) eqn:Ed; [|rewrite over_nondict by assumption; exact H].
    destruct a as [[m|a]|]; try discriminate. rewrite over_dict. rewrite merge_lookup by (apply wf_keys; assumption).
    destruct (aget k b) as [w|] eqn:E; [|discriminate]. apply IH; [eapply (wf_aget b); eassumption|assumption].
Qed.
Lemma merge_path_new : forall p a b n, wf (SDict b) -> look p (SDict b) = Some (SAtom n) ->
  look p (SDict (merge a b)) = Some (SAtom n).
Proof. intros p a b n Hb H. rewrite <- over_dict. apply look_over_atom; assumption. Qed.
(** Paths not touched by [b] are kept: no prefix of the path is a leaf of [b], and the path is absent. *)
Lemma look_over_keep : forall p v a x, wf v -> look p a = Some x -> look p v = None ->
  (forall q r n, p = q ++ r -> look q v <> Some (SAtom n)) -> look p (over (Some a) v) = Some x.
Proof.
  induction p as [|k p IH]; intros v a x Hv Ha Hn Hq; [discriminate|].
  destruct v as [m|b]; [exfalso; apply (Hq [] (k :: p) m); reflexivity|].
  destruct a as [m|a]; [discriminate|]. rewrite over_dict. cbn [look] in *.
  rewrite merge_lookup by (apply wf_keys; assumption).
  destruct (aget k a) as [y|] eqn:Ea; [|discriminate].
  destruct (aget k b) as [w|] eqn:Eb; [|assumption].
  apply IH; [eapply (wf_aget b); eassumption|assumption|assumption|].
  intros q r n -> Hl. apply (Hq (k :: q) r n); [reflexivity|]. cbn [look]. rewrite Eb. assumption.
Qed.
Lemma merge_path_keep : forall p a b x, wf (SDict b) -> look p (SDict a) = Some x -> look p (SDict b) = None ->
  (forall q r n, p = q ++ r -> look q (SDict b) <> Some (SAtom n)) -> look p (SDict (merge a b)) = Some x.
Proof. intros. rewrite <- over_dict. apply look_over_keep; assumption. Qed.

Lemma merge_lookup_cases : forall a b k, NoDup (keys b) ->
  aget k (merge a b) =
  match aget k a, aget k b with
  | x, None => x
  | Some (SDict x), Some (SDict y) => Some (SDict (merge x y))
  | _, Some y => Some y
  end.
Proof.
  intros a b k H. rewrite merge_lookup by assumption.
  destruct (aget k a) as [[n|x]|]; destruct (aget k b) as [[m|y]|]; try reflexivity.
Qed.
