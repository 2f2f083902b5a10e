(** Python dictionaries with string keys, as association lists in insertion order (used for
    every [dict] in the models; e.g. Cheetah/CacheStore.py:44, Cheetah/CacheRegion.py:112). *)
From Verif Require Import Base.

Section Alist.
Context {V : Type}.

(** [d.get(k)] (e.g. Cheetah/Template.py:1394). *)
Fixpoint aget (k : pystr) (d : list (pystr * V)) : option V :=
  match d with
  | [] => None
  | (k', v) :: r => if str_eqb k k' then Some v else aget k r
  end.

(** [d[k] = v]: keeps the position of an existing key, else appends
    (e.g. Cheetah/CacheStore.py:47). *)
Fixpoint aset (k : pystr) (v : V) (d : list (pystr * V)) : list (pystr * V) :=
  match d with
  | [] => [(k, v)]
  | (k', v') :: r => if str_eqb k k' then (k', v) :: r else (k', v') :: aset k v r
  end.

(** [del d[k]] (e.g. Cheetah/CacheStore.py:60); the key is known to be present at the call. *)
Fixpoint adel (k : pystr) (d : list (pystr * V)) : list (pystr * V) :=
  match d with
  | [] => []
  | (k', v') :: r => if str_eqb k k' then r else (k', v') :: adel k r
  end.

(** [k in d] (e.g. Cheetah/CacheStore.py:50). *)
Definition ahas (k : pystr) (d : list (pystr * V)) : bool :=
  match aget k d with Some _ => true | None => false end.

Definition keys (d : list (pystr * V)) : list pystr := map fst d.

Lemma aget_aset : forall k k' v d,
  aget k (aset k' v d) = if str_eqb k k' then Some v else aget k d.
Proof.
  intros k k' v d. induction d as [|[k2 v2] d IH]; simpl.
  - destruct (str_eqb k k'); reflexivity.
  - destruct (str_eqb_spec k' k2) as [->|Hn]; simpl.
    + destruct (str_eqb k k2); reflexivity.
    + rewrite IH. destruct (str_eqb_spec k k2) as [->|]; [|reflexivity].
      destruct (str_eqb_spec k2 k') as [->|]; [congruence|reflexivity].
Qed.

Lemma aget_aset_same : forall k v d, aget k (aset k v d) = Some v.
Proof. intros. rewrite aget_aset, str_eqb_refl. reflexivity. Qed.

Lemma aget_aset_other : forall k k' v d, k <> k' -> aget k (aset k' v d) = aget k d.
Proof. intros. rewrite aget_aset. destruct (str_eqb_spec k k'); congruence. Qed.

Lemma aget_In_keys : forall k d, (exists v, aget k d = Some v) <-> In k (keys d).
Proof.
  intros k d. induction d as [|[k2 v2] d IH]; simpl.
  - split; [intros [v H]; discriminate|tauto].
  - destruct (str_eqb_spec k k2) as [->|Hn].
    + split; [auto|eauto].
    + rewrite IH. split; [auto|intros [?|?]; [congruence|assumption]].
Qed.

Lemma aget_None_keys : forall k d, aget k d = None <-> ~ In k (keys d).
Proof.
  intros k d. rewrite <- aget_In_keys. destruct (aget k d); split; intros H; try congruence.
  - exfalso. apply H. eauto.
  - intros [v Hv]. discriminate.
Qed.

Lemma aget_Some_In : forall k v d, aget k d = Some v -> In (k, v) d.
Proof.
  intros k v d. induction d as [|[k2 v2] d IH]; simpl; intros H; [discriminate|].
  destruct (str_eqb_spec k k2) as [->|Hn]; [inversion H; auto|auto].
Qed.

Lemma In_aget : forall k v d, NoDup (keys d) -> In (k, v) d -> aget k d = Some v.
Proof.
  intros k v d. induction d as [|[k2 v2] d IH]; simpl; intros Hn H; [contradiction|].
  inversion Hn; subst. destruct H as [E|H].
  - inversion E; subst. rewrite str_eqb_refl. reflexivity.
  - destruct (str_eqb_spec k k2) as [->|]; [|auto].
    exfalso. apply H2. apply (in_map fst) in H. assumption.
Qed.

Lemma aget_adel : forall k k' d, NoDup (keys d) ->
  aget k (adel k' d) = if str_eqb k k' then None else aget k d.
Proof.
  intros k k' d. induction d as [|[k2 v2] d IH]; simpl; intros H.
  - destruct (str_eqb k k'); reflexivity.
  - inversion H; subst. destruct (str_eqb_spec k' k2) as [->|Hn]; simpl.
    + destruct (str_eqb_spec k k2) as [->|]; [|reflexivity]. apply aget_None_keys. assumption.
    + rewrite IH by assumption. destruct (str_eqb_spec k k2) as [->|]; [|reflexivity].
      destruct (str_eqb_spec k2 k') as [->|]; [congruence|reflexivity].
Qed.

Lemma keys_aset : forall k v d, keys (aset k v d) = if ahas k d then keys d else keys d ++ [k].
Proof.
  intros k v d. unfold ahas. induction d as [|[k2 v2] d IH]; simpl; [reflexivity|].
  destruct (str_eqb_spec k k2) as [->|Hn]; [reflexivity|]. simpl. rewrite IH.
  destruct (aget k d); reflexivity.
Qed.

Lemma NoDup_aset : forall k v d, NoDup (keys d) -> NoDup (keys (aset k v d)).
Proof.
  intros k v d H. rewrite keys_aset. unfold ahas. destruct (aget k d) eqn:E; [assumption|].
  apply aget_None_keys in E. rewrite <- (rev_involutive (keys d ++ [k])), rev_app_distr.
  apply NoDup_rev. simpl. constructor; [rewrite <- in_rev; assumption|].
  apply NoDup_rev. assumption.
Qed.

Lemma adel_keys_incl : forall k k' d, In k (keys (adel k' d)) -> In k (keys d).
Proof.
  intros k k' d. induction d as [|[k2 v2] d IH]; simpl; [tauto|].
  destruct (str_eqb k' k2); simpl; tauto.
Qed.

Lemma NoDup_adel : forall k d, NoDup (keys d) -> NoDup (keys (adel k d)).
Proof.
  intros k d. induction d as [|[k2 v2] d IH]; simpl; intros H; [constructor|].
  inversion H; subst. destruct (str_eqb k k2); [assumption|]. simpl. constructor; auto.
  intro Hi. apply H2. eapply adel_keys_incl; eauto.
Qed.

Lemma In_keys_aset : forall k k' v d, In k (keys (aset k' v d)) <-> k = k' \/ In k (keys d).
Proof.
  intros. rewrite <- !aget_In_keys, aget_aset. destruct (str_eqb_spec k k') as [->|].
  - split; eauto.
  - split; [auto|intros [?|?]; [congruence|assumption]].
Qed.

End Alist.
