(** C18, C19: merging of settings. *)
From Verif Require Import Base Alist Settings_Model Settings_Spec Settings_Proofs Settings_Heap.

(** {k: {x: 1}, j: 5} at 0, {k: {x: 2, y: 3}} at 2, {k: {z: 4}} at 4. *)
Definition ex_heap : heap :=
  [[(L "k", HRef 1); (L "j", HAtom 5)]; [(L "x", HAtom 1)];
   [(L "k", HRef 3)]; [(L "x", HAtom 2); (L "y", HAtom 3)];
   [(L "k", HRef 5)]; [(L "z", HAtom 4)]].
Definition ex_a : tree := [(L "k", SDict [(L "x", SAtom 1)]); (L "j", SAtom 5)].
Definition ex_b : tree := [(L "k", SDict [(L "x", SAtom 2); (L "y", SAtom 3)])].
Definition ex_c : tree := [(L "k", SDict [(L "z", SAtom 4)])].
Example ex_rep0 : rep ex_heap (HRef 0) (SDict ex_a) [0; 1].
Proof.
  eapply (rep_dict _ 0 _ _ [1]); [reflexivity|repeat constructor; simpl; intuition discriminate|].
  apply (reps_cons _ _ _ _ _ _ [1] []).
  - eapply (rep_dict _ 1 _ _ []); [reflexivity|repeat constructor; simpl; tauto|].
    apply (reps_cons _ _ _ _ _ _ [] []); constructor.
  - apply (reps_cons _ _ _ _ _ _ [] []); constructor.
Qed.
Example ex_rep2 : rep ex_heap (HRef 2) (SDict ex_b) [2; 3].
Proof.
  eapply (rep_dict _ 2 _ _ [3]); [reflexivity|repeat constructor; simpl; tauto|].
  apply (reps_cons _ _ _ _ _ _ [3] []); [|constructor].
  eapply (rep_dict _ 3 _ _ []); [reflexivity|repeat constructor; simpl; intuition discriminate|].
  apply (reps_cons _ _ _ _ _ _ [] []); [constructor|]. apply (reps_cons _ _ _ _ _ _ [] []); constructor.
Qed.
Example ex_disjoint : NoDup [0; 1] /\ disjoint [0; 1] [2; 3].
Proof. split; [repeat constructor; simpl; intuition lia|]. intros x Hx Hy. simpl in *. lia. Qed.
Ltac wf_tac := repeat (constructor; [repeat constructor; simpl; intuition discriminate|
  intros k v H; simpl in H; repeat (destruct H as [H|H]; [injection H as <- <-|]); try contradiction]);
  try constructor.
Example ex_wf : wf (SDict ex_a) /\ wf (SDict ex_b) /\ wf (SDict ex_c).
Proof. split; [|split]; wf_tac. Qed.

(** ** C18 *)
(** The code, run on any heap in which the two arguments are trees that share nothing, terminates
    and leaves the merged tree in dict1. *)
Theorem C18_merge_refines_trees : forall h l1 l2 a b f1 f2,
  rep h (HRef l1) (SDict a) f1 -> NoDup f1 -> rep h (HRef l2) (SDict b) f2 -> disjoint f1 f2 ->
  exists N h', (forall fuel, N <= fuel -> mergeNested fuel NoCopy h l1 l2 = Some (Ok (h', l1))) /\
    same_outside h h' f1 /\ rep h' (HRef l2) (SDict b) f2 /\
    exists f', rep h' (HRef l1) (SDict (merge a b)) f'.
Proof. exact merge_nocopy. Qed.
Print Assumptions C18_merge_refines_trees.
Example C18_merge_refines_trees_ex :
  rep ex_heap (HRef 0) (SDict ex_a) [0; 1] /\ rep ex_heap (HRef 2) (SDict ex_b) [2; 3] /\
  NoDup [0; 1] /\ disjoint [0; 1] [2; 3] /\
  match mergeNested 20 NoCopy ex_heap 0 2 with
  | Some (Ok (h, _)) => nth 1 h [] = [(L "x", HAtom 2); (L "y", HAtom 3)] /\ nth 0 h [] = [(L "k", HRef 1); (L "j", HAtom 5)]
  | _ => False
  end.
Proof.
  split; [exact ex_rep0|]. split; [exact ex_rep2|]. split; [apply ex_disjoint|]. split; [apply ex_disjoint|].
  vm_compute. split; reflexivity.
Qed.

(** What the merged tree is, key by key. *)
Theorem C18_merge_lookup : forall a b k, NoDup (keys b) ->
  aget k (merge a b) =
  match aget k a, aget k b with
  | x, None => x
  | Some (SDict x), Some (SDict y) => Some (SDict (merge x y))
  | _, Some y => Some y
  end.
Proof. exact merge_lookup_cases. Qed.
Print Assumptions C18_merge_lookup.
Example C18_merge_lookup_ex : NoDup (keys ex_b) /\
  merge ex_a ex_b = [(L "k", SDict [(L "x", SAtom 2); (L "y", SAtom 3)]); (L "j", SAtom 5)].
Proof. split; [repeat constructor; simpl; tauto|vm_compute; reflexivity]. Qed.

(** Path by path: every leaf of [b] is in the result; every value of [a] under a path that [b] does
    not mention is kept. *)
Theorem C18_new_leaves_win : forall p a b n, wf (SDict b) -> look p (SDict b) = Some (SAtom n) ->
  look p (SDict (merge a b)) = Some (SAtom n).
Proof. exact merge_path_new. Qed.
Print Assumptions C18_new_leaves_win.
Example C18_new_leaves_win_ex : wf (SDict ex_b) /\ look [L "k"; L "x"] (SDict ex_b) = Some (SAtom 2).
Proof. split; [apply ex_wf|reflexivity]. Qed.

Theorem C18_old_values_kept : forall p a b x, wf (SDict b) -> look p (SDict a) = Some x ->
  look p (SDict b) = None -> (forall q r n, p = q ++ r -> look q (SDict b) <> Some (SAtom n)) ->
  look p (SDict (merge a b)) = Some x.
Proof. exact merge_path_keep. Qed.
Print Assumptions C18_old_values_kept.
Example C18_old_values_kept_ex : wf (SDict ex_c) /\ look [L "k"; L "x"] (SDict ex_a) = Some (SAtom 1) /\
  look [L "k"; L "x"] (SDict ex_c) = None /\
  (forall q r n, [L "k"; L "x"] = q ++ r -> look q (SDict ex_c) <> Some (SAtom n)).
Proof.
  split; [apply ex_wf|]. split; [reflexivity|]. split; [reflexivity|].
  intros q r n H. destruct q as [|q1 [|q2 [|q3 q]]]; simpl in H; try discriminate; injection H; intros; subst; discriminate.
Qed.

Theorem C18_empty_identity : forall a, merge a [] = a /\ (NoDup (keys a) -> merge [] a = a).
Proof. exact (fun a => conj (merge_nil_r a) (merge_nil_l a)). Qed.
Print Assumptions C18_empty_identity.
Example C18_empty_identity_ex : NoDup (keys ex_a) /\ merge [] ex_a = ex_a.
Proof. split; [repeat constructor; simpl; intuition discriminate|vm_compute; reflexivity]. Qed.

Theorem C18_idempotent : forall a b, wf (SDict b) -> merge (merge a b) b = merge a b.
Proof. exact merge_idem. Qed.
Print Assumptions C18_idempotent.
Example C18_idempotent_ex : wf (SDict ex_b) /\ merge ex_a ex_b <> ex_a.
Proof. split; [apply ex_wf|vm_compute; discriminate]. Qed.

(** Associativity (full statement: for all trees) fails when the middle argument replaces a
    dictionary by something else. *)
Theorem C18_associative_refuted : exists a b c, wf (SDict a) /\ wf (SDict b) /\ wf (SDict c) /\
  merge (merge a b) c <> merge a (merge b c).
Proof.
  exists ex_a, [(L "k", SAtom 7)], ex_c. split; [apply ex_wf|]. split; [wf_tac|]. split; [apply ex_wf|].
  vm_compute. discriminate.
Qed.
Print Assumptions C18_associative_refuted.
Theorem C18_associative_partial : forall a b c, wf (SDict a) -> wf (SDict b) -> wf (SDict c) ->
  layered (Some (SDict a)) (Some (SDict b)) (Some (SDict c)) ->
  merge (merge a b) c = merge a (merge b c).
Proof. exact merge_assoc. Qed.
Print Assumptions C18_associative_partial.
Example C18_associative_partial_ex : layered (Some (SDict ex_a)) (Some (SDict ex_b)) (Some (SDict ex_c)).
Proof.
  constructor. intros k. unfold ex_a, ex_b, ex_c. cbn [aget]. destruct (str_eqb k (L "k")) eqn:E.
  - constructor. intros j. cbn [aget]. destruct (str_eqb_spec j (L "z")) as [->|]; [simpl; constructor|constructor].
  - destruct (str_eqb k (L "j")); constructor.
Qed.

(** Updating without merging: the new values win key by key, nested dictionaries included, and no
    other object changes. *)
Theorem C18_update_without_merge : forall fuel h l1 l2 d1 d2, nth_error h l1 = Some d1 ->
  nth_error h l2 = Some d2 -> NoDup (keys d2) ->
  exists h' d', updateSettings fuel h l1 l2 false = Some (Ok h') /\ nth_error h' l1 = Some d' /\
    (forall x, x <> l1 -> nth_error h' x = nth_error h x) /\
    (forall k, aget k d' = match aget k d2 with Some v => Some v | None => aget k d1 end).
Proof. exact update_plain. Qed.
Print Assumptions C18_update_without_merge.
Example C18_update_without_merge_ex :
  match updateSettings 0 ex_heap 0 2 false with
  | Some (Ok h) => nth 0 h [] = [(L "k", HRef 3); (L "j", HAtom 5)] /\ skipn 1 h = skipn 1 ex_heap
  | _ => False
  end.
Proof. vm_compute. split; reflexivity. Qed.

(** ** C19 *)
(** With deepcopy the heap of the caller is untouched and the result is the merge. *)
Theorem C19_deepcopy_keeps_arguments : forall h l1 l2 a b f1 f2,
  rep h (HRef l1) (SDict a) f1 -> NoDup f1 -> rep h (HRef l2) (SDict b) f2 ->
  exists N h' l, (forall fuel, N <= fuel -> mergeNested fuel DeepCopy h l1 l2 = Some (Ok (h', l))) /\
    (forall x, x < length h -> nth_error h' x = nth_error h x) /\ length h <= l /\
    exists f', rep h' (HRef l) (SDict (merge a b)) f'.
Proof. exact merge_deepcopy. Qed.
Print Assumptions C19_deepcopy_keeps_arguments.
Example C19_deepcopy_keeps_arguments_ex :
  match mergeNested 20 DeepCopy ex_heap 0 2 with
  | Some (Ok (h, l)) => l = 6 /\ firstn 6 h = ex_heap /\ nth 6 h [] = [(L "k", HRef 7); (L "j", HAtom 5)] /\
                        nth 7 h [] = [(L "x", HAtom 2); (L "y", HAtom 3)]
  | _ => False
  end.
Proof. vm_compute. repeat split. Qed.

(** Without copying, dict2 and everything outside dict1 stays as it is. *)
Theorem C19_second_argument_kept : forall h l1 l2 a b f1 f2,
  rep h (HRef l1) (SDict a) f1 -> NoDup f1 -> rep h (HRef l2) (SDict b) f2 -> disjoint f1 f2 ->
  exists N h', (forall fuel, N <= fuel -> updateSettings fuel h l1 l2 true = Some (Ok h')) /\
    same_outside h h' f1 /\ rep h' (HRef l2) (SDict b) f2.
Proof. exact update_keeps. Qed.
Print Assumptions C19_second_argument_kept.
Example C19_second_argument_kept_ex :
  rep ex_heap (HRef 0) (SDict ex_a) [0; 1] /\ rep ex_heap (HRef 2) (SDict ex_b) [2; 3] /\
  NoDup [0; 1] /\ disjoint [0; 1] [2; 3].
Proof. split; [exact ex_rep0|]. split; [exact ex_rep2|]. exact ex_disjoint. Qed.

(** With copy=True the result is a new dictionary equal to the merge, and the object dict1 itself,
    dict2 and everything that is not a nested dictionary of dict1 stays as it is.  Missing from the
    full statement: the nested dictionaries of dict1 (see the refutation below). *)
Theorem C19_copy_partial : forall h l1 l2 a b f1 f2,
  rep h (HRef l1) (SDict a) f1 -> NoDup f1 -> rep h (HRef l2) (SDict b) f2 -> disjoint f1 f2 ->
  exists N h' l, (forall fuel, N <= fuel -> mergeNested fuel Copy h l1 l2 = Some (Ok (h', l))) /\
    length h <= l /\ nth_error h' l1 = nth_error h l1 /\
    (forall x, x < length h -> ~ In x f1 -> nth_error h' x = nth_error h x) /\
    rep h' (HRef l2) (SDict b) f2 /\
    exists f', rep h' (HRef l) (SDict (merge a b)) f'.
Proof. exact merge_copy. Qed.
Print Assumptions C19_copy_partial.
Example C19_copy_partial_ex :
  rep ex_heap (HRef 0) (SDict ex_a) [0; 1] /\ rep ex_heap (HRef 2) (SDict ex_b) [2; 3] /\
  NoDup [0; 1] /\ disjoint [0; 1] [2; 3].
Proof. split; [exact ex_rep0|]. split; [exact ex_rep2|]. exact ex_disjoint. Qed.

(** With copy=True the nested dictionaries of dict1 are modified: the copy is shallow. *)
Theorem C19_copy_refuted : exists h l1 l2 a b f1 f2 h' l x,
  rep h (HRef l1) (SDict a) f1 /\ NoDup f1 /\ rep h (HRef l2) (SDict b) f2 /\ disjoint f1 f2 /\
  mergeNested 20 Copy h l1 l2 = Some (Ok (h', l)) /\ x < length h /\ nth_error h' x <> nth_error h x.
Proof.
  exists ex_heap, 0, 2, ex_a, ex_b, [0; 1], [2; 3],
    [[(L "k", HRef 1); (L "j", HAtom 5)]; [(L "x", HAtom 2); (L "y", HAtom 3)];
     [(L "k", HRef 3)]; [(L "x", HAtom 2); (L "y", HAtom 3)];
     [(L "k", HRef 5)]; [(L "z", HAtom 4)]; [(L "k", HRef 1); (L "j", HAtom 5)]], 6, 1.
  split; [exact ex_rep0|]. split; [apply ex_disjoint|]. split; [exact ex_rep2|]. split; [apply ex_disjoint|].
  split; [vm_compute; reflexivity|]. split; [simpl; lia|vm_compute; discriminate].
Qed.
Print Assumptions C19_copy_refuted.

(** A nested dictionary of dict2 becomes part of the result (also with deepcopy): a later change of
    the result shows through in dict2. *)
Theorem C19_result_aliases_second_refuted : exists h l1 l2 h' l m,
  mergeNested 20 DeepCopy h l1 l2 = Some (Ok (h', l)) /\
  aget (L "k") (nth l h' []) = Some (HRef m) /\ m < length h /\
  nth_error (hset h' m (L "x") (HAtom 9)) m <> nth_error h m.
Proof.
  exists ([[]; [(L "k", HRef 2)]; [(L "x", HAtom 1)]]), 0, 1,
    ([[]; [(L "k", HRef 2)]; [(L "x", HAtom 1)]; [(L "k", HRef 2)]]), 3, 2.
  split; [vm_compute; reflexivity|]. split; [reflexivity|]. split; [simpl; lia|vm_compute; discriminate].
Qed.
Print Assumptions C19_result_aliases_second_refuted.

(** Two successive updateSettings: the second one modifies the dictionary given to the first. *)
Theorem C19_two_updates_refuted : exists h settings d1 d2 h1 h2 m,
  updateSettings 20 h settings d1 true = Some (Ok h1) /\
  updateSettings 20 h1 settings d2 true = Some (Ok h2) /\
  aget (L "k") (nth d1 h []) = Some (HRef m) /\ nth_error h2 m <> nth_error h m.
Proof.
  exists ([[]; [(L "k", HRef 2)]; [(L "x", HAtom 1)]; [(L "k", HRef 4)]; [(L "x", HAtom 8)]]), 0, 1, 3,
    ([[(L "k", HRef 2)]; [(L "k", HRef 2)]; [(L "x", HAtom 1)]; [(L "k", HRef 4)]; [(L "x", HAtom 8)]]),
    ([[(L "k", HRef 2)]; [(L "k", HRef 2)]; [(L "x", HAtom 8)]; [(L "k", HRef 4)]; [(L "x", HAtom 8)]]), 2.
  split; [vm_compute; reflexivity|]. split; [vm_compute; reflexivity|]. split; [reflexivity|vm_compute; discriminate].
Qed.
Print Assumptions C19_two_updates_refuted.
