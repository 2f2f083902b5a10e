(** C94: neighbouring pages. *)
From Verif Require Import Base PyStr Report_Model Pages_Model Pages_Spec Pages_Proofs.
Local Open Scope Z_scope.
Local Open Scope list_scope.

(** C94: there is nothing before the first record, and nothing else is without a page before it. *)
Theorem C94_prev_none : forall A (l : list A) i s, record_stats l i = Ok s -> (prev s = Ok None <-> i = 0).
Proof.
  intros A l i s H. rewrite (prev_exact l i s H). destruct (i =? 0) eqn:E.
  - apply Z.eqb_eq in E. tauto.
  - apply Z.eqb_neq in E. split; [destruct (i <? 0); discriminate|tauto].
Qed.
Print Assumptions C94_prev_none.
Example C94_prev_none_ex : record_stats [5; 6; 7]%nat 0 = Ok (mkStats [5; 6; 7]%nat 0 5%nat)
  /\ prev (mkStats [5; 6; 7]%nat 0 5%nat) = Ok None.
Proof. split; reflexivity. Qed.

(** C94, refuted: the page before a record does not tell about it, but about the record itself: of every record but the first,
    both ends of the page before are the record, and its first index is negative. *)
Theorem C94_prev_is_itself : forall A (l : list A) i s, record_stats l i = Ok s -> 0 < i ->
  exists p, prev s = Ok (Some p) /\ e_first p = st_item s /\ e_last p = st_item s /\ e_start p < 0 /\ e_end p = i
    /\ e_len p = Z.of_nat (length l).
Proof.
  intros A l i s H Hi. rewrite (prev_exact l i s H).
  destruct (record_range l i s H) as (_ & _ & _ & Hr).
  replace (i =? 0) with false by (symmetry; apply Z.eqb_neq; lia).
  replace (i <? 0) with false by (symmetry; apply Z.ltb_ge; lia).
  eexists. split; [reflexivity|]. cbn. repeat split. lia.
Qed.
Print Assumptions C94_prev_is_itself.
Example C94_prev_is_itself_ex :
  prev (mkStats [5; 6; 7]%nat 2 7%nat) = Ok (Some (mkEnds (-1) 7%nat 2 7%nat 3)).
Proof. reflexivity. Qed.

Theorem C94_prev_refuted : exists (l : list nat) i s p,
  record_stats l i = Ok s /\ prev s = Ok (Some p) /\ e_first p = st_item s /\ e_start p < 0.
Proof.
  exists [5; 6; 7]%nat, 2, (mkStats [5; 6; 7]%nat 2 7%nat), (mkEnds (-1) 7%nat 2 7%nat 3).
  repeat split; try reflexivity; vm_compute; reflexivity.
Qed.
Print Assumptions C94_prev_refuted.

(** C94: asking for the page after a record never gives one: nothing for the first record, IndexError for the others. *)
Theorem C94_next_never : forall A (l : list A) i s, record_stats l i = Ok s ->
  next s = if i =? 0 then Ok None else Raise IndexError.
Proof. exact @next_exact. Qed.
Print Assumptions C94_next_never.
Example C94_next_never_ex : record_stats [5; 6; 7]%nat 1 = Ok (mkStats [5; 6; 7]%nat 1 6%nat)
  /\ next (mkStats [5; 6; 7]%nat 1 6%nat) = Raise IndexError.
Proof. split; reflexivity. Qed.

(** C94, refuted: nothing comes after the last record only. *)
Theorem C94_next_refuted : exists (l : list nat) s t,
  record_stats l 0 = Ok s /\ st_last s = false /\ next s = Ok None
  /\ record_stats l 1 = Ok t /\ st_last t = true /\ next t = Raise IndexError.
Proof.
  exists [5; 6]%nat, (mkStats [5; 6]%nat 0 5%nat), (mkStats [5; 6]%nat 1 6%nat). vm_compute. repeat split; reflexivity.
Qed.
Print Assumptions C94_next_refuted.

(** C94: a window asked for by its first record alone begins there (or at the last record), lies inside the list and takes
    [size] records, 7 if no size is given, or all that are left if fewer than [orphan] would stay behind. *)
Theorem C94_window_forward : forall A (l : list A) start end_ size orphan,
  (0 < length l)%nat -> 0 < start -> end_ <= 0 -> 0 <= orphan ->
  exists e, helper start end_ size orphan l = (Z.min start (Z.of_nat (length l)), e, if size <? 1 then 7 else size)
    /\ Z.min start (Z.of_nat (length l)) <= e <= Z.of_nat (length l)
    /\ forward (Z.of_nat (length l)) (if size <? 1 then 7 else size) orphan (Z.min start (Z.of_nat (length l))) e.
Proof. exact @helper_forward. Qed.
Print Assumptions C94_window_forward.
Example C94_window_forward_ex :
  helper 4 0 3 2 (repeat tt 8) = (4, 6, 3) /\ helper 4 0 3 2 (repeat tt 7) = (4, 7, 3) /\ helper 4 0 0 0 (repeat tt 20) = (4, 10, 7)
  /\ helper 99 0 3 0 (repeat tt 5) = (5, 5, 3).
Proof. repeat split; reflexivity. Qed.

(** C94: a window asked for by its last record alone ends there (or at the last record), lies inside the list and takes [size]
    records, or all from the first if fewer than [orphan] would stay before it. *)
Theorem C94_window_backward : forall A (l : list A) start end_ size orphan,
  (0 < length l)%nat -> start <= 0 -> 0 < end_ -> 0 <= orphan ->
  exists s, helper start end_ size orphan l = (s, Z.min end_ (Z.of_nat (length l)), if size <? 1 then 7 else size)
    /\ 1 <= s <= Z.min end_ (Z.of_nat (length l))
    /\ backward (if size <? 1 then 7 else size) orphan s (Z.min end_ (Z.of_nat (length l))).
Proof. exact @helper_backward. Qed.
Print Assumptions C94_window_backward.
Example C94_window_backward_ex :
  helper 0 6 3 2 (repeat tt 8) = (4, 6, 3) /\ helper 0 4 3 2 (repeat tt 8) = (1, 4, 3) /\ helper 0 99 3 0 (repeat tt 8) = (6, 8, 3).
Proof. repeat split; reflexivity. Qed.

(** C94: a window asked for by nothing is the one that begins with the first record. *)
Theorem C94_window_default : forall A (l : list A) start end_ size orphan,
  (0 < length l)%nat -> start <= 0 -> end_ <= 0 -> 0 <= orphan ->
  helper start end_ size orphan l = helper 1 end_ size orphan l.
Proof. exact @helper_start. Qed.
Print Assumptions C94_window_default.
Example C94_window_default_ex : helper (-4) 0 3 0 (repeat tt 8) = (1, 3, 3).
Proof. reflexivity. Qed.

(** C94: windows one after the other have every record once and in order; all have [size] records but the last, which has
    fewer than [orphan] more, and not fewer than [orphan] unless it is the only one. *)
Theorem C94_windows_partition : forall A (l : list A) size orphan, (0 < length l)%nat -> 1 <= size -> 0 <= orphan ->
  exists ws, walk (fun s => helper s 0 size orphan l) (Z.of_nat (length l)) (length l) 1 = Some ws
    /\ flat_map (fun w => numbers (fst w) (snd w)) ws = numbers 1 (Z.of_nat (length l))
    /\ sizes size orphan true ws.
Proof.
  intros A l size orphan Hn Hz Ho.
  destruct (walk_windows l size orphan Hn Hz Ho (length l) 1 true ltac:(lia) ltac:(lia) ltac:(left; reflexivity)) as (ws & H1 & H2 & H3 & _).
  exists ws. split; [exact H1|]. split; [exact H2|exact H3].
Qed.
Print Assumptions C94_windows_partition.
Example C94_windows_partition_ex :
  walk (fun s => helper s 0 3 2 (repeat tt 10)) 10 10 1 = Some [(1, 3); (4, 6); (7, 10)]
  /\ walk (fun s => helper s 0 3 1 (repeat tt 10)) 10 10 1 = Some [(1, 3); (4, 6); (7, 9); (10, 10)].
Proof. split; reflexivity. Qed.

(** C94: with both ends given the window is taken as it is asked for, from the last record on if it begins behind it. *)
Theorem C94_window_both : forall A (l : list A) start end_ size orphan, (0 < length l)%nat -> 0 < start -> 0 < end_ ->
  let s := Z.min start (Z.of_nat (length l)) in
  fst (helper start end_ size orphan l) = (s, Z.max s end_).
Proof. exact @helper_both. Qed.
Print Assumptions C94_window_both.
Example C94_window_both_ex : helper 2 4 0 0 (repeat tt 8) = (2, 4, 3) /\ helper 5 2 0 0 (repeat tt 8) = (5, 5, 7).
Proof. split; reflexivity. Qed.

(** C94, refuted: such a window lies inside the list. *)
Theorem C94_window_past_the_end_refuted : exists (l : list unit) start end_ s e z,
  (0 < length l)%nat /\ 0 < start <= end_ /\ helper start end_ 0 0 l = (s, e, z) /\ Z.of_nat (length l) < e.
Proof. exists (repeat tt 3), 2, 9, 2, 9, 8. vm_compute. repeat split; congruence || reflexivity || (repeat constructor). Qed.
Print Assumptions C94_window_past_the_end_refuted.
