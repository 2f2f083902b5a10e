(** Property theorems C98 (the sampling profiler, Cheetah/Utils/statprof.py). *)
From Coq Require Permutation.
From Verif Require Import Base Prof_Model Prof_Spec Prof_Proofs.

(** A session, the last event first: two starts, signals before, in and after, and stops; 1 is called by 2, 2 by 3. *)
Definition session : list pop :=
  [PSignal 95 96 1 [2; 3]; PStop 90 4; PSignal 70 75 2 [3; 2; 3]; PStop 60 0; PSignal 40 43 1 [2; 3]; PStart 30; PStart 20; PReset 15 None; PSignal 10 11 7 []]%nat.

(** C98, the counts: the samples are those of the signals between start and stop, since the last reset; a function has been on top as
    often as its self count says, and on as many stacks as its cumulative count says, however often it is on one. *)
Theorem C98_counts : forall h, p_count (prun h) = length (taken h) /\ total (prun h) = length (taken h) /\
  (forall k, self_of k (prun h) = times (on_top k) (taken h)) /\ (forall k, cum_of k (prun h) = times (on_stack k) (taken h)).
Proof. exact counts. Qed.
Print Assumptions C98_counts.
Example C98_counts_ex : taken session = [(2, [3; 2; 3]); (1, [2; 3])]%nat /\ self_of 3 (prun session) = 0%nat /\ cum_of 3 (prun session) = 2%nat /\
  self_of 2 (prun session) = 1%nat /\ cum_of 7 (prun session) = 0%nat.
Proof. vm_compute. repeat split. Qed.

Theorem C98_ordered : forall h k, (self_of k (prun h) <= cum_of k (prun h))%nat /\ (cum_of k (prun h) <= p_count (prun h))%nat.
Proof. exact ordered. Qed.
Print Assumptions C98_ordered.
Example C98_ordered_ex : self_of 2 (prun session) = 1%nat /\ cum_of 2 (prun session) = 2%nat /\ p_count (prun session) = 2%nat.
Proof. vm_compute. repeat split. Qed.

(** ... the time: what passes while it runs, without the time in the handler of the signals. *)
Theorem C98_time : forall h, (level h <= 0)%Z -> p_acc (prun h) = active h.
Proof. exact stopped. Qed.
Print Assumptions C98_time.
Example C98_time_ex : (level session <= 0)%Z /\ p_acc (prun session) = 62%Z /\ active session = 62%Z.
Proof. vm_compute. split; [discriminate|split; reflexivity]. Qed.

(** ... the only exception is that of a reset while the level is not 0, and this changes nothing. *)
Theorem C98_errors : forall o h e, fst (pstep o (prun h)) = Raise e ->
  e = AssertE /\ (exists t f, o = PReset t f) /\ level h <> 0%Z /\ snd (pstep o (prun h)) = prun h.
Proof.
  intros o h e H. destruct (no_error o h e H) as (A & (t & f & ->) & L). repeat split; eauto. rewrite (reset_refused h t f L). reflexivity.
Qed.
Print Assumptions C98_errors.
Example C98_errors_ex : fst (pstep (PReset 35 None) (prun [PStart 30])) = Raise AssertE.
Proof. reflexivity. Qed.

(** ... the report: each function once, ordered by the time in itself and then with what it calls. *)
Theorem C98_order : forall h l, (0 < p_acc (prun h))%Z -> display (prun h) = Ok (Some l) ->
  Permutation.Permutation l (map fst (p_data (prun h))) /\
  forall a j b k c, l = a ++ j :: b ++ k :: c -> (self_of k (prun h) < self_of j (prun h))%nat \/
    (self_of k (prun h) = self_of j (prun h) /\ cum_of k (prun h) < cum_of j (prun h))%nat.
Proof. exact order. Qed.
Print Assumptions C98_order.
Definition good : list pop := [PStop 90 4; PSignal 40 43 1 [3]; PSignal 36 38 2 [1; 3]; PSignal 33 34 1 [3]; PStart 30]%nat.
Example C98_order_ex : (0 < p_acc (prun good))%Z /\ display (prun good) = Ok (Some [1; 2; 3]%nat).
Proof. vm_compute. split; reflexivity. Qed.

(** ... when there is none: two rows with the same times have no order. *)
Theorem C98_display : forall h, (exists e, display (prun h) = Raise e) <-> taken h <> [] /\ tie (prun h).
Proof. exact displayed. Qed.
Print Assumptions C98_display.
Example C98_display_ex : taken session <> [] /\ display (prun session) = Ok (Some [2; 1; 3]%nat).
Proof. vm_compute. split; [discriminate|reflexivity]. Qed.

(** Two functions with the same counts are enough. *)
Theorem C98_same_counts : forall h j k, j <> k -> times (on_stack j) (taken h) <> 0%nat ->
  times (on_stack j) (taken h) = times (on_stack k) (taken h) -> times (on_top j) (taken h) = times (on_top k) (taken h) ->
  display (prun h) = Raise OrderE.
Proof. exact callers. Qed.
Print Assumptions C98_same_counts.
(** A report for every session: false, one sample of three functions is enough. *)
Theorem C98_display_refuted : exists h, level h = 0%Z /\ length (taken h) = 1%nat /\ display (prun h) = Raise OrderE.
Proof. exists [PStop 50 1; PSignal 40 43 1 [2; 3]; PStart 30]%nat. vm_compute. repeat split. Qed.
Print Assumptions C98_display_refuted.
Example C98_same_counts_ex : let h := [PStop 50 1; PSignal 40 43 1 [2; 3]; PStart 30]%nat in
  times (on_stack 2) (taken h) = 1%nat /\ times (on_stack 3) (taken h) = 1%nat /\ times (on_top 2) (taken h) = 0%nat /\ times (on_top 3) (taken h) = 0%nat.
Proof. vm_compute. repeat split. Qed.

(** After a start there are samples: false, a stop too many counts. *)
Theorem C98_stop_refuted : exists h t, level h = 0%Z /\ taken (PSignal (t + 2) (t + 3) 1%nat [] :: PStart (t + 1) :: PStop t 0 :: h) = [] /\
  p_timer (prun (PStart (t + 1) :: PStop t 0 :: h)) = Off.
Proof. exists [], 5%Z. vm_compute. repeat split. Qed.
Print Assumptions C98_stop_refuted.

(** A reset is refused only while the profiler runs: false, after a stop too many it is refused, although nothing runs. *)
Theorem C98_reset_refuted : exists h t, p_timer (prun h) = Off /\ taken (PSignal t t 1%nat [] :: h) = [] /\ fst (pstep (PReset t None) (prun h)) = Raise AssertE.
Proof. exists [PStop 5 0], 6%Z. vm_compute. repeat split. Qed.
Print Assumptions C98_reset_refuted.
