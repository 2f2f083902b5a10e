(** Specification of the sampling profiler: what it has to count, from what happened (the last first). *)
From Verif Require Import Base Prof_Model.

(** How often was it started and not stopped? *)
Fixpoint level (h : list pop) : Z :=
  match h with
  | [] => 0
  | PStart _ :: r => level r + 1
  | PStop _ _ :: r => level r - 1
  | _ :: r => level r
  end.

(** The stacks of the samples: those of the signals while it runs, since the last reset; it can only be reset at level 0. *)
Fixpoint taken (h : list pop) : list (nat * list nat) :=
  match h with
  | [] => []
  | PSignal _ _ top below :: r => if (0 <? level r)%Z then (top, below) :: taken r else taken r
  | PReset _ _ :: r => if (level r =? 0)%Z then [] else taken r
  | _ :: r => taken r
  end.
Definition on_top (k : nat) (x : nat * list nat) : bool := Nat.eqb k (fst x).
Definition on_stack (k : nat) (x : nat * list nat) : bool := existsb (Nat.eqb k) (fst x :: snd x).
Definition times (p : nat * list nat -> bool) (l : list (nat * list nat)) : nat := length (filter p l).

(** When an event starts and when it is over. *)
Definition t_in (o : pop) : Z := match o with PStart t | PStop t _ | PReset t _ | PSignal t _ _ _ => t end.
Definition t_out (o : pop) : Z := match o with PSignal _ t _ _ => t | _ => t_in o end.

(** The time between the events while it runs, since the last reset. *)
Fixpoint active (h : list pop) : Z :=
  match h with
  | [] => 0
  | o :: r =>
      let now := (active r + match r with p :: _ => if (0 <? level r)%Z then t_in o - t_out p else 0 | [] => 0 end)%Z in
      match o with PReset _ _ => if (level r =? 0)%Z then 0 else now | _ => now end
  end.

(** The row of a code object. *)
Fixpoint entry (k : nat) (l : table) : option cdata :=
  match l with [] => None | (j, d) :: r => if Nat.eqb j k then Some d else entry k r end.
Definition self_of (k : nat) (s : pst) : nat := match entry k (p_data s) with Some d => d_self d | None => 0 end.
Definition cum_of (k : nat) (s : pst) : nat := match entry k (p_data s) with Some d => d_cum d | None => 0 end.

(** All that was counted. *)
Definition total (s : pst) : nat := fold_right (fun x n => d_self (snd x) + n) 0 (p_data s).

(** Two rows with the same times. *)
Definition tie (s : pst) : Prop :=
  exists j k, j <> k /\ (exists d e, In (j, d) (p_data s) /\ In (k, e) (p_data s) /\
    (Z.of_nat (d_self d) * p_acc s = Z.of_nat (d_self e) * p_acc s)%Z /\ (Z.of_nat (d_cum d) * p_acc s = Z.of_nat (d_cum e) * p_acc s)%Z).
