(** Vocabulary for the properties of concurrent code. *)
From Coq Require Export Permutation.
From Verif Require Import Conc_Model.

(** ** Schedules of compile calls *)
(** No call is interrupted while it waits for the lock. *)
Definition uninterrupted (ls : list label) : Prop := forall t, ~ In (Act t Interrupt) ls.
(** The call is between obtaining the lock and giving it back. *)
Definition inside (f : frame) : Prop := f_pc f <> Waiting.

(** ** Schedules of the import lock *)
(** No import fails inside a section. *)
Definition no_escape (ls : list (nat * iact)) : Prop := forall t, ~ In (t, Escape) ls.
(** A thread that has just obtained the lock writes both attributes before any other thread
    moves. *)
Fixpoint undisturbed (ls : list (nat * iact)) (s : lstate) : Prop :=
  match ls with
  | [] => True
  | (t, a) :: r =>
      (forall u, u <> t -> t_pc (l_thr s u) <> A_sign /\ t_pc (l_thr s u) <> A_zero)
      /\ match istep t a s with Some s' => undisturbed r s' | None => True end
  end.
(** The thread is inside a critical section. *)
Definition in_section (s : lstate) (t : nat) : Prop := t_depth (l_thr s t) > 0.

(** ** Histories of a process pool *)
Definition starts (l : list event) : list nat :=
  flat_map (fun e => match e with Started b => [b] | Reaped _ => [] end) l.
Definition reaps (l : list event) : list nat :=
  flat_map (fun e => match e with Started _ => [] | Reaped b => [b] end) l.
