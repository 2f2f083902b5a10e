(** Independent vocabulary for intervals, buffers and indenters. *)
From Verif Require Import Small_Model.

(** Units of an interval and their length in seconds. *)
Inductive unit_ := Second | Minute | Hour | Day | Week.
Definition unit_seconds (u : unit_) : Z :=
  match u with Second => 1 | Minute => 60 | Hour => 3600 | Day => 86400 | Week => 604800 end.

(** [unit_suffix suf u]: the suffix that names the unit; none means minutes. *)
Definition unit_suffix (suf : pystr) (u : unit_) : Prop :=
  (suf = L "s" /\ u = Second) \/ (suf = L "m" /\ u = Minute) \/ (suf = L "h" /\ u = Hour)
  \/ (suf = L "d" /\ u = Day) \/ (suf = L "w" /\ u = Week) \/ (suf = [] /\ u = Minute).

(** Decimal numbers: digits before and after the point. *)
Definition is_digit (c : N) : Prop := (48 <= c <= 57)%N.
Fixpoint dec_value (s : pystr) : Z :=
  match s with [] => 0 | c :: r => (Z.of_N c - 48) * 10 ^ Z.of_nat (length r) + dec_value r end%Z.

(** [decimal s q]: [s] is written with digits and at most one point (and at least one digit), and
    stands for the rational [q]: integer part + fraction. *)
Inductive decimal : pystr -> Q -> Prop :=
| dec_int : forall a, a <> [] -> Forall is_digit a -> decimal a (inject_Z (dec_value a))
| dec_frac : forall a b, a ++ b <> [] -> Forall is_digit a -> Forall is_digit b ->
    decimal (a ++ L "." ++ b)
      (Qplus (inject_Z (dec_value a))
             (Qdiv (inject_Z (dec_value b)) (inject_Z (10 ^ Z.of_nat (length b))))).

(** The interval grammar of a placeholder's cache token (digits and points, then at most one unit
    letter; Cheetah/Parser.py:453-460). *)
Definition interval_grammar (s : pystr) : Prop :=
  exists num suf u, s = num ++ suf /\ num <> [] /\ unit_suffix suf u
    /\ Forall (fun c => is_digit c \/ c = 46%N) num.

(** ** Buffers *)

(** String writes only: the texts written, in order. *)
Inductive writes : list rop -> list pystr -> Prop :=
| wr_nil : writes [] []
| wr_write : forall s ops ts, writes ops ts -> writes (Write (CStr s) :: ops) (s :: ts)
| wr_writeln : forall s ops ts, writes ops ts ->
    writes (Writeln (CStr s) :: ops) (s :: [10%N] :: ts)
| wr_writelines : forall ss ops ts, writes ops ts ->
    writes (Writelines (map CStr ss) :: ops) (flat_map (fun s => [s; [10%N]]) ss ++ ts)
| wr_flush : forall ops ts, writes ops ts -> writes (Flush :: ops) ts
| wr_read : forall ops ts, writes ops ts -> writes (GetValue :: ops) ts.

(** [n] successive calls of [response()]. *)
Fixpoint calls (n : nat) (f : world -> nat * world) (w : world) : list nat * world :=
  match n with
  | O => ([], w)
  | S k => let '(i, w1) := f w in let '(l, w2) := calls k f w1 in (i :: l, w2)
  end.

(** ** Indenters *)

(** Nested call sequences: pushes and pops balance. *)
Inductive balanced : list (nat * icall) -> Prop :=
| bal_nil : balanced []
| bal_one : forall i c cs, c <> Push -> c <> Pop -> balanced cs -> balanced ((i, c) :: cs)
| bal_pair : forall i j a b, balanced a -> balanced b ->
    balanced ((i, Push) :: a ++ (j, Pop) :: b).

(** Calls other than push and pop. *)
Definition plain (c : icall) : bool := match c with Push | Pop => false | _ => true end.
