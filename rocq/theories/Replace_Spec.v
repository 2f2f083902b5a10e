(** What replacing in files is to do, for Replace_Props.v. *)
From Verif Require Import Base.

(** The text with the pieces at the places replaced: [pos] characters are done. *)
Inductive replaced (by_ : nat -> nat -> pystr) (s : pystr) : nat -> list (nat * nat) -> pystr -> Prop :=
| rep_end : forall pos a b, s = a ++ b -> length a = pos -> replaced by_ s pos [] b
| rep_at : forall pos i j ms a b c d t, s = a ++ b ++ c ++ d -> length a = pos -> length (a ++ b) = i -> length (a ++ b ++ c) = j ->
    replaced by_ s j ms t -> replaced by_ s pos ((i, j) :: ms) (b ++ by_ i j ++ t).

(** Places in a text of length [n], one behind the other. *)
Fixpoint in_order (n pos : nat) (ms : list (nat * nat)) : Prop :=
  match ms with [] => pos <= n | (i, j) :: r => pos <= i /\ i <= j /\ in_order n j r end.

(** The matches as they are to be listed: text, start and end. *)
Inductive listed (s : pystr) : list (nat * nat) -> list (pystr * nat * nat) -> Prop :=
| listed_nil : listed s [] []
| listed_cons : forall i j ms l a b c, s = a ++ b ++ c -> length a = i -> length (a ++ b) = j -> listed s ms l ->
    listed s ((i, j) :: ms) ((b, i, j) :: l).
