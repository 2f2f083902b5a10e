(** Specification side of C10-C13: what the HTML functions and filters promise, stated on the
    texts only. *)
From Verif Require Import Base PyStr.

(** Every ampersand of [out] is the first character of one of [ents]. *)
Definition ampersands_start (ents : list pystr) (out : pystr) : Prop :=
  forall a b, out = a ++ 38%N :: b ->
  exists e r, In e ents /\ 38%N :: b = e ++ r.

(** The lines of a text: cut at every newline character. *)
Inductive lines_of : pystr -> list pystr -> Prop :=
| lines_last : forall s, ~ In 10%N s -> lines_of s [s]
| lines_more : forall l s ls, ~ In 10%N l -> lines_of s ls -> lines_of (l ++ 10%N :: s) (l :: ls).

Definition blank (s : pystr) : Prop := forall c, In c s -> is_space c = true.

(** [t] is [s] without the blanks at its two ends. *)
Definition trimmed (s t : pystr) : Prop :=
  (exists a b, s = a ++ t ++ b /\ blank a /\ blank b) /\
  (forall c r, t = c :: r -> is_space c = false) /\
  (forall c r, t = r ++ [c] -> is_space c = false).

Definition is_word (w : pystr) : Prop := w <> [] /\ forall c, In c w -> is_space c = false.

(** The words of a text, in order. *)
Inductive words_of : pystr -> list pystr -> Prop :=
| words_none : forall s, blank s -> words_of s []
| words_one : forall a w, blank a -> is_word w -> words_of (a ++ w) [w]
| words_cons : forall a w c r ws, blank a -> is_word w -> is_space c = true ->
    words_of r ws -> words_of (a ++ w ++ c :: r) (w :: ws).
