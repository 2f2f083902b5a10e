(** What the report on an error in generated code should say. *)
From Coq Require Export Sorted.
From Verif Require Import Base PyStr Names_Model.

(** A mark such as the compiler leaves in comments. *)
Definition mark (r c : N) : pystr := L "line " ++ str_of_N r ++ L ", col " ++ str_of_N c.
(** Texts of decimal digits. *)
Definition number (d : pystr) : Prop := d <> [] /\ Forall (fun c => (48 <= c <= 57)%N) d.
(** Some text of the form of a mark occurs. *)
Definition marked (s : pystr) : Prop := exists a d e b, s = a ++ L "line " ++ d ++ L ", col " ++ e ++ b /\ number d /\ number e.
(** The text does not go on with a digit. *)
Definition no_digit (s : pystr) : Prop := match s with c :: _ => ~ (48 <= c <= 57)%N | [] => True end.

(** Line number [n] of a text is [t]. *)
Definition is_line (lines : list pystr) (n : nat) (t : pystr) : Prop := 1 <= n /\ nth_error lines (n - 1) = Some t.
(** Numbers in ascending order. *)
Definition ascends (rows : list (nat * pystr)) : Prop := StronglySorted (fun a b => fst a < fst b) rows.
(** The texts occur in this order, without overlap. *)
Inductive in_order : list pystr -> pystr -> Prop :=
| io_nil s : in_order [] s
| io_cons a x b l : in_order l b -> in_order (x :: l) (a ++ x ++ b).
