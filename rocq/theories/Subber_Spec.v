(** Specification for C101 and C102. *)
From Verif Require Import Base.

(** A replacement as it is meant: texts, numbers of groups, names of groups; and as it is written. *)
Inductive piece := PText (s : pystr) | PNumber (n : pystr) | PNamed (n : pystr).
Definition written (p : piece) : pystr :=
  match p with PText s => s | PNumber n => 92%N :: n | PNamed n => L "\g<" ++ n ++ L ">" end.
Definition all_written (l : list piece) : pystr := concat (map written l).

Definition is_number (n : pystr) : Prop := exists c r, n = c :: r /\ (49 <= c <= 57)%N /\ Forall (fun d => (48 <= d <= 57)%N) r.
Definition is_letter (c : N) : Prop := (65 <= c <= 90)%N \/ (97 <= c <= 122)%N \/ c = 95%N.
Definition is_id (n : pystr) : Prop := n <> [] /\ Forall is_letter n.

Definition no_digit_first (s : pystr) : Prop := match s with [] => True | c :: _ => ~ (48 <= c <= 57)%N end.
Definition no_text_first (l : list piece) : Prop := match l with PText _ :: _ => False | _ => True end.
(** Texts without backslash, not two in a row; no digit behind a number. *)
Fixpoint clear (l : list piece) : Prop :=
  match l with
  | [] => True
  | PText s :: r => s <> [] /\ ~ In 92%N s /\ no_text_first r /\ clear r
  | PNumber n :: r => is_number n /\ no_digit_first (all_written r) /\ clear r
  | PNamed n :: r => is_id n /\ clear r
  end.

(** What the re module makes of the replacements of the examples: a doubled backslash is a backslash, \g takes numbers too, and a group
    that took no part is empty. *)
Fixpoint digits_in (s : pystr) : pystr :=
  match s with c :: r => if (N.leb 48 c && N.leb c 57)%bool then c :: digits_in r else [] | [] => [] end.
Fixpoint expand (skip : nat) (m : pystr -> pystr) (s : pystr) : pystr :=
  match s with
  | [] => []
  | c :: r =>
      match skip with
      | S k => expand k m r
      | O =>
          if N.eqb c 92 then
            match r with
            | d :: q =>
                if N.eqb d 92 then d :: expand 1 m r
                else match q with
                     | l :: t => if (N.eqb d 103 && N.eqb l 60)%bool then m (digits_in t) ++ expand (3 + length (digits_in t)) m r
                                 else m (digits_in r) ++ expand (length (digits_in r)) m r
                     | [] => m (digits_in r) ++ expand (length (digits_in r)) m r
                     end
            | [] => [c]
            end
          else c :: expand 0 m r
      end
  end.
