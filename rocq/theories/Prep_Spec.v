(** What the preparation of a source is said to do, written without the model's functions. *)
From Verif Require Import Base PyStr.

(** The text [w] stands somewhere in [s]. *)
Definition within (w s : pystr) : Prop := exists a b, s = a ++ w ++ b.

(** The name of an encoding in ASCII: letters, digits, hyphens, dots, underscores; at least one. *)
Definition name_char (c : N) : Prop :=
  (48 <= c <= 57 \/ 65 <= c <= 90 \/ 97 <= c <= 122 \/ c = 95 \/ c = 45 \/ c = 46)%N.
Definition enc_name (n : pystr) : Prop := n <> [] /\ Forall name_char n.

(** What may stand between the directive's word and the name, and after the name. *)
Definition sep_char (c : N) : Prop := (c = 32 \/ c = 9 \/ c = 58)%N.
Definition trail_char (c : N) : Prop := (c = 32 \/ c = 9 \/ c = 13)%N.

(** A line with the directive [word], up to and with its newline. *)
Definition dir_line (word sep name trail : pystr) : pystr :=
  L "#" ++ word ++ sep ++ name ++ trail ++ [10%N].
Definition dir_parts (sep name trail : pystr) : Prop :=
  sep <> [] /\ Forall sep_char sep /\ enc_name name /\ Forall trail_char trail.

(** The text does not go on with white space (so not with an empty line). *)
Definition no_space_first (s : pystr) : Prop :=
  match s with [] => True | c :: _ => is_space c = false end.

(** What stands before the line with the directive: nothing, or lines the last of which does not end with
    white space, and which do not have the word. *)
Definition before (word pre : pystr) : Prop :=
  pre = [] \/ exists p c, pre = p ++ [c; 10%N] /\ is_space c = false /\ ~ within word (p ++ [c]).

(** A codec that reads ASCII as it stands, and one that reads the word of a str literal. *)
Definition reads_ascii (dec : pystr -> option pystr) : Prop :=
  forall s, Forall (fun c => (c < 128)%N) s -> dec s = Some s.

(** Columns: a tab goes on to the next multiple of four. *)
Definition col_step (col : nat) (c : N) : nat := if (c =? 9)%N then 4 * (col / 4) + 4 else col + 1.
Definition width (ws : pystr) : nat := fold_left col_step ws 0.

(** Blanks and tabs. *)
Definition blanks (s : pystr) : Prop := Forall (fun c => c = 32%N \/ c = 9%N) s.

(** The placeholder that asks the indenter, and a call of it as a directive. *)
Definition ask (n : nat) : pystr := L "${self._CHEETAH__indenter.indent(" ++ str_of_N (N.of_nat n) ++ L ")}".
Definition tell (call : pystr) : pystr := L "#silent $self._CHEETAH__indenter." ++ call.

(** The settings of the indenter: what is written after #indent, and the call it stands for. *)
Inductive setting := SOn | SOff | SInc | SDec | SPush | SPop | SLevel (n : N).
Definition written (x : setting) : pystr :=
  match x with
  | SOn => L "on" | SOff => L "off" | SInc => L "++" | SDec => L "--" | SPush => L "push" | SPop => L "pop"
  | SLevel n => L "=" ++ str_of_N n
  end.
Definition called (x : setting) : pystr :=
  match x with
  | SOn => L "on()" | SOff => L "off()" | SInc => L "inc()" | SDec => L "dec()" | SPush => L "push()"
  | SPop => L "pop()" | SLevel n => L "setLevel(" ++ str_of_N n ++ L ")"
  end.

(** What becomes of one line of a source with #indent in it, for the lines that are settings, other
    directives, or text. *)
Inductive line_to : pystr -> pystr -> Prop :=
| lt_setting : forall w1 w2 w3 x, blanks w1 -> blanks w2 -> blanks w3 ->
    line_to (w1 ++ L "#indent" ++ w2 ++ written x ++ w3) (tell (called x))
| lt_directive : forall w r, blanks w -> starts_with (L "indent") r = false ->
    line_to (w ++ L "#" ++ r) (w ++ L "#" ++ r)
| lt_text : forall w r, blanks w -> (match r with [] => True | c :: _ => is_space c = false /\ c <> 35%N end) ->
    line_to (w ++ r) (ask (width w) ++ r).
