(** Specification vocabulary for C33 and C34; nothing here refers to the model's functions except the
    record of the reader's state. *)
From Verif Require Import Reader_Model.
Local Open Scope Z_scope.

(** The window of a reader: its position lies between 0 and the break point, which lies in the
    source. *)
Definition in_window (r : reader) : Prop :=
  0 <= r_pos r <= r_bp r /\ r_bp r <= Z.of_nat (length (r_src r)).

(** [t] is the source between positions [a] and [b]. *)
Definition between (s t : pystr) (a b : Z) : Prop :=
  exists x y, s = x ++ t ++ y /\ Z.of_nat (length x) = a /\ Z.of_nat (length x + length t) = b.

(** A line break: a newline, a carriage return, or both in this order. *)
Definition is_break (k : pystr) : Prop := k = [13; 10]%N \/ k = [10]%N \/ k = [13]%N.
Definition plain (l : pystr) : Prop := ~ In 10%N l /\ ~ In 13%N l.

(** [row_col s p r c]: in the text [s], position [p] is reached after [r] complete lines and [c]
    characters of the next line, none of which is part of a line break.  A carriage return that is
    followed by a newline is never a break by itself, so the position between the two belongs to no
    line. *)
Inductive row_col : pystr -> nat -> nat -> nat -> Prop :=
| rc_here : forall s p, (p <= length s)%nat -> plain (firstn p s) -> row_col s p 0 p
| rc_next : forall l k s p r c, plain l -> is_break k -> (k = [13]%N -> forall u, s <> 10%N :: u) ->
    row_col s p r c -> row_col (l ++ k ++ s) (length l + length k + p) (S r) c.

(** The text ends with a character that is not part of a line break. *)
Definition ends_open (s : pystr) : Prop := exists x c, s = x ++ [c] /\ c <> 10%N /\ c <> 13%N.

(** Position [p] is between the carriage return and the newline of one line break. *)
Definition inside_break (s : pystr) (p : nat) : Prop :=
  exists x u, s = x ++ [13; 10]%N ++ u /\ p = S (length x).

(** The only line boundaries in the text are newlines and carriage returns (and not, for example, form
    feeds or the Unicode line separators). *)
Definition ordinary_breaks (s : pystr) : Prop :=
  forall c, In c s -> ~ In c [11; 12; 28; 29; 30; 133; 8232; 8233]%N.

(** [l] is the complete line of [s] in which position [p] is column [c] (counted from 0). *)
Definition line_at (s : pystr) (p c : nat) (l : pystr) : Prop :=
  exists a b, s = a ++ l ++ b /\ (length a + c = p)%nat /\ (c <= length l)%nat /\ plain l
    /\ (b = [] \/ exists k u, is_break k /\ b = k ++ u).

(** Numbered lines, numbered consecutively from [first]. *)
Fixpoint ascending (first : Z) (l : list (Z * pystr)) : Prop :=
  match l with [] => True | (k, _) :: r => k = first /\ ascending (first + 1) r end.

(** The two uses of the reader that put its position outside the window: stepping back at the start
    (the test in [ungetc] is the wrong way round) and a break point before the position. *)
Definition leaves_window (o : rop) (r : reader) : Prop :=
  match o with
  | Ungetc _ => r_pos r = 0
  | SetBreak p => p < r_pos r
  | _ => False
  end.

(** Where an operation wants to put the position, or look. *)
Definition wants (o : rop) (r : reader) : option Z :=
  match o with
  | SetPos p => Some p
  | Advance k | Read k | Peek k => Some (r_pos r + k)
  | Rev k => Some (r_pos r - k)
  | ReadTo p _ => Some p
  | _ => None
  end.

(** A reading operation that reads forward from the position. *)
Definition reads_forward (o : rop) (r : reader) : Prop :=
  match o with
  | Read k => 0 <= k
  | ReadTo p None => r_pos r <= p
  | ReadToEOL None _ | GetWS _ _ | GetNonWS _ => True
  | _ => False
  end.

(** [pre] is empty or ends with a line break character. *)
Definition after_break (pre : pystr) : Prop := pre = [] \/ exists x c, pre = x ++ [c] /\ (c = 10 \/ c = 13)%N.

(** No operation of the sequence is one of the two that leave the window. *)
Fixpoint stays (ops : list rop) (r : reader) : Prop :=
  match ops with
  | [] => True
  | o :: rest => ~ leaves_window o r /\ stays rest (snd (rstep o r))
  end.
