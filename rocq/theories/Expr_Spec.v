(** Specification of bracketing for Cheetah expressions, independent of the parser: what a balanced piece
    of source is, what balanced code is, and where an error about brackets has to point.  Nothing here
    has a stack, a position counter or fuel. *)
From Verif Require Import Base PyStr Lex_Model Expr_Model.

Definition bracket (c : N) : bool := opener c || closer c.

(** Python's tokenizer: tokens are not empty, and an opening bracket is a token of its own.  The
    placeholder start token is not empty (an empty one is refused: Cheetah/Parser.py:433) and has no brackets
    in it. *)
Definition lang_ok (X : lang) : Prop :=
  (forall r k, x_tok X r = Some k -> 1 <= k <= length r) /\
  (forall c r, opener c = true -> x_tok X (c :: r) = Some 1) /\
  t_var (x_T X) <> [] /\ forallb (fun c => negb (bracket c)) (t_var (x_T X)) = true.

(** The length of the identifier at the start of a text. *)
Fixpoint ident_len (r : pystr) : nat :=
  match r with c :: r1 => if namechar c then S (ident_len r1) else 0 | [] => 0 end.

(** [lexeme X r k]: the first [k] characters of [r] are one item without brackets: a Python token, a blank
    or line break, a placeholder start before a name, a name, the dot before a name, a continued line. *)
Inductive lexeme (X : lang) : pystr -> nat -> Prop :=
| lx_tok c r k : bracket c = false -> x_tok X (c :: r) = Some k -> lexeme X (c :: r) k
| lx_blank c r : blank c || eolchar c = true -> lexeme X (c :: r) 1
| lx_start r : m_xvar (x_T X) r = true -> lexeme X r (length (t_var (x_T X)))
| lx_name r : at_ident r = true -> lexeme X r (ident_len r)
| lx_dot r : at_ident r = true -> lexeme X (46%N :: r) 1
| lx_cont r : eol_len r <> 0 -> lexeme X (92%N :: r) (S (eol_len r)).

(** [span X r r']: from [r] to its suffix [r'] the source is balanced: it consists of items without
    brackets and of bracketed groups, whose inside is balanced. *)
Inductive span (X : lang) : pystr -> pystr -> Prop :=
| sp_nil r : span X r r
| sp_item r k r' : lexeme X r k -> span X (skipn k r) r' -> span X r r'
| sp_group o r1 r2 r' : opener o = true -> span X r1 (mate o :: r2) -> span X r2 r' -> span X (o :: r1) r'.

(** A sequence of groups with nothing between them, such as [[1](2)]. *)
Inductive groups (X : lang) : pystr -> pystr -> Prop :=
| gr_nil r : groups X r r
| gr_cons o r1 r2 r' : opener o = true -> span X r1 (mate o :: r2) -> groups X r2 r' -> groups X (o :: r1) r'.

Definition at_open (r : pystr) : bool := match r with c :: _ => opener c | [] => false end.

(** ** Code *)

(** Characters that mean the same wherever they are written. *)
Definition quiet (c : N) : bool :=
  negb (bracket c || mem_char c [39; 34; 35; 92]%N).

(** Pieces of code whose brackets, if any, are not brackets for Python: tokens, quoted names. *)
Inductive atom (X : lang) : pystr -> Prop :=
| at_tok c r k : bracket c = false -> x_tok X (c :: r) = Some k -> atom X (firstn k (c :: r))
| at_quiet s : forallb quiet s = true -> atom X s
| at_quoted s : forallb quiet s = true -> atom X ([34%N] ++ s ++ [34%N]).

(** Balanced code. *)
Inductive bal (X : lang) : pystr -> Prop :=
| bal_atom s : atom X s -> bal X s
| bal_app s t : bal X s -> bal X t -> bal X (s ++ t)
| bal_group o s : opener o = true -> bal X s -> bal X ([o] ++ s ++ [mate o]).

(** ** Errors *)

(** Where a bracket error points: at a bracket that is never closed although everything after it is
    balanced, or that is met by a closing bracket of another kind. *)
Definition located (X : lang) (src : pystr) (e : xerr) : Prop :=
  match e with
  | XParse p (MEof o) => exists r, skipn p src = o :: r /\ opener o = true /\ span X r []
  | XParse p (MMismatch c o) => exists r r', skipn p src = o :: r /\ opener o = true /\
      span X r (c :: r') /\ closer c = true /\ c <> mate o
  | XParse p _ => p <= pred (length src)
  | _ => True
  end.

(** No string with embedded placeholders, such as [c'...'], in the source. *)
Definition no_cstr (src : pystr) : Prop :=
  forall p r, src = p ++ 99%N :: r -> quote_at r = false.

(** A source with nothing to translate: no placeholders, no line breaks or backslashes, no strings with
    embedded placeholders, from any of its characters on. *)
Definition untouched (X : lang) (src : pystr) : Prop :=
  forall p c r, src = p ++ c :: r ->
    m_xvar (x_T X) (c :: r) = false /\ eolchar c = false /\ c <> 92%N /\ (c = 99%N -> quote_at r = false).

(** ** Counting brackets *)

(** The text after the bracket that closes the first one, by counting; brackets of the wrong kind: [None]. *)
Fixpoint after_close (open : list N) (r : pystr) : option pystr :=
  match r with
  | [] => None
  | c :: r1 =>
      if opener c then after_close (c :: open) r1
      else if closer c then
        match open with
        | [] => None
        | [o] => if (c =? mate o)%N then Some r1 else None
        | o :: open' => if (c =? mate o)%N then after_close open' r1 else None
        end
      else after_close open r1
  end.

(** A source whose tokens have no brackets inside, such as one without string literals and comments. *)
Definition bare (X : lang) (src : pystr) : Prop :=
  forall p c r k, src = p ++ c :: r -> bracket c = false -> x_tok X (c :: r) = Some k ->
    forallb (fun c => negb (bracket c)) (firstn k (c :: r)) = true.
