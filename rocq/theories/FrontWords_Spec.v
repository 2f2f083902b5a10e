(** Specification of simple expressions, so that the conditions of Front_Spec.v on expressions can be read
    off: words, names with the placeholder token, and other tokens, one blank between two of them.  *)
From Verif Require Import Base PyStr Lex_Model Expr_Model Front_Model Front_Spec.

(** A dotted name: it starts with a letter, and each of its dots is followed by one. *)
Fixpoint dname (n : pystr) : bool :=
  match n with c :: r => (namechar c || (c =? 46)%N && at_ident r) && dname r | [] => true end.
Definition dotted_name (n : pystr) : bool := at_ident n && dname n.

(** What may follow a dotted name: nothing that would continue it. *)
Definition name_end (r : pystr) : bool :=
  match r with
  | c :: r1 => negb (namechar c) && negb ((c =? 46)%N && at_ident r1) && negb (c =? 40)%N && negb (c =? 91)%N
  | [] => true
  end.

Inductive xitem := XWord (w : pystr) | XVar (n : pystr) | XTok (t : pystr).

Section Items.
Variable E : env.

(** The code a dotted name stands for, with and without the search list. *)
Definition var_code (um : bool) (n : pystr) : pystr :=
  if um then
    (if x_frames (e_X E) then L "VFFSL(SL" else L "VFSL([locals()]+SL+[globals(), builtin]")
    ++ L ",""" ++ n ++ L """," ++ (if x_autocall (e_X E) then L "True" else L "False") ++ L ")"
  else n.

Definition xi_src (i : xitem) : pystr := match i with XWord w => w | XVar n => L "$" ++ n | XTok t => t end.
Definition xi_code (um : bool) (i : xitem) : pystr :=
  match i with XWord w => w | XVar n => var_code um n | XTok t => t end.

(** A character that starts neither a name, a bracket, a blank, a line break, an escape, a directive end nor
    a placeholder. *)
Definition tok_start (c : N) : bool :=
  negb (opener c || closer c || blank c || eolchar c || identchar c || is_space c
        || (c =? 35)%N || (c =? 36)%N || (c =? 92)%N).

(** Other tokens: numbers, strings and operators.  The tokenizer has to agree. *)
Definition other_tok (t : pystr) : Prop :=
  match t with c :: _ => tok_start c = true | [] => False end /\ one_line t /\ is_space (last t 0%N) = false /\
  forall r, word_end r = true -> x_tok (e_X E) (t ++ r) = Some (length t).

Definition xi_ok (brk : list pystr) (i : xitem) : Prop :=
  match i with
  | XWord w => ident w /\ str_eqb w (L "for") = false /\ existsb (str_eqb w) brk = false
  | XVar n => dotted_name n = true
  | XTok t => other_tok t /\ existsb (str_eqb t) brk = false
  end.

(** An expression of such items, separated by blanks. *)
Definition items (um : bool) (l : list xitem) : xp :=
  mkXP (join (L " ") (map xi_src l)) (join (L " ") (map (xi_code um) l)).

(** A single name. *)
Definition name_item (i : xitem) : Prop :=
  match i with
  | XWord w => ident w /\ str_eqb w (L "for") = false
  | XVar n => dotted_name n = true
  | XTok _ => False
  end.

(** Placeholders: a dotted name, possibly in braces. *)
Definition var_ph (sil braces : bool) (n : pystr) : plh :=
  mkPH sil (if braces then L "{" ++ n ++ L "}" else n) (var_code (e_um E) n) None.
End Items.
