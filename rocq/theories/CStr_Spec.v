(** Specification of c-strings (C81): strings in expressions, in which placeholders stand for their values. *)
From Verif Require Import Base PyStr Lex_Model Expr_Model Front_Model Front_Spec FrontWords_Spec.
From Verif Require StrConst_Model.

(** A piece of such a string: text, or a dotted name, possibly in braces. *)
Inductive cpiece := CText (s : pystr) | CName (braces : bool) (n : pystr).

Definition cp_src (c : cpiece) : pystr :=
  match c with
  | CText s => s
  | CName braces n => L "$" ++ if braces then L "{" ++ n ++ L "}" else n
  end.
Definition cps_src (l : list cpiece) : pystr := concat (map cp_src l).

(** The quotes. *)
Definition quotes : list pystr := [[39]; [34]; [39; 39; 39]; [34; 34; 34]]%N.
Definition cstring (q : pystr) (l : list cpiece) : pystr := L "c" ++ q ++ cps_src l ++ q.

Section Pieces.
Variable E : env.

(** A Python expression for the value of a piece. *)
Definition cp_code (um : bool) (c : cpiece) : pystr :=
  match c with
  | CText s => StrConst_Model.repr (x_printable (e_X E)) s
  | CName _ n => L "str(" ++ var_code E um n ++ L ")"
  end.

(** ... and for the string: the pieces in order, nothing between them. *)
Definition cstring_code (um : bool) (l : list cpiece) : pystr :=
  L "''.join([" ++ join (L ",") (map (cp_code um) l) ++ L "])".

(** Text has no token and no backslash; two texts are one text; a name ends where it seems to. *)
Fixpoint cps_ok (l : list cpiece) (k : pystr) : Prop :=
  match l with
  | [] => True
  | CText s :: r =>
      s <> [] /\ forallb (fun c => negb (c =? 36)%N && negb (c =? 92)%N) s = true /\
      match r with CText _ :: _ => False | _ => True end /\ cps_ok r k
  | CName braces n :: r =>
      dotted_name n = true /\ (braces = false -> name_end (cps_src r ++ k) = true) /\ cps_ok r k
  end.

(** Python's tokenizer reads the [c] and then the string, whose value is not empty. *)
Definition ctokens (q body : pystr) : Prop :=
  (forall r, x_tok (e_X E) (L "c" ++ q ++ r) = Some 1%nat) /\
  (forall r, word_end r = true -> x_tok (e_X E) (q ++ body ++ q ++ r) = Some (length (q ++ body ++ q))) /\
  x_ceval (e_X E) (q ++ body ++ q) = Some true.

Definition cstring_ok (q : pystr) (l : list cpiece) : Prop :=
  In q quotes /\ l <> [] /\ cps_ok l q /\ ctokens q (cps_src l) /\
  match cps_src l with c :: _ => c <> 39%N /\ c <> 34%N | [] => True end.
End Pieces.
