(** Specification of the end of the whole parser: what is asked of the settings, of Python's tokenizer and of
    the directives that are not modelled, and which positions errors may have. *)
From Verif Require Import Base PyStr Lex_Model Lex_Spec Expr_Model Expr_Spec Front_Model.

(** The text [w] has been read between two positions. *)
Definition read_on (b r b' r' w : pystr) : Prop := r = w ++ r' /\ b' = rev w ++ b.

(** Parse errors point to a character of a text of [n] characters. *)
Definition within (n : nat) (e : ferr) : Prop :=
  match e with
  | FParse p => (p <= pred n)%nat
  | FExpr (XParse p _) => (p <= pred n)%nat
  | _ => True
  end.

(** The directives that are parameters of the model come to an end; either they read something or their
    error points into the source.  The errors about the arguments of #cache have no position. *)
Definition others_move (E : env) : Prop :=
  (forall name s, exists x, e_other E name s = Some x /\
    match x with
    | Ok s' => exists w, w <> [] /\ read_on (f_b s) (f_r s) (f_b s') (f_r s') w
    | Raise e => within (length (f_b s) + length (f_r s)) e
    end) /\
  forall l e, e_cargs E l = Raise e -> within 0 e.

(** The tokens of the settings are not empty and Python's tokenizer reads something, and an opening bracket
    alone. *)
Definition readable (E : env) : Prop := lang_ok (e_X E) /\ toks_ok (x_T (e_X E)).
