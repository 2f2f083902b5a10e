(** Specification of argument lists, as in [#def f($a, b=1, *rest)] and [#cache timer='5m', id='x']: their
    text and the names and default values they stand for. *)
From Verif Require Import Base PyStr Lex_Model Expr_Model Front_Model Front_Spec FrontWords_Spec.

(** The pieces of a default value: white space, a name with the placeholder token, another token, a group in
    brackets. *)
Inductive dpiece := PBlank (c : N) | PVar (n : pystr) | PTok (t : pystr) | PGroup (x : xp).

(** An argument: white space, perhaps the placeholder token, perhaps one or two stars, the name, white space,
    perhaps a default value. *)
Record darg := mkDA { da_ws : pystr; da_var : bool; da_stars : nat; da_name : pystr; da_pad : pystr;
                      da_def : option (list dpiece) }.

(** ** Their text *)

Definition dp_src (p : dpiece) : pystr :=
  match p with PBlank c => [c] | PVar n => L "$" ++ n | PTok t => t | PGroup x => x_src x end.
Definition da_src (a : darg) : pystr :=
  da_ws a ++ (if da_var a then L "$" else []) ++ repeat 42%N (da_stars a) ++ da_name a ++ da_pad a
  ++ match da_def a with None => [] | Some ps => L "=" ++ concat (map dp_src ps) end.
Definition das_src (l : list darg) : pystr := join (L ",") (map da_src l).

(** ** Their meaning *)

Section Args.
Variable E : env.

Definition dp_code (um : bool) (p : dpiece) : pystr :=
  match p with PBlank c => [c] | PVar n => var_code E um n | PTok t => t | PGroup x => x_code x end.

(** The name with its stars; the default value without the white space around it, if there is one. *)
Definition da_val (um : bool) (a : darg) : pystr * option pystr :=
  (repeat 42%N (da_stars a) ++ da_name a,
   match da_def a with
   | None => None
   | Some ps => match strip (concat (map (dp_code um) ps)) with [] => None | s => Some s end
   end).

(** ** Which of them can be written down *)

(** A character with a meaning of its own in an argument list. *)
Definition special (c : N) : bool :=
  blank c || eolchar c || opener c || closer c || existsb (N.eqb c) [35; 36; 44; 58; 61]%N.

(** A piece that is followed by the text [r]. *)
Definition dp_ok (um : bool) (p : dpiece) (r : pystr) : Prop :=
  match p with
  | PBlank c => blank c || eolchar c = true
  | PVar n => dotted_name n = true /\ name_end r = true
  | PTok t => match t with c :: _ => special c = false | [] => False end /\ esc_ok (rev t) = true /\
              x_tok (e_X E) (t ++ r) = Some (length t) /\ str_eqb t (L "c") && quote_at r = false
  | PGroup x => match x_src x with c :: _ => opener c = true | [] => False end /\ esc_ok (rev (x_src x)) = true /\
                x_tok (e_X E) (x_src x ++ r) = Some 1 /\ str_eqb (x_code x) (L "c") && quote_at r = false /\
                forall b, expr (X0 E) (enough (x_src x ++ r)) um true [] [] b (x_src x ++ r)
                          = ok (x_code x) (rev (x_src x) ++ b) r
  end.
Fixpoint dps_ok (um : bool) (ps : list dpiece) (r : pystr) : Prop :=
  match ps with
  | [] => True
  | p :: ps => dp_ok um p (concat (map dp_src ps) ++ r) /\ dps_ok um ps r
  end.

Definition spaces (s : pystr) : bool := forallb (fun c => blank c || eolchar c) s.
Definition da_ok (um : bool) (a : darg) (r : pystr) : Prop :=
  spaces (da_ws a) = true /\ da_stars a <= 2 /\ ident (da_name a) /\ spaces (da_pad a) = true /\
  match da_def a with None => True | Some ps => dps_ok um ps r end.
Fixpoint das_ok (um : bool) (l : list darg) (r : pystr) : Prop :=
  match l with
  | [] => True
  | [a] => da_ok um a r
  | a :: l => da_ok um a (L "," ++ das_src l ++ r) /\ das_ok um l r
  end.

(** The arguments of a definition (Front_Spec.v). *)
Definition args_of (l : list darg) : sargs := mkSA (das_src l) (map (da_val false) l).
End Args.
