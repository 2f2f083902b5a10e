(** Property theorems C75 (argument lists). *)
From Verif Require Import Expr_Props Base PyStr Lex_Model Expr_Model Front_Model Front_Spec FrontLex_Proofs
  FrontWords_Spec DefArgs_Spec DefArgs_Proofs Front_Props.
From Verif Require Gen_Model.
Local Open Scope string_scope.
Local Open Scope list_scope.

Definition st0 : Gen_Model.cs := Gen_Model.start Gen_Model.dflt_set (L "respond").

(** [( $a, b = $x.y + (1, 2) ,*rest, **kw)]. *)
Definition demo_args : list darg :=
  [mkDA (L " ") true 0 (L "a") [] None;
   mkDA (L " ") false 0 (L "b") (L " ") (Some [PBlank 32; PVar (L "x.y"); PBlank 32; PTok (L "+"); PBlank 32;
                                               PGroup (mkXP (L "(1, 2)") (L "(1, 2)")); PBlank 32]);
   mkDA [] false 1 (L "rest") [] None;
   mkDA (L " ") false 2 (L "kw") [] None].
Example demo_args_ok : forall um, das_ok (toyenv um) um demo_args (L ") text").
Proof. intros []; vm_compute; repeat constructor; discriminate. Qed.

(** An argument list in brackets is read up to its closing bracket: the names with their stars, in order, each
    with its own default value, without the white space around it.  Missing of the full statement: default
    values with a colon or an equals sign outside of brackets, for which it is false (see below), and
    settings of the delimiters other than the default ones. *)
Theorem C75_brackets_partial : forall E c um l b r, x_T (e_X E) = dflt -> Gen_Model.s_sl c = true ->
  das_ok E um l (L ")" ++ r) ->
  def_args E c um b (L "(" ++ das_src l ++ L ")" ++ r)
  = fok (map (da_val E um) l, (rev (L "(" ++ das_src l) ++ b, L ")" ++ r)).
Proof. exact (fun E c um l b r ET => args_paren E ET c um l b r). Qed.
Print Assumptions C75_brackets_partial.
Example C75_brackets_partial_ex : das_ok (toyenv true) true demo_args (L ")" ++ L " text") /\
  L "(" ++ das_src demo_args ++ L ")" = L "( $a, b = $x.y + (1, 2) ,*rest, **kw)" /\
  map (da_val (toyenv true) true) demo_args
  = [(L "a", None); (L "b", Some (L "VFFSL(SL,""x.y"",True) + (1, 2)")); (L "*rest", None); (L "**kw", None)].
Proof. split; [apply demo_args_ok|]. split; reflexivity. Qed.

(** An argument list without brackets is read up to the end of its line, to the directive end token or to a
    colon.  Missing: as above. *)
Theorem C75_line_partial : forall E c um l b r, x_T (e_X E) = dflt -> Gen_Model.s_sl c = true ->
  l <> [] -> das_ok E um l r -> no_eol (das_src l) -> at_char 40 (das_src l) = false -> esc_ok b = true ->
  match r with d :: _ => eolchar d = true \/ d = 35%N \/ d = 58%N | [] => False end ->
  def_args E c um b (das_src l ++ r) = fok (map (da_val E um) l, (rev (das_src l) ++ b, r)).
Proof. exact (fun E c um l b r ET => args_line E ET c um l b r). Qed.
Print Assumptions C75_line_partial.

(** [id='x', timer='5m']. *)
Definition demo_cache : list darg :=
  [mkDA [] false 0 (L "id") [] (Some [PTok (L "'x'")]); mkDA (L " ") false 0 (L "timer") [] (Some [PTok (L "'5m'")])].
Example C75_line_partial_ex : das_ok (toyenv true) true demo_cache (nl ++ L "text") /\
  no_eol (das_src demo_cache) /\ at_char 40 (das_src demo_cache) = false /\
  das_src demo_cache = L "id='x', timer='5m'" /\
  map (da_val (toyenv true) true) demo_cache = [(L "id", Some (L "'x'")); (L "timer", Some (L "'5m'"))].
Proof. split; [vm_compute; repeat constructor|]. repeat split. Qed.

(** An argument list that nothing follows is an error at the last character of the source, with brackets as
    well as without them. *)
Theorem C75_open : forall E c um l b, x_T (e_X E) = dflt -> Gen_Model.s_sl c = true -> das_ok E um l [] ->
  def_args E c um b (L "(" ++ das_src l) = ferror (FParse (length b + length (das_src l))) /\
  (no_eol (das_src l) -> das_src l <> [] -> at_char 40 (das_src l) = false ->
   def_args E c um b (das_src l) = ferror (FParse (pred (length b + length (das_src l))))).
Proof. exact args_open_both. Qed.
Print Assumptions C75_open.
Example C75_open_ex : das_ok (toyenv true) true demo_cache [].
Proof. vm_compute. repeat constructor. Qed.

(** A default value may contain any token: false, equals signs are left out of it. *)
Theorem C75_equals_refuted : exists v r,
  x_tok (e_X (toyenv false)) (L "==b" ++ r) = Some 2%nat /\ v = L "a==b" /\
  def_args (toyenv false) st0 false [] (L "(x=" ++ v ++ r)
  = fok ([(L "x", Some (L "ab"))], (rev (L "(x=" ++ v), r)).
Proof. exists (L "a==b"), (L ")"). repeat split. Qed.
Print Assumptions C75_equals_refuted.

(** A default value may contain a colon: false, the list ends there. *)
Theorem C75_colon_refuted : exists v r,
  v = L "lambda y: y" /\
  def_args (toyenv false) st0 false [] (L "(x=" ++ v ++ L ")" ++ r)
  = fok ([(L "x", Some (L "lambda y"))], (rev (L "(x=lambda y"), L ": y)" ++ r)).
Proof. exists (L "lambda y: y"), []. repeat split. Qed.
Print Assumptions C75_colon_refuted.

(** Names have to be separated by commas: false, the list is accepted, and the default value goes to an
    argument it was not written for. *)
Theorem C75_commas_refuted : exists s r,
  s = L "(a b, c=1" /\
  def_args (toyenv false) st0 false [] (s ++ L ")" ++ r)
  = fok ([(L "a", None); (L "b", Some (L "1")); (L "c", None)], (rev s, L ")" ++ r)).
Proof. exists (L "(a b, c=1"), []. repeat split. Qed.
Print Assumptions C75_commas_refuted.
