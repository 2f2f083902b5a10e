(** Property theorems C41 (brackets of expressions), C64 (expressions end), C69 (code of placeholder names),
    C70 (long placeholders), C71 (short placeholders) and C72 (plain names). *)
From Verif Require Import Base PyStr Lex_Model Expr_Model Expr_Spec Expr_Proofs ExprMain_Proofs ExprFuel_Proofs
  ExprUse_Proofs ExprVerb_Proofs NameMapper_Model NameMapper_Spec NameMapper_Props VarCode_Spec VarCode_Proofs VarPlain_Proofs.
Local Open Scope string_scope.
Local Open Scope list_scope.

(** ** A small tokenizer for examples: names, numbers, strings in one pair of quotes, [==], single characters *)
Fixpoint run_of (p : N -> bool) (r : pystr) : nat :=
  match r with c :: r => if p c then S (run_of p r) else 0 | [] => 0 end.
Fixpoint to_quote (q : N) (r : pystr) : option nat :=
  match r with c :: r => if N.eqb c q then Some 1%nat else option_map S (to_quote q r) | [] => None end.
Definition digit (c : N) : bool := ((48 <=? c) && (c <=? 57))%N.
Definition pytok (r : pystr) : option nat :=
  match r with
  | [] => None
  | c :: r1 => if identchar c then Some (S (run_of namechar r1))
    else if digit c then Some (S (run_of digit r1))
    else if ((c =? 34) || (c =? 39))%N then option_map S (to_quote c r1)
    else if mem_char c (L "$\!?") then None
    else if (c =? 61)%N && at_char 61 r1 then Some 2%nat
    else Some 1%nat
  end.
Definition toylang := mkLang dflt pytok (fun t => Some (Nat.ltb 2 (length t))) (fun _ => true) true true true true.

Lemma run_of_len : forall p r, (run_of p r <= length r)%nat.
Proof. induction r as [|c r IH]; cbn; [lia|]. destruct (p c); cbn; lia. Qed.
Lemma to_quote_len : forall q r k, to_quote q r = Some k -> (1 <= k <= length r)%nat.
Proof.
  induction r as [|c r IH]; intros k H; [discriminate|]. cbn in *. destruct (c =? q)%N; [injection H as <-; lia|].
  destruct (to_quote q r) as [j|]; [|discriminate]. injection H as <-. specialize (IH j eq_refl). lia.
Qed.
Example toylang_ok : lang_ok toylang.
Proof.
  split; [|split; [|split; [intro h; vm_compute in h; discriminate h|reflexivity]]].
  - intros [|c r] k H; [discriminate|]. change (pytok (c :: r) = Some k) in H. unfold pytok in H. pose proof (run_of_len namechar r). pose proof (run_of_len digit r).
    destruct (identchar c); [injection H as <-; cbn; lia|]. destruct (digit c); [injection H as <-; cbn; lia|].
    destruct ((c =? 34) || (c =? 39))%N.
    + destruct (to_quote c r) as [j|] eqn:E; [|discriminate]. apply to_quote_len in E. injection H as <-. cbn. lia.
    + destruct (mem_char c (L "$\!?")); [discriminate|]. destruct r as [|d r]; cbn [at_char length] in *.
      * rewrite andb_false_r in H. assert (k = 1%nat) by congruence. lia.
      * destruct ((c =? 61)%N && (d =? 61)%N); [assert (k = 2%nat) by congruence|assert (k = 1%nat) by congruence]; lia.
  - intros c r H. unfold opener in H. apply orb_true_iff in H as [H|H]; [apply orb_true_iff in H as [H|H]|]; apply N.eqb_eq in H; subst c; reflexivity.
Qed.

(** Reading from the start of a source. *)
Definition read_expr (s : string) := expr toylang 200 true false [] [] [] (L s).
Definition read_sub (s : string) := expr toylang 200 true true [] [] [] (L s).
Definition read_args (s : string) := callargs toylang 200 true [] [] (L s).
Definition read_ph (s : string) := placeholder toylang 200 true true [] (L s).

(** ** C41 *)

(** Call arguments end at the bracket that closes the first one. *)
Theorem C41_args : forall X, lang_ok X -> forall n um b r code b' r', callargs X n um [] b r = ok code b' r' ->
  exists r1, r = 40%N :: r1 /\ span X r1 (41%N :: r') /\ rev b' ++ r' = rev b ++ r /\
  (no_cstr (rev b ++ r) -> bal X code).
Proof. exact args_ok. Qed.
Print Assumptions C41_args.
Example C41_args_ex : exists code b', read_args "($x = 'a)', z = f([$y]), w = {1: ')'}) rest)" = ok code b' (L " rest)") /\
  code = L "(x = 'a)', z = f([VFFSL(SL,""y"",True)]), w = {1: ')'})".
Proof. eexists _, _. split; [vm_compute; reflexivity|vm_compute; reflexivity]. Qed.

(** The same by counting, where no token hides a bracket. *)
Theorem C41_first_close : forall X, lang_ok X -> forall n um b r code b' r', bare X r ->
  callargs X n um [] b r = ok code b' r' -> after_close [] r = Some r'.
Proof. exact args_close. Qed.
Print Assumptions C41_first_close.
Example C41_first_close_ex : bare toylang (L "([{}]())]") /\ exists code b', read_args "([{}]())]" = ok code b' (L "]").
Proof.
  split; [|eexists _, _; vm_compute; reflexivity].
  intros p c r k E NB K.
  assert (F : forallb (fun c => negb (bracket c)) [c] = true -> k = 1%nat ->
    forallb (fun c => negb (bracket c)) (firstn k (c :: r)) = true) by (intros F ->; exact F).
  exfalso. assert (I : In c (L "([{}]())]")) by (rewrite E; apply in_app_iff; right; left; reflexivity).
  vm_compute in I. repeat (destruct I as [<-|I]; [discriminate NB|]). contradiction.
Qed.

(** A subscript or bracketed argument ends after a sequence of groups, before something that is no
    opening bracket. *)
Theorem C41_subscript : forall X, lang_ok X -> forall n um brk b r code b' r',
  expr X n um true [] brk b r = ok code b' r' ->
  groups X r r' /\ at_open r' = false /\ rev b' ++ r' = rev b ++ r /\ (no_cstr (rev b ++ r) -> bal X code).
Proof. exact enclosed_ok. Qed.
Print Assumptions C41_subscript.
Example C41_subscript_ex : exists code b', read_sub "[1:$n](2) + 3" = ok code b' (L " + 3") /\
  code = L "[1:VFFSL(SL,""n"",True)](2)".
Proof. eexists _, _. split; vm_compute; reflexivity. Qed.

(** What is read as a directive's expression is balanced, and so is its code. *)
Theorem C41_expression : forall X, lang_ok X -> forall n um brk b r code b' r',
  expr X n um false [] brk b r = ok code b' r' ->
  span X r r' /\ rev b' ++ r' = rev b ++ r /\ (no_cstr (rev b ++ r) -> bal X code).
Proof. exact expression_ok. Qed.
Print Assumptions C41_expression.
Example C41_expression_ex : exists code b', read_expr "[$x for $x in f($y)] # text" = ok code b' (L "# text") /\
  code = L "[VFFSL(SL,""x"",True) for x in f(VFFSL(SL,""y"",True))] ".
Proof. eexists _, _. split; vm_compute; reflexivity. Qed.

(** Unclosed and mismatched brackets are reported where they were opened, and without strings with
    embedded placeholders every error is a ParseError. *)
Theorem C41_errors : forall X, lang_ok X -> forall n um en brk b r e,
  expr X n um en [] brk b r = err e \/ (r <> [] /\ callargs X n um [] b r = err e) ->
  located X (rev b ++ r) e /\ (no_cstr (rev b ++ r) -> exists p m, e = XParse p m).
Proof. exact errors_ok. Qed.
Print Assumptions C41_errors.
Example C41_errors_ex : read_expr "a + (b[1] + {'}' + " = err (XParse 12 (MEof 123)) /\
  read_expr "a + (b] + 1)" = err (XParse 4 (MMismatch 93 40)) /\
  read_args "(a, [b" = err (XParse 4 (MEof 91)) /\ read_expr "a)" = err (XParse 1 MInvalid).
Proof. repeat split; vm_compute; reflexivity. Qed.

Theorem C41_placeholder_errors : forall X, lang_ok X -> forall n um cache b r e,
  placeholder X n um cache b r = err e -> located X (rev b ++ r) e.
Proof. exact placeholder_errors_ok. Qed.
Print Assumptions C41_placeholder_errors.
Example C41_placeholder_errors_ex : read_ph "${a + (1}" = err (XParse 6 (MMismatch 125 40)).
Proof. vm_compute. reflexivity. Qed.

(** Expressions without placeholders, line breaks and backslashes are copied. *)
Theorem C41_copied : forall X, lang_ok X -> forall n um en brk b r code b' r', untouched X r ->
  expr X n um en [] brk b r = ok code b' r' -> r = code ++ r'.
Proof. intros X XO n um en brk b r code b' r'. exact (v_expr X n (all_verb X XO n) um en [] brk b r code b' r'). Qed.
Print Assumptions C41_copied.
Example C41_copied_ex : untouched toylang (L "f(x, 'a)') + [1]") /\
  exists b', read_expr "f(x, 'a)') + [1]" = ok (L "f(x, 'a)') + [1]") b' [].
Proof.
  split; [|eexists; vm_compute; reflexivity].
  intros p c r E. assert (I : In c (L "f(x, 'a)') + [1]")) by (rewrite E; apply in_app_iff; right; left; reflexivity).
  vm_compute in I.
  repeat (destruct I as [<-|I]; [split; [reflexivity|split; [reflexivity|split; [discriminate|discriminate]]]|]). contradiction.
Qed.

(** A subscript does not stop at its own bracket: a bracket directly after it is read too. *)
Theorem C41_own_bracket_refuted : exists r r1 r2 code b', r = 91%N :: r1 /\ span toylang r1 (93%N :: r2) /\
  expr toylang 200 true true [] [] [] r = ok code b' [] /\ r2 <> [].
Proof.
  exists (L "[1](x)"), (L "1](x)"), (L "(x)"). eexists _, _. split; [reflexivity|]. split.
  - eapply sp_item; [apply (lx_tok _ 49%N (L "](x)") 1); reflexivity|]. apply sp_nil.
  - split; [vm_compute; reflexivity|discriminate].
Qed.
Print Assumptions C41_own_bracket_refuted.

(** ** C64: expressions *)

(** Reading an expression, arguments or a placeholder comes to an end: there is one result, which any
    bound on the nesting of calls from a multiple of the length on gives. *)
Theorem C64_expressions : forall X, lang_ok X -> forall um en brk b r,
  exists x, forall n, (5 * length r + 3 <= n)%nat -> expr X n um en [] brk b r = Some x.
Proof. exact expr_total. Qed.
Print Assumptions C64_expressions.
Example C64_expressions_ex : exists x, read_expr "((((((1" = Some x.
Proof. eexists. vm_compute. reflexivity. Qed.

Theorem C64_arguments : forall X, lang_ok X -> forall um b r,
  exists x, forall n, (5 * length r + 5 <= n)%nat -> callargs X n um [] b r = Some x.
Proof. exact callargs_total. Qed.
Print Assumptions C64_arguments.
Example C64_arguments_ex : exists x, read_args "($a($b($c" = Some x.
Proof. eexists. vm_compute. reflexivity. Qed.

Theorem C64_placeholders : forall X, lang_ok X -> forall um cache b r,
  exists x, forall n, (5 * length r + 4 <= n)%nat -> placeholder X n um cache b r = Some x.
Proof. exact placeholder_total. Qed.
Print Assumptions C64_placeholders.
Example C64_placeholders_ex : exists x, read_ph "${a, c'$b[c''$d''" = Some x.
Proof. eexists. vm_compute. reflexivity. Qed.

(** ** C69 *)

(** The code generated for a name means: the first namespace that has the first identifier, then one
    identifier after the other, called where it can be called and no arguments follow, with the arguments and
    subscripts of the source where they stand. *)
Theorem C69_name_code : forall X n b r cs b' r', chunks X n true b r = ok cs b' r' -> cs <> [] ->
  exists segs k, reads X true b r segs b' r' /\ gen_var X true false cs = Some (show k) /\
  forall obj St (Y : psys obj St) trail pyvar locals globals builtins sl, introspectable Y -> modern Y ->
  forall s x, eval Y trail pyvar locals globals builtins sl s k = x <->
    if x_searchlist X then meaning Y trail (x_autocall X) ([locals] ++ sl ++ [globals; builtins]) s segs x
    else meaning_local Y trail pyvar (x_autocall X) s segs x.
Proof. exact name_code. Qed.
Print Assumptions C69_name_code.
Example C69_name_code_ex : exists cs b', chunks toylang 200 true [] (L "a.b.c[1].d().x.y.z. text") = ok cs b' (L ". text") /\
  cs = [(L "a.b", true, []); (L "c", true, L "[1]"); (L "d", false, L "()"); (L "x.y.z", true, [])] /\
  gen_var toylang true false cs = Some (L "VFN(VFN(VFN(VFFSL(SL,""a.b"",True),""c"",True)[1],""d"",False)(),""x.y.z"",True)") /\
  introspectable cleansys /\ modern cleansys.
Proof.
  eexists _, _. split; [vm_compute; reflexivity|]. split; [reflexivity|]. split; [vm_compute; reflexivity|].
  exact (conj clean_introspectable clean_modern).
Qed.

(** Without the name mapper the code is the name itself. *)
Theorem C69_plain_code : forall X n um plain b r cs b' r', chunks X n um b r = ok cs b' r' -> cs <> [] ->
  (um && negb plain)%bool = false ->
  exists segs, reads X um b r segs b' r' /\ gen_var X um plain cs = Some (plain_text segs).
Proof. exact name_plain. Qed.
Print Assumptions C69_plain_code.
Example C69_plain_code_ex : exists cs b', chunks toylang 200 false [] (L "a.b[$c].d rest") = ok cs b' (L " rest") /\
  gen_var toylang false false cs = Some (L "a.b[c].d").
Proof. eexists _, _. split; vm_compute; reflexivity. Qed.

(** ** C71 *)

(** [$a.b.c] not followed by an argument list or a subscript: the longest dotted name is looked up, and
    nothing after it is touched.  Missing: names with argument lists and subscripts, for which the claim
    is false. *)
Theorem C71_short_placeholder_partial : forall X n cache b ids r1, t_var (x_T X) = [36%N] -> x_searchlist X = true -> x_frames X = true ->
  m_vartok (x_T X) b (36%N :: join (L ".") ids ++ r1) = true -> ids <> [] -> Forall ident ids ->
  (forall c r, r1 = c :: r -> namechar c = false /\ ((c =? 46)%N && at_ident r = false)) ->
  at_char 40 r1 = false -> at_char 91 r1 = false ->
  placeholder X (S (S (S n))) true cache b (36%N :: join (L ".") ids ++ r1) =
    ok (L "VFFSL(SL," ++ [34%N] ++ join (L ".") ids ++ [34%N] ++ L "," ++ show_bool (x_autocall X) ++ L ")", None)
       (rev (join (L ".") ids) ++ 36%N :: b) r1.
Proof. exact short_name. Qed.
Print Assumptions C71_short_placeholder_partial.
Example C71_short_placeholder_partial_ex :
  m_vartok dflt [] (36%N :: join (L ".") [L "user"; L "first_name"] ++ L ". Hello") = true /\
  Forall ident [L "user"; L "first_name"] /\
  exists b', read_ph "$user.first_name. Hello" = ok (L "VFFSL(SL,""user.first_name"",True)", None) b' (L ". Hello").
Proof.
  split; [reflexivity|split].
  - repeat constructor.
  - eexists. vm_compute. reflexivity.
Qed.

(** A placeholder does not end with its arguments: letters directly after them are taken as a further
    name. *)
Theorem C71_glued_text_refuted : exists src code b', placeholder toylang 200 true true [] (L src) = ok (code, None) b' [] /\
  src = "$count()items" /\ code = L "VFN(VFFSL(SL,""count"",False)(),""items"",True)".
Proof. exists "$count()items". eexists _, _. split; [vm_compute; reflexivity|]. split; vm_compute; reflexivity. Qed.
Print Assumptions C71_glued_text_refuted.

(** ** C72 *)

(** A keyword argument directly in an argument list: the name is written plainly.  Missing: argument lists
    of calls of plain functions inside, see below. *)
Theorem C72_keyword_partial : forall X, lang_ok X -> t_var (x_T X) = [36%N] -> forall n um b v r2 code b' r',
  ident v -> x_tok X (61%N :: r2) = Some 1%nat ->
  callargs X n um [] b (40%N :: 36%N :: v ++ 61%N :: r2) = ok code b' r' ->
  exists code1, code = 40%N :: v ++ 61%N :: code1.
Proof. intros X XO TV. exact (keyword_plain X TV). Qed.
Print Assumptions C72_keyword_partial.
Example C72_keyword_partial_ex : exists b', read_args "($size=$n) px" = ok (L "(size=VFFSL(SL,""n"",True))") b' (L " px") /\
  ident (L "size") /\ pytok (L "=$n)") = Some 1%nat.
Proof. eexists. split; [vm_compute; reflexivity|split; [split; reflexivity|reflexivity]]. Qed.

(** The target of a comprehension in a bracketed expression, or of a #for directive.  Missing: the argument
    lists of calls, see below. *)
Theorem C72_target_partial : forall X, lang_ok X -> t_var (x_T X) = [36%N] -> forall n um en enc brk b v r2 code b' r',
  ident v ->
  m_tok (t_dirend (x_T X)) b (L "for $" ++ v ++ L " in" ++ r2) = false \/ enc <> [] -> (en = true -> enc <> []) ->
  existsb (str_eqb (L "for")) brk = false ->
  m_var (x_T X) b (L "for $" ++ v ++ L " in" ++ r2) = false ->
  x_tok X (L "for $" ++ v ++ L " in" ++ r2) = Some 3%nat -> x_tok X (L "in" ++ r2) = Some 2%nat ->
  (forall b, m_tok (t_dirend (x_T X)) b (36%N :: v ++ L " in" ++ r2) = false) ->
  (forall b, m_tok (t_dirend (x_T X)) b (L "in" ++ r2) = false) ->
  (forall b, m_var (x_T X) b (L "in" ++ r2) = false) ->
  expr X n um en enc brk b (L "for $" ++ v ++ L " in" ++ r2) = ok code b' r' ->
  exists code1, code = L "for " ++ v ++ L " " ++ code1.
Proof. intros X XO TV. exact (target_plain X TV). Qed.
Print Assumptions C72_target_partial.
Example C72_target_partial_ex : exists b', read_expr "for $row in $table" = ok (L "for row in VFFSL(SL,""table"",True)") b' [] /\
  pytok (L "for $" ++ L "row" ++ L " in" ++ L " $table") = Some 3%nat /\ pytok (L "in" ++ L " $table") = Some 2%nat /\
  m_var dflt [] (L "for $" ++ L "row" ++ L " in" ++ L " $table") = false /\
  (forall b, m_tok (t_dirend dflt) b (36%N :: L "row" ++ L " in" ++ L " $table") = false) /\
  (forall b, m_tok (t_dirend dflt) b (L "in" ++ L " $table") = false) /\
  (forall b, m_var dflt b (L "in" ++ L " $table") = false).
Proof. eexists. split; [vm_compute; reflexivity|]. repeat split; intros; try reflexivity; unfold m_var, m_tok; destruct (esc_ok b); reflexivity. Qed.

(** The target of a comprehension is a plain name in brackets but not in call arguments. *)
Theorem C72_target_in_call_refuted : exists code code' b' b'',
  read_expr "[$x for $x in $y]" = ok code b' [] /\ code = L "[VFFSL(SL,""x"",True) for x in VFFSL(SL,""y"",True)]" /\
  read_expr "sum($x for $x in $y)" = ok code' b'' [] /\
  code' = L "sum(VFFSL(SL,""x"",True) for VFFSL(SL,""x"",True) in VFFSL(SL,""y"",True))".
Proof. eexists _, _, _, _. split; [vm_compute; reflexivity|]. split; [reflexivity|]. split; [vm_compute; reflexivity|reflexivity]. Qed.
Print Assumptions C72_target_in_call_refuted.

(** A keyword argument may be written with a dollar sign in a call, but not in a call inside the arguments. *)
Theorem C72_keyword_in_call_refuted : exists code code' b' b'',
  read_expr "f($x=1)" = ok code b' [] /\ code = L "f(x=1)" /\
  read_expr "g(f($x=1))" = ok code' b'' [] /\ code' = L "g(f(VFFSL(SL,""x"",True)=1))".
Proof. eexists _, _, _, _. split; [vm_compute; reflexivity|]. split; [reflexivity|]. split; [vm_compute; reflexivity|reflexivity]. Qed.
Print Assumptions C72_keyword_in_call_refuted.

(** ** C70 *)

(** A long placeholder ends at its bracket, if no other bracket opens directly after it. *)
Theorem C70_long_placeholder_partial : forall X, lang_ok X -> forall n um cache b r o r1 code fa b' r',
  r = t_var (x_T X) ++ o :: r1 -> opener o = true -> placeholder X n um cache b r = ok (code, fa) b' r' ->
  exists r2, span X r1 (mate o :: r2) /\ groups X r2 r' /\
    (at_open r2 = false -> r' = r2 /\ (no_cstr (rev b ++ r) -> bal X code)).
Proof. exact long_ok. Qed.
Print Assumptions C70_long_placeholder_partial.
Example C70_long_placeholder_partial_ex : exists code b', read_ph "${ a.b + {1: 2}[1] }, text" = ok (code, None) b' (L ", text") /\
  code = L "VFFSL(SL,""a.b"",True) + {1: 2}[1] " /\
  exists code2 fa b2, read_ph "${a, maxlen=[1]}(foo)" = ok (code2, Some fa) b2 (L "(foo)") /\ fa = L ", maxlen=[1]".
Proof.
  eexists _, _. split; [vm_compute; reflexivity|]. split; [vm_compute; reflexivity|].
  eexists _, _, _. split; vm_compute; reflexivity.
Qed.

(** Otherwise it swallows the text in that bracket, and its code is not balanced. *)
Theorem C70_swallows_text_refuted : exists src code b', read_ph src = ok (code, None) b' (L " bar") /\
  src = "${a + 1}(foo) bar" /\ code = L "VFFSL(SL,""a"",True) + 1}(foo)".
Proof. exists "${a + 1}(foo) bar". eexists _, _. split; [vm_compute; reflexivity|]. split; vm_compute; reflexivity. Qed.
Print Assumptions C70_swallows_text_refuted.

(** An unclosed long placeholder at the end of the source is not always reported as a ParseError. *)
Theorem C70_unclosed_refuted : exists src, read_ph src = err XIndex /\ src = "${a" /\ read_ph "${1" = err (XParse 1 (MEof 123)).
Proof. exists "${a". split; [vm_compute; reflexivity|]. split; vm_compute; reflexivity. Qed.
Print Assumptions C70_unclosed_refuted.
