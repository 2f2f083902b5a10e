(** Property theorems C73 (from the text of a template to its code). *)
From Verif Require Import DefArgs_Spec DefArgs_Proofs Expr_Props Base PyStr Lex_Model Expr_Model Front_Model Front_Spec FrontWords_Spec
  FrontWords_Proofs FrontThen_Proofs FrontUse_Proofs.
From Verif Require Import Gen_Model Gen_Spec GenSem_Model GenSem_Spec.
From Verif Require GenSem_Props.
Local Open Scope string_scope.
Local Open Scope list_scope.

(** ** Settings for examples *)

Definition toyenv (um : bool) : env := mkE toylang dflt_set um (L "%>") (fun p => (1, N.of_nat p)%N)
  (fun p => L "id" ++ str_of_N (N.of_nat p)) (fun t r => mkCI t None None None None) (fun _ => Ok (mkCI [] None None None None)) (fun _ _ => None).

Lemma run_of_all : forall p w r, forallb p w = true -> match r with c :: _ => p c = false | [] => True end ->
  run_of p (w ++ r) = length w.
Proof.
  induction w as [|c w IH]; intros r A B; cbn in *.
  - destruct r as [|d r]; [reflexivity|]. cbn. rewrite B. reflexivity.
  - apply andb_prop in A as [A1 A2]. rewrite A1. f_equal. apply IH; assumption.
Qed.
Lemma word_end_first : forall d r, word_end (d :: r) = true -> blank d = true \/ eolchar d = true \/ d = 35%N \/ d = 58%N.
Proof.
  intros d r H. unfold word_end in H. apply orb_prop in H as [H|H].
  - apply orb_prop in H as [H|H]; [apply orb_prop in H as [H|H]; tauto|]. apply N.eqb_eq in H. tauto.
  - cbn [L map app starts_with] in H. apply andb_true_iff in H as [H _]. apply N.eqb_eq in H. subst d. tauto.
Qed.
Example toylang_words : tokenizes_words toylang.
Proof.
  split; [|intro r; reflexivity]. intros [|c w] r I H; [contradiction|]. destruct I as [I1 I2]. change (x_tok toylang) with pytok. cbn [app pytok]. rewrite I1.
  rewrite run_of_all; [reflexivity|exact I2|]. destruct r as [|d r]; [exact Logic.I|].
  apply word_end_first in H. unfold blank, eolchar in H. unfold namechar, identchar. lia.
Qed.
Lemma toynumber : forall c w r, digit c = true -> forallb digit w = true -> word_end r = true ->
  x_tok toylang ((c :: w) ++ r) = Some (length (c :: w)).
Proof.
  intros c w r D1 D2 H. change (x_tok toylang) with pytok. cbn [app pytok].
  assert (identchar c = false) as -> by (unfold digit in D1; unfold identchar; lia). rewrite D1.
  rewrite run_of_all; [reflexivity|exact D2|]. destruct r as [|d r]; [exact Logic.I|].
  apply word_end_first in H. unfold blank, eolchar in H. unfold digit. lia.
Qed.

(** The demonstration template. *)
Definition demo_def : list darg :=
  [mkDA [] true 0 (L "a") [] None; mkDA (L " ") false 0 (L "b") [] (Some [PTok (L "3")])].
Definition nl : pystr := [10%N].
Definition toyitems um := items (toyenv um) um.
Definition demo (um : bool) : stm :=
  let toyenv := toyenv um in let toyitems := toyitems um in
  SPlace (L "Hi ") (var_ph toyenv false false (L "user.name")) (
  SBlk (L "!" ++ nl) (IFor (single toyenv (XVar (L "i"))) (toyitems [XVar (L "xs")])) (Eol nl)
    (SPlace (L "  * ") (var_ph toyenv true true (L "i"))
    (SEnd (L "s" ++ nl))) SMNil (Eol nl) (
  SBlk (L "  ") (IIf (toyitems [XVar (L "x.y"); XTok (L "=="); XTok (L "12"); XWord (L "or"); XVar (L "z")])) (Eol nl)
    (SEnd (L "yes" ++ nl))
    (SMCons JElse (Eol nl) (SDir (L "no") (ISet false (single toyenv (XVar (L "a"))) (L "=") (toyitems [XTok (L "3")])) Hash (SEnd nl)) SMNil) (Eol nl) (
  SDef [] IDef (L "f") (Some (args_of toyenv demo_def)) (Eol nl) (SReg (L "t ") (ICapture (toyitems [XWord (L "v")])) Hash (SEnd (L "body")) Bare (SEnd nl)) (Eol nl)
  (SOne (L "as ") (IIf (toyitems [XVar (L "x")])) (SPlace (L "one ") (var_ph toyenv false false (L "x")) (SEnd nl))
     (SNCons JElse (SEnd (L "no one" ++ nl)) SNNil) (
  SOneReg [] (ICapture (toyitems [XWord (L "w")])) (SEnd (L "kept")) (
  SOneDef nl IDef (L "g") None (SEnd (L "text")) (Eol nl) (
  SDir (L "is ") (IThen (toyitems [XVar (L "x")]) (toyitems [XVar (L "a"); XTok (L "=="); XTok (L "1")]) (toyitems [XVar (L "z")])) Hash (
  SRem (nl ++ L "end ") (L " a comment") Bare (SDir nl (IWord (L "stop")) Bare (SEnd [])))))))))).

Lemma toynum_ok : forall um c w, digit c = true -> forallb digit w = true -> other_tok (toyenv um) (c :: w).
Proof.
  intros um c w D1 D2. assert (A : forallb digit (c :: w) = true) by (cbn; rewrite D1; exact D2).
  assert (LD : digit (last (c :: w) 0%N) = true).
  { destruct (@exists_last _ (c :: w) ltac:(discriminate)) as (u & d & Eq). rewrite Eq in A |- *. rewrite last_last.
    rewrite forallb_app in A. apply andb_prop in A as [_ A]. cbn in A. rewrite andb_true_r in A. exact A. }
  split; [|split; [|split]].
  - unfold tok_start, Lex_Model.opener, closer, blank, eolchar, identchar, is_space. unfold digit in D1. lia.
  - split.
    + revert A. apply forallb_impl. unfold digit, eolchar. intros. lia.
    + rewrite <- (app_nil_r (rev _)). apply esc_last; [discriminate|]. intro K. rewrite K in LD. discriminate LD.
  - unfold digit in LD. unfold is_space. lia.
  - intros r H. apply toynumber; assumption.
Qed.
Lemma toyeq_ok : forall um, other_tok (toyenv um) (L "==").
Proof.
  intro um.
  split; [reflexivity|]. split; [split; reflexivity|]. split; [reflexivity|]. intros [|d r] H; [reflexivity|]. apply word_end_first in H as [H|[H|[->| ->]]];
    [| |reflexivity|reflexivity]; unfold blank, eolchar in H; apply orb_prop in H as [H|H];
    try (apply orb_prop in H as [H|H]); apply N.eqb_eq in H; subst d; reflexivity.
Qed.
Ltac item_ok := lazymatch goal with
  | |- xi_ok _ _ (XTok (L "==")) => split; [apply toyeq_ok|reflexivity]
  | |- xi_ok _ _ (XTok _) => split; [apply toynum_ok; reflexivity|reflexivity]
  | |- xi_ok _ _ (XWord _) => repeat split
  | |- xi_ok _ _ (XVar _) => reflexivity
  end.
Ltac items_ok := repeat (apply Forall_cons; [item_ok|]); apply Forall_nil.
Ltac xok_tac := refine (items_xok (toyenv _) _ _ _ _ _ _); [reflexivity|exact toylang_words|discriminate|repeat (apply Forall_cons; [item_ok|]); apply Forall_nil].
Lemma toy_target : forall um n, dotted_name n = true -> target_ok (toyenv um) (single (toyenv um) (XVar n)).
Proof. intros um n H. apply target_name; [reflexivity|exact toylang_words|exact H|discriminate]. Qed.
Lemma toy_lvalue : forall um n, dotted_name n = true -> lvalue_ok (toyenv um) (single (toyenv um) (XVar n)) (L "=").
Proof. intros um n H. apply lvalue_name; [reflexivity|exact toylang_words|exact H|vm_compute; auto|reflexivity|reflexivity]. Qed.
Lemma demo_def_ok : forall um r, das_ok (toyenv um) false demo_def (L ")" ++ r).
Proof. intros um r. vm_compute. repeat constructor. Qed.
Example demo_wf : forall um, wf (toyenv um) false [] (demo um) [].
Proof.
  intro um. unfold demo. cbv zeta. cbn [wf wf_m]. cbv zeta. repeat match goal with |- _ /\ _ => split end.
  all: try reflexivity.
  all: try (apply plain_no_token; reflexivity).
  all: try (apply ph_name; (reflexivity || discriminate)).
  all: try (apply args_of_ok; [reflexivity|apply demo_def_ok|split; reflexivity|left; split; reflexivity]).
  all: try xok_tac.
  all: try (vm_compute; auto; discriminate).
  all: try (vm_compute; auto; fail).
  - split; [apply toy_target; reflexivity|xok_tac].
  - split; [xok_tac|destruct um; reflexivity].
  - split; [apply toy_lvalue; reflexivity|]. split; [vm_compute; auto|]. split; [xok_tac|]. reflexivity.
  - split; [xok_tac|destruct um; reflexivity].
  - exists (L "one $x"), nl. split; [reflexivity|]. split; [repeat split; discriminate|left; reflexivity].
  - exists (L "no one"), nl. split; [reflexivity|]. split; [repeat split; discriminate|left; reflexivity].
  - split; [repeat split; discriminate|reflexivity].
  - split; [repeat split; discriminate|reflexivity].
  - apply (items_then (toyenv um)); try reflexivity; try discriminate; [exact toylang_words|items_ok|].
    destruct um; repeat (apply Forall_cons; [split; discriminate|]); apply Forall_nil.
  - vm_compute. repeat split; discriminate.
Qed.

(** ** C73 *)

(** C73: the text of a structured template is translated, whatever its length and the depth of its nesting:
    the methods are the laid out programs of its structure.  For the meaning of [wf], [print] and [elab] see
    Front_Spec.v; [x_T .. = dflt]: standard tokens; [tokenizes_words]: Python's tokenizer reads words;
    [g_markers]: no block markers. *)
Theorem C73_translated : forall E, x_T (e_X E) = dflt -> tokenizes_words (e_X E) -> g_markers (e_G E) = None ->
  forall main t, wf E false [] t [] ->
  exists n, forall f, translate E (n + f) main (print t)
  = fok (map (fun p => (fst p, layout (g_lev (e_G E)) (snd p)))
      (meths (e_G E) false (elab E [] t [] false) ++ [((main, []), prog (e_G E) false 0 [] (elab E [] t [] false) CNil)])).
Proof. exact accepted. Qed.
Print Assumptions C73_translated.
Definition lines (l : list string) : pystr := join nl (map L l).
Example C73_translated_ex : wf (toyenv true) false [] (demo true) [] /\
  print (demo true) = lines ["Hi $user.name!"; "#for $i in $xs"; "  * $!{i}s"; "#end for"; "  #if $x.y == 12 or $z"; "yes";
    "#else"; "no#set $a = 3#"; "#end if"; "#def f($a, b=3)"; "t #capture v#body#end capture"; "#end def"; "as #if $x: one $x"; "#else: no one"; "#capture w: kept"; "#def g: text"; "is #if $x then $a == 1 else $z#"; "end ## a comment"; "#stop"] /\
  match translate (toyenv true) 400 (L "main") (print (demo true)) with
  | Some (Ok [(f, _); (g, _); (m, c)]) => f = (L "f", [(L "a", None); (L "b", Some (L "3"))]) /\ g = (L "g", []) /\ m = (L "main", []) /\
      contains (nl ++ L "        if VFFSL(SL,""x.y"",True) == 12 or VFFSL(SL,""z"",True): # generated from line 1, col 52" ++
        nl ++ L "            write('''yes") (show_body dflt_set c) = true
  | _ => False
  end.
Proof. split; [apply demo_wf|]. split; [vm_compute; reflexivity|vm_compute; repeat split; reflexivity]. Qed.

(** ... with #slurp, #raw and comments of several lines. *)
Definition demo2 (um : bool) : stm :=
  SSlurp (L "a" ++ nl ++ L "  ") true (L " junk") nl (
  SSlurp (L "b ") false [] nl (
  SMul (L "c ") (L " one" ++ nl ++ L "  two ") [] [] (
  SMul (L " d" ++ nl ++ L "  ") (L " gone ") (L "  ") nl (
  SRaw [] (Eol nl) (L "$x #if" ++ nl) (L " ") (Eol nl) (
  SOneRaw [] (L "$y ##") (
  SPlace (nl ++ L "z") (var_ph (toyenv um) false false (L "z")) (SEnd []))))))).
Ltac body_ok := vm_compute L; cbn [app nl]; repeat (apply Lex_Spec.cb_char; [split; [discriminate|split; intros; discriminate]|]); apply Lex_Spec.cb_end.
Example demo2_wf : forall um, wf (toyenv um) false [] (demo2 um) [].
Proof.
  intro um. unfold demo2. cbn [wf]. cbv zeta. repeat match goal with |- _ /\ _ => split end.
  all: try reflexivity.
  all: try (apply plain_no_token; reflexivity).
  all: try (apply ph_name; (reflexivity || discriminate)).
  all: try discriminate.
  - split; [reflexivity|]. split; [reflexivity|]. left. left. reflexivity.
  - split; [reflexivity|]. split; [reflexivity|]. left. left. reflexivity.
  - split; [discriminate|]. split; [body_ok|]. do 3 (split; [reflexivity|]). right. left. split; [reflexivity|]. split; [reflexivity|].
    exists (L " "), 100%N. eexists. split; [reflexivity|]. split; reflexivity.
  - split; [discriminate|]. split; [body_ok|]. do 3 (split; [reflexivity|]). right. right. split; [reflexivity|]. left. left. reflexivity.
  - split; [reflexivity|]. left. reflexivity.
  - split; [|split; [|split]].
    + vm_compute L. cbn [app nl]. repeat (apply q_char; [reflexivity|]). apply q_nil.
    + right. split; [right; do 2 eexists; split; [rewrite app_assoc; reflexivity|left; reflexivity]|].
      intros x [<-|[]]. repeat split; discriminate.
    + reflexivity.
    + split; [reflexivity|]. left. reflexivity.
  - split; [repeat split; discriminate|reflexivity].
Qed.
Example C73_translated_more_ex :
  print (demo2 true) = lines ["a"; "  #slurp junk"; "b #"; "c #* one"; "  two *# d"; "  #* gone *#  "; "#raw"; "$x #if"; " #end raw"; "#raw: $y ##"; "z$z"] /\
  wf (toyenv true) false [] (demo2 true) [] /\
  match translate (toyenv true) 400 (L "main") (print (demo2 true)) with
  | Some (Ok [(m, c)]) => m = (L "main", []) /\
      contains (L "write('''b ''')" ++ nl ++ L "        write('''c ''')" ++ nl ++ L "        #  one" ++ nl ++ L "        #   two ") (show_body dflt_set c) = true
  | _ => False
  end.
Proof. split; [vm_compute; reflexivity|]. split; [apply demo2_wf|]. vm_compute. split; reflexivity. Qed.
(** C73, with C66: the code generated for the text returns the output its structure means. *)
Theorem C73_returned : forall E, x_T (e_X E) = dflt -> tokenizes_words (e_X E) -> g_markers (e_G E) = None ->
  forall W V F Er I (K : oracle W V F Er I) fuel main t x o a' r,
  wf E false [] t [] -> apart (elab E [] t [] false) ->
  ob_heap x <> [] -> ob_buf x = true \/ ob_tx x = false ->
  sem K (e_G E) fuel false (elab E [] t [] false) (mkA (ob_w x) [] false (ob_cur x) (ob_buf x) (ob_flts x)) = Some (o, a') ->
  answer true o a' = Some r ->
  exists n c x',
    (forall f, translate E (n + f) main (print t)
      = fok (map (fun p => (fst p, layout (g_lev (e_G E)) (snd p))) (meths (e_G E) false (elab E [] t [] false) ++ [((main, []), c)])))
    /\ call_method K fuel c None x = Some (r, x')
    /\ ob_w x' = a_w a' /\ ob_flts x' = a_flts a' /\ ob_tx x' = ob_tx x
    /\ ob_cur x' = ob_cur x /\ ob_buf x' = ob_buf x
    /\ (forall i, (i < length (ob_heap x))%nat -> getvalue i (ob_heap x') = getvalue i (ob_heap x)).
Proof. exact accepted_returns. Qed.
Print Assumptions C73_returned.
Example C73_returned_ex : wf (toyenv false) false [] (demo false) [] /\ apart (elab (toyenv false) [] (demo false) [] false) /\
  exists o a', sem GenSem_Props.toy dflt_set 9 false (elab (toyenv false) [] (demo false) [] false)
      (mkA [(L "xs", L "ab"); (L "user.name", L "Al"); (L " z", L "Zoe")] [] false (L "F") false []) = Some (o, a') /\
    answer true o a' = Some (Ok (Some (lines ["Hi F<Al>!"; "  * F<item>s"; "  * F<item>s"; "no"; "as no one"; ""; "is F<Zoe>"; "end "; ""]))).
Proof.
  split; [apply demo_wf|]. split; [cbn; repeat split; intros []|]. eexists _, _. split; vm_compute; reflexivity.
Qed.

Example C73_returned_more_ex : wf (toyenv false) false [] (demo2 false) [] /\ apart (elab (toyenv false) [] (demo2 false) [] false) /\
  exists o a', sem GenSem_Props.toy dflt_set 9 false (elab (toyenv false) [] (demo2 false) [] false)
      (mkA [(L "z", L "Zoe")] [] false (L "F") false []) = Some (o, a') /\
    answer true o a' = Some (Ok (Some (lines ["a"; "b c  d"; "$x #if"; "$y ##"; "zF<Zoe>"]))).
Proof.
  split; [apply demo2_wf|]. split; [cbn; repeat split; intros []|]. eexists _, _. split; vm_compute; reflexivity.
Qed.

(** C73, the conditions on expressions: words, names and other tokens with single blanks between them. *)
Theorem C73_expressions : forall E, x_T (e_X E) = dflt -> tokenizes_words (e_X E) ->
  forall brk l, l <> [] -> Forall (xi_ok E brk) l -> xok E brk (items E (e_um E) l).
Proof. exact items_xok. Qed.
Print Assumptions C73_expressions.
Example C73_expressions_ex :
  let l := [XVar (L "x.y"); XTok (L "=="); XTok (L "12"); XWord (L "or"); XVar (L "z")] in
  Forall (xi_ok (toyenv true) [L ":"]) l /\
  items (toyenv true) true l = mkXP (L "$x.y == 12 or $z") (L "VFFSL(SL,""x.y"",True) == 12 or VFFSL(SL,""z"",True)").
Proof. split; [repeat (apply Forall_cons; [item_ok|]); apply Forall_nil|reflexivity]. Qed.

(** ... conditions and alternatives of the ternary form: such expressions without the words then and else. *)
Theorem C73_ternary : forall E, x_T (e_X E) = dflt -> tokenizes_words (e_X E) ->
  forall c t f, c <> [] -> t <> [] -> f <> [] -> Forall (xi_ok E [L ":"]) (c ++ t ++ f) ->
  Forall (fun i => xi_code E (e_um E) i <> L "then" /\ xi_code E (e_um E) i <> L "else") (c ++ t ++ f) ->
  then_ok E (items E (e_um E) c) (items E (e_um E) t) (items E (e_um E) f).
Proof. exact items_then. Qed.
Print Assumptions C73_ternary.
Example C73_ternary_ex :
  let l := [XVar (L "x")] ++ [XVar (L "a"); XTok (L "=="); XTok (L "1")] ++ [XVar (L "z")] in
  Forall (xi_ok (toyenv true) [L ":"]) l /\
  Forall (fun i => xi_code (toyenv true) true i <> L "then" /\ xi_code (toyenv true) true i <> L "else") l.
Proof. split; [items_ok|repeat (apply Forall_cons; [split; discriminate|]); apply Forall_nil]. Qed.

(** ... targets of loops and assignments: names with and without the token. *)
Theorem C73_targets : forall E, x_T (e_X E) = dflt -> tokenizes_words (e_X E) ->
  forall i, name_item i -> xi_src i <> L "in" -> target_ok E (single E i).
Proof. exact target_name. Qed.
Print Assumptions C73_targets.
Example C73_targets_ex : name_item (XWord (L "i")) /\ single (toyenv true) (XVar (L "i")) = mkXP (L "$i") (L "i").
Proof. repeat split. Qed.

Theorem C73_lvalues : forall E, x_T (e_X E) = dflt -> tokenizes_words (e_X E) ->
  forall i op, name_item i -> In op assign_ops ->
  (forall r, x_tok (e_X E) (op ++ L " " ++ r) = Some (length op)) ->
  existsb (fun w => starts_with w (xi_src i)) (map L ["local"; "global"; "module"]) = false ->
  lvalue_ok E (single E i) op.
Proof. exact lvalue_name. Qed.
Print Assumptions C73_lvalues.
Example C73_lvalues_ex : name_item (XVar (L "localizer")) /\ In (L "=") assign_ops /\
  existsb (fun w => starts_with w (xi_src (XVar (L "localizer")))) (map L ["local"; "global"; "module"]) = false.
Proof. split; [reflexivity|]. split; [vm_compute; auto|reflexivity]. Qed.

(** ... arguments of definitions: the lists of C75. *)
Theorem C73_arguments : forall E, x_T (e_X E) = dflt ->
  forall l, (forall r, das_ok E false l (L ")" ++ r)) -> Front_Spec.one_line (das_src l) ->
  match l with a :: _ => da_stars a = 0%nat /\ str_eqb (da_name a) (L "self") = false \/ (0 < da_stars a)%nat | [] => True end ->
  args_ok E (Some (args_of E l)).
Proof. exact args_of_ok. Qed.
Print Assumptions C73_arguments.
Example C73_arguments_ex : (forall r, das_ok (toyenv true) false demo_def (L ")" ++ r)) /\ Front_Spec.one_line (das_src demo_def) /\
  args_of (toyenv true) demo_def = mkSA (L "$a, b=3") [(L "a", None); (L "b", Some (L "3"))].
Proof. split; [apply demo_def_ok|]. repeat split. Qed.

(** ... placeholders: dotted names, also in braces, also silent. *)
Theorem C73_placeholders : forall E, x_T (e_X E) = dflt ->
  forall p0 sil braces n rest, dotted_name n = true -> esc_ok (rev p0) = true ->
  (braces = false -> name_end rest = true) -> ph_ok E p0 (var_ph E sil braces n) rest.
Proof. exact ph_name. Qed.
Print Assumptions C73_placeholders.
Example C73_placeholders_ex : dotted_name (L "user.name") = true /\ name_end (L ". The end") = true /\
  show_ph (var_ph (toyenv true) true true (L "user.name")) = L "$!{user.name}".
Proof. repeat split. Qed.

(** C73 without the condition of [wf] on #def is false: text before a #def on its line is lost when the
    first directive after the #def is alone on its line. *)
Theorem C73_def_cuts_text_refuted : exists src ms,
  starts_with (L "abc #def f#") src = true /\ translate (toyenv true) 300 (L "main") src = fok ms /\
  map fst ms = [(L "f", []); (L "main", [])] /\
  forallb (fun p => negb (contains (L "abc") (show_body dflt_set (snd p)))) ms = true.
Proof.
  exists (lines ["abc #def f#"; "x"; "#end def"; "#if $y"; "#end if"; ""]). eexists.
  split; [vm_compute; reflexivity|]. split; [vm_compute; reflexivity|]. split; vm_compute; reflexivity.
Qed.
Print Assumptions C73_def_cuts_text_refuted.

(** C73 without the condition of [wf] on #raw is false: text before a #raw on its line is lost when the ending
    directive is alone on its line. *)
Theorem C73_raw_cuts_text_refuted : exists src m c,
  src = lines ["abc #raw#x"; "#end raw"; "y"] /\ translate (toyenv true) 300 (L "main") src = fok [(m, c)] /\
  show_body dflt_set c = nl ++ L "        write('''" ++ lines ["x"; "y''')"].
Proof. do 3 eexists. split; [reflexivity|]. split; vm_compute; reflexivity. Qed.
Print Assumptions C73_raw_cuts_text_refuted.

(** C73 without the condition of [lvalue_ok] on the first word is false: a #set of a variable whose name
    starts with [local] loses the name; the code is no Python. *)
Theorem C73_set_names_refuted : exists w, ident w /\
  translate (toyenv true) 300 (L "main") (L "#set " ++ w ++ L " = 3")
  = translate (toyenv true) 300 (L "main") (L "#set local = 3") /\
  exists ms, translate (toyenv true) 300 (L "main") (L "#set " ++ w ++ L " = 3") = fok ms /\
  map (fun p => show_body dflt_set (snd p)) ms = [nl ++ L "         = 3"].
Proof.
  exists (L "localizer"). split; [split; reflexivity|]. split; [vm_compute; reflexivity|].
  eexists. split; vm_compute; reflexivity.
Qed.
Print Assumptions C73_set_names_refuted.

(** C73 without the condition that a short #else starts its line is false: its indentation is written by a
    statement between the #if and the #else; the code is no Python. *)
Theorem C73_indented_else_refuted : exists src ms c,
  src = lines ["  #if $x: a"; "  #else: b"; ""] /\ translate (toyenv true) 300 (L "main") src = fok ms /\ map snd ms = [c] /\
  contains (nl ++ L "            write('''a" ++ nl ++ L "''')" ++ nl ++ L "        write('''  ''')" ++ nl ++ L "        else:")
    (show_body dflt_set c) = true.
Proof.
  do 3 eexists. split; [reflexivity|]. split; [vm_compute; reflexivity|]. split; vm_compute; reflexivity.
Qed.
Print Assumptions C73_indented_else_refuted.

(** C73 without the condition of [then_ok] on the parts is false: in a ternary form the [else] of a
    conditional expression in brackets is taken for that of the directive; the code is no Python. *)
Theorem C73_nested_else_refuted : exists src ms c,
  src = L "#if $x then 1 + ($a if $b else $c) else $d#" /\ translate (toyenv true) 300 (L "main") src = fok ms /\ map snd ms = [c] /\
  contains (L "_v =  1 + (VFFSL(SL,""a"",True) if VFFSL(SL,""b"",True) " ++ nl) (show_body dflt_set c) = true /\
  contains (L "_v =  VFFSL(SL,""c"",True))  VFFSL(SL,""d"",True)" ++ nl) (show_body dflt_set c) = true.
Proof.
  do 3 eexists. split; [reflexivity|]. split; [vm_compute; reflexivity|]. split; [vm_compute; reflexivity|].
  split; vm_compute; reflexivity.
Qed.
Print Assumptions C73_nested_else_refuted.
