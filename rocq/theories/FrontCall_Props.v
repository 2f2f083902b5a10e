(** Property theorems C73 (from the text of a template to its code): #call, #cache and #filter with a class. *)
From Verif Require Import Base PyStr Lex_Model Expr_Model Front_Model Front_Spec FrontWords_Spec FrontWords_Proofs
  DefArgs_Spec DefArgs_Proofs FrontCall_Spec FrontCall_Proofs.
From Verif Require Import Gen_Model Gen_Spec GenSem_Model GenSem_Spec.
From Verif Require GenSem_Props.
From Verif Require Import Front_Props.
Local Open Scope string_scope.
Local Open Scope list_scope.

(** C73, the function behind #call: a dotted name, plain or as a placeholder; a placeholder is looked up without being called. *)
Theorem C73_functions : forall E, x_T (e_X E) = dflt -> forall n, dotted_name n = true -> fn_ok E (fn_name n) /\ fn_ok E (fn_var E n).
Proof. exact (fun E ET n D => conj (fn_name_ok E n D) (fn_var_ok E ET n D)). Qed.
Print Assumptions C73_functions.
Example C73_functions_ex : dotted_name (L "self.f") = true /\
  fn_var (toyenv true) (L "self.f") = mkXP (L "$self.f") (L "VFFSL(SL,""self.f"",False)") /\
  fn_name (L "self.f") = mkXP (L "self.f") (L "self.f").
Proof. repeat split. Qed.

(** ... the arguments behind #cache: none, or the lists of C75. *)
Theorem C73_cache_arguments : forall E, x_T (e_X E) = dflt ->
  (forall ci, e_cargs E [] = Ok ci -> cache_ok E (mkSA [] []) ci) /\
  (forall l ci, l <> [] -> (forall b r, halt [L ":"] b r -> r <> [] -> das_ok E true l r) -> Front_Spec.one_line (das_src l) ->
     match das_src l with d :: _ => d = 32%N | [] => False end -> e_cargs E (map (da_val E true) l) = Ok ci -> cache_ok E (cache_args E l) ci).
Proof. exact (fun E ET => conj (cache_none_ok E ET) (cache_args_ok E ET)). Qed.
Print Assumptions C73_cache_arguments.

(** [ id='x', timer='5m'], with the blank before it. *)
Definition demo_list : list darg :=
  [mkDA (L " ") false 0 (L "id") [] (Some [PTok (L "'x'")]); mkDA (L " ") false 0 (L "timer") [] (Some [PTok (L "'5m'")])].
Lemma demo_list_ok : forall um b r, halt [L ":"] b r -> r <> [] -> das_ok (toyenv um) true demo_list r.
Proof.
  intros um b [|d r] H NE; [congruence|]. apply FrontLex_Proofs.halt_first in H.
  destruct H as [->|[->|[->| ->]]]; vm_compute; repeat constructor.
Qed.
Example C73_cache_arguments_ex : (forall b r, halt [L ":"] b r -> r <> [] -> das_ok (toyenv true) true demo_list r) /\
  Front_Spec.one_line (das_src demo_list) /\
  cache_args (toyenv true) demo_list = mkSA (L " id='x', timer='5m'") [(L "id", Some (L "'x'")); (L "timer", Some (L "'5m'"))].
Proof. split; [apply demo_list_ok|]. repeat split. Qed.

(** C73_translated and C73_returned cover templates with these regions. *)
Definition toyci : cinfo := mkCI [] None None None None.
Definition demo3 (um : bool) : stm :=
  let E := toyenv um in
  SReg (L "a" ++ nl) (ICache (cache_args E demo_list) toyci) (Eol nl)
    (SPlace (L "b ") (var_ph E false false (L "x")) (SEnd nl)) (Eol nl) (
  SReg (L "  ") (ICall (fn_var E (L "self.f")) (Some (toyitems um [XVar (L "y")]))) (Eol nl)
    (SReg (L "in ") (ICall (fn_name (L "g")) None) Hash (SEnd (L "c")) Hash (SEnd nl)) (Eol nl) (
  SReg [] (IFilterIs (toyitems um [XVar (L "F")])) (Eol nl) (SPlace [] (var_ph E false false (L "z")) (SEnd nl)) (Eol nl) (
  SOneReg [] (ICache (mkSA [] []) toyci) (SEnd (L "d" ++ nl)) (
  SOneReg [] (ICall (fn_var E (L "h")) None) (SEnd (L "e")) (
  SEnd (nl ++ L "end")))))).
Lemma toy_cache : forall um, cache_ok (toyenv um) (cache_args (toyenv um) demo_list) toyci.
Proof. intro um. apply cache_args_ok; [reflexivity|discriminate|apply demo_list_ok|split; reflexivity|reflexivity|reflexivity]. Qed.
Lemma toy_cache0 : forall um, cache_ok (toyenv um) (mkSA [] []) toyci.
Proof. intro um. apply cache_none_ok; reflexivity. Qed.
Lemma toy_var : forall um n, dotted_name n = true -> fn_ok (toyenv um) (fn_var (toyenv um) n).
Proof. intros um n D. apply fn_var_ok; [reflexivity|exact D]. Qed.
Lemma toy_name : forall um n, dotted_name n = true -> fn_ok (toyenv um) (fn_name n).
Proof. intros um n D. apply fn_name_ok. exact D. Qed.
Example demo3_wf : forall um, wf (toyenv um) false [] (demo3 um) [].
Proof.
  intro um. unfold demo3. cbv zeta. cbn [wf wf_m]. cbv zeta. cbn [reg_ok]. repeat match goal with |- _ /\ _ => split end.
  all: try apply toy_cache.
  all: try apply toy_cache0.
  all: try (apply toy_var; reflexivity).
  all: try (apply toy_name; reflexivity).
  all: try xok_tac.
  all: try (apply plain_no_token; reflexivity).
  all: try (apply ph_name; (reflexivity || discriminate)).
  all: try exact I.
  all: match goal with |- context [fn_ok] => idtac | |- context[xok] => idtac | |- context [cache_ok] => idtac | |- _ => try reflexivity end.
  all: try exact true.
  all: try (lazymatch goal with |- close_ok _ _ _ _ => vm_compute; auto; fail end).
  - intro K. vm_compute in K. discriminate K.
  - intro K. vm_compute in K. discriminate K.
  - exists (L "d"), nl. split; [reflexivity|]. split; [repeat split; discriminate|left; reflexivity].
  - split; [repeat split; discriminate|reflexivity].
Qed.
Example C73_translated_regions_ex :
  print (demo3 true) = lines ["a"; "#cache id='x', timer='5m'"; "b $x"; "#end cache"; "  #call $self.f $y"; "in #call g#c#end call#"; "#end call";
    "#filter $F"; "$z"; "#end filter"; "#cache: d"; "#call $h: e"; "end"] /\
  wf (toyenv true) false [] (demo3 true) [] /\
  match translate (toyenv true) 400 (L "main") (print (demo3 true)) with
  | Some (Ok [(m, c)]) => m = (L "main", []) /\ contains (L "VFFSL(SL,""self.f"",False)(") (show_body dflt_set c) = true
  | _ => False
  end.
Proof. split; [vm_compute; reflexivity|]. split; [apply demo3_wf|]. vm_compute. split; reflexivity. Qed.

Example C73_returned_regions_ex : wf (toyenv false) false [] (demo3 false) [] /\ apart (elab (toyenv false) [] (demo3 false) [] false) /\
  exists o a', sem GenSem_Props.toy dflt_set 9 false (elab (toyenv false) [] (demo3 false) [] false)
      (mkA [(L "x", L "Al"); (L "z", L "Zoe")] [] false (L "F") false []) = Some (o, a') /\
    answer true o a' = Some (Ok (Some (lines ["a"; "b F<Al>"; "F<self.f(in F<g(c)>"; ")>F<Zoe>"; "d"; "F<h(e)>"; "end"]))).
Proof.
  split; [apply demo3_wf|]. split; [cbn; repeat split; try (intros []); try discriminate; try tauto|]. eexists _, _. split; vm_compute; reflexivity.
Qed.

(** The arguments of #cache may stand in brackets: false.  Behind a blank the opening bracket is an error; without the blank the
    closing one is not skipped: it becomes the first character of the text that is cached. *)
Theorem C73_cache_brackets_refuted : exists args k,
  (exists ms, translate (toyenv true) 300 (L "main") (lines [("#cache " ++ args)%string; "text"; "#end cache"; ""]) = fok ms) /\
  translate (toyenv true) 300 (L "main") (lines [("#cache (" ++ args ++ ")")%string; "text"; "#end cache"; ""]) = ferror (FParse k) /\
  exists m c, translate (toyenv true) 300 (L "main") (lines [("#cache(" ++ args ++ ")")%string; "text"; "#end cache"; ""]) = fok [(m, c)] /\
    contains (L "write(''')" ++ nl ++ L "text") (show_body dflt_set c) = true.
Proof.
  exists "id='x'"%string. eexists. split; [eexists; vm_compute; reflexivity|]. split; [vm_compute; reflexivity|].
  do 2 eexists. split; vm_compute; reflexivity.
Qed.
Print Assumptions C73_cache_brackets_refuted.

(** ... and with the arguments of a #call in #arg directives. *)
Definition demo4 (um : bool) : stm :=
  let E := toyenv um in
  SCall (L "a" ++ nl) (fn_var E (L "self.f")) (Some (toyitems um [XVar (L "y")])) (Eol nl)
    (SPCons (L "one") (Eol nl) (SPlace (L "1 ") (var_ph E false false (L "x")) (SEnd (nl ++ L "  ")))
    (SPCons (L "two") (Eol nl) (SCall [] (fn_name (L "g")) None Hash (SPCons (L "z") Hash (SEnd (L "c")) SPNil) Hash (SEnd (nl ++ L "  ")))
     SPNil)) (Eol nl) (
  SEnd (L "end")).
Example demo4_wf : forall um, wf (toyenv um) false [] (demo4 um) [].
Proof.
  intro um. unfold demo4. cbv zeta. cbn [wf wf_m wf_p]. cbv zeta. cbn [reg_ok]. repeat match goal with |- _ /\ _ => split end.
  all: try (apply toy_var; reflexivity).
  all: try (apply toy_name; reflexivity).
  all: try xok_tac.
  all: try (apply plain_no_token; reflexivity).
  all: try (apply ph_name; (reflexivity || discriminate)).
  all: try exact I.
  all: match goal with |- context [fn_ok] => idtac | |- context[xok] => idtac | |- _ => try reflexivity end.
  all: try exact true.
  all: try (lazymatch goal with |- ident _ => split; reflexivity end).
  all: try (lazymatch goal with |- close_ok _ _ _ _ => vm_compute; auto; fail end).
  all: try (intro K; vm_compute in K; discriminate K).
  all: vm_compute; discriminate.
Qed.
Example C73_translated_args_ex :
  print (demo4 true) = lines ["a"; "#call $self.f $y"; "#arg one"; "1 $x"; "  #arg two"; "#call g##arg z#c#end call#"; "  #end call"; "end"] /\
  wf (toyenv true) false [] (demo4 true) [] /\
  match translate (toyenv true) 400 (L "main") (print (demo4 true)) with
  | Some (Ok [(m, c)]) => m = (L "main", []) /\ contains (L "VFFSL(SL,""self.f"",False)(") (show_body dflt_set c) = true
  | _ => False
  end.
Proof. split; [vm_compute; reflexivity|]. split; [apply demo4_wf|]. vm_compute. split; reflexivity. Qed.

Example C73_returned_args_ex : wf (toyenv false) false [] (demo4 false) [] /\ apart (elab (toyenv false) [] (demo4 false) [] false) /\
  exists o a', sem GenSem_Props.toy dflt_set 9 false (elab (toyenv false) [] (demo4 false) [] false)
      (mkA [(L "x", L "Al")] [] false (L "F") false []) = Some (o, a') /\
    answer true o a' = Some (Ok (Some (lines ["a"; "F<self.f(one=1 F<Al>"; "  ;two=F<g(z=c;)>"; ";)>end"]))).
Proof.
  split; [apply demo4_wf|]. split; [cbn; repeat split; try (intros []); try discriminate; try tauto|]. eexists _, _. split; vm_compute; reflexivity.
Qed.

(** The indentation of a #arg on a line of its own goes away, as that of any other directive: false.  The text before it is finished
    before the line is looked at, so that the indentation is the end of the argument before. *)
Theorem C73_arg_indentation_refuted : exists w, w <> EmptyString /\ forallb blank (L w) = true /\
  let source d := lines ["#call f"; "#arg a"; "x"; (w ++ d)%string; "y"; "#end call"; ""] in
  let written c := contains (L "write('''x" ++ nl ++ L w ++ L "''')") (show_body dflt_set c) in
  (exists m c, translate (toyenv true) 300 (L "main") (source "#arg b"%string) = fok [(m, c)] /\ written c = true) /\
  (exists m c, translate (toyenv true) 300 (L "main") (source "#silent 1"%string) = fok [(m, c)] /\ written c = false).
Proof.
  exists "  "%string. split; [discriminate|]. split; [reflexivity|]. cbv zeta. split; do 2 eexists; split; vm_compute; reflexivity.
Qed.
Print Assumptions C73_arg_indentation_refuted.
