(** Property theorems C89 (the directives about the class and the module, and #include). *)
From Verif Require Import Base PyStr Lex_Model Expr_Props Front_Model Front_Spec FrontWords_Spec FrontWords_Proofs FrontUse_Proofs.
From Verif Require Import DefArgs_Spec DefArgs_Proofs Import_Model Import_Spec Import_Props.
From Verif Require Import Head_Model Head_Spec Head_Proofs Front_Props.
From Verif Require Gen_Model Gen_Spec.
Local Open Scope nat_scope.
Local Open Scope string_scope.
Local Open Scope list_scope.

(** ** Settings for examples: those of C73, with the operator += among the tokens *)

Definition htok (r : pystr) : option nat := if starts_with (L "+=") r then Some 2 else pytok r.
Definition henv : env :=
  let E := toyenv true in
  mkE (mkLang dflt htok (fun t => Some (Nat.ltb 2 (length t))) (fun _ => true) true true true true) (e_G E) true (L "%>")
    (fun p => (1, N.of_nat p)%N) (fun p => L "id" ++ str_of_N (N.of_nat p)) (fun t r => Gen_Model.mkCI t None None None None)
    (fun _ => Ok (Gen_Model.mkCI [] None None None None)) (fun _ _ => None).
Definition hc0 := Gen_Model.start Gen_Model.dflt_set (L "respond").
Definition read_in (E : env) (src : pystr) : hout (call * fstate) := eat_head E (L "C") false (fun _ => None) (mkF [] src hc0).
(** What is seen of it: the call, the body of the active method, the rest. *)
Definition seen (x : hout (call * fstate)) : hout (call * pystr * pystr) :=
  match x with
  | Some (Ok (k, s)) => hok (k, match Gen_Model.s_act (f_c s) with m :: _ => Gen_Model.show_body Gen_Model.dflt_set (Gen_Model.m_body m) | [] => [] end, f_r s)
  | Some (Raise e) => Some (Raise e)
  | None => None
  end.
Definition read (src : pystr) := seen (read_in henv src).
Definition line (s : string) : pystr := L s ++ nl.

(** ** C89 *)

(** C89: each of these directives, wherever it stands in the source, asks the compiler for what is written in it
    ([asks]: of the class and the module; [asks_body]: of the active method) and reads its own text and no more;
    white space before it is cut when the line has nothing else ([cut]). *)
Theorem C89_reads : forall E, x_T (e_X E) = dflt -> forall cls sub d p0 k rest c,
  hdir_ok E d -> esc_ok (rev p0) = true -> close_ok (reads_on d) p0 k rest ->
  Gen_Model.s_act c <> [] -> Gen_Model.s_sl c = true ->
  eat_head E cls false sub (mkF (rev p0) (show_hdir d ++ show_close k ++ rest) c)
  = match Gen_Model.bind (if cut p0 k rest then Gen_Model.step (e_G E) Gen_Model.EStrip c else Ok c) (asks_body (e_G E) cls d) with
    | Ok c' => hok (asks d, mkF (rev (p0 ++ show_hdir d ++ show_close k)) rest c')
    | Raise e => Some (Raise (HFront (FGen e)))
    end.
Proof. exact head_ok. Qed.
Print Assumptions C89_reads.

Definition demo_self := mkDA [] false 0 (L "self") [] None :: mkDA (L " ") true 0 (L "a") [] None :: skipn 1 demo_def.
Definition hex_dirs : list hdir :=
  [HExtends [mkLi [] [L "Site"] (L " "); mkLi (L " ") [L "lib"; L "Page"] []];
   HImplements (L "draw") (Some (args_of (toyenv true) demo_def));
   HSuper (Some (args_of (toyenv true) demo_self)); HSuper None;
   HAttr true (L "size") (toyitems true [XTok (L "12")]);
   HModule (single (toyenv true) (XVar (L "a"))) (L "=") (toyitems true [XVar (L "x.y")]);
   HInclude true true (toyitems true [XVar (L "text")]); HInclude false false (toyitems true [XWord (L "name")]);
   HCatcher (L "Echo"); HTransform (L "Markup")].
Example C89_reads_ex :
  Forall (hdir_ok (toyenv true)) hex_dirs /\
  map show_hdir hex_dirs = map L ["#extends Site , lib.Page"; "#implements draw($a, b=3)"; "#super(self, $a, b=3)"; "#super"; "#attr $size = 12";
    "#set module $a = $x.y"; "#include raw source=$text"; "#include name"; "#errorCatcher Echo"; "#transform Markup"] /\
  Forall (fun d => close_ok (reads_on d) (L "  ") (Eol nl) (L "more") /\ cut (L "  ") (Eol nl) (L "more") = true) hex_dirs /\
  esc_ok (rev (L "  ")) = true /\
  map (fun d => seen (read_in (toyenv true) (show_hdir d ++ nl ++ L "more"))) hex_dirs = map (fun '(k, b) => hok (k, b, L "more"))
   [(CBase (L "Site, lib.Page"), []); (CMain (L "draw") [(L "a", None); (L "b", Some (L "3"))], []);
    (CNone, nl ++ L "        _v = super(C, self).respond(a,b=3)" ++ nl ++ L "        if _v is not None: write(_filter(_v))");
    (CNone, nl ++ L "        _v = super(C, self).respond()" ++ nl ++ L "        if _v is not None: write(_filter(_v))");
    (CAttr (L "size = 12"), []); (CGlobal (L "a = VFFSL(SL,""x.y"",True)"), []);
    (CNone, nl ++ L "        self._handleCheetahInclude(VFFSL(SL,""text"",True), trans=trans, includeFrom=""str"", raw=True)");
    (CNone, nl ++ L "        self._handleCheetahInclude(name, trans=trans, includeFrom=""file"", raw=False)");
    (CCatcher (L "Echo"), []);
    (CNone, nl ++ L "        trans = TransformerTransaction()" ++ nl ++ L "        trans._response = trans.response()" ++ nl ++
            L "        trans._response._filter = Markup" ++ nl ++ L "        write = trans._response.write")].
Proof.
  assert (AO : forall l, (forall r, das_ok (toyenv true) false l (L ")" ++ r)) -> one_line (das_src l) -> args_read (toyenv true) (Some (args_of (toyenv true) l))).
  { intros l D OL. split; [|exact OL]. intros c b r SL. cbn [args_of sa_src sa_val]. apply args_paren; [reflexivity|exact SL|apply D]. }
  split; [|split; [vm_compute; reflexivity|split; [|split; [reflexivity|vm_compute; reflexivity]]]].
  - unfold hex_dirs. repeat (apply Forall_cons; [cbn [hdir_ok]|]); [..|apply Forall_nil].
    + split; [discriminate|]. repeat (apply Forall_cons; [split; [reflexivity|split; [reflexivity|split; [discriminate|]]]|]); [..|apply Forall_nil];
      repeat (apply Forall_cons; [split; reflexivity|]); apply Forall_nil.
    + split; [split; reflexivity|]. apply AO; [apply demo_def_ok|split; reflexivity].
    + apply AO; [intro r; vm_compute; repeat constructor|split; reflexivity].
    + exact Logic.I.
    + split; [split; reflexivity|]. split; [xok_tac|]. split; [reflexivity|split; vm_compute; reflexivity].
    + split; [apply toy_lvalue; reflexivity|]. split; [vm_compute; auto|]. split; [xok_tac|reflexivity].
    + split; [xok_tac|split; discriminate].
    + split; [xok_tac|split; reflexivity].
    + split; reflexivity.
    + split; reflexivity.
  - apply Forall_forall. intros d I. split; [|vm_compute; reflexivity].
    unfold hex_dirs in I. cbn [In] in I. repeat (destruct I as [<-|I]; [vm_compute; intuition (try discriminate)|]). destruct I.
Qed.

(** C89, with C79: the classes an #extends lists become the base classes of the module, in their order, with the imports
    they need. *)
Theorem C89_extends : forall l st, l <> [] -> Forall listed_ok l ->
  (forall n, In n l -> ~ through (i_names st ++ map class_of (map li_ids l)) (li_ids n)) ->
  forall x, asks (HExtends l) = CBase x -> x <> L "object" -> ~ In x (i_names st) ->
  exists st1, set_base true true x st = Ok st1
    /\ i_base st1 = join (L ", ") (map class_of (map li_ids l))
    /\ i_stmts st1 = i_stmts st ++ map stmt_text (wanted (i_names st) (map li_ids l))
    /\ i_body st1 = i_body st.
Proof. exact extends_bases. Qed.
Print Assumptions C89_extends.
Definition hex_names := [mkLi [] [L "Site"] (L " "); mkLi (L " ") [L "lib"; L "Page"] []].
Example C89_extends_ex :
  Forall listed_ok hex_names /\
  (forall n, In n hex_names -> ~ through (start_names ++ map class_of (map li_ids hex_names)) (li_ids n)) /\
  match asks (HExtends hex_names) with
  | CBase x => x = L "Site, lib.Page" /\ ~ In x start_names /\
      match set_base true true x i0 with
      | Ok st => i_base st = L "Site, Page" /\ skipn (length (i_stmts i0)) (i_stmts st) = map L ["from Site import Site"; "from lib.Page import Page"]
      | Raise _ => False
      end
  | _ => False
  end.
Proof.
  split; [|split].
  - unfold hex_names. repeat (apply Forall_cons; [split; [reflexivity|split; [reflexivity|split; [discriminate|]]]|]); [..|apply Forall_nil];
      repeat (apply Forall_cons; [split; reflexivity|]); apply Forall_nil.
  - intros n [<-|[<-|[]]] (q & r & Eq & Hq & Hr & _); cbn [li_ids] in Eq.
    + destruct q as [|a q]; [congruence|]. injection Eq as _ Eq. symmetry in Eq. apply app_eq_nil in Eq as [_ ->]. cbn in Hr. lia.
    + destruct q as [|a [|b q]]; [congruence| |].
      * injection Eq as _ <-. cbn in Hr. lia.
      * injection Eq as _ _ Eq. symmetry in Eq. apply app_eq_nil in Eq as [_ ->]. cbn in Hr. lia.
  - cbn [asks hex_names map join li_ids dots]. split; [reflexivity|]. split; [|vm_compute; split; reflexivity].
    intro H. assert (F : forallb (fun n => negb (str_eqb n (L "Site, lib.Page"))) start_names = true) by (vm_compute; reflexivity).
    rewrite forallb_forall in F. specialize (F _ H). rewrite str_eqb_refl in F. discriminate F.
Qed.

(** C89, the errors: where a name is due and something else stands, it is a ParseError at that place. *)
Theorem C89_no_name : forall E, x_T (e_X E) = dflt -> forall cls sub n p0 c r st,
  In n (map L ["extends"; "implements"; "errorCatcher"]) -> esc_ok (rev p0) = true -> blank c = false -> identchar c = false ->
  eat_head E cls false sub (mkF (rev p0) (L "#" ++ n ++ L " " ++ c :: r) st)
  = Some (Raise (HFront (FParse (length (p0 ++ L "#" ++ n ++ L " "))))).
Proof. exact no_name. Qed.
Print Assumptions C89_no_name.
Example C89_no_name_ex : In (L "extends") (map L ["extends"; "implements"; "errorCatcher"]) /\ blank 36 = false /\ identchar 36 = false /\
  read (line "#extends $Site") = Some (Raise (HFront (FParse 9))).
Proof. split; [left; reflexivity|]. split; [reflexivity|]. split; [reflexivity|vm_compute; reflexivity]. Qed.

(** ** What does not hold *)

(** Not true: names without a comma between them are refused or kept apart; an empty place in the list is refused; what
    follows the list on its line is refused.  The names run together, the base classes have an empty one, the rest of the
    line is text. *)
Theorem C89_names_apart_refuted : exists src, read src = hok (CBase (L "AB"), [], []) /\ src = line "#extends A B".
Proof. exists (line "#extends A B"). split; [vm_compute; reflexivity|reflexivity]. Qed.
Theorem C89_names_given_refuted : exists src, read src = hok (CBase (L "A, , B"), [], []) /\ src = line "#extends A,,B".
Proof. exists (line "#extends A,,B"). split; [vm_compute; reflexivity|reflexivity]. Qed.
Theorem C89_names_rest_refuted : exists src, read src = hok (CBase (L "A"), [], line "(B)") /\ src = line "#extends A(B)".
Proof. exists (line "#extends A(B)"). split; [vm_compute; reflexivity|reflexivity]. Qed.

(** Not true: the operator of an #attr counts. *)
Theorem C89_attr_operator_refuted : exists a b, a = line "#attr x += 1" /\ b = line "#attr x = 1" /\
  read a = hok (CAttr (L "x = 1"), [], []) /\ read b = read a.
Proof. eexists _, _. split; [reflexivity|]. split; [reflexivity|]. split; vm_compute; reflexivity. Qed.

(** Not true: an #attr with a placeholder is a ParseError.  It is an AttributeError; and so is one with a string that
    happens to have the text [VFN(] in it. *)
Theorem C89_attr_error_refuted : exists src, read src = Some (Raise HAttribute) /\ src = line "#attr $x = $y".
Proof. exists (line "#attr $x = $y"). split; [vm_compute; reflexivity|reflexivity]. Qed.
Theorem C89_attr_literal_refuted : exists src, read src = Some (Raise HAttribute) /\ src = line "#attr x = 'VFN('".
Proof. exists (line "#attr x = 'VFN('"). split; [vm_compute; reflexivity|reflexivity]. Qed.

(** Not true: an #include names its file by any expression.  One that starts with the letters raw loses them, one that
    starts with source is a ParseError. *)
Theorem C89_include_raw_refuted : exists src,
  read src = hok (CNone, nl ++ L "        self._handleCheetahInclude(data, trans=trans, includeFrom=""file"", raw=True)", []) /\
  src = line "#include rawdata".
Proof. exists (line "#include rawdata"). split; [vm_compute; reflexivity|reflexivity]. Qed.
Theorem C89_include_source_refuted : exists src p, read src = Some (Raise (HFront (FParse p))) /\ src = line "#include sources".
Proof. eexists (line "#include sources"), _. split; [vm_compute; reflexivity|reflexivity]. Qed.

(** Not true: #set sets the variable it names.  A name that starts with the letters global, local or module is taken for
    that word and lost. *)
Theorem C89_set_names_refuted : exists a b m,
  a = line "#set globalCount = 5" /\ b = line "#set localName = 1" /\ m = line "#set modules = 3" /\
  read a = hok (CNone, nl ++ L "        self._CHEETAH__globalSetVars[""""] = 5", []) /\
  read b = hok (CNone, nl ++ L "         = 1", []) /\
  read m = hok (CGlobal (L " = 3"), [], []).
Proof. eexists _, _, _. do 3 (split; [reflexivity|]). do 2 (split; [vm_compute; reflexivity|]). vm_compute. reflexivity. Qed.

(** Not true: #super takes the arguments of a call.  It takes those of a definition: values are ParseErrors, and a
    placeholder is the plain Python name. *)
Theorem C89_super_values_refuted : exists a b p q, a = line "#super(1)" /\ b = line "#super($a.b)" /\
  read a = Some (Raise (HFront (FParse p))) /\ read b = Some (Raise (HFront (FParse q))).
Proof. eexists _, _, _, _. split; [reflexivity|]. split; [reflexivity|]. split; vm_compute; reflexivity. Qed.
Theorem C89_super_looked_up_refuted : exists src, src = line "#super($x)" /\
  read src = hok (CNone, nl ++ L "        _v = super(C, self).respond(x)" ++ nl ++ L "        if _v is not None: write(_filter(_v))", []).
Proof. eexists. split; [reflexivity|vm_compute; reflexivity]. Qed.

(** Not true: #transform may end the source.  It is an IndexError. *)
Theorem C89_transform_end_refuted : exists src, read src = Some (Raise (HFront (FLex PIndex))) /\ src = L "#transform X".
Proof. exists (L "#transform X"). split; [vm_compute; reflexivity|reflexivity]. Qed.
