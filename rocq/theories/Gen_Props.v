(** Property theorems C36 (nesting of directives), C37 (layout of the generated code) and C68
    (#set global). *)
From Verif Require Import Base PyStr Gen_Model Gen_Spec Gen_Proofs GenLayout_Proofs GenNest_Proofs GenPy_Proofs.
Local Open Scope string_scope.
Local Open Scope list_scope.

(** ** C36 *)

(** C36: a template compiles exactly when its opening and ending directives are well nested with
    matching names, and otherwise a ParseError is raised. *)
Theorem C36_nesting : forall G main l, (1 <= g_lev G)%nat -> regular G l ->
  (balanced (brackets l) -> exists ms, compile G main l = Ok ms)
  /\ (~ balanced (brackets l) -> exists e, compile G main l = Raise e /\ parse_error e).
Proof. intros G main l H. exact (compile_nesting G H main l). Qed.
Print Assumptions C36_nesting.

(** A template with most kinds of directives, and a variation of it that is not well nested. *)
Definition nest_ev (last : string) : evs :=
  Ev (EText (L "Hello"))
 (Ev (EOpen (ODef (L "f") [(L "x", None)] []) [] (1, 1)%N)
 (Ev (EOpen (OFor (L "i") (L "VFN(VFS(SL,x))")) [] (2, 1)%N)
 (Short (OIf (L "i")) [] (3, 1)%N (Ev (EText (L "a")) Done)
 (MidShort MElse (3, 9)%N (Ev (EText (L "b")) Done)
 (Ev (EOpen (OCapture (L "v")) (L "77") (4, 1)%N)
 (Ev (EOpen (OFilter (L "WebSafe") false) (L "78") (5, 1)%N)
 (Ev (EEnd (L last))
 (Ev (EEnd (L "capture"))
 (Ev (EEnd (L "for"))
 (Ev (EEnd (L "def")) Done)))))))))).
Example C36_nesting_ex :
  regular dflt_set (nest_ev "filter") /\ balanced (brackets (nest_ev "filter"))
  /\ regular dflt_set (nest_ev "for") /\ ~ balanced (brackets (nest_ev "for"))
  /\ (exists ms, compile dflt_set (L "respond") (nest_ev "filter") = Ok ms)
  /\ compile dflt_set (L "respond") (nest_ev "for") = Raise (PMismatch (L "for") (L "filter")).
Proof.
  assert (B : balanced (brackets (nest_ev "filter"))) by (apply balanced_scan; vm_compute; reflexivity).
  assert (N : ~ balanced (brackets (nest_ev "for"))).
  { intros H. apply balanced_scan in H. vm_compute in H. discriminate H. }
  assert (R : regular dflt_set (nest_ev "filter")) by (repeat split; try exact I; constructor).
  split; [exact R|]. split; [exact B|]. split; [repeat split; try exact I; constructor|].
  split; [exact N|]. split; [vm_compute; eexists; reflexivity|vm_compute; reflexivity].
Qed.

(** C36: which ParseError.  For all sequences, short forms whose bodies open or end other
    directives included: what is accepted is well nested; "#end found but nothing to end" comes
    at an #end where everything opened so far was ended; a mismatch names the #end and the
    directive open at that point; and the list of unclosed directives is what is open at the
    end.  (Other errors, of Python's own, are left open.) *)
Theorem C36_errors : forall G main l, plain_evs l ->
  match compile G main l with
  | Ok _ => balanced (brackets l)
  | Raise PNothing => exists a n b, brackets l = a ++ BClose n :: b /\ balanced a
  | Raise (PMismatch n x) =>
      exists a b st, brackets l = a ++ BClose n :: b /\ leaves a (x :: st) /\ n <> x
  | Raise (PUnclosed st) => leaves (brackets l) st /\ st <> []
  | Raise _ => True
  end.
Proof. exact compile_agrees. Qed.
Print Assumptions C36_errors.
Example C36_errors_ex :
  plain_evs (nest_ev "cache")
  /\ compile dflt_set (L "respond") (nest_ev "cache") = Raise (PMismatch (L "cache") (L "filter"))
  /\ compile dflt_set (L "respond") (Ev (EOpen OTry [] (1, 1)%N) (Ev (EOpen (OIf (L "x")) [] (2, 1)%N) Done))
     = Raise (PUnclosed [L "if"; L "try"])
  /\ compile dflt_set (L "respond") (Ev (EOpen OTry [] (1, 1)%N) (Ev (EEnd (L "try")) (Ev (EEnd (L "try")) Done)))
     = Raise PNothing.
Proof. split; [repeat split; left; reflexivity|]. vm_compute. repeat split. Qed.

(** C36 fails for #echo and #silent: the first word of the expression goes onto the stack of
    open directives when it is the name of a directive, so [#silent filter (x)] is refused ... *)
Theorem C36_first_word_refuted : exists l,
  balanced (brackets l) /\ compile dflt_set (L "respond") l = Raise (PUnclosed [L "filter"]).
Proof.
  exists (Ev (EExpr KSilent (L "filter (x)")) Done). split; [constructor|vm_compute; reflexivity].
Qed.
Print Assumptions C36_first_word_refuted.
(** ... and [#silent filter (x)] followed by [#end filter] is past the test of the stack, but
    there is no filter region to close: Python's own IndexError. *)
Theorem C36_first_word_crash_refuted : exists l,
  ~ balanced (brackets l) /\ compile dflt_set (L "respond") l = Raise ECrash.
Proof.
  exists (Ev (EExpr KSilent (L "filter (x)")) (Ev (EEnd (L "filter")) Done)). split.
  - intros H. apply balanced_scan in H. vm_compute in H. discriminate H.
  - vm_compute. reflexivity.
Qed.
Print Assumptions C36_first_word_crash_refuted.
(** ... while [#echo if (x) else 1] with [#end if] is accepted though no #if was opened: the
    level of the code goes below that of the method. *)
Theorem C36_first_word_level_refuted : exists l ms,
  ~ balanced (brackets l) /\ compile dflt_set (L "respond") l = Ok ms
  /\ exists n body c, In (n, body) ms /\ In c body /\ (c_lev c < g_lev dflt_set)%nat.
Proof.
  exists (Ev (EExpr KSilent (L "if x")) (Ev (EEnd (L "if")) (Ev (EText (L "a")) Done))).
  eexists. split; [|split; [vm_compute; reflexivity|]].
  - intros H. apply balanced_scan in H. vm_compute in H. discriminate H.
  - eexists _, _, (mkC 1 (Ln (GWrite (L "a"))) []). split; [left; reflexivity|].
    split; [right; left; reflexivity|]. vm_compute. constructor.
Qed.
Print Assumptions C36_first_word_level_refuted.

(** C36 fails for the one-line form of #block inside a #def: UnboundLocalError. *)
Theorem C36_short_block_refuted : exists l,
  balanced (brackets l) /\ compile dflt_set (L "respond") l = Raise ECrash.
Proof.
  exists (Ev (EOpen (ODef (L "f") [] []) [] (1, 1)%N)
         (Short (OBlock (L "b") [] []) [] (2, 1)%N (Ev (EText (L "a")) Done)
         (Ev (EEnd (L "def")) Done))).
  split; [apply balanced_scan; vm_compute; reflexivity|vm_compute; reflexivity].
Qed.
Print Assumptions C36_short_block_refuted.

(** C36 fails for names: #end takes the first known name that is a prefix, so [#end format] or
    [#end iffy] closes a #for or an #if. *)
Theorem C36_end_prefix_refuted :
  end_name (L "format") = Some (L "for") /\ end_name (L "iffy") = Some (L "if")
  /\ end_name (L "define") = Some (L "def").
Proof. vm_compute. repeat split. Qed.
Print Assumptions C36_end_prefix_refuted.

(** ** C37 *)

(** C37: for every template the code of each method is a layout, starting on the initial level,
    of the structured program the template stands for: the body of every block directive is a
    suite, one level deeper than its header; what follows the #end is back on the level of the
    header. *)
Theorem C37_layout : forall G main t, sane G false t = true ->
  compile G main (events t Done)
  = Ok (map (fun p => (fst p, layout (g_lev G) (snd p)))
            (meths G false t ++ [((main, []), prog G false 0 [] t CNil)])).
Proof. exact compile_layout. Qed.
Print Assumptions C37_layout.

(** #def f($x) with an #if/#else in a #for, after a text, followed by a #capture in which a
    placeholder stands. *)
Definition lay_tm : tm :=
  TText (L "Hello") false
 (TDef false DDef (L "f") [(L "x", None)] []
   (TBlk false (BFor (L "i") (L "xs")) (2, 1)%N
     (TBlk true (BIf (L "i")) (3, 1)%N (TText (L "a") false TNil)
        (MCons MElse (3, 9)%N (TText (L "b") false TNil) MNil)
     (TText (L "c") false TNil)) MNil
   (TText (L "d") false TNil))
 (TReg false (RCapture (L "v")) (L "77") (6, 1)%N
   (TPlace (L "x") [] (L "$x") (6, 12)%N false TNil)
 (TText (L "!") false TNil))).
Example C37_layout_ex : sane dflt_set false lay_tm = true
  /\ match compile dflt_set (L "respond") (events lay_tm Done) with
     | Ok [(n, b); _] => n = (L "f", [(L "x", None)]) /\ map c_lev b = [2; 3; 4; 3; 4; 3; 2]%nat
     | _ => False
     end.
Proof. vm_compute. repeat split. Qed.

(** C37: the structure can be read back from the levels, so the layout says no less than the
    structured program. *)
Theorem C37_layout_unique : forall n c c', layout n c = layout n c' -> c = c'.
Proof. intros n c c' H. exact (layout_inj c n c' H). Qed.
Print Assumptions C37_layout_unique.
Example C37_layout_unique_ex :
  layout 2 (CPart HTry [] (CLine GBlank [] CNil) (CLine GBlank [] CNil))
  <> layout 2 (CPart HTry [] (CLine GBlank [] (CLine GBlank [] CNil)) CNil).
Proof. vm_compute. discriminate. Qed.

(** C37: the level never goes below the initial one (so never below zero either: dedent on level
    zero would raise an error). *)
Theorem C37_level_floor : forall G main t ms, sane G false t = true ->
  compile G main (events t Done) = Ok ms ->
  forall n b c, In (n, b) ms -> In c b -> (g_lev G <= c_lev c)%nat.
Proof.
  intros G main t ms Hs E n b c Hn Hc. rewrite (compile_layout G main t Hs) in E.
  assert (E' : flat G (meths G false t ++ [((main, []), prog G false 0 [] t CNil)]) = ms) by congruence.
  subst ms. unfold flat in Hn. apply in_map_iff in Hn as ([x y] & E1 & _). cbn [fst snd] in E1.
  assert (Eb : layout (g_lev G) y = b) by congruence. subst b. exact (layout_deep y _ c Hc).
Qed.
Print Assumptions C37_level_floor.
Example C37_level_floor_ex : exists ms, compile dflt_set (L "respond") (events lay_tm Done) = Ok ms
  /\ length ms = 2%nat.
Proof. eexists. vm_compute. split; reflexivity. Qed.

(** C37: in the text of the module a line on level n starts with n times the indentation step,
    and different levels have different indentations. *)
Theorem C37_indentation_text : forall G, (forall c, exists rest,
    show_chunk G c = [10%N] ++ indentation G (c_lev c) ++ rest)
  /\ (forall n, indentation G 0 = [] /\ indentation G (S n) = g_step G ++ indentation G n)
  /\ (forall n m, g_step G <> [] -> indentation G n = indentation G m -> n = m).
Proof.
  intros G. split; [|split].
  - intros c. eexists. reflexivity.
  - intros n. split; reflexivity.
  - intros n m Hs E. apply (f_equal (@length BinNums.N)) in E. rewrite !indentation_length in E.
    destruct (g_step G); [contradiction Hs; reflexivity|]. cbn [length] in E. nia.
Qed.
Print Assumptions C37_indentation_text.
Example C37_indentation_text_ex : g_step dflt_set <> []
  /\ show_chunk dflt_set (mkC 3 (Hd HTry) []) = [10%N] ++ L "            try:".
Proof. split; [discriminate|vm_compute; reflexivity]. Qed.

(** C37: when moreover every body has something in it and #else, #except, ... stand where they
    belong, the code of every method is grammatical: no suite is empty, every elif, else, except
    and finally continues the right statement. *)
Theorem C37_grammar : forall G main t, sane G false t = true -> legal G false t = true ->
  exists ms, compile G main (events t Done) = Ok ms
  /\ forall n b, In (n, b) ms -> exists c, b = layout (g_lev G) c /\ py_ok GNo c = true.
Proof.
  intros G main t Hs Hl. eexists. split; [exact (compile_layout G main t Hs)|].
  intros n b Hn. unfold flat in Hn. apply in_map_iff in Hn as ([x y] & E1 & Hy). cbn [fst snd] in E1.
  assert (Eb : layout (g_lev G) y = b) by congruence. subst b. exists y. split; [reflexivity|].
  apply in_app_or in Hy as [Hy|[Hy|[]]].
  - exact (proj1 (Forall_forall _ _) (proj1 (legal_meths G) t false Hl) (x, y) Hy).
  - assert (Ey : prog G false 0 [] t CNil = y) by congruence. subst y.
    apply fine_no. apply (proj1 (legal_fine G)); [exact Hl|exact fine_nil].
Qed.
Print Assumptions C37_grammar.
Example C37_grammar_ex : sane dflt_set false lay_tm = true /\ legal dflt_set false lay_tm = true.
Proof. vm_compute. split; reflexivity. Qed.

(** Templates the compiler accepts though the code is not grammatical (Python's SyntaxError
    comes when the module is compiled): an empty body ... *)
Lemma not_py b c : b = layout (g_lev dflt_set) c -> py_ok GNo c = false ->
  forall c', b = layout (g_lev dflt_set) c' -> py_ok GNo c' = false.
Proof.
  intros E H c' E'. assert (E2 : c = c') by (apply (layout_inj c (g_lev dflt_set)); congruence).
  subst c'. exact H.
Qed.
Theorem C37_empty_body_refuted : exists l ms b, regular dflt_set l /\ balanced (brackets l)
  /\ compile dflt_set (L "respond") l = Ok ms /\ In ((L "respond", []), b) ms
  /\ forall c, b = layout (g_lev dflt_set) c -> py_ok GNo c = false.
Proof.
  exists (Ev (EOpen (OIf (L "x")) [] (1, 1)%N) (Ev (EEnd (L "if")) Done)).
  eexists _, _. split; [repeat split|]. split; [apply balanced_scan; vm_compute; reflexivity|].
  split; [vm_compute; reflexivity|]. split; [left; reflexivity|].
  apply (not_py _ (CPart (HIf false (L "x")) (gen_from (1, 1)%N) CNil CNil)); vm_compute; reflexivity.
Qed.
Print Assumptions C37_empty_body_refuted.
(** ... an #else without #if, which moves the level for good (the text before it is on level 2,
    the text after it on level 2 again, below an else on level 1) ... *)
Theorem C37_stray_else_refuted : exists l ms b c, regular dflt_set l /\ balanced (brackets l)
  /\ compile dflt_set (L "respond") l = Ok ms /\ In ((L "respond", []), b) ms
  /\ In c b /\ (c_lev c < g_lev dflt_set)%nat.
Proof.
  exists (Ev (EText (L "a")) (Ev (EMid MElse (1, 1)%N) (Ev (EText (L "b")) Done))).
  eexists _, _, (mkC 1 (Hd HElse) (gen_from (1, 1)%N)).
  split; [repeat split|]. split; [constructor|].
  split; [vm_compute; reflexivity|]. split; [left; reflexivity|].
  split; [right; left; reflexivity|]. vm_compute. constructor.
Qed.
Print Assumptions C37_stray_else_refuted.
(** ... and a one-line #if whose body opens a #for that ends on a later line: the text of the
    #for is not in its suite. *)
Theorem C37_crossing_refuted : exists l ms b, balanced (brackets l)
  /\ compile dflt_set (L "respond") l = Ok ms /\ In ((L "respond", []), b) ms
  /\ forall c, b = layout (g_lev dflt_set) c -> py_ok GNo c = false.
Proof.
  exists (Short (OIf (L "x")) [] (1, 1)%N (Ev (EOpen (OFor (L "i") (L "s")) [] (1, 8)%N) Done)
         (Ev (EText (L "a")) (Ev (EEnd (L "for")) (Ev (EText (L "b")) Done)))).
  eexists _, _. split; [apply balanced_scan; vm_compute; reflexivity|].
  split; [vm_compute; reflexivity|]. split; [left; reflexivity|].
  apply (not_py _ (CPart (HIf false (L "x")) (gen_from (1, 1)%N)
           (CPart (HFor (L "i") (L "s")) (gen_from (1, 8)%N) CNil
           (CLine (GWrite (L "a")) [] CNil)) (CLine (GWrite (L "b")) [] CNil))); vm_compute; reflexivity.
Qed.
Print Assumptions C37_crossing_refuted.

(** C37 fails for one-line #closure directives: the end of the body is not committed before the
    level goes back, so text at the end of it lands outside of the closure. *)
Theorem C37_short_closure_refuted : exists t ms b, legal dflt_set false t = true
  /\ compile dflt_set (L "respond") (events t Done) = Ok ms /\ In ((L "respond", []), b) ms
  /\ In (mkC 2 (Ln (GWrite (L "inside"))) []) b /\ In (mkC 2 (Hd (HDef (L "f") [])) []) b
  /\ ~ In (mkC 3 (Ln (GWrite (L "inside"))) []) b.
Proof.
  exists (TDef true DClosure (L "f") [] [] (TText (L "inside") false TNil) TNil).
  eexists _, _. split; [reflexivity|]. split; [vm_compute; reflexivity|]. split; [left; reflexivity|].
  split; [right; right; left; reflexivity|]. split; [left; reflexivity|].
  cbn [In]. intros [H|[H|[H|[]]]]; discriminate H.
Qed.
Print Assumptions C37_short_closure_refuted.

(** ** The text of the code *)

(** The text for a template with every kind of directive, as Compiler.py:441-1058 writes it. *)
Definition gold_lc : BinNums.N * BinNums.N := (3, 7)%N.
Definition gold_tm : tm :=
  TRem (L "note") (TText (L "Hi") false
  (TPlace (L "VFN(x)") [] (L "$x") gold_lc true
  (TExpr KSilent (L "f()") (TExpr KStop (L "stop") (TSet true (L "a.b") (L "+=") (L " 1 ")
  (TBlk false (BUnless (L "c")) gold_lc (TText (L "no") false TNil) (MCons (MElif (L "e:")) gold_lc (TText (L "t") false TNil) MNil)
  (TBlk false (BRepeat (L "3")) gold_lc (TText (L "r") false TNil) MNil
  (TBlk false BTry gold_lc (TText (L "y") false TNil) (MCons (MExcept (L "E as e")) gold_lc (TText (L "z") false TNil) MNil)
  (TReg false (RCapture (L "v")) (L "11") gold_lc (TText (L "k") false TNil)
  (TReg false (RCall (L "fn") (L "p=1")) (L "12") gold_lc (TText (L "m") false TNil)
  (TCall (L "fn") (L "p") (L "13") gold_lc (L "n") (TText (L "o") false TNil) (PCons (L "n2") (TText (L "q") false TNil) PNil)
  (TReg false (RFilter (L "W") false) (L "14") gold_lc (TText (L "s") false TNil)
  (TReg false (RFilter (L " K ") true) (L "15") gold_lc (TText (L "u") false TNil)
  (TReg false (RFilter (L "None") false) (L "16") gold_lc (TText (L "w") false TNil)
  (TReg false (RCache (mkCI (L "{'type': 2}") (Some (L "30.0")) (Some (L "tst")) (Some (L "cid")) None)) (L "17") gold_lc (TText (L "x") false TNil)
  (TDef false DBlock (L "blk") [] [] TNil
   TNil)))))))))))))))).
Example C37_text_ex :
  match compile dflt_set (L "respond") (events gold_tm Done) with
  | Ok [(_, blk); (_, main)] => show_body dflt_set blk = [] /\ show_body dflt_set main = L "
        # note
        write('''Hi''')
        try:
            _v = VFN(x) # '$x' on line 3, col 7
            if _v is not None: write(_filter(_v, rawExpr='$x'))
        except NotFound: pass # from line 3, col 7.
        f()
        return _dummyTrans and trans.response().getvalue() or """"
        self._CHEETAH__globalSetVars[""a""].b += 1
        if not (c):
            write('''no''')
        elif e: # generated from line 3, col 7
            write('''t''')
        for __i0 in range(3): # generated from line 3, col 7
            write('''r''')
        try: # generated from line 3, col 7
            write('''y''')
        except E as e: # generated from line 3, col 7
            write('''z''')
        ## START CAPTURE REGION: 11 v at line 3, col 7 in the source.
        _orig_trans11 = trans
        _wasBuffering11 = self._CHEETAH__isBuffering
        self._CHEETAH__isBuffering = True
        trans = _captureCollector11 = DummyTransaction()
        write = _captureCollector11.response().write
        write('''k''')
        trans = _orig_trans11
        write = trans.response().write
        self._CHEETAH__isBuffering = _wasBuffering11 
        v = _captureCollector11.response().getvalue()
        del _orig_trans11
        del _captureCollector11
        del _wasBuffering11
        ## START CALL REGION: 12 of fn at line 3, col 7 in the source.
        _orig_trans12 = trans
        _wasBuffering12 = self._CHEETAH__isBuffering
        self._CHEETAH__isBuffering = True
        trans = _callCollector12 = DummyTransaction()
        write = _callCollector12.response().write
        write('''m''')
        trans = _orig_trans12
        write = trans.response().write
        self._CHEETAH__isBuffering = _wasBuffering12 
        del _wasBuffering12
        del _orig_trans12
        _callArgVal12 = _callCollector12.response().getvalue()
        del _callCollector12
        _v = fn(_callArgVal12, p=1)
        if _v is not None: write(_filter(_v))
        del _callArgVal12
        ## END CALL REGION: 12 of fn at line 3, col 7 in the source.
        
        ## START CALL REGION: 13 of fn at line 3, col 7 in the source.
        _orig_trans13 = trans
        _wasBuffering13 = self._CHEETAH__isBuffering
        self._CHEETAH__isBuffering = True
        trans = _callCollector13 = DummyTransaction()
        write = _callCollector13.response().write
        _callKws13 = {}
        _currentCallArgname13 = 'n'
        write('''o''')
        _callKws13['n'] = _callCollector13.response().getvalue()
        del _callCollector13
        trans = _callCollector13 = DummyTransaction()
        write = _callCollector13.response().write
        write('''q''')
        _callKws13['n2'] = _callCollector13.response().getvalue()
        del _callCollector13
        trans = _callCollector13 = DummyTransaction()
        write = _callCollector13.response().write
        trans = _orig_trans13
        write = trans.response().write
        self._CHEETAH__isBuffering = _wasBuffering13 
        del _wasBuffering13
        del _orig_trans13
        _v = fn(p, **_callKws13)
        if _v is not None: write(_filter(_v))
        del _callKws13
        ## END CALL REGION: 13 of fn at line 3, col 7 in the source.
        
        _orig_filter14 = _filter
        filterName = 'W'
        if ""W"" in self._CHEETAH__filters:
            _filter = self._CHEETAH__currentFilter = self._CHEETAH__filters[filterName]
        else:
            _filter = self._CHEETAH__currentFilter = \
			self._CHEETAH__filters[filterName] = getattr(self._CHEETAH__filtersLib, filterName)(self).filter
        write('''s''')
        _filter = self._CHEETAH__currentFilter = _orig_filter14
        _orig_filter15 = _filter
        _filter = self._CHEETAH__currentFilter = K(self).filter
        write('''u''')
        _filter = self._CHEETAH__currentFilter = _orig_filter15
        _orig_filter16 = _filter
        _filter = self._CHEETAH__initialFilter
        write('''w''')
        _filter = self._CHEETAH__currentFilter = _orig_filter16
        
        ## START CACHE REGION: ID=cid. line 3, col 7 in the source.
        _RECACHE_cid = False
        _cacheRegion_cid = self.getCacheRegion(regionID='cid', cacheInfo={'type': 2})
        if _cacheRegion_cid.isNew():
            _RECACHE_cid = True
        _cacheItem_cid = _cacheRegion_cid.getCacheItem('cid')
        if _cacheItem_cid.hasExpired():
            _RECACHE_cid = True
        if tst:
            _RECACHE_cid = True
        if (not _RECACHE_cid) and _cacheItem_cid.getRefreshTime():
            try:
                _output = _cacheItem_cid.renderOutput()
            except KeyError:
                _RECACHE_cid = True
            else:
                write(_output)
                del _output
        if _RECACHE_cid or not _cacheItem_cid.getRefreshTime():
            _orig_transcid = trans
            trans = _cacheCollector_cid = DummyTransaction()
            write = _cacheCollector_cid.response().write
            _cacheItem_cid.setExpiryTime(currentTime() +30.0)
            write('''x''')
            trans = _orig_transcid
            write = trans.response().write
            _cacheData = _cacheCollector_cid.response().getvalue()
            _cacheItem_cid.setData(_cacheData)
            write(_cacheData)
            del _cacheData
            del _cacheCollector_cid
            del _orig_transcid
        ## END CACHE REGION: cid
        
        self.blk(trans=trans)"
  | _ => False
  end.
Proof. vm_compute. split; reflexivity. Qed.
(** With other settings. *)
Definition other_set (useFilters always : bool) : gset :=
  mkG (fun _ => true) always useFilters false false true 0 1 (L " ") None.
Example C37_text_settings_ex :
  let text G t := match compile G (L "m") (events t Done) with Ok [(_, b)] => show_body G b | _ => [] end in
  let t := TPlace (L "x") (L ", maxlen=3") (L "$x") gold_lc false (TExpr KEcho (L "y") TNil) in
  text (other_set true false) t = L "
 write(_filter(x, maxlen=3))
 write(_filter(y))"
  /\ text (other_set false false) t = L "
 write(str(x))
 write(str(y))"
  /\ text (other_set false true) t = L "
 _v = x # '$x' on line 3, col 7
 if _v is not None: write(str(_v))
 _v = y
 if _v is not None: write(str(_v))"
  /\ text (other_set true true) (TPlace (L "x") [] (L "$x
") gold_lc false (TTern (L "c") (L "a") (L "b") gold_lc (TBlk false (BWhile (L "w")) gold_lc (TExpr KSilent (L "break") TNil) MNil
   (TBlk true BTry gold_lc TNil (MCons MFinally gold_lc TNil MNil) TNil)))) = L "
 _v = x
 if _v is not None: write(_filter(_v))
 if c: # generated from line 3, col 7
  _v = a
  if _v is not None: write(_filter(_v))
 else:
  _v = b
  if _v is not None: write(_filter(_v))
 while w: # generated from line 3, col 7
  break
 try: # generated from line 3, col 7
 finally: # generated from line 3, col 7".
Proof. vm_compute. repeat split. Qed.

(** C37: headers end with a colon, and none is added to one the user wrote. *)
Theorem C37_header_colon : forall s, s <> [] ->
  last (add_colon s) 0%N = 58%N /\ (add_colon s = s \/ (add_colon s = s ++ L ":" /\ last s 0%N <> 58%N)).
Proof.
  intros s H. unfold add_colon. destruct s as [|c s]; [contradiction H; reflexivity|].
  destruct (N.eqb_spec (last (c :: s) 0%N) 58) as [Ec|Ec]; split; auto.
  apply last_last.
Qed.
Print Assumptions C37_header_colon.
Example C37_header_colon_ex : show_head (HIf false (L "x:")) = L "if x:" /\ show_head (HIf false (L "x")) = L "if x:".
Proof. vm_compute. split; reflexivity. Qed.

(** ** C68 *)

(** C68: the target of a #set global is taken apart at its first dot or bracket: the name before
    is a key of the dictionary of global variables, what follows is applied to the entry. *)
Theorem C68_set_global : forall prim sec op rv, prim <> [] ->
  ~ In 46%N prim -> ~ In 91%N prim ->
  sec = [] \/ (exists c r, sec = c :: r /\ (c = 46%N \/ c = 91%N)) ->
  set_global_text (prim ++ sec) op rv
  = L "self._CHEETAH__globalSetVars[" ++ [34%N] ++ prim ++ [34%N] ++ L "]" ++ sec ++ L " " ++ op ++ L " " ++ strip rv.
Proof. exact set_global_ok. Qed.
Print Assumptions C68_set_global.
Example C68_set_global_ex : ~ In 46%N (L "a") /\ ~ In 91%N (L "a")
  /\ set_global_text (L "a.b[0]") (L "=") (L " x ") = L "self._CHEETAH__globalSetVars[""a""].b[0] = x"
  /\ set_global_text (L "a[0].b") (L "+=") (L "x") = L "self._CHEETAH__globalSetVars[""a""][0].b += x"
  /\ set_global_text (L "a") (L "=") (L "x") = L "self._CHEETAH__globalSetVars[""a""] = x".
Proof. vm_compute. repeat split; intros [H|[]]; discriminate H. Qed.
