(** Model of the code generator: the open directives stack of the parser and the method
    compilers (Cheetah/Parser.py:1767-1870, 2036-2169, 2513-2785 and
    Cheetah/Compiler.py:342-1058, 1384-1526).

    The input is the sequence of things the parser meets in a template (texts, placeholders,
    opening and ending directives); the expressions are given as the Python text the parser
    made of them.  The output is, for every method, the list of generated chunks with the
    indentation level each was written on.  A chunk is kept as a structured value with
    [show_line]/[show_head] giving the exact Python text. *)
From Verif Require Import Base PyStr StrConst_Model Reader_Model.
From Verif Require Lex_Model.

(** ** Generated code *)

(** The local variables the generator makes up, each followed by the id of its region
    (Cheetah/Compiler.py:764-857, 862-947, 952-985, 1015-1058). *)
Inductive tag :=
| TgOrig | TgBuf | TgCall | TgKws | TgVal | TgCapt | TgFilt | TgArgName
| TgCache | TgRecache | TgRegion | TgItem.

(** The Python name of such a variable (same lines). *)
Definition tag_name (t : tag) : pystr :=
  match t with
  | TgOrig => L "_orig_trans"            (* Compiler.py:833, 877, 964 *)
  | TgBuf => L "_wasBuffering"           (* Compiler.py:878, 966 *)
  | TgCall => L "_callCollector"         (* Compiler.py:881 *)
  | TgKws => L "_callKws"                (* Compiler.py:893 *)
  | TgVal => L "_callArgVal"             (* Compiler.py:925 *)
  | TgCapt => L "_captureCollector"      (* Compiler.py:969 *)
  | TgFilt => L "_orig_filter"           (* Compiler.py:1025 *)
  | TgArgName => L "_currentCallArgname" (* Compiler.py:894 *)
  | TgCache => L "_cacheCollector_"      (* Compiler.py:834 *)
  | TgRecache => L "_RECACHE_"           (* Compiler.py:783 *)
  | TgRegion => L "_cacheRegion_"        (* Compiler.py:784 *)
  | TgItem => L "_cacheItem_"            (* Compiler.py:794 *)
  end.
Definition local_name (t : tag) (id : pystr) : pystr := tag_name t ++ id.  (* Compiler.py:783 *)

(** Expressions in the generated code: the user's, or the call made for a [#call] region
    (Cheetah/Compiler.py:930-932, 939-941). *)
Inductive gexp :=
| XUser (e : pystr)
| XCall (fn args id : pystr)
| XCallKw (fn args id : pystr).

(** One generated statement that is not the header of a suite. *)
Inductive line :=
| GBlank                               (* addChunk('') : Compiler.py:778, 857, 946 *)
| GComment (s : pystr)                 (* Compiler.py:534, 780, 856, 874, 943, 962 *)
| GWrite (s : pystr)                   (* Compiler.py:441, 505: write('''...''') *)
| GAssignV (x : gexp) (rem : pystr)    (* Compiler.py:453, 457 *)
| GWriteV (fargs : pystr)              (* Compiler.py:460 *)
| GWriteVStr                           (* Compiler.py:463 *)
| GWriteE (x : gexp) (fargs : pystr)   (* Compiler.py:466, 742 *)
| GWriteEStr (x : gexp)                (* Compiler.py:468 *)
| GStmt (s : pystr)                    (* Compiler.py:567, 600, 695-734, 755 *)
| GStop                                (* Compiler.py:1182-1183 *)
| GCallBlock (name : pystr)            (* Compiler.py:1525 *)
| GSaveTrans (id : pystr)              (* Compiler.py:833, 877, 964 *)
| GSaveBuf (id : pystr)                (* Compiler.py:878, 966 *)
| GBufOn                               (* Compiler.py:880, 967 *)
| GCollect (t : tag) (id : pystr)      (* Compiler.py:834, 881, 904, 969 *)
| GWriteTo (t : tag) (id : pystr)      (* Compiler.py:836, 883, 906, 971 *)
| GRestTrans (id : pystr)              (* Compiler.py:845, 915, 976 *)
| GWriteTrans                          (* Compiler.py:846, 916, 977 *)
| GRestBuf (id : pystr)                (* Compiler.py:917, 979 *)
| GDel (t : tag) (id : pystr)          (* Compiler.py:853, 903, 919, 983 *)
| GAssignCap (v id : pystr)            (* Compiler.py:981 *)
| GArgVal (id : pystr)                 (* Compiler.py:925 *)
| GKwsNew (id : pystr)                 (* Compiler.py:893 *)
| GArgName (id name : pystr)           (* Compiler.py:894 *)
| GKwsSet (id name : pystr)            (* Compiler.py:900 *)
| GSaveFilt (id : pystr)               (* Compiler.py:1025 *)
| GFiltKlass (e : pystr)               (* Compiler.py:1028 *)
| GFiltInit                            (* Compiler.py:1032 *)
| GFiltName (n : pystr)                (* Compiler.py:1035 *)
| GFiltCached                          (* Compiler.py:1040 *)
| GFiltNew                             (* Compiler.py:1046 *)
| GFiltRest (id : pystr)               (* Compiler.py:1057 *)
| GRecache (id : pystr) (b : bool)     (* Compiler.py:783, 791 *)
| GRegion (id info : pystr)            (* Compiler.py:784 *)
| GItem (id vary : pystr)              (* Compiler.py:794 *)
| GRender (id : pystr)                 (* Compiler.py:815 *)
| GWriteOut                            (* Compiler.py:823 *)
| GDelOut                              (* Compiler.py:824 *)
| GExpiry (id n : pystr)               (* Compiler.py:839 *)
| GData (id : pystr)                   (* Compiler.py:848 *)
| GSetData (id : pystr)                (* Compiler.py:850 *)
| GWriteData                           (* Compiler.py:851 *)
| GDelData.                            (* Compiler.py:852 *)

(** One generated header: the statement that opens a suite.  [HNotFound] is the one whose
    suite is on its own line (Cheetah/Compiler.py:556). *)
Inductive head :=
| HIf (neg : bool) (e : pystr)         (* Compiler.py:646, 672, 804 *)
| HElif (e : pystr) | HElse            (* Compiler.py:664-666 *)
| HFor (t e : pystr)                   (* Compiler.py:612 *)
| HRep (n : nat) (e : pystr)           (* Compiler.py:617 *)
| HWhile (e : pystr)                   (* Compiler.py:609 *)
| HTry | HExcept (e : pystr) | HFinally (* Compiler.py:686-693 *)
| HDef (name : pystr) (args : list (pystr * option pystr))  (* Compiler.py:682 *)
| HNotFound                            (* Compiler.py:556 *)
| HHasFilter (n : pystr)               (* Compiler.py:1037 *)
| HIsNew (id : pystr)                  (* Compiler.py:789 *)
| HExpired (id : pystr)                (* Compiler.py:798 *)
| HFresh (id : pystr)                  (* Compiler.py:810 *)
| HKeyErr                              (* Compiler.py:817 *)
| HStale (id : pystr).                 (* Compiler.py:830 *)

Inductive gl := Ln (l : line) | Hd (h : head).

(** A chunk: its indentation level, the statement, and what [appendToPrevChunk] added
    (Cheetah/Compiler.py:432-438). *)
Record chunk := mkC { c_lev : nat; c_gl : gl; c_note : pystr }.

(** ** Settings used by the generator (Cheetah/Compiler.py:60-130) *)
Record gset := mkG {
  g_printable : N -> bool;       (* which characters repr() leaves alone *)
  g_alwaysNone : bool;           (* alwaysFilterNone *)
  g_useFilters : bool;           (* useFilters *)
  g_inclRaw : bool;              (* includeRawExprInFilterArgs *)
  g_rowcol : bool;               (* outputRowColComments *)
  g_nested : bool;               (* allowNestedDefScopes *)
  g_offset : nat;                (* commentOffset *)
  g_lev : nat;                   (* initialMethIndentLevel *)
  g_step : pystr;                (* indentationStep *)
  g_markers : option (pystr * pystr * (pystr * pystr))
                                 (* includeBlockMarkers, blockMarkerStart, blockMarkerEnd *)
}.

(** ** The Python text of the generated code *)

(** [expr + ':'] unless it is there already (Cheetah/Compiler.py:622-623, 634-635). *)
Definition add_colon (s : pystr) : pystr :=
  match s with
  | [] => []
  | _ => if (last s 0 =? 58)%N then s else s ++ L ":"
  end.

(** The default value of an argument (Cheetah/Compiler.py:677-680). *)
Definition show_arg (a : pystr * option pystr) : pystr :=
  match snd a with None => fst a | Some d => fst a ++ L "=" ++ d end.

(** The call expression of a [#call] region (Cheetah/Compiler.py:928-941). *)
Definition show_exp (x : gexp) : pystr :=
  match x with
  | XUser e => e
  | XCall fn args id =>
      fn ++ L "(" ++ local_name TgVal id
         ++ (match args with [] => [] | _ => L ", " ++ args end) ++ L ")"
  | XCallKw fn args id =>
      fn ++ L "(" ++ (match args with [] => [] | _ => args ++ L ", " end)
         ++ L "**" ++ local_name TgKws id ++ L ")"
  end.

(** The double quote character, for the literals below. *)
Definition q : pystr := [34%N].  (* Cheetah/Compiler.py:1037 *)

(** Text of a statement; the lines of /repo are given at each constructor of [line]
    (Cheetah/Compiler.py:441-1058). *)
Definition show_line (G : gset) (l : line) : pystr :=
  match l with
  | GBlank => []
  | GComment s => s
  | GWrite s => L "write(" ++ (match str_const_literal (g_printable G) s with
                               | Some t => t | None => [] end) ++ L ")"
  | GAssignV x rem => L "_v = " ++ show_exp x ++ rem
  | GWriteV fa => L "if _v is not None: write(_filter(_v" ++ fa ++ L "))"
  | GWriteVStr => L "if _v is not None: write(str(_v))"
  | GWriteE x fa => L "write(_filter(" ++ show_exp x ++ fa ++ L "))"
  | GWriteEStr x => L "write(str(" ++ show_exp x ++ L "))"
  | GStmt s => s
  | GStop => L "return _dummyTrans and trans.response().getvalue() or " ++ q ++ q
  | GCallBlock n => L "self." ++ n ++ L "(trans=trans)"
  | GSaveTrans id => local_name TgOrig id ++ L " = trans"
  | GSaveBuf id => local_name TgBuf id ++ L " = self._CHEETAH__isBuffering"
  | GBufOn => L "self._CHEETAH__isBuffering = True"
  | GCollect t id => L "trans = " ++ local_name t id ++ L " = DummyTransaction()"
  | GWriteTo t id => L "write = " ++ local_name t id ++ L ".response().write"
  | GRestTrans id => L "trans = " ++ local_name TgOrig id
  | GWriteTrans => L "write = trans.response().write"
  | GRestBuf id => L "self._CHEETAH__isBuffering = " ++ local_name TgBuf id ++ L " "
  | GDel t id => L "del " ++ local_name t id
  | GAssignCap v id => v ++ L " = " ++ local_name TgCapt id ++ L ".response().getvalue()"
  | GArgVal id => local_name TgVal id ++ L " = " ++ local_name TgCall id ++ L ".response().getvalue()"
  | GKwsNew id => local_name TgKws id ++ L " = {}"
  | GArgName id n => local_name TgArgName id ++ L " = " ++ repr (g_printable G) n
  | GKwsSet id n => local_name TgKws id ++ L "[" ++ repr (g_printable G) n ++ L "] = "
                    ++ local_name TgCall id ++ L ".response().getvalue()"
  | GSaveFilt id => local_name TgFilt id ++ L " = _filter"
  | GFiltKlass e => L "_filter = self._CHEETAH__currentFilter = " ++ strip e ++ L "(self).filter"
  | GFiltInit => L "_filter = self._CHEETAH__initialFilter"
  | GFiltName n => L "filterName = " ++ repr (g_printable G) n
  | GFiltCached => L "_filter = self._CHEETAH__currentFilter = self._CHEETAH__filters[filterName]"
  | GFiltNew => L "_filter = self._CHEETAH__currentFilter = \" ++ [10; 9; 9; 9]%N
                ++ L "self._CHEETAH__filters[filterName] = getattr(self._CHEETAH__filtersLib, filterName)(self).filter"
  | GFiltRest id => L "_filter = self._CHEETAH__currentFilter = " ++ local_name TgFilt id
  | GRecache id b => local_name TgRecache id ++ (if b then L " = True" else L " = False")
  | GRegion id info => local_name TgRegion id ++ L " = self.getCacheRegion(regionID="
                       ++ repr (g_printable G) id ++ L ", cacheInfo=" ++ info ++ L ")"
  | GItem id vary => local_name TgItem id ++ L " = " ++ local_name TgRegion id
                     ++ L ".getCacheItem(" ++ vary ++ L ")"
  | GRender id => L "_output = " ++ local_name TgItem id ++ L ".renderOutput()"
  | GWriteOut => L "write(_output)"
  | GDelOut => L "del _output"
  | GExpiry id n => local_name TgItem id ++ L ".setExpiryTime(currentTime() +" ++ n ++ L ")"
  | GData id => L "_cacheData = " ++ local_name TgCache id ++ L ".response().getvalue()"
  | GSetData id => local_name TgItem id ++ L ".setData(_cacheData)"
  | GWriteData => L "write(_cacheData)"
  | GDelData => L "del _cacheData"
  end.

(** Text of a header; the lines of /repo are given at each constructor of [head]
    (Cheetah/Compiler.py:556-1037).  For the user's [#if], [#for], ... the parser hands over
    the whole directive, e.g. [if x]; the model has the parts with one blank between. *)
Definition show_head (h : head) : pystr :=
  match h with
  | HIf neg e => add_colon (if neg then L "if not (" ++ e ++ L ")" else L "if " ++ e)
  | HElif e => add_colon (L "elif " ++ e)
  | HElse => L "else:"
  | HFor t e => add_colon (L "for " ++ t ++ L " in " ++ e)
  | HRep n e => add_colon (L "for __i" ++ str_of_N (N.of_nat n) ++ L " in range(" ++ e ++ L ")")
  | HWhile e => add_colon (L "while " ++ e)
  | HTry => L "try:"
  | HExcept e => add_colon (L "except" ++ (match e with [] => [] | _ => L " " ++ e end))
  | HFinally => L "finally:"
  | HDef n args => add_colon (L "def " ++ n ++ L "(" ++ join (L ",") (map show_arg args) ++ L "):")
  | HNotFound => L "except NotFound: pass"
  | HHasFilter n => L "if " ++ q ++ n ++ q ++ L " in self._CHEETAH__filters:"
  | HIsNew id => L "if " ++ local_name TgRegion id ++ L ".isNew():"
  | HExpired id => L "if " ++ local_name TgItem id ++ L ".hasExpired():"
  | HFresh id => L "if (not " ++ local_name TgRecache id ++ L ") and " ++ local_name TgItem id
                 ++ L ".getRefreshTime():"
  | HKeyErr => L "except KeyError:"
  | HStale id => L "if " ++ local_name TgRecache id ++ L " or not " ++ local_name TgItem id
                 ++ L ".getRefreshTime():"
  end.

(** [self._indent * self._indentLev] (Cheetah/Compiler.py:374-375). *)
Definition indentation (G : gset) (n : nat) : pystr := concat (repeat (g_step G) n).

(** The text of a chunk (Cheetah/Compiler.py:434, 438). *)
Definition show_chunk (G : gset) (c : chunk) : pystr :=
  [10%N] ++ indentation G (c_lev c)
  ++ (match c_gl c with Ln l => show_line G l | Hd h => show_head h end) ++ c_note c.

(** [methodBody] (Cheetah/Compiler.py:414-415). *)
Definition show_body (G : gset) (l : list chunk) : pystr := concat (map (show_chunk G) l).

(** ** The method compiler *)

(** [CallDetails] (Cheetah/Compiler.py:863-870). *)
Record calld := mkCall {
  cd_id : pystr; cd_fn : pystr; cd_args : pystr; cd_lc : N * N;
  cd_cur : option pystr          (* usesKeywordArgs and currentArgname *)
}.

(** Name and further arguments of a method (Cheetah/Compiler.py:1065, 1414-1419). *)
Definition mhead : Type := pystr * list (pystr * option pystr).

(** The fields of [MethodCompiler] (Cheetah/Compiler.py:342-359, 616); the pending text
    chunks are kept last first. *)
Record mcomp := mkM {
  m_head : mhead;                (* _methodName, _argStringList without self *)
  m_lev : nat;                   (* _indentLev *)
  m_pend : list pystr;           (* _pendingStrConstChunks *)
  m_body : list chunk;           (* _methodBodyChunks *)
  m_cache : list pystr;          (* _cacheRegionsStack *)
  m_call : list calld;           (* _callRegionsStack *)
  m_capt : list (pystr * pystr); (* _captureRegionsStack: id and assignTo *)
  m_filt : list pystr;           (* _filterRegionsStack *)
  m_rep : nat                    (* _repeatCount + 1 *)
}.

(** Errors: the three [ParseError]s of the stack, [Error] of dedent, and Python's own
    exceptions (Cheetah/Parser.py:2766-2785, 1828; Cheetah/Compiler.py:384). *)
Inductive gerr :=
| PNothing                        (* "#end found, but nothing to end" *)
| PMismatch (found expected : pystr)
| PUnclosed (l : list pystr)
| EDedent                         (* dedent at level 0 *)
| ECrash.                         (* IndexError, AttributeError or UnboundLocalError *)

(** Sequencing of statements; exceptions pass (Cheetah/Compiler.py:384). *)
Definition bind {A B : Type} (x : res gerr A) (f : A -> res gerr B) : res gerr B :=
  match x with Ok a => f a | Raise e => Raise e end.  (* sequencing of statements *)

(* field updates (Cheetah/Compiler.py:342-359) *)
Definition set_lev (n : nat) (m : mcomp) : mcomp :=
  mkM (m_head m) n (m_pend m) (m_body m) (m_cache m) (m_call m) (m_capt m) (m_filt m) (m_rep m).
(** Goes with the definition above (Cheetah/Compiler.py:342-359). *)
Definition set_pend (p : list pystr) (m : mcomp) : mcomp :=
  mkM (m_head m) (m_lev m) p (m_body m) (m_cache m) (m_call m) (m_capt m) (m_filt m) (m_rep m).
(** Goes with the definition above (Cheetah/Compiler.py:342-359). *)
Definition set_body (b : list chunk) (m : mcomp) : mcomp :=
  mkM (m_head m) (m_lev m) (m_pend m) b (m_cache m) (m_call m) (m_capt m) (m_filt m) (m_rep m).
(** Goes with the definition above (Cheetah/Compiler.py:342-359). *)
Definition set_cache (s : list pystr) (m : mcomp) : mcomp :=
  mkM (m_head m) (m_lev m) (m_pend m) (m_body m) s (m_call m) (m_capt m) (m_filt m) (m_rep m).
(** Goes with the definition above (Cheetah/Compiler.py:342-359). *)
Definition set_call (s : list calld) (m : mcomp) : mcomp :=
  mkM (m_head m) (m_lev m) (m_pend m) (m_body m) (m_cache m) s (m_capt m) (m_filt m) (m_rep m).
(** Goes with the definition above (Cheetah/Compiler.py:342-359). *)
Definition set_capt (s : list (pystr * pystr)) (m : mcomp) : mcomp :=
  mkM (m_head m) (m_lev m) (m_pend m) (m_body m) (m_cache m) (m_call m) s (m_filt m) (m_rep m).
(** Goes with the definition above (Cheetah/Compiler.py:342-359). *)
Definition set_filt (s : list pystr) (m : mcomp) : mcomp :=
  mkM (m_head m) (m_lev m) (m_pend m) (m_body m) (m_cache m) (m_call m) (m_capt m) s (m_rep m).
(** Goes with the definition above (Cheetah/Compiler.py:342-359). *)
Definition set_rep (n : nat) (m : mcomp) : mcomp :=
  mkM (m_head m) (m_lev m) (m_pend m) (m_body m) (m_cache m) (m_call m) (m_capt m) (m_filt m) n.

(** [commitStrConst] (Cheetah/Compiler.py:476-505). *)
Definition commit (m : mcomp) : mcomp :=
  match m_pend m with
  | [] => m
  | p => match concat (rev p) with
         | [] => set_pend [] m
         | s => set_pend [] (set_body (m_body m ++ [mkC (m_lev m) (Ln (GWrite s)) []]) m)
         end
  end.

(** [addChunk] (Cheetah/Compiler.py:432-435). *)
Definition add_gl (g : gl) (m : mcomp) : mcomp :=
  let m := commit m in set_body (m_body m ++ [mkC (m_lev m) g []]) m.
Definition add (l : line) (m : mcomp) : mcomp := add_gl (Ln l) m.  (* Compiler.py:432-435 *)

(** [appendToPrevChunk] (Cheetah/Compiler.py:437-438); every caller has just added a chunk. *)
Definition append_note (s : pystr) (m : mcomp) : mcomp :=
  match rev (m_body m) with
  | [] => m
  | c :: r => set_body (rev r ++ [mkC (c_lev c) (c_gl c) (c_note c ++ s)]) m
  end.

Definition indent (m : mcomp) : mcomp := set_lev (S (m_lev m)) m.  (* Compiler.py:377-378 *)

(** [dedent] (Cheetah/Compiler.py:380-384). *)
Definition dedent (m : mcomp) : res gerr mcomp :=
  match m_lev m with O => Raise EDedent | S n => Ok (set_lev n m) end.

(** [addStrConst] (Cheetah/Compiler.py:470-474, 526-527). *)
Definition add_text (s : pystr) (m : mcomp) : mcomp := set_pend (s :: m_pend m) m.

(** [handleWSBeforeDirective] (Cheetah/Compiler.py:507-514), as modelled in Lex_Model.v. *)
Definition strip_ws (m : mcomp) : mcomp :=
  set_pend (Lex_Model.pend (Lex_Model.handle_ws (Lex_Model.mkB (m_pend m) []))) m.

(** ['line %s, col %s' % lineCol] (Cheetah/Compiler.py:455, 562, 626, 781). *)
Definition show_lc (lc : N * N) : pystr :=
  L "line " ++ str_of_N (fst lc) ++ L ", col " ++ str_of_N (snd lc).

(** [addFilteredChunk] (Cheetah/Compiler.py:443-468); [raw] empty: no raw expression. *)
Definition add_filtered (G : gset) (x : gexp) (fargs raw : pystr) (lc : option (N * N))
    (m : mcomp) : mcomp :=
  let fargs := match raw with
               | [] => fargs
               | _ => if g_inclRaw G then fargs ++ L ", rawExpr=" ++ repr (g_printable G) raw
                      else fargs
               end in
  if g_alwaysNone G then
    let m :=
      match raw with
      | [] => add (GAssignV x []) m
      | _ =>
          if negb (mem_char 10 raw) && negb (mem_char 13 raw) then
            let m := add (GAssignV x (L " # " ++ repr (g_printable G) raw)) m in
            match lc with Some p => append_note (L " on " ++ show_lc p) m | None => m end
          else add (GAssignV x []) m
      end in
    if g_useFilters G then add (GWriteV fargs) m else add GWriteVStr m
  else if g_useFilters G then add (GWriteE x fargs) m else add (GWriteEStr x) m.

(** [addIndentingDirective] (Cheetah/Compiler.py:621-628). *)
Definition add_indenting (h : head) (lc : option (N * N)) (m : mcomp) : mcomp :=
  let m := add_gl (Hd h) m in
  let m := match lc with
           | Some p => append_note (L " # generated from " ++ show_lc p) m
           | None => m
           end in
  indent m.

(** [addReIndentingDirective] (Cheetah/Compiler.py:630-641). *)
Definition add_reindenting (h : head) (ded : bool) (lc : N * N) (m : mcomp) : res gerr mcomp :=
  let m := commit m in
  bind (if ded then dedent m else Ok m) (fun m => Ok (add_indenting h (Some lc) m)).

(** The suite of a made-up header with one statement (Cheetah/Compiler.py:789-792 and the
    like): header, indent, statement, dedent. *)
Definition add_suite (h : head) (l : list line) (m : mcomp) : res gerr mcomp :=
  dedent (fold_left (fun m l => add l m) l (indent (add_gl (Hd h) m))).

(** [addPlaceholder] without cache tokens and with the error catcher off
    (Cheetah/Compiler.py:536-562). *)
Definition add_placeholder (G : gset) (e fargs raw : pystr) (lc : N * N) (silent : bool)
    (m : mcomp) : res gerr mcomp :=
  bind (if silent then
          bind (dedent (add_filtered G (XUser e) fargs raw (Some lc) (indent (add_gl (Hd HTry) m))))
               (fun m => Ok (add_gl (Hd HNotFound) m))
        else Ok (add_filtered G (XUser e) fargs raw (Some lc) m))
       (fun m => Ok (if g_rowcol G then append_note (L " # from " ++ show_lc lc ++ L ".") m else m)).

(** [addTernaryExpr] (Cheetah/Compiler.py:653-662). *)
Definition add_ternary (G : gset) (c t f : pystr) (lc : N * N) (m : mcomp) : res gerr mcomp :=
  bind (dedent (add_filtered G (XUser t) [] [] None (add_indenting (HIf false c) (Some lc) m)))
       (fun m => dedent (add_filtered G (XUser f) [] [] None (add_indenting HElse None m))).

(** ** Regions *)

(** The [cacheInfo] of a cache region (Cheetah/Compiler.py:769-774). *)
Record cinfo := mkCI {
  ci_repr : pystr; ci_interval : option pystr; ci_test : option pystr;
  ci_id : option pystr; ci_vary : option pystr
}.

(** Lines 768-773: the id of the region. (Cheetah/Compiler.py:768-773) *)
Definition cache_id (ci : cinfo) (id : pystr) : pystr :=
  match ci_id ci with Some (c :: r) => c :: r | _ => id end.

(** [startCacheRegion] (Cheetah/Compiler.py:764-841). *)
Definition start_cache (G : gset) (ci : cinfo) (id0 : pystr) (lc : N * N) (m : mcomp)
    : res gerr mcomp :=
  let id := cache_id ci id0 in
  let vary := match ci_vary ci with Some v => v | None => repr (g_printable G) id end in
  let m := set_cache (id :: m_cache m) m in
  let m := add GBlank m in
  let m := add (GComment (L "## START CACHE REGION: ID=" ++ id ++ L ". " ++ show_lc lc
                          ++ L " in the source.")) m in
  let m := add (GRecache id false) m in
  let m := add (GRegion id (ci_repr ci)) m in
  bind (add_suite (HIsNew id) [GRecache id true] m) (fun m =>
  let m := add (GItem id vary) m in
  bind (add_suite (HExpired id) [GRecache id true] m) (fun m =>
  bind (match ci_test ci with
        | Some (c :: r) => add_suite (HIf false (c :: r)) [GRecache id true] m
        | _ => Ok m
        end) (fun m =>
  let m := indent (add_gl (Hd (HFresh id)) m) in
  bind (add_suite HTry [GRender id] m) (fun m =>
  bind (add_suite HKeyErr [GRecache id true] m) (fun m =>
  bind (add_suite HElse [GWriteOut; GDelOut] m) (fun m =>
  bind (dedent m) (fun m =>
  let m := indent (add_gl (Hd (HStale id)) m) in
  let m := add (GSaveTrans id) m in
  let m := add (GCollect TgCache id) m in
  let m := add (GWriteTo TgCache id) m in
  Ok (match ci_interval ci with
      | Some n => add (GExpiry id n) m
      | None => m
      end)))))))).

(** [endCacheRegion] (Cheetah/Compiler.py:843-857). *)
Definition end_cache (m : mcomp) : res gerr mcomp :=
  match m_cache m with
  | [] => Raise ECrash
  | id :: st =>
      let m := set_cache st m in
      let m := fold_left (fun m l => add l m)
                 [GRestTrans id; GWriteTrans; GData id; GSetData id; GWriteData; GDelData;
                  GDel TgCache id; GDel TgOrig id] m in
      bind (dedent m) (fun m =>
      Ok (add GBlank (add (GComment (L "## END CACHE REGION: " ++ id)) m)))
  end.

(** [startCallRegion] (Cheetah/Compiler.py:862-884). *)
Definition start_call (fn args id : pystr) (lc : N * N) (m : mcomp) : mcomp :=
  let m := set_call (mkCall id fn args lc None :: m_call m) m in
  fold_left (fun m l => add l m)
    [GComment (L "## START CALL REGION: " ++ id ++ L " of " ++ fn ++ L " at " ++ show_lc lc
               ++ L " in the source.");
     GSaveTrans id; GSaveBuf id; GBufOn; GCollect TgCall id; GWriteTo TgCall id] m.

(** [_endCallArg] (Cheetah/Compiler.py:897-907). *)
Definition end_call_arg (id cur : pystr) (m : mcomp) : mcomp :=
  fold_left (fun m l => add l m)
    [GKwsSet id cur; GDel TgCall id; GCollect TgCall id; GWriteTo TgCall id] m.

(** [setCallArg] (Cheetah/Compiler.py:886-895). *)
Definition set_call_arg (name : pystr) (m : mcomp) : res gerr mcomp :=
  match m_call m with
  | [] => Raise ECrash
  | d :: st =>
      let m' := match cd_cur d with
                | Some cur => end_call_arg (cd_id d) cur m
                | None => add (GArgName (cd_id d) name) (add (GKwsNew (cd_id d)) m)
                end in
      Ok (set_call (mkCall (cd_id d) (cd_fn d) (cd_args d) (cd_lc d) (Some name) :: st) m')
  end.

(** [endCallRegion] (Cheetah/Compiler.py:909-947). *)
Definition end_call (G : gset) (m : mcomp) : res gerr mcomp :=
  match m_call m with
  | [] => Raise ECrash
  | d :: st =>
      let id := cd_id d in
      let reset m := fold_left (fun m l => add l m)
                       [GRestTrans id; GWriteTrans; GRestBuf id; GDel TgBuf id; GDel TgOrig id] m in
      let m :=
        match cd_cur d with
        | None =>
            let m := reset m in
            let m := add (GArgVal id) m in
            let m := add (GDel TgCall id) m in
            let m := add_filtered G (XCall (cd_fn d) (cd_args d) id) [] [] None m in
            add (GDel TgVal id) m
        | Some cur =>
            let m := reset (end_call_arg id cur m) in
            let m := add_filtered G (XCallKw (cd_fn d) (cd_args d) id) [] [] None m in
            add (GDel TgKws id) m
        end in
      let m := add (GComment (L "## END CALL REGION: " ++ id ++ L " of " ++ cd_fn d ++ L " at "
                              ++ show_lc (cd_lc d) ++ L " in the source.")) m in
      Ok (set_call st (add GBlank m))
  end.

(** [startCaptureRegion] (Cheetah/Compiler.py:952-971). *)
Definition start_capture (v id : pystr) (lc : N * N) (m : mcomp) : mcomp :=
  let m := set_capt ((id, v) :: m_capt m) m in
  fold_left (fun m l => add l m)
    [GComment (L "## START CAPTURE REGION: " ++ id ++ L " " ++ v ++ L " at " ++ show_lc lc
               ++ L " in the source.");
     GSaveTrans id; GSaveBuf id; GBufOn; GCollect TgCapt id; GWriteTo TgCapt id] m.

(** [endCaptureRegion] (Cheetah/Compiler.py:973-985). *)
Definition end_capture (m : mcomp) : res gerr mcomp :=
  match m_capt m with
  | [] => Raise ECrash
  | (id, v) :: st =>
      Ok (fold_left (fun m l => add l m)
            [GRestTrans id; GWriteTrans; GRestBuf id; GAssignCap v id;
             GDel TgOrig id; GDel TgCapt id; GDel TgBuf id] (set_capt st m))
  end.

(** ASCII part of [str.lower()] (Cheetah/Compiler.py:1031). *)
Definition lower (s : pystr) : pystr :=
  map (fun c => if (65 <=? c)%N && (c <=? 90)%N then (c + 32)%N else c) s.

(** [setFilter] (Cheetah/Compiler.py:1015-1050). *)
Definition set_filter (f : pystr) (klass : bool) (id : pystr) (m : mcomp) : res gerr mcomp :=
  let m := set_filt (id :: m_filt m) m in
  let m := add (GSaveFilt id) m in
  if klass then Ok (add (GFiltKlass f) m)
  else if str_eqb (lower f) (L "none") then Ok (add GFiltInit m)
  else
    let m := add (GFiltName f) m in
    bind (add_suite (HHasFilter f) [GFiltCached] m) (fun m => add_suite HElse [GFiltNew] m).

(** [closeFilterBlock] (Cheetah/Compiler.py:1052-1058). *)
Definition close_filter (m : mcomp) : res gerr mcomp :=
  match m_filt m with
  | [] => Raise ECrash
  | id :: st => Ok (add (GFiltRest id) (set_filt st m))
  end.

(** [addSet] for [#set global] (Cheetah/Compiler.py:572-595): the target is split at its
    first [.] or [[]. *)
Fixpoint find_ch (c : N) (s : pystr) (i : Z) : Z :=
  match s with [] => -1 | x :: r => if (x =? c)%N then i else find_ch c r (i + 1) end.
Definition set_split (lv : pystr) : Z :=  (* Compiler.py:578-585 *)
  let p1 := find_ch 46 lv 0 in
  let p2 := find_ch 91 lv 0 in
  if (0 <? p1)%Z && (p2 =? -1)%Z then p1
  else if (0 <? p1)%Z && (p1 <? Z.max p2 0)%Z then p1
  else p2.
Definition set_global_text (lv op rv : pystr) : pystr :=  (* Compiler.py:587-595 *)
  let p := set_split lv in
  let primary := if (0 <? p)%Z then firstn (Z.to_nat p) lv else lv in
  let secondary := if (0 <? p)%Z then skipn (Z.to_nat p) lv else [] in
  L "self._CHEETAH__globalSetVars[" ++ q ++ primary ++ q ++ L "]" ++ secondary ++ L " " ++ op
  ++ L " " ++ strip rv.

(** [re.sub(r'else[ \f\t]+if', 'elif', expr)] (Cheetah/Compiler.py:665): how many characters
    the pattern takes at the start of [s]. *)
Fixpoint skip_blank (s : pystr) : nat :=  (* the class of blanks, Compiler.py:665 *)
  match s with
  | c :: r => if ((c =? 32) || (c =? 12) || (c =? 9))%N then S (skip_blank r) else 0
  | [] => 0
  end.
Definition else_if_here (s : pystr) : option nat :=  (* Compiler.py:665 *)
  if starts_with (L "else") s then
    let n := skip_blank (skipn 4 s) in
    match n with
    | O => None
    | _ => if starts_with (L "if") (skipn (4 + n) s) then Some (4 + n + 2) else None
    end
  else None.
Fixpoint else_sub (skip : nat) (s : pystr) : pystr :=  (* Compiler.py:665 *)
  match s with
  | [] => []
  | c :: r =>
      match skip with
      | S k => else_sub k r
      | O => match else_if_here s with
             | Some (S n) => L "elif" ++ else_sub n r
             | _ => c :: else_sub 0 r
             end
      end
  end.

(** ** What the parser meets *)

(** Directives that open a block (Cheetah/Parser.py:1463-1470). *)
Inductive opener :=
| OIf (e : pystr) | OUnless (e : pystr) | OFor (t e : pystr) | OWhile (e : pystr)
| ORepeat (e : pystr) | OTry
| OCache (ci : cinfo) | OCall (fn args : pystr) | OCapture (v : pystr)
| OFilter (f : pystr) (klass : bool)
| OClosure (name : pystr) (args : list (pystr * option pystr)) (rem : pystr)
| ODef (name : pystr) (args : list (pystr * option pystr)) (rem : pystr)
| OBlock (name : pystr) (args : list (pystr * option pystr)) (rem : pystr).

(** The name on the open directives stack (Cheetah/Parser.py:1463-1470). *)
Definition oname (o : opener) : pystr :=
  match o with
  | OIf _ => L "if" | OUnless _ => L "unless" | OFor _ _ => L "for" | OWhile _ => L "while"
  | ORepeat _ => L "repeat" | OTry => L "try" | OCache _ => L "cache" | OCall _ _ => L "call"
  | OCapture _ => L "capture" | OFilter _ _ => L "filter" | OClosure _ _ _ => L "closure"
  | ODef _ _ _ => L "def" | OBlock _ _ _ => L "block"
  end.

(** Directives that go between (Cheetah/Parser.py:1661-1662, 1804). *)
Inductive mid := MElse | MElif (e : pystr) | MExcept (e : pystr) | MFinally.
Definition mid_head (m : mid) : head :=  (* Compiler.py:664-693 *)
  match m with
  | MElse => HElse | MElif e => HElif e | MExcept e => HExcept e | MFinally => HFinally
  end.

(** Directives made of one expression (Cheetah/Parser.py:1663-1667): which handler. *)
Inductive xkind := KEcho | KSilent | KStop | KOther.

(** The other things. *)
Inductive ev :=
| EText (s : pystr)                                     (* Parser.py:1579 *)
| EStrip                                                (* Parser.py:1727 *)
| EComment (s : pystr)                                  (* Parser.py:1588 *)
| ESlurp                                                (* Parser.py:2285-2295 *)
| EPlace (e fargs raw : pystr) (lc : N * N) (silent : bool)  (* Parser.py:1633 *)
| EExpr (k : xkind) (e : pystr)                         (* Parser.py:1767-1783 *)
| ESet (glob : bool) (lv op rv : pystr)                 (* Parser.py:2283 *)
| ETern (c t f : pystr) (lc : N * N)                    (* Parser.py:2734 *)
| EOpen (o : opener) (id : pystr) (lc : N * N)          (* long form *)
| EMid (m : mid) (lc : N * N)                           (* Parser.py:1821 *)
| EArg (name : pystr)                                   (* Parser.py:2595 *)
| EEnd (name : pystr)                                   (* Parser.py:1823-1870 *)
| EPsp (s : pystr).                                     (* Parser.py:1655 *)

(** A template: a sequence of these and of short forms ([#if x: ...] on one line), whose body
    is parsed by a recursive call (Cheetah/Parser.py:1802-1812, 2084-2106, 2529-2534,
    2567-2572, 2620-2625, 2687-2692, 2736-2742). *)
Inductive evs :=
| Done
| Ev (e : ev) (rest : evs)
| Short (o : opener) (id : pystr) (lc : N * N) (body rest : evs)
| MidShort (m : mid) (lc : N * N) (body rest : evs).

(** The directives that can be closed (Cheetah/Parser.py:1463-1470). *)
Definition closeable : list pystr :=
  map L ["def"; "block"; "closure"; "defmacro"; "call"; "capture"; "cache"; "filter"; "if";
         "unless"; "for"; "while"; "repeat"; "try"]%string.

(** Membership in a list of names (Cheetah/Parser.py:1780). *)
Definition mem_str (s : pystr) (l : list pystr) : bool := existsb (str_eqb s) l.

(** ** The state of parser and class compiler *)
Record cs := mkS {
  s_act : list mcomp;            (* _activeMethodsList, top first; Compiler.py:1274 *)
  s_fin : list (mhead * list chunk);  (* _finishedMethodsList; Compiler.py:1275 *)
  s_open : list pystr;           (* _openDirectivesStack, top first; Parser.py:1410 *)
  s_sl : bool;                   (* setting useSearchList *)
  s_sl0 : bool                   (* _useSearchList_orig; Parser.py:2140 *)
}.

(** A new method compiler (Cheetah/Compiler.py:342-359). *)
Definition new_meth (G : gset) (h : mhead) : mcomp :=
  mkM h (g_lev G) [] [] [] [] [] [] 0.

(* field updates *)
Definition set_act (a : list mcomp) (c : cs) : cs :=  (* Compiler.py:1397-1404 *)
  mkS a (s_fin c) (s_open c) (s_sl c) (s_sl0 c).
Definition set_open (o : list pystr) (c : cs) : cs :=  (* Parser.py:2766-2775 *)
  mkS (s_act c) (s_fin c) o (s_sl c) (s_sl0 c).
Definition set_sl (b : bool) (c : cs) : cs :=  (* Parser.py:2141, 2761 *)
  mkS (s_act c) (s_fin c) (s_open c) b (s_sl0 c).
Definition save_sl (c : cs) : cs :=  (* Parser.py:2140 *)
  mkS (s_act c) (s_fin c) (s_open c) (s_sl c) (s_sl c).

(** Attributes of the active method compiler (Cheetah/Compiler.py:1252-1269). *)
Definition on_top (f : mcomp -> res gerr mcomp) (c : cs) : res gerr cs :=
  match s_act c with
  | [] => Raise ECrash
  | m :: r => bind (f m) (fun m => Ok (set_act (m :: r) c))
  end.

(** [cleanupState] of the method compiler, without the code it puts around the body
    (Cheetah/Compiler.py:1088-1094). *)
Definition cleanup (G : gset) (m : mcomp) : res gerr mcomp :=
  let m := commit m in
  bind (match m_cache m with [] => Ok m | _ => end_cache m end) (fun m =>
  match m_call m with [] => Ok m | _ => end_call G m end).

(** [_swallowMethodCompiler] (Cheetah/Compiler.py:1406-1412). *)
Definition swallow (G : gset) (m : mcomp) (c : cs) : res gerr cs :=
  bind (cleanup G m) (fun m =>
  Ok (mkS (s_act c) (s_fin c ++ [(m_head m, m_body m)]) (s_open c) (s_sl c) (s_sl0 c))).

(** [closeDef] (Cheetah/Compiler.py:1506-1509). *)
Definition close_def (G : gset) (c : cs) : res gerr cs :=
  match s_act c with
  | [] => Raise ECrash
  | m :: r => swallow G (commit m) (set_act r c)
  end.

(** [closeBlock] (Cheetah/Compiler.py:1511-1526). *)
Definition close_block (G : gset) (c : cs) : res gerr cs :=
  match s_act c with
  | [] => Raise ECrash
  | m :: r =>
      let m := commit m in
      let name := fst (m_head m) in
      let m := match g_markers G with
               | Some (_, (a, b)) => add_text (a ++ name ++ b) m
               | None => m
               end in
      bind (swallow G m (set_act r c)) (on_top (fun m => Ok (add (GCallBlock name) m)))
  end.

(** [includeBlockMarkers] of [_eatDefOrBlock] (Cheetah/Parser.py:2074-2078). *)
Definition start_marker (G : gset) (name : pystr) (c : cs) : res gerr cs :=
  match g_markers G with
  | Some ((a, b), _) => on_top (fun m => Ok (add_text (a ++ name ++ b) m)) c
  | None => Ok c
  end.

(** [startMethodDef] (Cheetah/Compiler.py:1414-1419). *)
Definition start_method (G : gset) (h : mhead) (c : cs) : cs :=
  set_act (new_meth G h :: s_act c) c.

(** [addClosure] (Cheetah/Compiler.py:674-684). *)
Definition add_closure (name : pystr) (args : list (pystr * option pystr)) (rem : pystr)
    (m : mcomp) : mcomp :=
  add (GComment (L "#" ++ rem)) (add_indenting (HDef name args) None m).

(** How many [#def]s are open (Cheetah/Parser.py:2086, 2134, 2154, 2755). *)
Definition open_defs (c : cs) : nat := length (filter (str_eqb (L "def")) (s_open c)).
Definition nested_short (G : gset) (c : cs) : bool :=  (* Parser.py:2085, 2153, 2754 *)
  g_nested G && (0 <? open_defs c)%nat.
Definition nested_long (G : gset) (c : cs) : bool :=  (* Parser.py:2133 *)
  g_nested G && (1 <? open_defs c)%nat.

(** What opening a directive adds to the code of the method, for those that stay in the
    method (Cheetah/Compiler.py:608-693, 764, 862, 952, 1015). *)
Definition open_code (G : gset) (o : opener) (id : pystr) (lc : N * N) (m : mcomp)
    : res gerr mcomp :=
  match o with
  | OIf e => Ok (add_indenting (HIf false e) (Some lc) m)
  | OUnless e => Ok (add_indenting (HIf true e) None m)
  | OFor t e => Ok (add_indenting (HFor t e) (Some lc) m)
  | OWhile e => Ok (add_indenting (HWhile e) (Some lc) m)
  | ORepeat e => Ok (add_indenting (HRep (m_rep m) e) (Some lc) (set_rep (S (m_rep m)) m))
  | OTry => Ok (add_indenting HTry (Some lc) m)
  | OCache ci => start_cache G ci id lc m
  | OCall fn args => Ok (start_call fn args id lc m)
  | OCapture v => Ok (start_capture v id lc m)
  | OFilter f k => set_filter f k id m
  | OClosure name args rem => Ok (add_closure name args rem m)
  | ODef name args rem => Ok (add_closure name args rem m)
  | OBlock _ _ _ => Ok m
  end.

(** What closing it adds (Cheetah/Parser.py:1849-1870, 1811-1812, 2534, 2572, 2625, 2692). *)
Definition close_code (G : gset) (name : pystr) (m : mcomp) : res gerr mcomp :=
  if str_eqb name (L "capture") then end_capture m
  else if str_eqb name (L "cache") then end_cache m
  else if str_eqb name (L "call") then end_call G m
  else if str_eqb name (L "filter") then close_filter m
  else if mem_str name (map L ["while"; "for"; "if"; "try"; "repeat"; "unless"; "closure"]%string)
  then dedent (commit m)
  else Ok m.

(** Opening directives in long form: [eatSimpleIndentingDirective], [eatIf], [eatCache],
    [eatCall], [eatFilter], [eatCapture], [_eatDefOrBlock] with [_eatMultiLineDef]
    (Cheetah/Parser.py:1813-1821, 2743-2750, 2535-2542, 2573-2580, 2626-2633, 2693-2700,
    2107-2144). *)
Definition open_long (G : gset) (o : opener) (id : pystr) (lc : N * N) (c : cs) : res gerr cs :=
  let c := set_open (oname o :: s_open c) c in
  match o with
  | ODef name args rem =>
      if nested_long G c
      then on_top (open_code G o id lc) (set_sl false (save_sl c))
      else Ok (start_method G (name, args) c)
  | OBlock name args rem => start_marker G name (start_method G (name, args) c)
  | OClosure _ _ _ => on_top (open_code G o id lc) (set_sl false (save_sl c))
  | _ => on_top (open_code G o id lc) c
  end.

(** Beginning and end of a short form around its body (same methods;
    Cheetah/Parser.py:1802-1812, 2084-2106, 2146-2169, 2529-2534, 2567-2572, 2620-2625,
    2687-2692, 2736-2742).  [open_short] also gives what has to be remembered for the end:
    is it a nested [#def], and the setting. *)
Definition open_short (G : gset) (o : opener) (id : pystr) (lc : N * N) (c : cs)
    : res gerr (cs * (bool * bool)) :=
  let nest := nested_short G c in
  let mem := (nest, s_sl c) in
  match o with
  | ODef name args rem =>
      if nest then bind (on_top (open_code G o id lc) (set_sl false c)) (fun c => Ok (c, mem))
      else Ok (start_method G (name, args) c, mem)
  | OBlock name args rem => Ok (start_method G (name, args) c, mem)
  | OClosure _ _ _ => bind (on_top (open_code G o id lc) (set_sl false c)) (fun c => Ok (c, mem))
  | _ => bind (on_top (open_code G o id lc) c) (fun c => Ok (c, mem))
  end.
(** Goes with the definition above (Cheetah/Parser.py:1802-1812, 2084-2106, 2146-2169, 2529-2534, 2567-2572, 2620-2625). *)
Definition close_short (G : gset) (o : opener) (mem : bool * bool) (c : cs) : res gerr cs :=
  match o with
  | ODef _ _ _ =>
      if fst mem then on_top dedent (set_sl (snd mem) c) else close_def G c
  | OBlock name _ _ =>
      (* line 2169: the variable is unbound when a #def is open *)
      if fst mem then Raise ECrash
      else bind (start_marker G name c) (close_block G)
  | OClosure _ _ _ => on_top dedent (set_sl (snd mem) c)
  | _ => on_top (close_code G (oname o)) c
  end.

(** [popFromOpenDirectivesStack] (Cheetah/Parser.py:2770-2778). *)
Definition pop_open (name : pystr) (c : cs) : res gerr cs :=
  match s_open c with
  | [] => Raise PNothing
  | n :: r => if str_eqb n name then Ok (set_open r c) else Raise (PMismatch name n)
  end.

(** [eatEndDirective] from the point where the name is known, and [handleEndDef]
    (Cheetah/Parser.py:1840-1870, 2753-2763). *)
Definition end_long (G : gset) (name : pystr) (c : cs) : res gerr cs :=
  bind (if mem_str name closeable then pop_open name c else Ok c) (fun c =>
  if str_eqb name (L "def") then
    if nested_short G c
    then on_top (fun m => dedent (commit m)) (set_sl (s_sl0 c) c)
    else close_def G c
  else if str_eqb name (L "block") then close_block G c
  else if str_eqb name (L "closure")
  then bind (on_top (close_code G name) c) (fun c => Ok (set_sl (s_sl0 c) c))
  else on_top (close_code G name) c).

(** [eatSimpleExprDirective] pushes the first word of the expression
    (Cheetah/Parser.py:1776-1781). *)
Definition expr_push (e : pystr) (c : cs) : res gerr cs :=
  match split_ws (strip e) with
  | [] => Raise ECrash
  | w :: _ => Ok (if mem_str w closeable then set_open (w :: s_open c) c else c)
  end.

(** [addPSP] (Cheetah/Compiler.py:736-758); the body is one line. *)
Definition add_psp (s : pystr) (m : mcomp) : res gerr mcomp :=
  let m := commit m in
  match s with
  | [] => Raise ECrash
  | c :: r =>
      if (c =? 61)%N then
        match r with
        | [] => Ok m
        | _ => Ok (add (GWriteE (XUser r) []) m)
        end
      else if str_eqb (lower s) (L "end") then dedent m
      else if (last s 0 =? 36)%N then Ok (indent (add (GStmt (removelast s)) m))
      else if (last s 0 =? 58)%N then Ok (indent (add (GStmt s) m))
      else Ok (add (GStmt s) m)
  end.

(** One event. *)
Definition step (G : gset) (e : ev) (c : cs) : res gerr cs :=
  match e with
  | EText s => on_top (fun m => Ok (add_text s m)) c
  | EStrip => on_top (fun m => Ok (strip_ws m)) c
  | EComment s =>                        (* addMethComment, Compiler.py:532-534 *)
      on_top (fun m => Ok (add (GComment (L "#" ++ repeat 32%N (g_offset G) ++ s)) m)) c
  | ESlurp => on_top (fun m => Ok (commit m)) c          (* commitStrConst, Compiler.py:480-506 *)
  | EPlace x fa raw lc sil => on_top (add_placeholder G x fa raw lc sil) c
  | EExpr k x =>                         (* Parser.py:1690-1700 *)
      bind (expr_push x c) (on_top (fun m => Ok
        (match k with
         | KEcho => add_filtered G (XUser x) [] [] None m
         | KStop => add GStop m
         | _ => add (GStmt x) m
         end)))
  | ESet glob lv op rv =>                (* Compiler.py:572-600 *)
      on_top (fun m => Ok (add (GStmt (if glob then set_global_text lv op rv
                                       else lv ++ L " " ++ op ++ L " " ++ strip rv)) m)) c
  | ETern a b d lc => on_top (add_ternary G a b d lc) c
  | EOpen o id lc => open_long G o id lc c
  | EMid m lc => on_top (add_reindenting (mid_head m) true lc) c
  | EArg n => on_top (set_call_arg n) c
  | EEnd n => end_long G n c
  | EPsp s => on_top (add_psp s) c
  end.

(** The parse loop as far as code generation goes (Cheetah/Parser.py:1537-1563). *)
Fixpoint run (G : gset) (l : evs) (c : cs) : res gerr cs :=
  match l with
  | Done => Ok c
  | Ev e r => bind (step G e c) (run G r)
  | Short o id lc b r =>
      bind (open_short G o id lc c) (fun p =>
      bind (run G b (fst p)) (fun c =>
      bind (close_short G o (snd p) c) (run G r)))
  | MidShort m lc b r =>
      bind (on_top (add_reindenting (mid_head m) false lc) c) (fun c =>
      bind (run G b c) (fun c =>
      bind (on_top (fun m => dedent (commit m)) c) (run G r)))
  end.

(** The start: the main method is active (Cheetah/Compiler.py:1240-1245). *)
Definition start (G : gset) (main : pystr) : cs := mkS [new_meth G (main, [])] [] [] true true.

(** [ClassCompiler.cleanupState]: the active methods are closed (Cheetah/Compiler.py:1303-1306). *)
Fixpoint close_all (G : gset) (act : list mcomp) (c : cs) : res gerr cs :=
  match act with
  | [] => Ok c
  | m :: r => bind (swallow G m c) (close_all G r)
  end.

(** The whole: [parse] with its final test of the stack, then the clean-up; the result is
    the list of methods (Cheetah/Parser.py:1560-1561, 2780-2785). *)
Definition compile (G : gset) (main : pystr) (l : evs) : res gerr (list (mhead * list chunk)) :=
  bind (run G l (start G main)) (fun c =>
  match s_open c with
  | [] => bind (close_all G (s_act c) (set_act [] c)) (fun c => Ok (s_fin c))
  | _ => Raise (PUnclosed (s_open c))
  end).

(** ** [#end name]: which name (Cheetah/Parser.py:1829-1836) *)

(** The keys in the order of the dictionary (Cheetah/Parser.py:243-258). *)
Definition end_keys : list pystr :=
  map L ["def"; "block"; "closure"; "cache"; "call"; "capture"; "filter"; "errorCatcher";
         "while"; "for"; "if"; "try"; "repeat"; "unless"]%string.

(** The first key found at the position (lines 1830-1833); [s]: the text after the blanks
    behind [#end]. (Cheetah/Parser.py:1830-1833) *)
Definition end_name (s : pystr) : option pystr := find (fun k => starts_with k s) end_keys.

(** The defaults of the settings (Cheetah/Compiler.py:60-130). *)
Definition dflt_set : gset :=
  mkG (fun _ => true) true true true true true 1 2 (L "    ") None.
