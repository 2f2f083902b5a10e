(** Model of the directives about the class and the module, and of #include: [eatExtends], [eatImplements], [eatSuper],
    [eatAttr], [eatSet] with module, [eatInclude], [eatErrorCatcher] and [eatTransform] (Cheetah/Parser.py:650-684,
    1995-2012, 2171-2283, 2316-2345, 2635-2670), with the calls of the compiler they make.

    It stands on Front_Model.v; these are among the directives that are a parameter there.  What the calls do to the
    class and the imports is in Class_Model.v, Import_Model.v and Catch_Model.v.  Expression filters are not modelled
    (there are none by default, Cheetah/Compiler.py:105). *)
From Verif Require Import Base PyStr.
From Verif Require Export Front_Model.
From Verif Require Gen_Model.

Local Notation cs := Gen_Model.cs.

(** The calls of the compiler: [setBaseClass], [setMainMethodName] with [setMainMethodArgs], [addAttribute] of the
    class compiler, [addModuleGlobal], [setErrorCatcher] (Cheetah/Parser.py:2188, 2213-2214, 2670;
    Cheetah/Compiler.py:598, 1999).  [CNone]: the directive only adds code to the active method. *)
Inductive call :=
| CNone | CBase (names : pystr) | CMain (name : pystr) (args : list (pystr * option pystr))
| CAttr (code : pystr) | CGlobal (code : pystr) | CCatcher (name : pystr).

(** Errors: the ones of Front_Model.v, and an AttributeError (see [add_attribute]; Cheetah/Compiler.py:1998-1999). *)
Inductive herr := HFront (e : ferr) | HAttribute.

(** Outcomes; [None]: out of fuel (Cheetah/Parser.py:1541-1560). *)
Definition hout (A : Type) := option (res herr A).
(** Goes with the definition above (Cheetah/Parser.py:1541-1560). *)
Definition hok {A} (a : A) : hout A := Some (Ok a).

(** A call of a function of Front_Model.v, and what comes after it (Python's sequencing; Cheetah/Parser.py:1541-1560). *)
Definition hbind {A B} (x : fout A) (f : A -> hout B) : hout B :=
  match x with
  | None => None
  | Some (Raise e) => Some (Raise (HFront e))
  | Some (Ok a) => f a
  end.

(** [getCommaSeparatedSymbols], the loop (Cheetah/Parser.py:662-684).  The identifiers are read character by character;
    [inid]: the character before belongs to one.  [cur]: the text of nameChunks. *)
Fixpoint symbols (inid : bool) (cur b r : pystr) : fout (list pystr * (pystr * pystr)) :=
  let fin := match cur with [] => [] | _ => [cur] end in
  match r with
  | [] => fok (fin, (b, r))
  | c :: r1 =>
      if namechar c then
        if inid || identchar c then symbols true (cur ++ [c]) (c :: b) r1 else fparse b r
      else if (c =? 46)%N then
        if at_ident r1 then symbols false (cur ++ [c]) (c :: b) r1 else fok (fin, (b, r))
      else if (c =? 44)%N then fbind (symbols false [] (c :: b) r1) (fun '(l, p) => fok (cur :: l, p))
      else if ((c =? 32) || (c =? 9))%N then symbols false cur (c :: b) r1
      else fok (fin, (b, r))
  end.

(** [getCommaSeparatedSymbols] (Cheetah/Parser.py:650-684). *)
Definition get_symbols (b r : pystr) : fout (list pystr * (pystr * pystr)) :=
  match r with
  | [] => ferror (FLex PIndex)
  | c :: _ => if identchar c then symbols false [] b r else fparse b r
  end.

Section Head.
Variable E : env.
(** The name of the class that is compiled (Cheetah/Compiler.py:1451). *)
Variable cls : pystr.
(** allowExpressionsInExtendsDirective (Cheetah/Compiler.py:126). *)
Variable exprs : bool.
(** [self.parse(breakPoint=...)], as in Front_Model.v (Cheetah/Parser.py:1537-1563); only for the directives there. *)
Variable sub : fstate -> fout fstate.
Local Notation G := (e_G E).

(** How each of the functions starts: the state of the line, the end of its first line, and the position behind the
    name of the directive and white space (Cheetah/Parser.py:1997-2002, 2173-2177). *)
Definition enter (name : pystr) (s : fstate) : bool * nat * (pystr * pystr) :=
  let '(b, r) := skip_dir (x_T (e_X E)) name (f_b s) (f_r s) in
  (line_clear (f_b s), (length (f_b s) + eol_off (f_r s))%nat, skip_ws b r).

(** The arguments in parentheses of #implements and #super (Cheetah/Parser.py:2201-2207, 2227-2233). *)
Definition opt_args (c : cs) (b r : pystr) : fout (list (pystr * option pystr) * (pystr * pystr)) :=
  if at_char 40 r then
    fbind (def_args E c false b r) (fun '(l, (b, r)) => fok (drop_self l, go 1 b r))
  else fok ([], (b, r)).

(** [eatExtends] (Cheetah/Parser.py:2171-2189). *)
Definition eat_extends (s : fstate) : hout (call * fstate) :=
  let '(clear, fe, (b, r)) := enter (L "extends") s in
  hbind (if exprs then get_expr E (f_c s) (e_um E) [] b r
         else fbind (get_symbols b r) (fun '(l, p) => fok (join (L ", ") l, p))) (fun '(x, (b, r)) =>
  hbind (rest_of_tag E clear fe (mkF b r (f_c s))) (fun s' => hok (CBase x, s'))).

(** [eatImplements] (Cheetah/Parser.py:2191-2217). *)
Definition eat_implements (s : fstate) : hout (call * fstate) :=
  let '(clear, fe, (b, r)) := enter (L "implements") s in
  hbind (get_ident b r) (fun '(n, (b, r)) =>
  hbind (opt_args (f_c s) b r) (fun '(l, (b, r)) =>
  hbind (get_expr E (f_c s) (e_um E) [] b r) (fun '(_, (b, r)) =>
  hbind (rest_of_tag E clear fe (mkF b r (f_c s))) (fun s' => hok (CMain n l, s'))))).

(** [addSuper] (Cheetah/Compiler.py:1450-1464). *)
Definition super_args (l : list (pystr * option pystr)) : pystr :=
  join (L ",") (map (fun '(n, d) => match d with Some d => n ++ L "=" ++ d | None => n end) l).
(** Goes with the definition above (Cheetah/Compiler.py:1450-1464). *)
Definition super_code (meth : pystr) (l : list (pystr * option pystr)) : pystr :=
  L "super(" ++ cls ++ L ", self)." ++ meth ++ L "(" ++ super_args l ++ L ")".
(** Goes with the definition above (Cheetah/Compiler.py:1450-1464). *)
Definition add_super (l : list (pystr * option pystr)) (c : cs) : res Gen_Model.gerr cs :=
  Gen_Model.on_top (fun m => Ok (Gen_Model.add_filtered G (Gen_Model.XUser (super_code (fst (Gen_Model.m_head m)) l)) [] [] None m)) c.

(** [eatSuper] (Cheetah/Parser.py:2219-2244). *)
Definition eat_super (s : fstate) : hout (call * fstate) :=
  let '(clear, fe, (b, r)) := enter (L "super") s in
  hbind (opt_args (f_c s) b r) (fun '(l, (b, r)) =>
  hbind (get_expr E (f_c s) (e_um E) [] b r) (fun '(_, (b, r)) =>
  hbind (rest_of_tag E clear fe (mkF b r (f_c s))) (fun s' =>
  hbind (from_g (add_super l (f_c s'))) (fun c => hok (CNone, mkF (f_b s') (f_r s') c))))).

(** [getAssignmentOperator] (Cheetah/Parser.py:729-739). *)
Definition get_assign (b r : pystr) : fout (pystr * (pystr * pystr)) :=
  match x_tok (e_X E) r with
  | None => fparse b r
  | Some k => if existsb (str_eqb (firstn k r)) assign_ops then fok (firstn k r, go k b r) else fparse b r
  end.

(** Is [w] somewhere in [s]? ([find] gives something else than -1, Cheetah/Compiler.py:1442.) *)
Fixpoint finds (w s : pystr) : bool :=
  starts_with w s || match s with [] => false | _ :: r => finds w r end.

(** [addAttribute] (Cheetah/Compiler.py:1438-1448, 1998-1999).  The ParseError it raises is given the class compiler for a
    stream, whose [pos] does not exist: an AttributeError (Cheetah/Parser.py:269-272; Cheetah/Compiler.py:1252-1268). *)
Definition add_attribute (n x : pystr) : hout call :=
  let code := n ++ L " =" ++ x in
  if finds (L "VFN(") code || finds (L "VFFSL(") code then Some (Raise HAttribute) else hok (CAttr code).

(** [eatAttr] (Cheetah/Parser.py:1995-2012). *)
Definition eat_attr (s : fstate) : hout (call * fstate) :=
  let T := x_T (e_X E) in
  let '(clear, fe, (b, r)) := enter (L "attr") s in
  let '(b, r) := if m_var T b r then go (length (t_var T)) b r else (b, r) in
  hbind (get_ident b r) (fun '(n, (b, r)) =>
  let '(b, r) := skip_ws b r in
  hbind (get_assign b r) (fun '(_, (b, r)) =>
  hbind (get_expr E (f_c s) (e_um E) [] b r) (fun '(x, (b, r)) =>
  match add_attribute n x with
  | Some (Ok k) => hbind (rest_of_tag E clear fe (mkF b r (f_c s))) (fun s' => hok (k, s'))
  | Some (Raise e) => Some (Raise e)
  | None => None
  end))).

(** [eatSet] (Cheetah/Parser.py:2246-2283): with module here, else in Front_Model.v.  [addSet] (Cheetah/Compiler.py:597-598). *)
Definition eat_any_set (s : fstate) : hout (call * fstate) :=
  let '(clear, fe, (b, r)) := enter (L "set") s in
  if starts_with (L "module") r then
    let '(_, (b, r)) := namerun b r in
    let '(b, r) := skip_ws b r in
    hbind (get_expr E (f_c s) false assign_ops b r) (fun '(lv, (b, r)) =>
    hbind (get_assign b r) (fun '(op, (b, r)) =>
    hbind (get_expr E (f_c s) (e_um E) [] b r) (fun '(rv, (b, r)) =>
    hbind (rest_of_tag E clear fe (mkF b r (f_c s))) (fun s' =>
    hok (CGlobal (strip lv ++ L " " ++ op ++ L " " ++ strip rv), s')))))
  else hbind (eat_set E s) (fun s' => hok (CNone, s')).

(** [addInclude] (Cheetah/Compiler.py:602-606). *)
Definition include_code (x : pystr) (str raw : bool) : pystr :=
  L "self._handleCheetahInclude(" ++ x ++ L ", trans=trans, includeFrom=""" ++ (if str then L "str" else L "file")
  ++ L """, raw=" ++ (if raw then L "True" else L "False") ++ L ")".
(** Goes with the definition above (Cheetah/Compiler.py:602-606). *)
Definition add_stmts (l : list pystr) (c : cs) : res Gen_Model.gerr cs :=
  Gen_Model.on_top (fun m => Ok (fold_left (fun m x => Gen_Model.add (Gen_Model.GStmt x) m) l m)) c.

(** [eatInclude] (Cheetah/Parser.py:2316-2345). *)
Definition eat_include (s : fstate) : hout (call * fstate) :=
  let '(clear, fe, (b, r)) := enter (L "include") s in
  let raw := starts_with (L "raw") r in
  let '(b, r) := if raw then go 3 b r else (b, r) in
  let '(b, r) := skip_ws b r in
  let str := starts_with (L "source") r in
  hbind (if str then
           let '(b, r) := go 6 b r in
           let '(b, r) := skip_ws b r in
           match r with
           | [] => ferror (FLex PIndex)
           | c :: r1 => if (c =? 61)%N then fok (c :: b, r1) else fparse b r
           end
         else fok (b, r)) (fun '(b, r) =>
  hbind (get_expr E (f_c s) (e_um E) [] b r) (fun '(x, (b, r)) =>
  hbind (rest_of_tag E clear fe (mkF b r (f_c s))) (fun s' =>
  hbind (from_g (add_stmts [include_code x str raw] (f_c s'))) (fun c => hok (CNone, mkF (f_b s') (f_r s') c))))).

(** [eatErrorCatcher] (Cheetah/Parser.py:2659-2670). *)
Definition eat_catcher (s : fstate) : hout (call * fstate) :=
  let '(clear, fe, (b, r)) := enter (L "errorCatcher") s in
  hbind (get_ident b r) (fun '(n, (b, r)) =>
  hbind (rest_of_tag E clear fe (mkF b r (f_c s))) (fun s' => hok (CCatcher n, s'))).

(** [setTransform] (Cheetah/Compiler.py:1009-1013). *)
Definition transform_code (x : pystr) : list pystr :=
  [L "trans = TransformerTransaction()"; L "trans._response = trans.response()";
   L "trans._response._filter = " ++ x; L "write = trans._response.write"].

(** [eatTransform] (Cheetah/Parser.py:2635-2657). *)
Definition eat_transform (s : fstate) : hout (call * fstate) :=
  let '(clear, fe, (b, r)) := enter (L "transform") s in
  hbind (if m_var (x_T (e_X E)) b r then get_expr E (f_c s) (e_um E) [L ":"] b r
         else fbind (get_ident b r) (fun '(x, (b, r)) => fok (x, skip_ws b r))) (fun '(x, (b, r)) =>
  hbind (skip_colon b r) (fun '(b, r) =>
  let '(b, r) := skip_ws b r in
  hbind (rest_of_tag E clear fe (mkF b r (f_c s))) (fun s' =>
  hbind (from_g (add_stmts (transform_code x) (f_c s'))) (fun c => hok (CNone, mkF (f_b s') (f_r s') c))))).

(** A round of the loop at one of these directives (Cheetah/Parser.py:1670-1703); the rest is in Front_Model.v. *)
Definition eat_head (s : fstate) : hout (call * fstate) :=
  let T := x_T (e_X E) in
  match classify T (f_b s) (f_r s) with
  | KDirective n =>
      let is l := str_eqb n (L l) in
      if forbidden T n then Some (Raise (HFront (FLex (PForbidden n))))
      else if is "extends"%string then eat_extends s
      else if is "implements"%string then eat_implements s
      else if is "super"%string then eat_super s
      else if is "attr"%string then eat_attr s
      else if is "set"%string then eat_any_set s
      else if is "include"%string then eat_include s
      else if is "errorCatcher"%string then eat_catcher s
      else if is "transform"%string then eat_transform s
      else hbind (eat E sub s) (fun s' => hok (CNone, s'))
  | _ => hbind (eat E sub s) (fun s' => hok (CNone, s'))
  end.
End Head.
