(** Model of the signature of a generated method and of the code put around its body:
    Cheetah/Compiler.py:1061-1210 ([AutoMethodCompiler]). *)
From Verif Require Import Base PyStr.

(** The settings that are consulted (Cheetah/Compiler.py:51, 72-73; [useNameMapper], [useFilters]:
    1150, 1161). *)
Record mset := mkMset { st_kws : bool; st_auto : bool; st_nm : bool; st_filters : bool; st_sl : bool }.

(** A method: [_methodName], [_decorators] (Cheetah/Compiler.py:331-337), [_initialMethodComment],
    [_isGenerator] and the arguments added for [#def] (line 1398: [addMethArg] for each of them). *)
Record mdesc := mkMdesc { d_name : pystr; d_decos : list pystr; d_note : option pystr; d_gen : bool;
                          d_user : list (pystr * option pystr) }.

(** Goes with the definition above (Cheetah/Compiler.py:331-337). *)
Definition arg : Type := (pystr * option pystr).

(** [_setupState] (Cheetah/Compiler.py:1065) and the calls of [addMethArg] (1185-1186). *)
Definition args0 (d : mdesc) : list arg := (L "self", None) :: d_user d.

(** [x in l] for strings (Cheetah/Compiler.py:1080, 1085, 1153, 1155). *)
Definition mem (x : pystr) (l : list pystr) : bool := existsb (str_eqb x) l.

(** [_useKWsDictArgForPassingTrans] (Cheetah/Compiler.py:1070-1076), for the arguments so far. *)
Definition use_kws (st : mset) (d : mdesc) (args : list arg) : bool :=
  negb (str_eqb (d_name d) (L "respond")) && negb (mem (L "trans") (map fst args)) && st_kws st.

(** [isClassMethod], [isStaticMethod] (Cheetah/Compiler.py:1078-1086). *)
Definition is_class (d : mdesc) : bool := mem (L "@classmethod") (d_decos d).
(** Goes with the definition above (Cheetah/Compiler.py:1078-1086). *)
Definition is_static (d : mdesc) : bool := mem (L "@staticmethod") (d_decos d).

(** The loop of [cleanupState] (Cheetah/Compiler.py:1099-1104): [kwargsName] and
    [positionalArgsListName], [[]] for [None] (they are only tested for truth and formatted when true). *)
Fixpoint star_scan (args : list arg) (pos : pystr) : pystr * pystr :=
  match args with
  | [] => ([], pos)
  | (n, _) :: r =>
      let n := strip n in
      if starts_with (L "**") n then (replace_str (L "**") [] n, pos)
      else if starts_with (L "*") n then star_scan r (replace_str (L "*") [] n)
      else star_scan r pos
  end.

(** The rest of [cleanupState]'s first part (Cheetah/Compiler.py:1096-1115): the arguments,
    [_streamingEnabled] and [_kwargsName] afterwards. *)
Definition add_trans (st : mset) (d : mdesc) : list arg * bool * pystr :=
  let args := args0 d in
  let '(kw, pos) := star_scan args [] in
  let '(args, kw) :=
    match kw with
    | [] => if use_kws st d args then (args ++ [(L "**KWS", None)], L "KWS") else (args, kw)
    | _ => (args, kw)
    end in
  if use_kws st d args then (args, true, kw)
  else match kw, pos with
       | [], [] => (args ++ [(L "trans", Some (L "None"))], true, kw)
       | _, _ => (args, false, kw)
       end.

(** [_addAutoSetupCode] (Cheetah/Compiler.py:1124-1169): the chunks, each with its level of indentation
    relative to the body. *)
Definition setup_lines (st : mset) (d : mdesc) : list (nat * pystr) :=
  let '(args, streaming, kw) := add_trans st d in
  let plain := negb (is_class d) && negb (is_static d) in
  match d_note d with Some (c :: n) => [(0, c :: n)] | _ => [] end
  ++ (if streaming && plain then
        match kw with
        | [] => []
        | _ => if use_kws st d args then [(0, L "trans = " ++ kw ++ L ".get(""trans"")")] else []
        end
        ++ [(0, L "if (not trans and not self._CHEETAH__isBuffering and not callable(self.transaction)):");
            (1, L "trans = self.transaction # is None unless self.awake() was called");
            (0, L "if not trans:");
            (1, L "trans = DummyTransaction()")]
        ++ (if st_auto st then [(1, L "self.transaction = trans")] else [])
        ++ [(1, L "_dummyTrans = True");
            (0, L "else: _dummyTrans = False")]
      else [(0, L "trans = DummyTransaction()"); (0, L "_dummyTrans = True")])
  ++ [(0, L "write = trans.response().write")]
  ++ (if st_nm st then
        let names := map fst args in
        if st_sl st && mem (L "SL") names then []
        else if st_sl st && mem (L "searchList") names then [(0, L "SL = searchList")]
        else if plain then [(0, L "SL = self._CHEETAH__searchList")]
        else [(0, L "SL = [KWS]")]
      else [])
  ++ (if st_filters st then
        if is_class d || is_static d then [(0, L "_filter = lambda x, **kwargs: unicode(x)")]
        else [(0, L "_filter = self._CHEETAH__currentFilter")]
      else [])
  ++ [(0, []); (0, repeat 35%N 40); (0, L "## START - generated method body"); (0, [])].

(** [_addAutoCleanupCode] and [addStop] (Cheetah/Compiler.py:1171-1183). *)
Definition cleanup_lines (d : mdesc) : list (nat * pystr) :=
  [(0, []); (0, repeat 35%N 40); (0, L "## END - generated method body"); (0, [])]
  ++ (if d_gen d then [] else [(0, L "return _dummyTrans and trans.response().getvalue() or """"")])
  ++ [(0, [])].

(** [methodSignature] (Cheetah/Compiler.py:1188-1210): what it makes of each argument, the
    arguments it lists, their text and its own; [ind] is [self._indent]. *)
Definition sig_arg (d : mdesc) (a : arg) : list arg :=
  let '(n, dv) := a in
  let n := if str_eqb n (L "self") && is_class d then L "cls" else n in
  if str_eqb n (L "self") && is_static d then [] else [(n, dv)].
(** Goes with the definition above (Cheetah/Compiler.py:1188-1210). *)
Definition sig_args (st : mset) (d : mdesc) : list arg := flat_map (sig_arg d) (fst (fst (add_trans st d))).
(** Goes with the definition above (Cheetah/Compiler.py:1188-1210). *)
Definition arg_text (a : arg) : pystr :=
  match a with (n, None) => n | (n, Some v) => n ++ L "=" ++ v end.
(** Goes with the definition above (Cheetah/Compiler.py:1188-1210). *)
Definition sig_text (ind : pystr) (st : mset) (d : mdesc) : pystr :=
  concat (map (fun x => ind ++ x ++ [10%N]) (d_decos d))
  ++ ind ++ L "def " ++ d_name d ++ L "(" ++ join (L ", ") (map arg_text (sig_args st d)) ++ L "):"
  ++ [10; 10]%N.
