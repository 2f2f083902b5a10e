(** Model of parts of Cheetah/Template.py: the search list of an instance, #include at run time, the
    settings of preprocessors, and the methods added to compiled classes.

    Not modelled: the filter and error catcher arguments of [_initCheetahInstance], the cache of compiled
    classes (Compile_Model.v), the output transformer and the template class of a preprocessor. *)
From Verif Require Import Base PyStr Alist.

(** ** The search list of an instance *)

(** Namespaces on a search list: the dictionary of the variables set with #set global, a template
    instance, a namespace of the user, a dictionary made by webInput
    (Cheetah/Template.py:1563-1577, 1974).  Objects are numbered. *)
Inductive entry := EGlob (g : nat) | ETmpl (t : nat) | EUser (n : nat) | EInput (d : nat).

(** The arguments searchList and namespaces: one namespace, a list or a tuple
    (Cheetah/Template.py:1549-1555). *)
Inductive nsarg := NOne (e : entry) | NList (l : list entry) | NTuple (l : list entry).

(** Exceptions: AssertionError, TypeError, AttributeError, OSError, ValueError, PreprocessError, whatever
    compiling and running a template raise (Cheetah/Template.py:1550, 1574, 1710, 1505, 972, 980,
    1685-1690, 1709). *)
Inductive terr := EAssert | ETypeE | EAttr | EIO | EValue | EPre | ECompile | ERun.

(** The argument of an #include: a string or a file-like object, which has the identity and the content it
    gives when it is read (Cheetah/Template.py:1673-1681). *)
Inductive srcarg := AStr (s : pystr) | AFile (id : nat) (text : pystr).

(** Equality of dictionary keys (Cheetah/Template.py:1669). *)
Definition arg_eqb (a b : srcarg) : bool :=
  match a, b with
  | AStr s, AStr t => str_eqb s t
  | AFile i _, AFile j _ => (i =? j)%nat
  | _, _ => false
  end.

(** What [_CHEETAH__cheetahIncludes] holds: a nested template, with the text it was compiled from and its
    search list without itself, a text, or an object that is neither
    (Cheetah/Template.py:1691-1706). *)
Inductive item := INested (text : pystr) (sl : list entry) | IRaw (text : pystr) | IObj.

(** An instance (Cheetah/Template.py:1557-1581, 1628, 1612).  [i_file]: [_filePath]. *)
Record inst := mkInst {
  i_init : bool; i_glob : nat; i_sl : list entry; i_memo : list (srcarg * item); i_file : option pystr }.

(** Before initialisation: the class attribute (Cheetah/Compiler.py:1280). *)
Definition blank_inst : inst := mkInst false 0 [] [] None.

(** [isinstance(searchList, (list, tuple))], else a list of one (Cheetah/Template.py:1553-1555). *)
Definition as_seq (a : nsarg) : nsarg := match a with NOne e => NList [e] | _ => a end.

(** [list(searchList)] (Cheetah/Template.py:1577). *)
Definition seq_list (a : nsarg) : list entry := match a with NOne e => [e] | NList l | NTuple l => l end.

(** [_initCheetahInstance] (Cheetah/Template.py:1527-1617): [me] the instance, [fresh] the new dictionary
    for #set global, [prio] whether compilerSettings asks for prioritizeSearchListOverSelf, [gsv] and [pre]
    the two internal arguments. *)
Definition init_inst (me fresh : nat) (searchList namespaces : option nsarg) (prio : bool)
  (gsv : option nat) (pre : option (list entry)) (i : inst) : res terr inst :=
  if i_init i then Ok i
  else
    let both := match namespaces, searchList with Some _, Some _ => true | _, _ => false end in
    if both then Raise EAssert
    else
      let sl := match namespaces with Some _ => namespaces | None => searchList end in
      let sl := option_map as_seq sl in
      let g := match gsv with Some g => g | None => fresh end in
      let done l := Ok (mkInst true g l [] (i_file i)) in
      match pre with
      | Some p => done (p ++ [ETmpl me])
      | None =>
          let own := [EGlob g; ETmpl me] in
          match sl with
          | None => done own
          | Some a =>
              if prio then
                match a with
                | NTuple _ => Raise ETypeE
                | _ => done (seq_list a ++ own)
                end
              else done (own ++ seq_list a)
          end
      end.

(** The end of [webInput]: [self.searchList().insert(0, dic)] (Cheetah/Template.py:1974). *)
Definition web_input (d : nat) (i : inst) : inst :=
  mkInst (i_init i) (i_glob i) (EInput d :: i_sl i) (i_memo i) (i_file i).

(** ** #include *)

(** What an #include depends on: the files, by path; [serverSidePath] of a non-empty path
    (Cheetah/Servlet.py:42); which texts compile; what a template does, given its text and its search list
    without itself (Cheetah/Template.py:1685-1709). *)
Record world := mkWorld {
  w_files : pystr -> option pystr; w_path : pystr -> pystr; w_compiles : pystr -> bool;
  w_run : pystr -> list entry -> res terr pystr }.

(** [serverSidePath] (Cheetah/Servlet.py:36-46). *)
Definition server_path (w : world) (own : option pystr) (s : pystr) : option pystr :=
  match s with
  | [] => match own with Some (c :: f) => Some (w_path w (c :: f)) | _ => None end
  | _ => Some (w_path w s)
  end.

(** Reading a file: [open(None)] is a TypeError, and so is compiling nothing
    (Cheetah/Template.py:1497, 1687). *)
Definition read_path (w : world) (p : option pystr) : res terr pystr :=
  match p with
  | None => Raise ETypeE
  | Some p => match w_files w p with Some t => Ok t | None => Raise EIO end
  end.

(** Where the content is taken from: [includeFrom] (Cheetah/Template.py:1664-1665). *)
Inductive from := FFile | FSource.

(** The part that runs when the argument is not known yet (Cheetah/Template.py:1670-1706). *)
Definition build (w : world) (i : inst) (a : srcarg) (f : from) (raw : bool) : res terr item :=
  if negb raw then
    let text := match f, a with
      | FFile, AStr s => read_path w (server_path w (i_file i) s)
      | FFile, AFile _ t => Ok t
      | FSource, AStr s => Ok s
      | FSource, AFile _ _ => Raise ETypeE
      end in
    match text with
    | Raise e => Raise e
    | Ok t => if w_compiles w t then Ok (INested t (i_sl i)) else Raise ECompile
    end
  else
    match f, a with
    | FFile, AStr s =>
        match read_path w (server_path w (i_file i) s) with Raise e => Raise e | Ok t => Ok (IRaw t) end
    | FFile, AFile _ _ => Raise EAttr
    | FSource, AStr s => Ok (IRaw s)
    | FSource, AFile _ _ => Ok IObj
    end.

(** [d.get(k)] (Cheetah/Template.py:1669). *)
Fixpoint mget (a : srcarg) (m : list (srcarg * item)) : option item :=
  match m with [] => None | (b, x) :: m => if arg_eqb a b then Some x else mget a m end.

(** The output: [respond] of a nested template, or a write of the text.  A text has no [respond]; an object
    that is written makes joining the output fail with a TypeError
    (Cheetah/Template.py:1708-1711, Cheetah/DummyTransaction.py:58). *)
Definition emit (w : world) (x : item) (raw : bool) : res terr pystr :=
  match x, raw with
  | INested t sl, false => w_run w t sl
  | INested _ _, true => Raise ETypeE
  | IRaw _, false => Raise EAttr
  | IRaw t, true => Ok t
  | IObj, false => Raise EAttr
  | IObj, true => Raise ETypeE
  end.

(** [_handleCheetahInclude] (Cheetah/Template.py:1664-1711). *)
Definition include (w : world) (a : srcarg) (f : from) (raw : bool) (i : inst) : inst * res terr pystr :=
  match mget a (i_memo i) with
  | Some x => (i, emit w x raw)
  | None =>
      match build w i a f raw with
      | Raise e => (i, Raise e)
      | Ok x => (mkInst (i_init i) (i_glob i) (i_sl i) ((a, x) :: i_memo i) (i_file i), emit w x raw)
      end
  end.

(** Things done to an instance during its life: initialised again (Cheetah/Template.py:1656), given
    web input (1974), asked for an #include (1664). *)
Inductive op :=
| OInit (me fresh : nat) (searchList namespaces : option nsarg) (prio : bool) (gsv : option nat) (pre : option (list entry))
| OInput (d : nat)
| OInclude (w : world) (a : srcarg) (f : from) (raw : bool).

(** One of them, an exception leaves the instance as it is (Cheetah/Template.py:1527-1711, 1974). *)
Definition do_op (o : op) (i : inst) : inst :=
  match o with
  | OInit me fresh s n prio g p => match init_inst me fresh s n prio g p i with Ok j => j | Raise _ => i end
  | OInput d => web_input d i
  | OInclude w a f raw => fst (include w a f raw i)
  end.

(** A history (Cheetah/Template.py:1527-1711, 1974). *)
Definition do_ops (os : list op) (i : inst) : inst := fold_left (fun i o => do_op o i) os i.

(** ** Preprocessors *)

(** Values of compiler settings: strings and others (Cheetah/Template.py:993-1010). *)
Inductive sval := SStr (s : pystr) | SOther (n : nat).

(** The tokens argument: a string, a list or tuple of strings, something else
    (Cheetah/Template.py:941-947). *)
Inductive tokarg := TStr (s : pystr) | TSeq (l : list pystr) | TBad.

(** The settings object of a preprocessor (Cheetah/Template.py:916-928, 947-984).  [None]: no such
    attribute; for the two tokens, None or unset.  [p_cs]: compilerSettings, of which [Some None] is
    Python's None.  [p_init]: templateInitArgs and its entry searchList. *)
Record pp := mkPP {
  p_tokens : option tokarg; p_ph : option pystr; p_dir : option pystr;
  p_cs : option (option (list (pystr * sval)));
  p_init : option (option nsarg); p_sl : option nsarg; p_ns : option nsarg }.

(** [if placeholderToken], [if directiveToken]: strings that are not empty (Cheetah/Template.py:993, 996). *)
Definition given (t : option pystr) : option pystr :=
  match t with Some (c :: s) => Some (c :: s) | _ => None end.

(** [if key not in compilerSettings: compilerSettings[key] = v] (Cheetah/Template.py:994-1010). *)
Definition put_new (k v : pystr) (cs : list (pystr * sval)) : list (pystr * sval) :=
  if ahas k cs then cs else aset k (SStr v) cs.

(** [_updateSettingsWithPreprocessTokens] (Cheetah/Template.py:990-1010). *)
Definition update_tokens (ph dir : option pystr) (cs : list (pystr * sval)) : list (pystr * sval) :=
  let cs := match given ph with Some t => put_new (L "cheetahVarStartToken") t cs | None => cs end in
  match given dir with
  | None => cs
  | Some t =>
      let cs := put_new (L "directiveStartToken") t cs in
      let cs := put_new (L "directiveEndToken") t cs in
      let cs := put_new (L "commentStartToken") (t ++ t) cs in
      let cs := put_new (L "multiLineCommentStartToken") (t ++ L "*") cs in
      let cs := put_new (L "multiLineCommentEndToken") (L "*" ++ t) cs in
      put_new (L "EOLSlurpToken") t cs
  end.

(** [normalizeTokens] and the assignment of its result to a pair (Cheetah/Template.py:941-953). *)
Definition norm_tokens (t : tokarg) : res terr (pystr * pystr) :=
  match match t with TStr s => Some (split_ws s) | TSeq l => Some l | TBad => None end with
  | None => Raise EPre
  | Some [a; b] => Ok (a, b)
  | Some _ => Raise EValue
  end.

(** [templateInitArgs['searchList']] (Cheetah/Template.py:957-967). *)
Definition norm_sl (p : pp) : nsarg :=
  as_seq (match p_init p with
          | Some (Some a) => a
          | _ => match p_sl p, p_ns p with
                 | Some a, _ => a
                 | None, Some a => a
                 | None, None => NList []
                 end
          end).

(** [_normalizePreprocessorSettings] (Cheetah/Template.py:932-987); the dictionary of compiler settings is
    changed in place. *)
Definition norm_settings (p : pp) : res terr pp :=
  let r := match p_tokens p with
           | None => Ok (p_ph p, p_dir p)
           | Some t => match norm_tokens t with Ok (a, b) => Ok (Some a, Some b) | Raise e => Raise e end
           end in
  match r with
  | Raise e => Raise e
  | Ok (ph, dir) =>
      let nocs := match p_cs p with Some (Some (_ :: _)) => false | _ => true end in
      let noph := match given ph with None => true | _ => false end in
      if nocs && noph then Raise ETypeE
      else
        match match p_cs p with None => Some [] | Some c => c end with
        | None => Raise ETypeE
        | Some cs =>
            Ok (mkPP (p_tokens p) ph dir (Some (Some (update_tokens ph dir cs)))
                     (Some (Some (norm_sl p))) (p_sl p) (p_ns p))
        end
  end.

(** The preprocessors argument: one or a list (Cheetah/Template.py:896-900). *)
Inductive pparg (P : Type) := POne (p : P) | PMany (l : list P).
Arguments POne {P} p.
Arguments PMany {P} l.

(** The source and the file, as they go through the preprocessors (Cheetah/Template.py:888-900). *)
Definition sf := (option pystr * option pystr)%type.

(** [_preprocessSource] (Cheetah/Template.py:887-900): [norm] is [_normalizePreprocessorArg], whose result
    is the [preprocess] method to call. *)
Fixpoint pre_loop {P} (norm : P -> res terr (sf -> res terr sf)) (l : list P) (x : sf) : res terr sf :=
  match l with
  | [] => Ok x
  | p :: l =>
      match norm p with
      | Raise e => Raise e
      | Ok f => match f x with Raise e => Raise e | Ok y => pre_loop norm l y end
      end
  end.
(** Goes with the definition above (Cheetah/Template.py:887-900). *)
Definition preprocess_source {P} (norm : P -> res terr (sf -> res terr sf)) (a : pparg P) (x : sf) : res terr sf :=
  pre_loop norm (match a with POne p => [p] | PMany l => l end) x.

(** ** The methods added to a class *)

(** Values of class attributes: objects of the user, with their truth value; strings; [object.__str__];
    [Servlet.respond]; attributes of Template and of the class doing the compilation; the generated
    [__str__] methods (Cheetah/Template.py:1022-1098). *)
Inductive cval :=
| VObj (n : nat) (truth : bool) | VName (s : pystr) | VObjStr | VServletRespond
| VTemplate (nm : pystr) | VApi (nm : pystr) | VStrMain (v : cval) | VStrRespond | VStrFallback.

(** A class: its name, its own attributes, those of its bases other than [object]
    (Cheetah/Template.py:1013). *)
Record cls := mkCls { c_name : pystr; c_own : list (pystr * cval); c_base : list (pystr * cval) }.

(** [getattr(cls, nm, None)], where None stands for nothing (Cheetah/Template.py:1023, 1030, 1037, 1041,
    1045).  Of the attributes of [object] only [__str__] matters here. *)
Definition cget (c : cls) (nm : pystr) : option cval :=
  match aget nm (c_own c) with
  | Some v => Some v
  | None => match aget nm (c_base c) with
            | Some v => Some v
            | None => if str_eqb nm (L "__str__") then Some VObjStr else None
            end
  end.

(** [setattr(cls, nm, v)] (Cheetah/Template.py:1027, 1032, 1039, 1097-1098). *)
Definition cset (c : cls) (nm : pystr) (v : cval) : cls := mkCls (c_name c) (aset nm v (c_own c)) (c_base c).

(** [_CHEETAH_requiredCheetahMethods] (Cheetah/Template.py:280-305). *)
Definition required_methods : list pystr := map L
  ["_initCheetahInstance"; "searchList"; "errorCatcher"; "getVar"; "varExists"; "getFileContents"; "i18n";
   "runAsMainProgram"; "respond"; "shutdown"; "webInput"; "serverSidePath"; "generatedClassCode";
   "generatedModuleCode"; "_getCacheStore"; "_getCacheStoreIdPrefix"; "_createCacheRegion";
   "getCacheRegion"; "getCacheRegions"; "refreshCache"; "_handleCheetahInclude";
   "_getTemplateAPIClassForIncludeDirectiveCompilation"]%string.

(** [_CHEETAH_requiredCheetahClassMethods] and [_CHEETAH_requiredCheetahClassAttributes] with their prefix
    (Cheetah/Template.py:306-309, 1036). *)
Definition required_class_attrs : list pystr := map L
  ["subclass"; "_CHEETAH_cacheRegionClass"; "_CHEETAH_cacheStore"; "_CHEETAH_cacheStoreIdPrefix";
   "_CHEETAH_cacheStoreClass"]%string.

(** [getattr(Template, methodname)]; Template inherits respond from Servlet (Cheetah/Template.py:1024). *)
Definition template_attr (nm : pystr) : cval :=
  if str_eqb nm (L "respond") then VServletRespond else VTemplate nm.

(** [if not hasattr(cls, nm): setattr(cls, nm, v)] (Cheetah/Template.py:1023-1027, 1030-1033, 1037-1039). *)
Definition add_missing (val : pystr -> cval) (c : cls) (nm : pystr) : cls :=
  match cget c nm with Some _ => c | None => cset c nm (val nm) end.

(** The truth of a value (Cheetah/Template.py:1047). *)
Definition truthy (v : cval) : bool :=
  match v with VObj _ t => t | VName [] => false | _ => true end.

(** [concreteTemplateClass.respond != Servlet.respond] (Cheetah/Template.py:1059). *)
Definition is_servlet_respond (v : cval) : bool := match v with VServletRespond => true | _ => false end.

(** The choice of a [__str__] (Cheetah/Template.py:1043-1091). *)
Definition pick_str (c : cls) : cval :=
  let fallback := match cget c (L "respond") with
                  | Some v => if is_servlet_respond v then VStrFallback else VStrRespond
                  | None => VStrFallback
                  end in
  match cget c (L "_mainCheetahMethod_for_" ++ c_name c) with
  | Some v => if truthy v then VStrMain v else fallback
  | None => fallback
  end.

(** [_addCheetahPlumbingCodeToClass] under Python 3 (Cheetah/Template.py:1013-1098). *)
Definition plumb (c : cls) : cls :=
  let c := fold_left (add_missing template_attr) required_methods c in
  let c := fold_left (add_missing VApi) required_class_attrs c in
  match cget c (L "__str__") with
  | Some VObjStr | None =>
      let s := pick_str c in cset (cset c (L "__str__") s) (L "__unicode__") s
  | Some _ => c
  end.
