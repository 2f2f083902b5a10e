(** Model of the class compiler's bookkeeping of methods: which methods a class gets, in which order, under
    which names and with which decorators (Cheetah/Compiler.py:1225-1530).  A method is a name with
    decorators, arguments and the chunks of its body; everything else about its text is elsewhere. *)
From Verif Require Import Base PyStr.

(** A method compiler (Cheetah/Compiler.py:327-352, 1061-1075); the number stands for the identity of the object. *)
Record meth : Type := mkMeth {
  me_id : nat;
  me_name : pystr;
  me_decos : list pystr;
  me_args : list pystr;
  me_body : list pystr
}.

(** The state of the class compiler (Cheetah/Compiler.py:1271-1301): active methods (the top first),
    finished methods, the index by name, the decorators for the next method, the main method's name, chunks
    for the constructor, generated attributes (name and expression). *)
Record cstate : Type := mkC {
  c_next : nat;
  c_act : list meth;
  c_fin : list meth;
  c_idx : list (pystr * nat);
  c_decos : list pystr;
  c_main : pystr;
  c_init : list pystr;
  c_attrs : list (pystr * pystr)
}.

(** The exceptions of an unknown key and of an empty stack (Cheetah/Compiler.py:1363, 1404, 1407). *)
Inductive cerr : Type := KeyError | IndexError.

(** [self._methodsIndex[name]] (Cheetah/Compiler.py:1363). *)
Fixpoint idx_get (n : pystr) (l : list (pystr * nat)) : option nat :=
  match l with
  | [] => None
  | (k, i) :: r => if str_eqb n k then Some i else idx_get n r
  end.

(** [del self._methodsIndex[name]] (Cheetah/Compiler.py:1376). *)
Definition idx_del (n : pystr) (l : list (pystr * nat)) : list (pystr * nat) :=
  filter (fun e => negb (str_eqb n (fst e))) l.

(** [_spawnMethodCompiler] (Cheetah/Compiler.py:1384-1396): the method takes the decorators that are waiting. *)
Definition spawn (n : pystr) (args body : list pystr) (st : cstate) : meth * cstate :=
  (mkMeth (c_next st) n (c_decos st) args body,
   mkC (S (c_next st)) (c_act st) (c_fin st) ((n, c_next st) :: idx_del n (c_idx st)) [] (c_main st) (c_init st) (c_attrs st)).

(** [addChunk] on a method (Cheetah/Compiler.py:469-474). *)
Definition put (c : pystr) (m : meth) : meth :=
  mkMeth (me_id m) (me_name m) (me_decos m) (me_args m) (me_body m ++ [c]).

(** The change of the name in [setMainMethodName] and of the calls in its body (Cheetah/Compiler.py:1364-1374). *)
Definition self_call (n : pystr) : pystr := L "write(self." ++ n ++ L "(trans=trans))".
(** Goes with the definition above (Cheetah/Compiler.py:1364-1374). *)
Definition rename (old new : pystr) (m : meth) : meth :=
  mkMeth (me_id m) new (me_decos m) (me_args m)
    (map (fun c => if str_eqb c (self_call old) then self_call new else c) (me_body m)).

(** [addMethArg] for each argument (Cheetah/Compiler.py:1379-1382). *)
Definition more_args (args : list pystr) (m : meth) : meth :=
  mkMeth (me_id m) (me_name m) (me_decos m) (me_args m ++ args) (me_body m).

(** A change of one method object, wherever it is kept (Cheetah/Compiler.py:1363-1364). *)
Definition change (i : nat) (f : meth -> meth) (ms : list meth) : list meth :=
  map (fun m => if Nat.eqb (me_id m) i then f m else m) ms.
(** Goes with the definition above (Cheetah/Compiler.py:1363-1364). *)
Definition change_st (i : nat) (f : meth -> meth) (st : cstate) : cstate :=
  mkC (c_next st) (change i f (c_act st)) (change i f (c_fin st)) (c_idx st) (c_decos st) (c_main st) (c_init st) (c_attrs st).

(** [setMainMethodName] (Cheetah/Compiler.py:1359-1377). *)
Definition set_main (n : pystr) (st : cstate) : res cerr cstate :=
  if str_eqb n (c_main st) then Ok st
  else match idx_get (c_main st) (c_idx st) with
       | None => Raise KeyError
       | Some i =>
           let st1 := change_st i (rename (c_main st) n) st in
           Ok (mkC (c_next st1) (c_act st1) (c_fin st1)
                 (idx_del (c_main st) ((n, i) :: idx_del n (c_idx st)))
                 (c_decos st1) n (c_init st1) (c_attrs st1))
       end.

(** [setMainMethodArgs] (Cheetah/Compiler.py:1379-1382). *)
Definition set_args (args : list pystr) (st : cstate) : res cerr cstate :=
  match idx_get (c_main st) (c_idx st) with
  | None => Raise KeyError
  | Some i => Ok (change_st i (more_args args) st)
  end.

(** The calls of the parser to the class compiler (Cheetah/Compiler.py:1356-1519). *)
Inductive op : Type :=
| OText (c : pystr)
| OStart (n : pystr) (args : list pystr)
| OEndDef
| OEndBlock
| ODeco (d : pystr)
| OImplements (n : pystr) (args : list pystr)
| OExtends (n : pystr)
| OAttr (n e : pystr)
| OCatch (n : pystr) (body : list pystr)
| OInit (c : pystr).

(** [addChunk] on the active method (Cheetah/Compiler.py:1250-1268). *)
Definition to_top (c : pystr) (st : cstate) : res cerr cstate :=
  match c_act st with
  | [] => Raise IndexError
  | m :: r => Ok (mkC (c_next st) (put c m :: r) (c_fin st) (c_idx st) (c_decos st) (c_main st) (c_init st) (c_attrs st))
  end.

(** [_popActiveMethodCompiler] and [_swallowMethodCompiler] (Cheetah/Compiler.py:1404-1413, 1510-1513). *)
Definition close (st : cstate) : res cerr (meth * cstate) :=
  match c_act st with
  | [] => Raise IndexError
  | m :: r => Ok (m, mkC (c_next st) r (c_fin st ++ [m]) (c_idx st) (c_decos st) (c_main st) (c_init st) (c_attrs st))
  end.

(** The code that calls a block (Cheetah/Compiler.py:1524-1525). *)
Definition block_call (n : pystr) : pystr := L "self." ++ n ++ L "(trans=trans)".

(** One call: [addChunk], [startMethodDef] (Cheetah/Compiler.py:1415-1420), [closeDef] (1510-1513),
    [closeBlock] without markers (1515-1525), [addDecorator] (1424-1430), #implements
    (Cheetah/Parser.py:2213-2214), the change of the main method by #extends (Cheetah/Compiler.py:1859-1863),
    [addAttribute] (1438-1448), the method of an error catcher (1466-1508), [addChunkToInit] (1435-1436). *)
Definition cstep (o : op) (st : cstate) : res cerr cstate :=
  match o with
  | OText c => to_top c st
  | OStart n args =>
      let (m, st1) := spawn n args [] st in
      Ok (mkC (c_next st1) (m :: c_act st1) (c_fin st1) (c_idx st1) (c_decos st1) (c_main st1) (c_init st1) (c_attrs st1))
  | OEndDef => match close st with Raise e => Raise e | Ok (_, st1) => Ok st1 end
  | OEndBlock =>
      match close st with
      | Raise e => Raise e
      | Ok (m, st1) => to_top (block_call (me_name m)) st1
      end
  | ODeco d => Ok (mkC (c_next st) (c_act st) (c_fin st) (c_idx st) (c_decos st ++ [d]) (c_main st) (c_init st) (c_attrs st))
  | OImplements n args => match set_main n st with Raise e => Raise e | Ok st1 => set_args args st1 end
  | OExtends n => set_main n st
  | OAttr n e => Ok (mkC (c_next st) (c_act st) (c_fin st) (c_idx st) (c_decos st) (c_main st) (c_init st) (c_attrs st ++ [(n, e)]))
  | OCatch n body =>
      let (m, st1) := spawn n [] body st in
      Ok (mkC (c_next st1) (c_act st1) (c_fin st1 ++ [m]) (c_idx st1) (c_decos st1) (c_main st1) (c_init st1) (c_attrs st1))
  | OInit c => Ok (mkC (c_next st) (c_act st) (c_fin st) (c_idx st) (c_decos st) (c_main st) (c_init st ++ [c]) (c_attrs st))
  end.

(** The calls in turn (Cheetah/Parser.py:1474-1530). *)
Fixpoint crun (ops : list op) (st : cstate) : res cerr cstate :=
  match ops with
  | [] => Ok st
  | o :: r => match cstep o st with Raise e => Raise e | Ok st1 => crun r st1 end
  end.

(** The attributes every class has (Cheetah/Compiler.py:1279-1296), with the default settings. *)
Definition fixed_attrs : list (pystr * pystr) :=
  [(L "_CHEETAH__instanceInitialized", L "False"); (L "_CHEETAH_version", L "__CHEETAH_version__");
   (L "_CHEETAH_versionTuple", L "__CHEETAH_versionTuple__"); (L "_CHEETAH_genTime", L "__CHEETAH_genTime__");
   (L "_CHEETAH_genTimestamp", L "__CHEETAH_genTimestamp__"); (L "_CHEETAH_src", L "__CHEETAH_src__");
   (L "_CHEETAH_srcLastModified", L "__CHEETAH_srcLastModified__")].

(** The state after [ClassCompiler.__init__] (Cheetah/Compiler.py:1229-1247), without file monitoring. *)
Definition cstart (main : pystr) : cstate :=
  mkC 1 [mkMeth 0 main [] [] []] [] [(main, 0%nat)] [] main [] fixed_attrs.

(** [cleanupState] (Cheetah/Compiler.py:1303-1315) with [_setupInitMethod] (1317-1328): the methods still
    active are finished, the constructor is put in front. *)
Definition init_body (cls : pystr) (extra : list pystr) : list pystr :=
  (L "super(" ++ cls ++ L ", self).__init__(" ++ [42%N] ++ L "args, **KWs)") :: (L "init of " ++ cls) :: extra.
(** Goes with the definition above (Cheetah/Compiler.py:1303-1315). *)
Definition cleanup (cls : pystr) (st : cstate) : cstate :=
  let (m, st1) := spawn (L "__init__") [] (init_body cls (c_init st)) st in
  mkC (c_next st1) [] (m :: c_fin st1 ++ c_act st1) (c_idx st1) (c_decos st1) (c_main st1) (c_init st1)
    (c_attrs st1
     ++ (if str_eqb (c_main st1) (L "respond") then [(L "__str__", L "def")] else [])
     ++ [(L "_mainCheetahMethod_for_" ++ cls, c_main st1)]).

(** [wrapClassDef] (Cheetah/Compiler.py:1541-1571): what the class statement binds, in order. *)
Inductive bound : Type := BMeth (decos args body : list pystr) | BAttr (e : pystr).
(** Goes with the definition above (Cheetah/Compiler.py:1541-1571). *)
Definition class_binds (meths_first : bool) (st : cstate) : list (pystr * bound) :=
  let ms := map (fun m => (me_name m, BMeth (me_decos m) (me_args m) (me_body m))) (c_fin st) in
  let xs := map (fun a => (fst a, BAttr (snd a))) (c_attrs st) in
  if meths_first then ms ++ xs else xs ++ ms.

(** The whole class (Cheetah/Compiler.py:1697, 1817-1841). *)
Definition compile_class (cls main : pystr) (ops : list op) : res cerr cstate :=
  match crun ops (cstart main) with Raise e => Raise e | Ok st => Ok (cleanup cls st) end.
