(** Model of the owners of directories and of the path director, which find the code of a module for the import
    hook of Hook_Model.v (Cheetah/ImportManager.py:185-266, 377-407; Cheetah/ImportHooks.py:54-112), as
    Python 3 on POSIX runs them.

    Python's compiler and marshal, Cheetah's compiler, and which files can be written are parameters.  Times are
    whole seconds, as [os.stat(...)[8]] gives them.  Simplified: a text is read in one encoding; a template
    extension is a period with a word, so that [os.path.splitext] takes exactly it away; nothing but these
    functions and the user's operations changes files. *)
From Verif Require Import Base PyStr Alist Names_Model.

(** A directory or a file with its time and contents (Cheetah/ImportManager.py:137-143, 202). *)
Inductive node := NDir (mt : N) | NFile (mt : N) (c : pystr).
(** Goes with the definition above (Cheetah/ImportManager.py:137-143, 202). *)
Definition mtime (n : node) : N := match n with NDir t => t | NFile t _ => t end.

(** Files and the current time (Cheetah/ImportManager.py:202, 233). *)
Record fs := mkFs { files : list (pystr * node); clock : N }.

(** What the functions call: [compile] (None: SyntaxError), the file that py_compile writes and the code
    [marshal.loads] gives for the contents of such a file behind its header (None: ValueError or EOFError),
    [cache_from_source], the suffixes of extension modules, whether a file can be written, Cheetah's compiler
    for a module name and a text (None: any exception) (Cheetah/ImportManager.py:198-199, 223-251;
    Cheetah/ImportHooks.py:84-98). *)
Record tools := mkTools {
  o_compile : pystr -> option pystr;
  o_dumps : pystr -> pystr;
  o_loads : pystr -> option pystr;
  o_cache : pystr -> pystr;
  o_exts : list pystr;
  o_can : pystr -> bool;
  o_template : pystr -> pystr -> option pystr
}.

(** A module found: an extension module, or code with its __file__ and, for a package, the directory in __path__
    (Cheetah/ImportManager.py:207, 258-266). *)
Inductive found := FExt (p : pystr) | FMod (code file : pystr) (pkg : option pystr).
(** SyntaxError; TypeError: [None[0]]; an error of [open]; ModuleNotFoundError
    (Cheetah/ImportManager.py:222-240; Cheetah/ImportHooks.py:65-73). *)
Inductive ferr := FSyntax | FType | FOpen | FNotFound.

(** State and exceptions (Cheetah/ImportManager.py:185-266). *)
Definition M (A : Type) := fs -> res ferr A * fs.
(** Goes with the definition above (Cheetah/ImportManager.py:185-266). *)
Definition ret {A} (a : A) : M A := fun s => (Ok a, s).
(** Goes with the definition above (Cheetah/ImportManager.py:185-266). *)
Definition raise {A} (e : ferr) : M A := fun s => (Raise e, s).

(** [os.path.join(a, b)] for a [b] that does not start with a slash (Cheetah/ImportManager.py:77-83). *)
Definition pjoin (a b : pystr) : pystr :=
  match rev a with
  | [] => b
  | c :: _ => if (c =? 47)%N then a ++ b else a ++ [47%N] ++ b
  end.

(** [pathIsDir] (Cheetah/ImportManager.py:137-143). *)
Definition is_dir (p : pystr) (s : fs) : bool := match aget p (files s) with Some (NDir _) => true | _ => false end.

Section Owner.
Variable T : tools.

(** [open(p, 'w')] and write; None: IOError or OSError (Cheetah/ImportManager.py:231-234;
    Cheetah/ImportHooks.py:91-96). *)
Definition put (p c : pystr) (s : fs) : option fs :=
  if o_can T p then Some (mkFs (aset p (NFile (clock s) c) (files s)) (clock s)) else None.

(** [py_compile.compile(p)], IOErrors ignored: the file is read again and its code is written to the cache; a
    SyntaxError is printed only (Cheetah/ImportManager.py:231-234; Cheetah/ImportHooks.py:101-104). *)
Definition py_compile (p : pystr) (s : fs) : fs :=
  match aget p (files s) with
  | Some (NFile _ t) =>
      match o_compile T t with
      | Some co => match put (o_cache T p) (o_dumps T co) s with Some s' => s' | None => s end
      | None => s
      end
  | _ => s
  end.

(** The loop over the suffixes: an extension module, or the source and the cached code, each with its time
    (Cheetah/ImportManager.py:195-216). *)
Definition scan (pth : pystr) (s : fs) : pystr + option (pystr * N) * option (pystr * N) :=
  match find (fun p => ahas p (files s)) (map (fun e => pth ++ e) (o_exts T)) with
  | Some p => inl p
  | None =>
      let py := pth ++ L ".py" in
      let pyc := o_cache T py in
      inr (option_map (fun n => (py, mtime n)) (aget py (files s)), option_map (fun n => (pyc, mtime n)) (aget pyc (files s)))
  end.

(** The branch that compiles the source (Cheetah/ImportManager.py:221-240). *)
Definition from_source (p : pystr) (pkg : option pystr) : M found := fun s =>
  match aget p (files s) with
  | Some (NFile _ t) =>
      match o_compile T (t ++ [10%N]) with
      | None => (Raise FSyntax, s)
      | Some co => (Ok (FMod co p pkg), py_compile p s)
      end
  | _ => (Raise FOpen, s)
  end.

(** [while True] (Cheetah/ImportManager.py:219-257): with a cached code that is no longer readable [pyc] becomes
    None, and the first branch is taken even if there is no source. *)
Definition load (py pyc : option (pystr * N)) (pkg : option pystr) : M found :=
  let source := match py with Some (p, _) => from_source p pkg | None => raise FType end in
  match pyc with
  | None => source
  | Some (c, ct) =>
      if match py with Some (_, pt) => (ct <? pt)%N | None => false end then source
      else fun s =>
        match aget c (files s) with
        | Some (NFile _ b) =>
            match o_loads T b with
            | Some co => (Ok (FMod co c pkg), s)
            | None => source s
            end
        | _ => (Raise FOpen, s)
        end
  end.

(** The loop over the possibles (Cheetah/ImportManager.py:190-218). *)
Fixpoint try_possibles (l : list (pystr * option pystr)) : M (option found) := fun s =>
  match l with
  | [] => (Ok None, s)
  | (pth, pkg) :: l =>
      match scan pth s with
      | inl p => (Ok (Some (FExt p)), s)
      | inr (None, None) => try_possibles l s
      | inr (py, pyc) => match load py pyc pkg s with
                         | (Ok f, s') => (Ok (Some f), s')
                         | (Raise e, s') => (Raise e, s')
                         end
      end
  end.

(** [DirOwner.getmod] (Cheetah/ImportManager.py:185-266). *)
Definition dir_getmod (path nm : pystr) : M (option found) := fun s =>
  let pth := pjoin path nm in
  try_possibles ((if is_dir pth s then [(pjoin pth (L "__init__"), Some pth)] else []) ++ [(pth, None)]) s.

(** [CheetahDirOwner._compile] (Cheetah/ImportHooks.py:79-112); [cd]: _cacheDir[0]. *)
Definition t_compile (cd : option pystr) (path name ext : pystr) : M found := fun s =>
  let tp := pjoin path (name ++ ext) in
  match aget tp (files s) with
  | Some (NFile _ t) =>
      match o_template T name t with
      | None => (Raise FNotFound, s)
      | Some code =>
          let file := match cd with
                      | Some d => pjoin d (convertTmplPathToModuleName tp) ++ L ".py"
                      | None => pjoin path name ++ L ".py"
                      end in
          let '(file, s) := match put file code s with Some s' => (file, py_compile file s') | None => (tp, s) end in
          match o_compile T (code ++ [10%N]) with
          | None => (Raise FNotFound, s)
          | Some co => (Ok (FMod co file None), s)
          end
      end
  | _ => (Raise FNotFound, s)
  end.

(** [CheetahDirOwner.getmod] (Cheetah/ImportHooks.py:54-77); [exts]: templateFileExtensions. *)
Fixpoint try_templates (cd : option pystr) (path name : pystr) (exts : list pystr) : M (option found) := fun s =>
  match exts with
  | [] => (Ok None, s)
  | e :: exts =>
      if ahas (pjoin path (name ++ e)) (files s) then
        match t_compile cd path name e s with
        | (Ok f, s') => (Ok (Some f), s')
        | (Raise x, s') => (Raise x, s')
        end
      else try_templates cd path name exts s
  end.
(** Goes with the definition above (Cheetah/ImportHooks.py:54-77). *)
Definition getmod (cd : option pystr) (exts : list pystr) (path name : pystr) : M (option found) := fun s =>
  match dir_getmod path name s with
  | (Ok None, s') => try_templates cd path name exts s'
  | r => r
  end.

(** [PathImportDirector.getmod] with the owners it has made so far; None: no owner could be made for the path
    (Cheetah/ImportManager.py:377-407). *)
Fixpoint search (cd : option pystr) (exts : list pystr) (paths : list pystr) (nm : pystr) (shadow : list (pystr * bool))
  : fs -> res ferr (option found) * list (pystr * bool) * fs := fun s =>
  match paths with
  | [] => (Ok None, shadow, s)
  | p :: paths =>
      let shadow := match aget p shadow with Some _ => shadow | None => aset p (is_dir p s) shadow end in
      match aget p shadow with
      | Some true => match getmod cd exts p nm s with
                     | (Ok None, s') => search cd exts paths nm shadow s'
                     | (r, s') => (r, shadow, s')
                     end
      | _ => search cd exts paths nm shadow s
      end
  end.
End Owner.
