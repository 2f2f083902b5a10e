(** Model of loading a template by its path (Cheetah/LoadTemplate.py:7-47), on top of the owners of directories of
    Owner_Model.v, as Python 3 on POSIX runs it.

    Running the code of a module is a parameter: whether it ends, and what the module has then.  Simplified: the
    code does not assign to __name__ and does not change sys.modules; files are known by their path as it is
    written. *)
From Verif Require Import Base PyStr Alist Names_Model Owner_Model.
From Verif Require Tree_Model.

(** A module in sys.modules: some other one, or one that was loaded here (Cheetah/LoadTemplate.py:37). *)
Inductive lmod := MOther (id : nat) | MLoaded (f : found).

(** The files and sys.modules (Cheetah/LoadTemplate.py:33, 37). *)
Record lst := mkL { l_fs : fs; l_mods : list (pystr * lmod) }.

(** The exceptions: ValueError, not a directory; ModuleNotFoundError, nothing found; what finding the module
    raises; AttributeError, no __co__ or no such class; what the code raises (Cheetah/ImportManager.py:180-182;
    Cheetah/LoadTemplate.py:33-35, 38, 40, 47). *)
Inductive lerr := NoDir | Missing | Finding (e : ferr) | NoCode | NoClass | Running.

(** What is there besides: the tools of the owners, the cache directory, the extensions of templates, the current
    directory, whether code ends without an exception, and the names it leaves in the module
    (Cheetah/ImportHooks.py:36, 51; Cheetah/ImportManager.py:179; Cheetah/LoadTemplate.py:40, 47). *)
Record setup := mkSetup {
  u_tools : tools; u_cache : option pystr; u_exts : list pystr; u_cwd : pystr;
  u_runs : pystr -> bool; u_names : pystr -> list pystr }.

(** The last period (posixpath.splitext, called at Cheetah/LoadTemplate.py:22). *)
Fixpoint split_last_dot (s : pystr) : option (pystr * pystr) :=
  match s with
  | [] => None
  | c :: r =>
      match split_last_dot r with
      | Some (a, b) => Some (c :: a, b)
      | None => if (c =? 46)%N then Some ([], s) else None
      end
  end.

(** [os.path.splitext] of a name without slashes: periods in front belong to the name
    (Cheetah/LoadTemplate.py:22). *)
Definition splitext (s : pystr) : pystr * pystr :=
  match split_last_dot s with
  | Some (a, b) => if forallb (N.eqb 46) a then (s, []) else (a, b)
  | None => (s, [])
  end.

(** [[d for (i, d) in enumerate(l) if i == 0 or d]] (Cheetah/LoadTemplate.py:26-27). *)
Definition drop_empty (l : list pystr) : list pystr :=
  match l with
  | [] => []
  | d :: r => d :: filter (fun d => match d with [] => false | _ => true end) r
  end.

(** The directory, the name and the extension (Cheetah/LoadTemplate.py:20-28). *)
Definition locate (path : pystr) : pystr * pystr * pystr :=
  let '(dir, file) := Tree_Model.path_split path in
  let '(name, ext) := splitext file in
  (match dir with [] => [] | _ => join [47%N] (drop_empty (split_char 47 dir)) end, name, ext).

(** [CheetahDirOwner(dir)] with its extensions, and [getmod] (Cheetah/ImportManager.py:178-183;
    Cheetah/LoadTemplate.py:29-33). *)
Definition find_mod (u : setup) (dir name ext : pystr) (s : fs) : res lerr (option found) * fs :=
  let dir := match dir with [] => u_cwd u | _ => dir end in
  if negb (is_dir dir s) then (Raise NoDir, s)
  else match getmod (u_tools u) (u_cache u) (match ext with [] => u_exts u | _ => [ext] end) dir name s with
       | (Ok r, s') => (Ok r, s')
       | (Raise e, s') => (Raise (Finding e), s')
       end.

(** [loadTemplateModule(templatePath)] (Cheetah/LoadTemplate.py:7-41): the name of the module and what was found. *)
Definition load_module (u : setup) (path : pystr) (s : lst) : res lerr (pystr * found) * lst :=
  let '(dir, name, ext) := locate path in
  match find_mod u dir name ext (l_fs s) with
  | (Raise e, f) => (Raise e, mkL f (l_mods s))
  | (Ok None, f) => (Raise Missing, mkL f (l_mods s))
  | (Ok (Some m), f) =>
      let s := mkL f (aset name (MLoaded m) (l_mods s)) in
      match m with
      | FExt _ => (Raise NoCode, s)
      | FMod co _ _ => if u_runs u co then (Ok (name, m), s) else (Raise Running, s)
      end
  end.

(** [loadTemplateClass(templatePath)] (Cheetah/LoadTemplate.py:44-47): the code and the name of the class. *)
Definition load_class (u : setup) (path : pystr) (s : lst) : res lerr (pystr * pystr) * lst :=
  match load_module u path s with
  | (Raise e, s) => (Raise e, s)
  | (Ok (name, FExt _), s) => (Raise NoClass, s)
  | (Ok (name, FMod co _ _), s) => (if existsb (str_eqb name) (u_names u co) then Ok (co, name) else Raise NoClass, s)
  end.
