(** Model of FileFinder (Cheetah/FileUtils.py:57-116).

    Simplified: the directory tree is finite and does not change; a name matches a pattern or not by a parameter, that of [glob];
    characters of patterns in the names of directories, and slashes in patterns, are left out. *)
From Verif Require Import Base.

(** A file system, as [os.listdir] and [os.path.isdir] show it (Cheetah/FileUtils.py:78-79, 96-98). *)
Inductive node := NFile | NDir (es : list (pystr * node)).

(** [os.path.join(dir, name)] (built-in; Cheetah/FileUtils.py:97, 113). *)
Definition join (dir name : pystr) : pystr := dir ++ L "/" ++ name.

(** The arguments: the patterns, by what they match, the names and the paths of directories to leave out (Cheetah/FileUtils.py:62-71). *)
Record finder := mkFinder { f_patterns : list (pystr -> bool); f_names : list pystr; f_dirs : list pystr }.

(** [x in l] (built-in; Cheetah/FileUtils.py:107-108). *)
Definition among (x : pystr) (l : list pystr) : bool := existsb (str_eqb x) l.

(** [filterDir(baseName, fullPath)] (Cheetah/FileUtils.py:103-108). *)
Definition filter_dir (f : finder) (base full : pystr) : bool := negb (among base (f_names f) || among full (f_dirs f)).

(** [processDir(dir)]: one [glob] for each pattern (Cheetah/FileUtils.py:110-113). *)
Definition process_dir (f : finder) (dir : pystr) (es : list (pystr * node)) : list pystr :=
  flat_map (fun pattern => map (fun e => join dir (fst e)) (filter (fun e => pattern (fst e)) es)) (f_patterns f).

(** The loop over [listdir(dir)], on the list of the directories that wait, the last one first (Cheetah/FileUtils.py:96-100). *)
Fixpoint add_dirs (f : finder) (dir : pystr) (es : list (pystr * node)) (pending : list (pystr * list (pystr * node)))
  : list (pystr * list (pystr * node)) :=
  match es with
  | [] => pending
  | (n, NFile) :: r => add_dirs f dir r pending
  | (n, NDir sub) :: r => add_dirs f dir r (if filter_dir f n (join dir n) then (join dir n, sub) :: pending else pending)
  end.

(** The loop of [walkDirTree] (Cheetah/FileUtils.py:90-100); [None]: the fuel does not suffice. *)
Fixpoint walk (fuel : nat) (f : finder) (pending : list (pystr * list (pystr * node))) (files : list pystr) : option (list pystr) :=
  match fuel with
  | O => None
  | S fuel =>
      match pending with
      | [] => Some files
      | (dir, es) :: r => walk fuel f (add_dirs f dir es r) (files ++ process_dir f dir es)
      end
  end.

(** The number of directories in a tree: enough fuel (Cheetah/FileUtils.py:90). *)
Fixpoint dirs_of (n : node) : nat :=
  match n with
  | NFile => 0
  | NDir es => S ((fix go (l : list (pystr * node)) := match l with [] => 0 | (_, x) :: r => dirs_of x + go r end) es)
  end.

(** [FileFinder(rootPath, ...).files()], which is [findFiles] (Cheetah/FileUtils.py:15-21, 62-74, 115-116). *)
Definition find_files (f : finder) (root : pystr) (es : list (pystr * node)) : option (list pystr) :=
  walk (S (dirs_of (NDir es))) f [(root, es)] [].
