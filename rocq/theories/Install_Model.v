(** Model of installing and uninstalling the import hooks (Cheetah/ImportHooks.py:30-38, 115-149;
    Cheetah/ImportManager.py:417-444, 597-600), as Python 3 runs it.

    Simplified: extensions and directories are texts; what the hooks do once they are installed is in Hook_Model.v and
    Owner_Model.v. *)
From Verif Require Import Base PyStr.

(** What stands in builtin.__import__: a function, the hook of the k-th import manager (a bound method), another bound method,
    another object that can be called (Cheetah/ImportHooks.py:123-124, 140; Cheetah/ImportManager.py:443). *)
Inductive imp := Fn (f : nat) | Hook (m : nat) | Bound (b : nat) | Callable (o : nat).

(** The classes in _globalOwnerTypes: CheetahDirOwner, or another (Cheetah/ImportManager.py:597-600;
    Cheetah/ImportHooks.py:128, 142). *)
Inductive owner := CheetahOwner | Owner (o : nat).

(** The state: ImportHooks._installed; builtin.__import__; builtin.reload, as the number of a manager; ImportHooks.__oldimport__
    and ImportManager.__oldimport__; _globalOwnerTypes; CheetahDirOwner.templateFileExtensions; _cacheDir; how many managers
    there have been (Cheetah/ImportHooks.py:30, 35, 50, 122-133; Cheetah/ImportManager.py:443-444). *)
Record ist := mkI {
  i_installed : bool; i_imp : imp; i_reload : option nat; i_old : option imp; i_mold : option imp;
  i_owners : list owner; i_exts : list pystr; i_cache : list pystr; i_made : nat }.

(** The exceptions (Cheetah/ImportHooks.py:141, 142, 144). *)
Inductive ierr := NameErr | IndexErr | AttrErr.

(** [isinstance(x, (BuiltinFunctionType, FunctionType))] and [isinstance(x, MethodType)] (Cheetah/ImportHooks.py:123-124, 140). *)
Definition is_function (i : imp) : bool := match i with Fn _ => true | _ => false end.
(** Goes with the definition above (Cheetah/ImportHooks.py:123-124, 140). *)
Definition is_method (i : imp) : bool := match i with Hook _ | Bound _ => true | _ => false end.

(** [setCacheDir(cacheDir)] (Cheetah/ImportHooks.py:38-39). *)
Definition set_cache (d : pystr) (s : ist) : ist :=
  mkI (i_installed s) (i_imp s) (i_reload s) (i_old s) (i_mold s) (i_owners s) (i_exts s) (i_cache s ++ [d]) (i_made s).

(** The directory in use: [_cacheDir[0]], if there is one (Cheetah/ImportHooks.py:86-90). *)
Definition cache_dir (s : ist) : option pystr := match i_cache s with d :: _ => Some d | [] => None end.

(** [install(templateFileExtensions)] (Cheetah/ImportHooks.py:118-133; Cheetah/ImportManager.py:438-444). *)
Definition install (exts : list pystr) (s : ist) : ist :=
  if negb (i_installed s) then
    if is_function (i_imp s) then
      mkI true (Hook (i_made s)) (Some (i_made s)) (Some (i_imp s)) (Some (i_imp s)) (CheetahOwner :: i_owners s) exts (i_cache s)
        (S (i_made s))
    else mkI (i_installed s) (i_imp s) (i_reload s) (i_old s) (i_mold s) (i_owners s) exts (i_cache s) (i_made s)
  else s.

(** [uninstall()] (Cheetah/ImportHooks.py:136-149). *)
Definition uninstall (s : ist) : res ierr unit * ist :=
  if i_installed s then
    if is_method (i_imp s) then
      match i_old s with
      | None => (Raise NameErr, s)
      | Some o =>
          match i_owners s with
          | [] => (Raise IndexErr, mkI (i_installed s) o (i_reload s) (i_old s) (i_mold s) (i_owners s) (i_exts s) (i_cache s) (i_made s))
          | c :: r =>
              let owners := match c with CheetahOwner => r | _ => i_owners s end in
              match i_mold s with
              | None => (Raise AttrErr, mkI (i_installed s) o (i_reload s) (i_old s) None owners (i_exts s) (i_cache s) (i_made s))
              | Some _ => (Ok tt, mkI false o (i_reload s) (i_old s) None owners (i_exts s) (i_cache s) (i_made s))
              end
          end
      end
    else (Ok tt, s)
  else (Ok tt, s).

(** What is done: by users of the hooks (Cheetah/ImportHooks.py:38, 118, 136), and by others who assign builtin.__import__ or
    put a class at the front of _globalOwnerTypes, as the hooks do (Cheetah/ImportHooks.py:128; Cheetah/ImportManager.py:443). *)
Inductive iop := OInstall (exts : list pystr) | OUninstall | OCacheDir (d : pystr) | OImport (i : imp) | OOwner (o : owner).

(** One of them (Cheetah/ImportHooks.py:38, 118, 136). *)
Definition istep (o : iop) (s : ist) : res ierr unit * ist :=
  match o with
  | OInstall e => (Ok tt, install e s)
  | OUninstall => uninstall s
  | OCacheDir d => (Ok tt, set_cache d s)
  | OImport i => (Ok tt, mkI (i_installed s) i (i_reload s) (i_old s) (i_mold s) (i_owners s) (i_exts s) (i_cache s) (i_made s))
  | OOwner c => (Ok tt, mkI (i_installed s) (i_imp s) (i_reload s) (i_old s) (i_mold s) (c :: i_owners s) (i_exts s) (i_cache s) (i_made s))
  end.

(** Several; an exception ends them (Cheetah/ImportHooks.py:38, 118, 136). *)
Fixpoint irun (l : list iop) (s : ist) : res ierr unit * ist :=
  match l with
  | [] => (Ok tt, s)
  | o :: r => match istep o s with (Ok _, s) => irun r s | x => x end
  end.
