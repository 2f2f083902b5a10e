(** What installing and uninstalling the import hooks is for: a switch (Cheetah/ImportHooks.py:118-119, 136-137). *)
From Verif Require Import Base PyStr Install_Model.

(** A state in which the hooks were not installed yet. *)
Definition untouched (s : ist) : Prop := i_installed s = false /\ ~ In CheetahOwner (i_owners s) /\ i_owners s <> [].

(** Nobody else changes anything. *)
Definition ours (o : iop) : Prop := match o with OImport _ | OOwner _ => False | _ => True end.
(** Nobody else changes _globalOwnerTypes. *)
Definition keeps_owners (o : iop) : Prop := match o with OOwner _ => False | _ => True end.

(** The switch and the extensions: those of the install that switched it on. *)
Record switch := mkSw { on : bool; exts : list pystr }.
Definition turn (o : iop) (w : switch) : switch :=
  match o with
  | OInstall e => if on w then w else mkSw true e
  | OUninstall => mkSw false (exts w)
  | _ => w
  end.
Fixpoint turns (l : list iop) (w : switch) : switch := match l with [] => w | o :: r => turns r (turn o w) end.

(** The first directory that was ever set. *)
Fixpoint first_dir (l : list iop) : option pystr :=
  match l with [] => None | OCacheDir d :: _ => Some d | _ :: r => first_dir r end.
