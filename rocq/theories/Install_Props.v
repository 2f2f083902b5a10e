(** Property theorems C97 (installing and uninstalling the import hooks). *)
From Verif Require Import Base PyStr Install_Model Install_Spec Install_Proofs.
Local Open Scope string_scope.
Local Open Scope list_scope.

(** As after the import of Cheetah.ImportHooks: function 0 is builtin.__import__, and the two classes are DirOwner and
    Owner (Cheetah/ImportManager.py:597-600). *)
Definition s0 : ist := mkI false (Fn 0) None None None [Owner 0; Owner 1] [L ".tmpl"] [] 0.
Example s0_untouched : untouched s0.
Proof. split; [reflexivity|]. split; [intros [H|[H|[]]]; discriminate H|discriminate]. Qed.

(** C97: install and uninstall are a switch, however often and in whatever order they are called: no exception; switched on,
    builtin.__import__ is the hook of a manager, CheetahDirOwner stands before the other classes, and the extensions are those of
    the install that switched it on; switched off, builtin.__import__ and the classes are what they were. *)
Theorem C97_switch : forall s0 l, untouched s0 -> is_function (i_imp s0) = true -> Forall ours l ->
  exists s, irun l s0 = (Ok tt, s) /\
    let w := turns l (mkSw false (i_exts s0)) in
    i_installed s = on w /\ i_exts s = exts w /\
    if on w then (exists m, i_imp s = Hook m) /\ i_owners s = CheetahOwner :: i_owners s0
    else i_imp s = i_imp s0 /\ i_owners s = i_owners s0.
Proof. exact switches. Qed.
Print Assumptions C97_switch.
Definition ops0 := [OUninstall; OInstall [L ".txt"]; OInstall [L ".html"]; OCacheDir (L "/tmp"); OUninstall; OUninstall; OInstall [L ".xml"]].
Example C97_switch_ex : untouched s0 /\ is_function (i_imp s0) = true /\ Forall ours ops0 /\
  turns (firstn 4 ops0) (mkSw false [L ".tmpl"]) = mkSw true [L ".txt"] /\ turns (firstn 6 ops0) (mkSw false [L ".tmpl"]) = mkSw false [L ".txt"] /\
  turns ops0 (mkSw false [L ".tmpl"]) = mkSw true [L ".xml"] /\ i_imp (snd (irun ops0 s0)) = Hook 1.
Proof. split; [exact s0_untouched|]. split; [reflexivity|]. split; [repeat constructor|]. repeat split. Qed.

(** C97: whatever others put into builtin.__import__ in between, there is no exception, and CheetahDirOwner is among the classes
    once if the hooks are installed, and not if they are not. *)
Theorem C97_owners : forall l s0, untouched s0 -> Forall keeps_owners l ->
  exists s, irun l s0 = (Ok tt, s) /\ i_owners s = (if i_installed s then [CheetahOwner] else []) ++ i_owners s0.
Proof. exact owners. Qed.
Print Assumptions C97_owners.
Definition ops1 := [OInstall [L ".txt"]; OImport (Fn 7); OUninstall; OInstall []; OImport (Bound 3); OUninstall; OImport (Callable 2); OInstall [L ".xml"]].
Example C97_owners_ex : untouched s0 /\ Forall keeps_owners ops1 /\ i_installed (snd (irun (firstn 5 ops1) s0)) = true
  /\ i_installed (snd (irun ops1 s0)) = false /\ i_owners (snd (irun (firstn 5 ops1) s0)) = [CheetahOwner; Owner 0; Owner 1].
Proof. split; [exact s0_untouched|]. split; [repeat constructor|]. repeat split. Qed.

(** C97: the cache directory is the first one that was set. *)
Theorem C97_cache_dir : forall l s s', irun l s = (Ok tt, s') ->
  cache_dir s' = match cache_dir s with Some d => Some d | None => first_dir l end.
Proof. exact first_cache. Qed.
Print Assumptions C97_cache_dir.
Example C97_cache_dir_ex : exists s', irun (ops0 ++ [OCacheDir (L "/var")]) s0 = (Ok tt, s') /\ cache_dir s' = Some (L "/tmp").
Proof. eexists. split; vm_compute; reflexivity. Qed.

(** That setCacheDir sets the cache directory: false, the second time. *)
Theorem C97_set_again_refuted : exists l d s', irun (l ++ [OCacheDir d]) s0 = (Ok tt, s') /\ cache_dir s' <> Some d.
Proof. exists ops0, (L "/var"). eexists. split; [vm_compute; reflexivity|]. discriminate. Qed.
Print Assumptions C97_set_again_refuted.

(** That uninstall undoes install: false of builtin.reload, which stays, and of the extensions, which loadTemplateModule uses. *)
Theorem C97_undone_refuted : exists e s', irun [OInstall e; OUninstall] s0 = (Ok tt, s') /\
  i_reload s0 = None /\ i_reload s' <> None /\ i_exts s' <> i_exts s0.
Proof. exists [L ".html"]. eexists. split; [vm_compute; reflexivity|]. repeat split; discriminate. Qed.
Print Assumptions C97_undone_refuted.

(** That uninstall uninstalls: false after somebody else wrapped the hook in a function; nothing happens and nobody is told. *)
Theorem C97_wrapped : forall s f, i_installed s = true ->
  istep OUninstall (snd (istep (OImport (Fn f)) s)) = (Ok tt, snd (istep (OImport (Fn f)) s)).
Proof. exact wrapped. Qed.
Print Assumptions C97_wrapped.
Theorem C97_uninstall_refuted : exists l s', irun (l ++ [OUninstall]) s0 = (Ok tt, s') /\ i_installed s' = true /\ In CheetahOwner (i_owners s').
Proof. exists [OInstall []; OImport (Fn 7)]. eexists. split; [vm_compute; reflexivity|]. split; [reflexivity|left; reflexivity]. Qed.
Print Assumptions C97_uninstall_refuted.
Example C97_wrapped_ex : i_installed (snd (irun [OInstall []] s0)) = true.
Proof. reflexivity. Qed.

(** That uninstall takes away nothing but the own hook: false, a method that somebody else put there after install is lost. *)
Theorem C97_other_hook_refuted : exists b s', irun [OInstall []; OImport (Bound b); OUninstall] s0 = (Ok tt, s') /\ i_imp s' = Fn 0.
Proof. exists 3%nat. eexists. split; vm_compute; reflexivity. Qed.
Print Assumptions C97_other_hook_refuted.

(** That install installs: false when builtin.__import__ is a method or another object; only the extensions change. *)
Theorem C97_install_refuted : exists i e s', irun [OImport i; OInstall e] s0 = (Ok tt, s') /\ i_installed s' = false /\ i_imp s' = i /\ i_exts s' = e
  /\ e <> i_exts s0.
Proof. exists (Bound 3), [L ".html"]. eexists. split; [vm_compute; reflexivity|]. repeat split. discriminate. Qed.
Print Assumptions C97_install_refuted.

(** C97_owners without its condition: false, CheetahDirOwner stays if a class was put before it, and is there twice after the
    next install. *)
Theorem C97_owners_refuted : exists o s1 s2, irun [OInstall []; OOwner o; OUninstall] s0 = (Ok tt, s1) /\ i_installed s1 = false /\
  In CheetahOwner (i_owners s1) /\ istep (OInstall []) s1 = (Ok tt, s2) /\
  i_owners s2 = [CheetahOwner; o; CheetahOwner; Owner 0; Owner 1].
Proof.
  exists (Owner 9). do 2 eexists. split; [vm_compute; reflexivity|]. split; [reflexivity|]. split; [right; left; reflexivity|].
  split; vm_compute; reflexivity.
Qed.
Print Assumptions C97_owners_refuted.
