(** What finding a module should mean. *)
From Verif Require Import Base PyStr Alist Names_Model Owner_Model.

(** Tools that fit together: cached code is read back as it was written, a line break at the end of a source
    changes nothing, different sources have different caches, and a cache is no source. *)
Definition sane (T : tools) : Prop :=
  (forall co, o_loads T (o_dumps T co) = Some co) /\ (forall t, o_compile T (t ++ [10%N]) = o_compile T t) /\
  (forall p q, o_cache T p = o_cache T q -> p = q) /\ (forall p b, o_cache T p <> b ++ L ".py").

(** The files that may hold the code of a name without its suffix. *)
Definition files_of (T : tools) (b : pystr) : list pystr :=
  map (fun e => b ++ e) (o_exts T) ++ [b ++ L ".py"; o_cache T (b ++ L ".py")].
Definition has_code (T : tools) (s : fs) (b : pystr) : Prop := exists p n, In p (files_of T b) /\ aget p (files s) = Some n.

(** Where a module is: a package with an __init__ comes before a module. *)
Inductive at_place (T : tools) (s : fs) (path nm : pystr) : pystr -> option pystr -> Prop :=
| at_pkg : is_dir (pjoin path nm) s = true -> has_code T s (pjoin (pjoin path nm) (L "__init__")) ->
    at_place T s path nm (pjoin (pjoin path nm) (L "__init__")) (Some (pjoin path nm))
| at_mod : is_dir (pjoin path nm) s = false \/ ~ has_code T s (pjoin (pjoin path nm) (L "__init__")) ->
    has_code T s (pjoin path nm) -> at_place T s path nm (pjoin path nm) None.

(** A module found at a place. *)
Definition found_at (T : tools) (b : pystr) (pkg : option pystr) (f : found) : Prop :=
  match f with
  | FExt p => exists e, In e (o_exts T) /\ p = b ++ e
  | FMod _ file k => k = pkg /\ (file = b ++ L ".py" \/ file = o_cache T (b ++ L ".py"))
  end.

(** ** Sources, caches and time *)
(** What happens: time passes, the user writes or removes a file, a module is looked for. *)
Inductive fop := Tick | Write (p t : pystr) | Remove (p : pystr) | Find (path nm : pystr).
Definition fstep (T : tools) (o : fop) (s : fs) : fs :=
  match o with
  | Tick => mkFs (files s) (clock s + 1)
  | Write p t => mkFs (aset p (NFile (clock s) t) (files s)) (clock s)
  | Remove p => mkFs (adel p (files s)) (clock s)
  | Find path nm => snd (dir_getmod T path nm s)
  end.
Definition fsteps (T : tools) (l : list fop) (s : fs) : fs := fold_left (fun s o => fstep T o s) l s.
(** The user does not write to caches, and a second passes between looking for a module and writing. *)
Fixpoint paced (T : tools) (looked : bool) (l : list fop) : Prop :=
  match l with
  | [] => True
  | Tick :: l => paced T false l
  | Write p _ :: l => looked = false /\ (forall q, o_cache T q <> p) /\ paced T looked l
  | Remove p :: l => paced T looked l
  | Find _ _ :: l => paced T true l
  end.
(** A state without caches and without files from the future. *)
Definition clean (T : tools) (s : fs) : Prop :=
  NoDup (keys (files s)) /\ (forall p n, aget p (files s) = Some n -> (mtime n <= clock s)%N) /\
  (forall q, aget (o_cache T q) (files s) = None).
(** The code found is that of the source as it is now. *)
Definition fresh (T : tools) (s : fs) (b : pystr) (f : found) : Prop :=
  forall co file pkg mt t, f = FMod co file pkg -> aget (b ++ L ".py") (files s) = Some (NFile mt t) -> o_compile T t = Some co.

(** ** Templates with a directory for the code *)
Inductive top := TTick | TWrite (t : pystr) | TImport.
Definition tstep (T : tools) (d : pystr) (path nm ext : pystr) (o : top) (s : fs) : fs :=
  match o with
  | TTick => mkFs (files s) (clock s + 1)
  | TWrite t => mkFs (aset (pjoin path (nm ++ ext)) (NFile (clock s) t) (files s)) (clock s)
  | TImport => snd (getmod T (Some d) [ext] path nm s)
  end.
Definition tsteps (T : tools) d path nm ext (l : list top) (s : fs) : fs := fold_left (fun s o => tstep T d path nm ext o s) l s.
(** No Python module of the name. *)
Definition no_module (T : tools) (path nm : pystr) (s : fs) : Prop :=
  ~ has_code T s (pjoin path nm) /\ ~ has_code T s (pjoin (pjoin path nm) (L "__init__")).
(** The text of the template after some operations. *)
Fixpoint last_text (l : list top) (t0 : pystr) : pystr :=
  match l with [] => t0 | TWrite t :: l => last_text l t | _ :: l => last_text l t0 end.
(** The file for the code of a template. *)
Definition code_file (d path nm ext : pystr) : pystr := pjoin d (convertTmplPathToModuleName (pjoin path (nm ++ ext))) ++ L ".py".
(** The directory for the code is elsewhere: its files are not those of the module, nor the template, nor the
    directory of a package; and the template is not a file of the module. *)
Definition elsewhere (T : tools) (d path nm ext : pystr) : Prop :=
  let f := code_file d path nm ext in
  let tp := pjoin path (nm ++ ext) in
  forall x, In x [f; o_cache T f; tp] ->
    ~ In x (files_of T (pjoin path nm)) /\ ~ In x (files_of T (pjoin (pjoin path nm) (L "__init__"))) /\ (x = tp -> ~ In tp [f; o_cache T f]).

(** The director has an owner for a path. *)
Definition owned (shadow : list (pystr * bool)) (s : fs) (p : pystr) : bool :=
  match aget p shadow with Some b => b | None => is_dir p s end.
