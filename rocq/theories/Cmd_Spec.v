(** Specification of what the command line finds: the files below a directory, and the places of the outputs. *)
From Verif Require Import Base PyStr Cmd_Model.

(** A name in a directory. *)
Definition name_ok (f : pystr) : Prop := f <> [] /\ ~ In 47%N f /\ f <> L "." /\ f <> L "..".

(** Directories list each name once. *)
Inductive tree_ok : node -> Prop :=
| tok_file : tree_ok File
| tok_other : tree_ok Other
| tok_dir : forall es, NoDup (map fst es) -> (forall f m, In (f, m) es -> name_ok f /\ tree_ok m) -> tree_ok (Dir es)
| tok_link : forall es, NoDup (map fst es) -> (forall f m, In (f, m) es -> name_ok f /\ tree_ok m) -> tree_ok (Link es).

(** The plain files in a directory and the directories below it, by the names on the way; links to directories are not
    followed. *)
Inductive below : list (pystr * node) -> list pystr -> Prop :=
| below_here : forall es f, In (f, File) es -> below es [f]
| below_down : forall es f es' p, In (f, Dir es') es -> below es' p -> below es (f :: p).

(** A path below a directory, written down; the empty path is the current directory. *)
Definition slashed (p : list pystr) : pystr := join (L "/") p.
Definition under (d rel : pystr) : pystr := match d with [] => rel | _ => d ++ L "/" ++ rel end.

(** A directory given without detours: steps upwards and names, or names after the root. *)
Definition straight (d : pystr) : Prop :=
  d = [] \/ exists up names, Forall name_ok names /\ repeat (L "..") up ++ names <> []
         /\ (d = slashed (repeat (L "..") up ++ names) \/ up = 0 /\ d = L "/" ++ slashed names).

(** An extension; an output directory. *)
Definition ext_ok (e : pystr) : Prop := (exists r, e = 46%N :: r) /\ ~ In 47%N e.
Definition odir_ok (d : pystr) : Prop := forall r, d <> r ++ [47%N].

(** The path without the extension. *)
Definition cut_ext (e s : pystr) : pystr := firstn (length s - length e) s.

(** The source and the output of the file at a path below the input directory. *)
Definition from_to (o : wopts) (p : list pystr) : pystr * pystr :=
  (under (w_idir o) (slashed p), under (w_odir o) (cut_ext (w_iext o) (slashed p) ++ w_oext o)).

(** Which source files an argument of the command line means. *)
Definition meant (look : pystr -> option node) (o : wopts) (recurse : bool) (a s : pystr) : Prop :=
  let path := os_join (w_idir o) a in
  look path = Some File /\ s = path
  \/ (look path = None \/ look path = Some Other) /\ ends_with (w_iext o) path = false /\ look (path ++ w_iext o) = Some File
     /\ s = path ++ w_iext o
  \/ recurse = true /\ exists es p, (look path = Some (Dir es) \/ look path = Some (Link es)) /\ below es p
     /\ ends_with (w_iext o) s = true /\ s = fold_left os_join p path.

(** A Python identifier of ASCII letters, digits and underscores. *)
Definition letters : pystr := L "abcdefghijklmnopqrstuvwxyzABCDEFGHIJKLMNOPQRSTUVWXYZ_".
Definition digits : pystr := L "0123456789".
Definition identifier (s : pystr) : Prop :=
  exists c r, s = c :: r /\ In c letters /\ Forall (fun x => In x letters \/ In x digits) r.

(** The commands that go by their names and initials. *)
Definition five : list pystr := map L ["compile"; "fill"; "help"; "options"; "version"]%string.

(** What can stand for a command: its name or its initial, after up to two dashes. *)
Definition stands_for (w n : pystr) : Prop :=
  exists d, In d [[]; L "-"; L "--"] /\ (w = d ++ n \/ exists c r, n = c :: r /\ w = d ++ [c]).

(** The complaint about an argument that means no file. *)
Definition complaint (look : pystr -> option node) (o : wopts) (a : pystr) (w : warning) : Prop :=
  let path := os_join (w_idir o) a in
  (look path = None /\ w = NotFound path \/ look path = Some Other /\ w = NotPlain path)
  /\ (ends_with (w_iext o) path = true \/ look (path ++ w_iext o) <> Some File).

(** An argument that is a directory. *)
Definition directory (look : pystr -> option node) (o : wopts) (a : pystr) : Prop :=
  exists es, look (os_join (w_idir o) a) = Some (Dir es) \/ look (os_join (w_idir o) a) = Some (Link es).
