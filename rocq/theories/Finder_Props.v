(** Property theorems C103 (FileFinder, Cheetah/FileUtils.py). *)
From Verif Require Import Base Finder_Model Finder_Spec Finder_Proofs.
Local Open Scope string_scope. Local Open Scope list_scope.

(** For the examples: the pattern of a star, and of a star and an ending; hidden names match neither. *)
Definition star (n : pystr) : bool := match n with c :: _ => negb (N.eqb c 46) | [] => false end.
Definition star_with (suffix n : pystr) : bool := star n && starts_with (rev suffix) (rev n).
Definition tree : list (pystr * node) :=
  [(L "a.py", NFile); (L "CVS", NDir [(L "b.py", NFile)]); (L "sub", NDir [(L "c.py", NFile); (L "d.txt", NFile); (L "deep", NDir [(L "e.py", NFile)])]);
   (L "old", NDir [(L "f.py", NFile)])].
Definition python : finder := mkFinder [star_with (L ".py")] [L "CVS"; L ".svn"] [L "/r/old"].

(** C103: the search ends, and finds exactly the names that match a pattern in the directories one gets to through directories that
    are not to be left out, each with its path. *)
Theorem C103_found : forall f root es, exists r, find_files f root es = Some r /\ forall p, In p r <->
  exists d' es' n x pat, inside (fun n full => ~ In n (f_names f) /\ ~ In full (f_dirs f)) root es d' es' /\
    In (n, x) es' /\ In pat (f_patterns f) /\ pat n = true /\ p = d' ++ L "/" ++ n.
Proof. exact find_spec. Qed.
Print Assumptions C103_found.
Example C103_found_ex : find_files python (L "/r") tree = Some [L "/r/a.py"; L "/r/sub/c.py"; L "/r/sub/deep/e.py"] /\
  inside (fun n full => ~ In n (f_names python) /\ ~ In full (f_dirs python)) (L "/r") tree (L "/r/sub/deep") [(L "e.py", NFile)].
Proof.
  split; [vm_compute; reflexivity|].
  apply inside_sub with (n := L "sub") (sub := [(L "c.py", NFile); (L "d.txt", NFile); (L "deep", NDir [(L "e.py", NFile)])]).
  - right. right. left. reflexivity.
  - split; vm_compute; intro H; decompose [or] H; try discriminate; assumption.
  - apply inside_sub with (n := L "deep") (sub := [(L "e.py", NFile)]).
    + right. right. left. reflexivity.
    + split; vm_compute; intro H; decompose [or] H; try discriminate; assumption.
    + constructor.
Qed.

(** C103, refuted: what is found is a file: with the default pattern directories are found too, even those that are left out. *)
Theorem C103_files_refuted : exists f root es r d, find_files f root es = Some r /\ In (root ++ L "/" ++ d) r /\
  In d (f_names f) /\ exists sub, In (d, NDir sub) es.
Proof.
  exists (mkFinder [star] [L "CVS"; L ".svn"] []), (L "/r"), tree. do 2 eexists. split; [vm_compute; reflexivity|].
  split; [right; left; reflexivity|]. split; [left; reflexivity|]. eexists. right. left. reflexivity.
Qed.
Print Assumptions C103_files_refuted.

(** C103, refuted: every file is found once: one that matches two patterns is there twice. *)
Theorem C103_once_refuted : exists f root es r, find_files f root es = Some r /\ NoDup (map fst es) /\ ~ NoDup r.
Proof.
  exists (mkFinder [star_with (L ".py"); star_with (L "a.py")] [] []), (L "/r"), [(L "a.py", NFile)]. eexists. split; [vm_compute; reflexivity|].
  split; [constructor; [intros []|constructor]|]. intro H. inversion H as [|? ? K _]; subst. apply K. left. reflexivity.
Qed.
Print Assumptions C103_once_refuted.

(** C103, refuted: a directory to be left out is left out: not the one the search starts with. *)
Theorem C103_root_refuted : exists f root es r, find_files f root es = Some r /\ In root (f_dirs f) /\ r <> [].
Proof. exists (mkFinder [star] [] [L "/r"]), (L "/r"), tree. eexists. split; [vm_compute; reflexivity|]. split; [left; reflexivity|discriminate]. Qed.
Print Assumptions C103_root_refuted.
