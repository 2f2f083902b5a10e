(** Property theorems C100 (the directive analyzer, Cheetah/DirectiveAnalyzer.py). *)
From Coq Require Import Permutation.
From Verif Require Import Base Analyze_Model Analyze_Spec Analyze_Proofs.
Local Open Scope string_scope. Local Open Scope list_scope.

(** For the examples: a source is its directives, with a blank behind each; the word bad is an error. *)
Fixpoint words (s : pystr) (w : pystr) : list pystr :=
  match s with
  | [] => []
  | c :: r => if N.eqb c 32 then rev w :: words r [] else words r (c :: w)
  end.
Definition toy : tools := mkTools (fun s => if str_eqb s (L "bad") then None else Some (words s []))
  (fun f => if str_eqb f (L "/d/a.tmpl") then Some (L "if set end set ") else if str_eqb f (L "/d/e/b.tmpl") then Some (L "set for end ")
            else if str_eqb f (L "/d/empty.tmpl") then Some [] else if str_eqb f (L "/d/bad.tmpl") then Some (L "bad")
            else if str_eqb f (L "/d/xtmpl") then Some (L "slurp ") else None).
Definition tree : list (pystr * list pystr) := [(L "/d", [L "a.tmpl"; L "empty.tmpl"; L "note.txt"]); (L "/d/e", [L "b.tmpl"])].

(** C100, a template: each directive that is eaten has its number, and there are no others. *)
Theorem C100_file : forall t f s ds, a_open t f = Some s -> a_parse t s = Some ds -> exists c, main_file t f = Ok c /\ count_of c ds.
Proof. intros t f s ds Ho Hp. apply file_count. exists s. auto. Qed.
Print Assumptions C100_file.
Example C100_file_ex : a_parse toy (L "if set end set ") = Some [L "if"; L "set"; L "end"; L "set"] /\
  main_file toy (L "/d/a.tmpl") = Ok [(L "if", 1); (L "set", 2); (L "end", 1)].
Proof. split; reflexivity. Qed.

(** C100, a directory: the totals are a count of all directives of all templates with the ending, *)
Theorem C100_total : forall t walk suffix dss, Forall2 (fun f ds => exists s, a_open t f = Some s /\ a_parse t s = Some ds) (find_templates walk suffix) dss ->
  exists c, main_dir t walk suffix = Ok c /\ count_of c (concat dss).
Proof. intros t walk suffix dss H. exact (loop_count t _ dss [] [] H nil_count). Qed.
Print Assumptions C100_total.
Example C100_total_ex : find_templates tree (L "tmpl") = [L "/d/a.tmpl"; L "/d/empty.tmpl"; L "/d/e/b.tmpl"] /\
  main_dir toy tree (L "tmpl") = Ok [(L "if", 1); (L "set", 3); (L "end", 2); (L "for", 1)].
Proof. split; reflexivity. Qed.

(** ... these templates are the files of the walk with that ending, with their directory; *)
Theorem C100_found : forall walk suffix p, In p (find_templates walk suffix) <->
  exists root files f, In (root, files) walk /\ In f files /\ named_with suffix f /\ p = root ++ L "/" ++ f.
Proof. exact found. Qed.
Print Assumptions C100_found.
Example C100_found_ex : In (L "/d/e/b.tmpl") (find_templates tree (L "tmpl")) /\ ~ In (L "/d/note.txt") (find_templates tree (L "tmpl")) /\
  named_with (L "tmpl") (L "b.tmpl").
Proof.
  split; [vm_compute; auto|]. split; [vm_compute; intro H; decompose [or] H; try discriminate; assumption|]. exists (L "b."). reflexivity.
Qed.

(** ... and the order in which the file system gives the files does not matter. *)
Theorem C100_order : forall t walk walk' suffix dss dss',
  Forall2 (fun f ds => exists s, a_open t f = Some s /\ a_parse t s = Some ds) (find_templates walk suffix) dss ->
  Forall2 (fun f ds => exists s, a_open t f = Some s /\ a_parse t s = Some ds) (find_templates walk' suffix) dss' -> Permutation dss dss' ->
  exists c c', main_dir t walk suffix = Ok c /\ main_dir t walk' suffix = Ok c' /\ forall k n, says c k n <-> says c' k n.
Proof.
  intros t walk walk' suffix dss dss' H H' P. destruct (C100_total t walk suffix dss H) as (c & E & Hc).
  destruct (C100_total t walk' suffix dss' H') as (c' & E' & Hc'). exists c, c'. split; [exact E|]. split; [exact E'|].
  assert (Q : Permutation (concat dss') (concat dss)).
  { clear - P. induction P; cbn [concat]; [reflexivity|apply Permutation_app_head; assumption| |etransitivity; eassumption].
    rewrite !app_assoc. apply Permutation_app_tail. apply Permutation_app_comm. }
  pose proof (count_perm _ _ _ Hc' Q) as Hq. apply count_get in Hc as (A & _ & C). apply count_get in Hq as (A' & _ & C').
  intros k n. rewrite (says_get c k n A), (says_get c' k n A'), C, C'. reflexivity.
Qed.
Print Assumptions C100_order.
Example C100_order_ex : main_dir toy (rev tree) (L "tmpl") = Ok [(L "set", 3); (L "for", 1); (L "end", 2); (L "if", 1)] /\
  main_dir toy tree (L "tmpl") <> main_dir toy (rev tree) (L "tmpl").
Proof. split; [reflexivity|vm_compute; discriminate]. Qed.

(** C100, errors: a template that cannot be opened or parsed is the end: there are no totals, whatever the other templates are. *)
Theorem C100_error : forall t walk suffix fs dss f gs e, find_templates walk suffix = fs ++ f :: gs ->
  Forall2 (fun f ds => exists s, a_open t f = Some s /\ a_parse t s = Some ds) fs dss -> main_file t f = Raise e ->
  main_dir t walk suffix = Raise e.
Proof. intros t walk suffix fs dss f gs e H F E. unfold main_dir. rewrite H. exact (loop_error t fs f gs dss e F E []). Qed.
Print Assumptions C100_error.
Example C100_error_ex : main_file toy (L "/d/bad.tmpl") = Raise (ParseE (L "bad")) /\
  find_templates [(L "/d", [L "a.tmpl"; L "bad.tmpl"; L "empty.tmpl"])] (L "tmpl") = [L "/d/a.tmpl"] ++ L "/d/bad.tmpl" :: [L "/d/empty.tmpl"].
Proof. split; reflexivity. Qed.

(** C100, refuted: the suffix is the extension of the files: with the default suffix a file without extension is a template, and the
    file next to it that has the extension in capitals is none. *)
Theorem C100_suffix_refuted : exists walk root f, find_templates walk (L "tmpl") = [root ++ L "/" ++ f] /\ ~ In 46%N f.
Proof. exists [(L "/d", [L "xtmpl"; L "a.TMPL"])], (L "/d"), (L "xtmpl"). split; [reflexivity|vm_compute; intro H; decompose [or] H; try discriminate; assumption]. Qed.
Print Assumptions C100_suffix_refuted.

(** C100, refuted: with a file and a directory the file is in the result: it is analyzed, and thrown away. *)
Theorem C100_both_refuted : exists t f walk c c', main t (Some f) None (L "tmpl") = Ok (Some c) /\ c <> [] /\
  main t None (Some walk) (L "tmpl") = Ok (Some c') /\ main t (Some f) (Some walk) (L "tmpl") = Ok (Some c') /\
  ~ (forall k, In k (map fst c) -> In k (map fst c')).
Proof.
  exists toy, (L "/d/xtmpl"), tree. do 2 eexists. split; [vm_compute; reflexivity|]. split; [discriminate|].
  split; [vm_compute; reflexivity|]. split; [vm_compute; reflexivity|]. intro H. specialize (H (L "slurp") (or_introl eq_refl)).
  vm_compute in H. decompose [or] H; try discriminate; assumption.
Qed.
Print Assumptions C100_both_refuted.
