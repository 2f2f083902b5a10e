(** C95: loading a template by its path. *)
From Verif Require Import Base PyStr Alist Names_Model Owner_Model Owner_Spec Owner_Proofs Owner_Props Load_Model Load_Spec Load_Proofs.
Local Open Scope nat_scope.
Local Open Scope string_scope.
Local Open Scope list_scope.

(** For the examples: code that begins with bad does not run, code has a class named by what stands before its colon. *)
Definition demo : setup := mkSetup demo_tools None [L ".tmpl"] (L "/home")
  (fun co => negb (starts_with (L "bad") co)) (fun co => [fst (match split_char 58 co with a :: _ => (a, tt) | [] => ([], tt) end)]).
Definition world : fs := mkFs [(L "/", NDir 1); (L "/home", NDir 1); (L "/site/views", NDir 1); (L "views", NDir 1);
  (L "/site/views/index.tmpl", NFile 2 (L "hello")); (L "views/index.tmpl", NFile 2 (L "relative"));
  (L "/home/index.tmpl", NFile 2 (L "at home")); (L "/index.tmpl", NFile 2 (L "root"));
  (L "/site/views/string.tmpl", NFile 2 (L "text")); (L "/site/views/bad.tmpl", NFile 2 (L "x"));
  (L "/site/views/index.v2", NFile 2 (L "version")); (L "/site/views/index.v2.tmpl", NFile 2 (L "dotted"));
  (L "/site/views/fast.so", NFile 2 (L "binary")); (L "/site/views/both.tmpl", NFile 4 (L "template"));
  (L "/site/views/both.py", NFile 2 (L "python"))] 5.
Definition before : lst := mkL world [(L "string", MOther 1); (L "os", MOther 2)].

(** C95: the path names a directory, a name and an extension: slashes that are doubled change nothing. *)
Theorem C95_path : forall pre ds n e, named pre ds -> plain_name n -> extension e ->
  locate (shown pre ds ++ n ++ e) = (tidy pre ds, n, e).
Proof. exact locate_all. Qed.
Print Assumptions C95_path.
Example C95_path_ex : locate (L "//site///views//index.tmpl") = (L "/site/views", L "index", L ".tmpl")
  /\ L "//site///views//index.tmpl" = shown 2 [(L "site", 2); (L "views", 1)] ++ L "index" ++ L ".tmpl"
  /\ locate (L "index") = ([], L "index", []).
Proof. repeat split; reflexivity. Qed.

(** ... periods in front of a name belong to it and start no extension. *)
Theorem C95_hidden : forall pre ds k n e, named pre ds -> plain_name n -> extension e ->
  locate (shown pre ds ++ (repeat 46%N k ++ n) ++ e) = (tidy pre ds, repeat 46%N k ++ n, e).
Proof. exact locate_hidden. Qed.
Print Assumptions C95_hidden.
Example C95_hidden_ex : locate (L "/site//.index") = (L "/site", L ".index", []) /\ locate (L "..index.tmpl") = ([], L "..index", L ".tmpl")
  /\ L "/site//.index" = shown 1 [(L "site", 1)] ++ (repeat 46%N 1 ++ L "index") ++ [] /\ plain_name (L "index").
Proof. repeat split; try reflexivity; try discriminate; cbn; intro H; decompose [or] H; try discriminate; assumption. Qed.

(** C95: a template in that directory is compiled and run, its module is registered under its name, and its class is found
    there; the extension may be left away. *)
Theorem C95_template : forall u pre ds n e x s mt t code co,
  named pre ds -> plain_name n -> extension e -> (e = x \/ e = [] /\ u_exts u = [x]) -> x <> [] ->
  is_dir (meant (u_cwd u) pre ds) (l_fs s) = true -> no_module (u_tools u) (meant (u_cwd u) pre ds) n (l_fs s) ->
  aget (pjoin (meant (u_cwd u) pre ds) (n ++ x)) (files (l_fs s)) = Some (NFile mt t) ->
  o_template (u_tools u) n t = Some code -> o_compile (u_tools u) (code ++ [10%N]) = Some co -> u_runs u co = true ->
  exists file s', load_module u (shown pre ds ++ n ++ e) s = (Ok (n, FMod co file None), s')
    /\ aget n (l_mods s') = Some (MLoaded (FMod co file None))
    /\ (In n (u_names u co) -> load_class u (shown pre ds ++ n ++ e) s = (Ok (co, n), s')).
Proof. exact template_loaded. Qed.
Print Assumptions C95_template.
Example C95_template_ex :
  named 1 [(L "site", 0); (L "views", 1)] /\ plain_name (L "index") /\ extension [] /\
  is_dir (meant (u_cwd demo) 1 [(L "site", 0); (L "views", 1)]) world = true /\
  no_module (u_tools demo) (meant (u_cwd demo) 1 [(L "site", 0); (L "views", 1)]) (L "index") world /\
  fst (load_module demo (L "/site/views//index") before) = Ok (L "index", FMod (L "index:hello") (L "/site/views/index.py") None) /\
  fst (load_class demo (L "/site/views//index.tmpl") before) = Ok (L "index:hello", L "index").
Proof.
  split; [|split; [|split; [|split; [|split; [|split]]]]].
  - split; [left; discriminate|]. repeat constructor; try discriminate; cbn; intuition discriminate.
  - split; [discriminate|]. split; cbn; intuition discriminate.
  - left. reflexivity.
  - vm_compute. reflexivity.
  - split; apply (proj1 (scan_none _ _ _)); vm_compute; reflexivity.
  - vm_compute. reflexivity.
  - vm_compute. reflexivity.
Qed.

(** C95: with one extension for templates, the path with it and the path without it are the same. *)
Theorem C95_extension_optional : forall u pre ds n x s, named pre ds -> plain_name n -> extension x -> x <> [] -> u_exts u = [x] ->
  load_module u (shown pre ds ++ n) s = load_module u (shown pre ds ++ n ++ x) s.
Proof.
  intros u pre ds n x s H1 H2 H3 H4 H5. apply (load_same u _ _ (tidy pre ds) n x s); try assumption.
  - pose proof (locate_all pre ds n [] H1 H2 (or_introl eq_refl)) as H. rewrite app_nil_r in H. exact H.
  - apply locate_all; assumption.
Qed.
Print Assumptions C95_extension_optional.
Example C95_extension_optional_ex : extension (L ".tmpl") /\ u_exts demo = [L ".tmpl"]
  /\ load_module demo (L "views/index") before = load_module demo (L "views/index.tmpl") before
  /\ fst (load_module demo (L "views/index") before) = Ok (L "index", FMod (L "index:relative") (L "views/index.py") None).
Proof.
  split; [right; exists (L "tmpl"); split; [reflexivity|]; split; cbn; intuition discriminate|].
  split; [reflexivity|]. split; vm_compute; reflexivity.
Qed.

(** C95: if there is no module and no template, ModuleNotFoundError; nothing is changed. *)
Theorem C95_missing : forall u pre ds n e s, named pre ds -> plain_name n -> extension e ->
  is_dir (meant (u_cwd u) pre ds) (l_fs s) = true -> no_module (u_tools u) (meant (u_cwd u) pre ds) n (l_fs s) ->
  (forall x, In x (match e with [] => u_exts u | _ => [e] end) -> aget (pjoin (meant (u_cwd u) pre ds) (n ++ x)) (files (l_fs s)) = None) ->
  load_module u (shown pre ds ++ n ++ e) s = (Raise Missing, s).
Proof.
  intros u pre ds n e s H1 H2 H3 H4 H5 H6. rewrite <- meant_place in H4, H5, H6 by exact H1.
  apply (load_missing u _ (tidy pre ds) n e s); try assumption. apply locate_all; assumption.
Qed.
Print Assumptions C95_missing.
Example C95_missing_ex : load_module demo (L "/site/views/nothing") before = (Raise Missing, before)
  /\ no_module (u_tools demo) (L "/site/views") (L "nothing") world.
Proof. split; [vm_compute; reflexivity|]. split; apply (proj1 (scan_none _ _ _)); vm_compute; reflexivity. Qed.

(** C95: whatever happens, no other name in sys.modules is touched; and none at all if no code was run or nothing was found. *)
Theorem C95_other_modules : forall u path s r s', load_module u path s = (r, s') ->
  (forall k, k <> snd (fst (locate path)) -> aget k (l_mods s') = aget k (l_mods s))
  /\ (forall e, r = Raise e -> e <> NoCode -> e <> Running -> l_mods s' = l_mods s).
Proof.
  intros u path s r s' H. split; [exact (load_others u path s r s' H)|].
  intros e -> H1 H2. exact (load_failed u path s e s' H H1 H2).
Qed.
Print Assumptions C95_other_modules.
Example C95_other_modules_ex : aget (L "os") (l_mods (snd (load_module demo (L "/site/views/index") before))) = Some (MOther 2).
Proof. vm_compute. reflexivity. Qed.

(** C95: what is returned has run and is registered under its name. *)
Theorem C95_registered : forall u path s n m s', load_module u path s = (Ok (n, m), s') ->
  n = snd (fst (locate path)) /\ aget n (l_mods s') = Some (MLoaded m) /\ exists co file pkg, m = FMod co file pkg /\ u_runs u co = true.
Proof. exact load_registered. Qed.
Print Assumptions C95_registered.
Example C95_registered_ex : aget (L "index") (l_mods (snd (load_module demo (L "/site/views/index") before)))
  = Some (MLoaded (FMod (L "index:hello") (L "/site/views/index.py") None)).
Proof. vm_compute. reflexivity. Qed.

(** C95, refuted: a template in the root directory is looked for in the current directory. *)
Theorem C95_root_refuted : exists u path s t, aget (path ++ L ".tmpl") (files (l_fs s)) = Some (NFile 2 t)
  /\ is_dir (L "/") (l_fs s) = true /\ path = L "/index"
  /\ fst (load_module u path s) = Ok (L "index", FMod (L "index:at home") (L "/home/index.py") None) /\ t = L "root".
Proof. exists demo, (L "/index"), before, (L "root"). vm_compute. repeat split; reflexivity. Qed.
Print Assumptions C95_root_refuted.

(** C95, refuted: the extension may be left away of a name with a period. *)
Theorem C95_period_refuted : exists u path s, ahas (path ++ L ".tmpl") (files (l_fs s)) = true /\ u_exts u = [L ".tmpl"]
  /\ fst (load_module u path s) = Ok (L "index", FMod (L "index:version") (L "/site/views/index.py") None)
  /\ path = L "/site/views/index.v2".
Proof. exists demo, (L "/site/views/index.v2"), before. vm_compute. repeat split; reflexivity. Qed.
Print Assumptions C95_period_refuted.

(** C95, refuted: loading a template leaves the modules alone that are there: the module string of the library is replaced. *)
Theorem C95_replaces_refuted : exists u path s m s', aget (L "string") (l_mods s) = Some (MOther 1)
  /\ load_module u path s = (Ok (L "string", m), s') /\ aget (L "string") (l_mods s') = Some (MLoaded m).
Proof.
  exists demo, (L "/site/views/string"), before. do 2 eexists. split; [reflexivity|]. split; vm_compute; reflexivity.
Qed.
Print Assumptions C95_replaces_refuted.

(** C95, refuted: two templates can be loaded beside each other: of two with one name in two directories the second replaces the
    first. *)
Theorem C95_two_directories_refuted : exists u p q s m m' s' s'', load_module u p s = (Ok (L "index", m), s')
  /\ load_module u q s' = (Ok (L "index", m'), s'') /\ m <> m' /\ aget (L "index") (l_mods s'') = Some (MLoaded m').
Proof.
  exists demo, (L "/site/views/index"), (L "views/index"), before. do 4 eexists.
  split; [vm_compute; reflexivity|]. split; [vm_compute; reflexivity|]. split; [discriminate|vm_compute; reflexivity].
Qed.
Print Assumptions C95_two_directories_refuted.

(** C95, refuted: a module whose code raises is not left in sys.modules. *)
Theorem C95_failed_stays_refuted : exists u path s s' m, load_module u path s = (Raise Running, s')
  /\ aget (L "bad") (l_mods s) = None /\ aget (L "bad") (l_mods s') = Some (MLoaded m).
Proof. exists demo, (L "/site/views/bad"), before. do 2 eexists. split; [vm_compute; reflexivity|]. split; vm_compute; reflexivity. Qed.
Print Assumptions C95_failed_stays_refuted.

(** C95, refuted: a template that is not there is a ModuleNotFoundError: it is a ValueError if the directory is not there. *)
Theorem C95_no_directory_refuted : exists u path s, load_module u path s = (Raise NoDir, s).
Proof. exists demo, (L "/nowhere/index"), before. vm_compute. reflexivity. Qed.
Print Assumptions C95_no_directory_refuted.

(** C95, refuted: every module that is found can be loaded: an extension module is an AttributeError, and stays registered. *)
Theorem C95_extension_module_refuted : exists u path s s', load_module u path s = (Raise NoCode, s')
  /\ aget (L "fast") (l_mods s') = Some (MLoaded (FExt (L "/site/views/fast.so"))).
Proof. exists demo, (L "/site/views/fast"), before. eexists. split; vm_compute; reflexivity. Qed.
Print Assumptions C95_extension_module_refuted.

(** C95, refuted: the file that is named with its extension is loaded: a Python file of the name comes before it, though it is
    older. *)
Theorem C95_python_first_refuted : exists u path s f mt mt' t t', aget path (files (l_fs s)) = Some (NFile mt t)
  /\ aget f (files (l_fs s)) = Some (NFile mt' t') /\ (mt' < mt)%N /\ path = L "/site/views/both.tmpl"
  /\ fst (load_module u path s) = Ok (L "both", FMod t' f None) /\ t <> t'.
Proof.
  exists demo, (L "/site/views/both.tmpl"), before, (L "/site/views/both.py"), 4%N, 2%N, (L "template"), (L "python").
  split; [vm_compute; reflexivity|]. split; [vm_compute; reflexivity|]. split; [reflexivity|]. split; [reflexivity|].
  split; [vm_compute; reflexivity|discriminate].
Qed.
Print Assumptions C95_python_first_refuted.
