(** Property theorems C90 (the command line). *)
From Verif Require Import Base PyStr Wrapper_Model Cmd_Model Cmd_Spec Cmd_Proofs.
From Coq Require Import Permutation.
Local Open Scope nat_scope.
Local Open Scope string_scope.
Local Open Scope list_scope.

(** ** Trees for examples *)

Definition es0 : list (pystr * node) :=
  [(L "a.tmpl", File); (L "notes.txt", File); (L "sub", Dir [(L "b.tmpl", File); (L "deep", Dir [(L "c.tmpl", File); (L "pipe.tmpl", Other)])]);
   (L "d.tmpl", Dir []); (L "far", Link [(L "e.tmpl", File)])].
Definition look0 (p : pystr) : option node :=
  if str_eqb p (L "t/.") || str_eqb p (L "t") || str_eqb p (L "./t/.") || str_eqb p (L "./t") then Some (Dir es0)
  else if str_eqb p (L "t/a.tmpl") || str_eqb p (L "t/notes.txt") then Some File
  else if str_eqb p (L "t/pipe") then Some Other
  else if str_eqb p (L ".") then Some (Dir [(L "x.tmpl", File)])
  else if str_eqb p (L "/.") || str_eqb p (L "/") then Some (Dir [(L "y.tmpl", File)])
  else None.
Definition opts0 := mkWO false (L "t") (L ".tmpl") (L "out") (L ".py").

Ltac name_ok_tac := split; [discriminate|split; [cbn; intuition discriminate|split; discriminate]].
Lemma names0 : forall n, In n ["a.tmpl"; "notes.txt"; "sub"; "b.tmpl"; "deep"; "c.tmpl"; "pipe.tmpl"; "d.tmpl"; "far"; "e.tmpl"] -> name_ok (L n).
Proof. intros n H. cbn [In] in H. repeat (destruct H as [<-|H]; [name_ok_tac|]). destruct H. Qed.
Ltac pick := cbn; repeat (first [left; reflexivity|right]).
Lemma tree0 : tree_ok (Dir es0).
Proof.
  assert (ND : forall l : list pystr, (fix nd l := match l with [] => true | x :: r => negb (existsb (str_eqb x) r) && nd r end) l = true -> NoDup l).
  { induction l as [|x r IH]; intro H; [constructor|]. apply andb_true_iff in H as [H1 H2]. constructor; [|exact (IH H2)].
    intro I. apply negb_true_iff in H1. assert (X : existsb (str_eqb x) r = true) by (apply existsb_exists; exists x; split; [exact I|apply str_eqb_refl]).
    congruence. }
  constructor; [apply ND; vm_compute; reflexivity|]. intros f m I. cbn [In es0] in I.
  destruct I as [E|[E|[E|[E|[E|[]]]]]]; injection E as <- <-; (split; [apply names0; pick|]); try constructor;
  try (apply ND; vm_compute; reflexivity); intros f m I; cbn [In] in I; repeat (destruct I as [E|I]; [injection E as <- <-; (split; [apply names0; pick|]); try constructor|]);
  try destruct I; try (apply ND; vm_compute; reflexivity).
  intros f m I; cbn [In] in I; repeat (destruct I as [E|I]; [injection E as <- <-; (split; [apply names0; pick|]); constructor|]); destruct I.
Qed.
Lemma straight0 : straight (L "t").
Proof. right. exists 0, [L "t"]. split; [constructor; [name_ok_tac|constructor]|]. split; [discriminate|]. left. reflexivity. Qed.
Lemma ext0 : ext_ok (L ".tmpl").
Proof. split; [eexists; reflexivity|cbn; intuition discriminate]. Qed.

(** ** C90: -R without files *)

(** C90: with -R and no files, exactly the plain files with the input extension in the input directory and the directories
    below it are processed, each once: the file idir/p goes to odir/p with the output extension for the input one. *)
Theorem C90_recursive : forall look o n es, w_flat o = false -> straight (w_idir o) -> ext_ok (w_iext o) ->
  (w_oext o = [] \/ ext_ok (w_oext o)) -> odir_ok (w_odir o) ->
  look (under (w_idir o) (L ".")) = Some n -> n = Dir es \/ n = Link es -> tree_ok n ->
  exists ps, NoDup ps /\ (forall p, In p ps <-> below es p /\ exists t, last p [] = t ++ w_iext o)
  /\ compile_or_fill look o true [] = CRun (Some (Processed (map (from_to o) ps))) [].
Proof. exact recursive_es. Qed.
Print Assumptions C90_recursive.

Example C90_recursive_ex :
  straight (w_idir opts0) /\ ext_ok (w_iext opts0) /\ ext_ok (w_oext opts0) /\ odir_ok (w_odir opts0)
  /\ look0 (under (w_idir opts0) (L ".")) = Some (Dir es0) /\ tree_ok (Dir es0)
  /\ compile_or_fill look0 opts0 true []
     = CRun (Some (Processed [(L "t/a.tmpl", L "out/a.py"); (L "t/sub/b.tmpl", L "out/sub/b.py"); (L "t/sub/deep/c.tmpl", L "out/sub/deep/c.py")])) [].
Proof.
  split; [exact straight0|]. split; [exact ext0|]. split; [split; [eexists; reflexivity|cbn; intuition discriminate]|].
  split; [intros r E; apply (f_equal (@rev _)) in E; rewrite rev_app_distr in E; discriminate E|].
  split; [reflexivity|]. split; [exact tree0|]. vm_compute. reflexivity.
Qed.

(** C90: their sources are different paths, and so are their outputs. *)
Theorem C90_outputs : forall o ps, NoDup ps ->
  (forall p, In p ps -> p <> [] /\ Forall name_ok p /\ exists t, last p [] = t ++ w_iext o) ->
  NoDup (map fst (map (from_to o) ps)) /\ NoDup (map snd (map (from_to o) ps)).
Proof. exact outputs_distinct. Qed.
Print Assumptions C90_outputs.

Definition ps0 : list (list pystr) := [[L "a.tmpl"]; [L "sub"; L "b.tmpl"]; [L "sub"; L "deep"; L "c.tmpl"]].
Lemma ps0_ok : NoDup ps0 /\ forall p, In p ps0 -> p <> [] /\ Forall name_ok p /\ exists t, last p [] = t ++ w_iext opts0.
Proof.
  split; [repeat constructor; cbn; intuition discriminate|]. intros p I. cbn [In ps0] in I.
  destruct I as [<-|[<-|[<-|[]]]]; (split; [discriminate|split; [repeat (constructor; [apply names0; pick|]); constructor|]]).
  - exists (L "a"). reflexivity.
  - exists (L "b"). reflexivity.
  - exists (L "c"). reflexivity.
Qed.
Example C90_outputs_ex : (NoDup ps0 /\ forall p, In p ps0 -> p <> [] /\ Forall name_ok p /\ exists t, last p [] = t ++ w_iext opts0)
  /\ map snd (map (from_to opts0) ps0) = map L ["out/a.py"; "out/sub/b.py"; "out/sub/deep/c.py"].
Proof. split; [exact ps0_ok|vm_compute; reflexivity]. Qed.

(** C90: cheetah compile takes the files in order up to the first whose name without the extension is no identifier, and
    names that one in its error. *)
Theorem C90_compile : forall o ps,
  (forall p, In p ps -> p <> [] /\ Forall name_ok p /\ (exists t, last p [] = t ++ w_iext o) /\ ~ In 10%N (last p [])) ->
  exists good rest, ps = good ++ rest
  /\ Forall (fun p => identifier (cut_ext (w_iext o) (last p []))) good
  /\ match rest with
     | [] => compile_all o (map (from_to o) ps) = (map (fun p => under (w_idir o) (slashed p)) good, None)
     | p :: _ => ~ identifier (cut_ext (w_iext o) (last p []))
                 /\ compile_all o (map (from_to o) ps)
                    = (map (fun p => under (w_idir o) (slashed p)) good, Some (under (w_idir o) (slashed p)))
     end.
Proof. exact compiled. Qed.
Print Assumptions C90_compile.

Definition ps1 : list (list pystr) := [[L "a.tmpl"]; [L "sub"; L "b-2.tmpl"]; [L "z.tmpl"]].
Example C90_compile_ex :
  (forall p, In p ps1 -> p <> [] /\ Forall name_ok p /\ (exists t, last p [] = t ++ w_iext opts0) /\ ~ In 10%N (last p []))
  /\ compile_all opts0 (map (from_to opts0) ps1) = ([L "t/a.tmpl"], Some (L "t/sub/b-2.tmpl"))
  /\ compile_all opts0 (map (from_to opts0) ps0) = (map L ["t/a.tmpl"; "t/sub/b.tmpl"; "t/sub/deep/c.tmpl"], None).
Proof.
  split; [|split; vm_compute; reflexivity]. intros p I. cbn [In ps1] in I.
  destruct I as [<-|[<-|[<-|[]]]]; (split; [discriminate|split; [repeat (constructor; [name_ok_tac|]); constructor|split; [|cbn; intuition discriminate]]]).
  - exists (L "a"). reflexivity.
  - exists (L "b-2"). reflexivity.
  - exists (L "z"). reflexivity.
Qed.

(** ** C90: files named *)

(** C90: with arguments, the files they mean ([meant]) and no others become bundles, and exactly the arguments that mean
    none are complained about; a directory without -R is an error before anything is done. *)
Theorem C90_named : forall look o recurse args, args <> [] -> args <> [L "-"] ->
  match compile_or_fill look o recurse args with
  | CRun r ws =>
      (recurse = true \/ forall a, In a args -> ~ directory look o a)
      /\ (exists l, r = run_wrapper o (map normpath l) /\ forall s, In s l <-> exists a, In a args /\ meant look o recurse a s)
      /\ (forall w, In w ws <-> exists a, In a args /\ complaint look o a w)
  | CError (IsDirectory p) => recurse = false /\ exists a, In a args /\ p = os_join (w_idir o) a /\ directory look o a
  | _ => False
  end.
Proof. exact named. Qed.
Print Assumptions C90_named.

Example C90_named_ex :
  map (fun args => compile_or_fill look0 opts0 false (map L args)) [["a"; "notes.txt"; "gone"; "pipe"]; ["a.tmpl"; "/"]]
  = [CRun (Some (Processed [(L "t/a.tmpl", L "out/a.py"); (L "t/notes.txt", L "out/notes.txt.py")])) [NotFound (L "t/gone"); NotPlain (L "t/pipe")];
     CError (IsDirectory (L "/"))]
  /\ compile_or_fill look0 opts0 true [L "/"] = CRun (Some (Processed [(L "/y.tmpl", L "out/y.py")])) [].
Proof. split; vm_compute; reflexivity. Qed.

(** C90: no argument goes unanswered. *)
Theorem C90_answered : forall look o recurse a,
  directory look o a \/ (exists s, meant look o recurse a s) \/ exists w, complaint look o a w.
Proof. exact answered. Qed.
Print Assumptions C90_answered.

Example C90_answered_ex :
  directory look0 opts0 (L "/") /\ meant look0 opts0 false (L "a") (L "t/a.tmpl") /\ complaint look0 opts0 (L "pipe") (NotPlain (L "t/pipe")).
Proof.
  split; [exists [(L "y.tmpl", File)]; left; reflexivity|]. split.
  - right. left. split; [left; reflexivity|]. split; [reflexivity|]. split; reflexivity.
  - split; [right; split; reflexivity|]. right. discriminate.
Qed.

(** ** C90: in parallel *)

(** C90: with --parallel k, whatever order the children end in: the bundles are started from the last one, each in its own
    child; there are never more than k children; every child started is waited for; the run counts as failed exactly when
    one of them exited with a status other than 0; and if it does not, all bundles were started. *)
Theorem C90_parallel : forall B (ends : B -> ending) next k bs, 1 < k ->
  let p := in_parallel B ends next k bs in
  (exists rest, rev bs = p_started B p ++ rest /\ (p_bad B p = 0 -> rest = []))
  /\ Permutation (map fst (p_waited B p)) (p_started B p)
  /\ (forall x, In x (p_waited B p) -> snd x <= k)
  /\ (p_bad B p = 0 <-> forall b, In b (p_started B p) -> wexitstatus (ends b) = 0).
Proof. exact parallel_spec. Qed.
Print Assumptions C90_parallel.

(** C90: if every child exits with status 0, each bundle is done exactly once and the run is a success. *)
Theorem C90_parallel_all : forall B (ends : B -> ending) next k bs, 1 < k -> (forall b, ends b = Exit 0) ->
  let p := in_parallel B ends next k bs in
  Permutation (p_started B p) bs /\ Permutation (map fst (p_waited B p)) bs /\ p_bad B p = 0.
Proof. exact parallel_ok. Qed.
Print Assumptions C90_parallel_all.

Definition ends0 (n : nat) : ending := match n with 3 => Exit 1 | 9 => Signal 11 | _ => Exit 0 end.
Example C90_parallel_ex :
  in_parallel nat ends0 (fun t _ => 0) 3 [1; 2; 3; 4; 5; 6] = mkP nat [6; 5; 4; 3] [(4, 3); (3, 3); (5, 2); (6, 1)] 1
  /\ in_parallel nat ends0 (fun t l => 7 * t) 2 [1; 2; 4; 5] = mkP nat [5; 4; 2; 1] [(4, 2); (5, 2); (1, 2); (2, 1)] 0
  /\ (forall b, (fun _ : nat => Exit 0) b = Exit 0).
Proof. split; [vm_compute; reflexivity|]. split; [vm_compute; reflexivity|]. reflexivity. Qed.

(** ** C90: commands *)

(** C90: the commands compile, fill, help, options and version are called by their names or their initials, with up to two
    dashes before them, with the options in the other arguments. *)
Theorem C90_commands : forall Opts (parse : bool -> list pystr -> option Opts) prog w n args, In n five -> stands_for w n ->
  main Opts parse (prog :: w :: args)
  = match parse (str_eqb n (L "compile")) args with None => BadOption Opts | Some o => Does Opts n o end.
Proof. exact command_runs. Qed.
Print Assumptions C90_commands.

(** C90: and in no other way. *)
Theorem C90_only : forall Opts (parse : bool -> list pystr -> option Opts) argv n o, main Opts parse argv = Does Opts n o ->
  exists prog w args, argv = prog :: w :: args /\ In n five /\ stands_for w n /\ parse (str_eqb n (L "compile")) args = Some o.
Proof. exact command_only. Qed.
Print Assumptions C90_only.

Definition parse0 (c : bool) (l : list pystr) : option (list pystr) := Some l.
Example C90_commands_ex :
  In (L "fill") five /\ stands_for (L "--f") (L "fill")
  /\ map (fun w => main _ parse0 [L "cheetah"; L w; L "a"]) ["compile"; "-c"; "--f"; "v"; "--help"]
     = map (fun n => Does _ (L n) [L "a"]) ["compile"; "compile"; "fill"; "version"; "help"]
  /\ map (fun w => main _ parse0 [L "cheetah"; L w; L "a"]) ["---c"; "co"; "test"]
     = [Usage _ (L "unknown command '-c'"); Usage _ (L "unknown command 'co'"); Tests _ [L "a"]].
Proof.
  split; [right; left; reflexivity|]. split; [|split; vm_compute; reflexivity].
  exists (L "--"). split; [right; right; left; reflexivity|]. right. exists 102%N, (L "ill"). split; reflexivity.
Qed.
Example C90_only_ex : main _ parse0 [L "cheetah"; L "-o"] = Does _ (L "options") [].
Proof. vm_compute. reflexivity. Qed.

(** ** C90: what is false *)

(** C90 does not hold of an input directory with a detour: with --idir ./t the output of ./t/a.tmpl is out/t/a.py, not
    out/a.py. *)
Theorem C90_detour_refuted : exists look o bs, look (under (w_idir o) (L ".")) = Some (Dir es0) /\ below es0 [L "a.tmpl"]
  /\ compile_or_fill look o true [] = CRun (Some (Processed bs)) [] /\ In (L "t/a.tmpl", L "out/t/a.py") bs
  /\ ~ In (L "out/a.py") (map snd bs).
Proof.
  exists look0, (mkWO false (L "./t") (L ".tmpl") (L "out") (L ".py")),
    [(L "t/a.tmpl", L "out/t/a.py"); (L "t/sub/b.tmpl", L "out/t/sub/b.py"); (L "t/sub/deep/c.tmpl", L "out/t/sub/deep/c.py")].
  split; [reflexivity|]. split; [apply below_here; left; reflexivity|]. split; [vm_compute; reflexivity|].
  split; [left; reflexivity|]. cbn [map snd]. intros [E|[E|[E|[]]]]; discriminate E.
Qed.
Print Assumptions C90_detour_refuted.

(** C90 does not hold of the root as input directory: --idir / is cut to nothing and the current directory is taken. *)
Theorem C90_root_refuted : exists look o bs, w_idir o = cleanup_dir (L "/")
  /\ look (L "/.") = Some (Dir [(L "y.tmpl", File)]) /\ look (L ".") = Some (Dir [(L "x.tmpl", File)])
  /\ compile_or_fill look o true [] = CRun (Some (Processed bs)) [] /\ map fst bs = [L "x.tmpl"].
Proof.
  exists look0, (mkWO false (cleanup_dir (L "/")) (L ".tmpl") (L "out") (L ".py")), [(L "x.tmpl", L "out/x.py")].
  split; [reflexivity|]. split; [reflexivity|]. split; [reflexivity|]. split; [vm_compute; reflexivity|reflexivity].
Qed.
Print Assumptions C90_root_refuted.

(** C90 does not hold of links: templates in a directory reached through a symbolic link are not found. *)
Theorem C90_linked_refuted : exists look o bs es, In (L "far", Link es) es0 /\ In (L "e.tmpl", File) es
  /\ look (under (w_idir o) (L ".")) = Some (Dir es0)
  /\ compile_or_fill look o true [] = CRun (Some (Processed bs)) [] /\ ~ In (L "t/far/e.tmpl") (map fst bs).
Proof.
  exists look0, opts0, [(L "t/a.tmpl", L "out/a.py"); (L "t/sub/b.tmpl", L "out/sub/b.py"); (L "t/sub/deep/c.tmpl", L "out/sub/deep/c.py")],
    [(L "e.tmpl", File)].
  split; [right; right; right; right; left; reflexivity|]. split; [left; reflexivity|]. split; [reflexivity|].
  split; [vm_compute; reflexivity|]. cbn [map fst]. intros [E|[E|[E|[]]]]; discriminate E.
Qed.
Print Assumptions C90_linked_refuted.

(** C90 does not hold of a file named twice, once without its extension: it is done twice, the second time the backup is
    made of the new output, and the text that was in the output file is in no file. *)
Theorem C90_twice_refuted : exists look o args src dst f ops1 ops2,
  compile_or_fill look o false args = CRun (Some (Processed [(src, dst); (src, dst)])) []
  /\ aget dst f = Some (L "mine")
  /\ bundle_ops f dst false false (Ok (L "code") : res unit pystr) [L "mine"] [L "code"] = Ok ops1
  /\ bundle_ops (fapply_all f ops1) dst false false (Ok (L "code") : res unit pystr) [L "code"] [L "code"] = Ok ops2
  /\ ~ In (L "mine") (map snd (fapply_all (fapply_all f ops1) ops2)).
Proof.
  exists look0, opts0, [L "a"; L "a.tmpl"], (L "t/a.tmpl"), (L "out/a.py"), [(L "out/a.py", L "mine")],
    (write_ops (L "out/a.py.bak") [L "mine"] ++ write_ops (L "out/a.py") [L "code"]),
    (write_ops (L "out/a.py.bak") [L "code"] ++ write_ops (L "out/a.py") [L "code"]).
  split; [vm_compute; reflexivity|]. split; [reflexivity|]. split; [vm_compute; reflexivity|]. split; [vm_compute; reflexivity|].
  vm_compute. intros [E|[E|[]]]; discriminate E.
Qed.
Print Assumptions C90_twice_refuted.

(** C90 does not hold of failure: when none of the files is there, the run is as successful as any. *)
Theorem C90_missing_refuted : exists look o args, args <> [] /\ (forall a, In a args -> look (os_join (w_idir o) a) = None)
  /\ compile_or_fill look o false args = CRun (Some (Processed [])) [NotFound (L "t/gone")].
Proof.
  exists look0, opts0, [L "gone"]. split; [discriminate|]. split; [intros a [<-|[]]; reflexivity|]. vm_compute. reflexivity.
Qed.
Print Assumptions C90_missing_refuted.

(** C90 does not hold of the files after one with a bad name: they are not compiled, although earlier ones were. *)
Theorem C90_stops_refuted : exists o ps p, In p ps /\ identifier (cut_ext (w_iext o) (last p []))
  /\ compile_all o (map (from_to o) ps) = ([L "t/a.tmpl"], Some (L "t/sub/b-2.tmpl")) /\ p = [L "z.tmpl"].
Proof.
  exists opts0, ps1, [L "z.tmpl"]. split; [right; right; left; reflexivity|]. split; [|split; [vm_compute; reflexivity|reflexivity]].
  exists 122%N, []. split; [reflexivity|]. split; [|constructor]. apply letter_iff. reflexivity.
Qed.
Print Assumptions C90_stops_refuted.

(** C90 does not hold of names that end in a line feed: they pass for module names. *)
Theorem C90_line_feed_refuted : exists s, ~ identifier s /\ module_name s = true.
Proof.
  exists (L "a" ++ [10%N]). split; [|reflexivity]. intros (c & r & E & _ & H). injection E as <- <-. inversion H as [|x l H1 _]; subst.
  destruct H1 as [H1|H1]; [apply letter_iff in H1|apply digit_iff in H1]; discriminate H1.
Qed.
Print Assumptions C90_line_feed_refuted.

(** C90 does not hold of children that are killed: by a signal, they count as successes, and the run succeeds without their
    output. *)
Theorem C90_killed_refuted : exists (ends : nat -> ending) next k bs b, In b bs /\ ends b = Signal 11
  /\ p_bad nat (in_parallel nat ends next k bs) = 0 /\ 1 < k.
Proof.
  exists ends0, (fun t _ => t), 2, [1; 9; 4], 9. split; [right; left; reflexivity|]. split; [reflexivity|].
  split; [vm_compute; reflexivity|]. auto.
Qed.
Print Assumptions C90_killed_refuted.

(** C90 does not hold of the command test: its initial is an AttributeError, with options parsed as if it were another
    command. *)
Theorem C90_test_refuted : exists w, stands_for w (L "test") /\ In (L "test") commands
  /\ main _ parse0 [L "cheetah"; L "test"; L "-v"] = Tests _ [L "-v"] /\ main _ parse0 [L "cheetah"; w; L "-v"] = Attribute _.
Proof.
  exists (L "-t"). split; [exists (L "-"); split; [right; left; reflexivity|]; right; exists 116%N, (L "est"); split; reflexivity|].
  split; [cbn; auto 8|]. split; vm_compute; reflexivity.
Qed.
Print Assumptions C90_test_refuted.

(** C90 does not hold of the message for an empty command: arguments are there, and it says there are not enough. *)
Theorem C90_dashes_refuted : exists argv, 2 < length argv /\ main _ parse0 argv = Usage _ (L "not enough command-line arguments").
Proof. exists [L "cheetah"; L "--"; L "compile"]. split; [cbn; lia|]. vm_compute. reflexivity. Qed.
Print Assumptions C90_dashes_refuted.
