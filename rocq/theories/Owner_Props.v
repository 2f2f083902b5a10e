(** C85: finding the code of a module. *)
From Verif Require Import Base PyStr Alist Names_Model Owner_Model Owner_Spec Owner_Proofs.
Local Open Scope string_scope.
Local Open Scope list_scope.

(** Tools for examples: compiling drops line breaks and fails on an exclamation mark at the start; caches have a
    C in front; nothing can be written below /ro. *)
Definition demo_tools : tools := mkTools
  (fun t => match t with 33%N :: _ => None | _ => Some (filter (fun c => negb (c =? 10)%N) t) end)
  (fun co => L "C" ++ co) (fun b => match b with 67%N :: co => Some co | _ => None end)
  (fun p => p ++ L "c") [L ".so"] (fun p => negb (starts_with (L "/ro") p)) (fun nm t => Some (nm ++ L ":" ++ t)).
Lemma demo_sane : sane demo_tools.
Proof.
  split; [reflexivity|]. split; [|split].
  - intros t. cbn [o_compile demo_tools]. assert (F : filter (fun c => negb (c =? 10)%N) (t ++ [10%N]) = filter (fun c => negb (c =? 10)%N) t).
    { rewrite filter_app. cbn. apply app_nil_r. }
    rewrite F. destruct t as [|c t]; [reflexivity|]. cbn [app]. reflexivity.
  - intros p q H. cbn [o_cache demo_tools] in H. apply app_inv_tail in H. exact H.
  - intros p b H. cbn [o_cache demo_tools] in H. apply (f_equal (@rev N)) in H. rewrite !rev_app_distr in H. discriminate H.
Qed.
Definition s0 : fs := mkFs [(L "/d", NDir 1); (L "/d/p", NDir 1)] 5.

(** Where a module is found: the __init__ of a package before a module; among the files of one, extension modules
    first.  Nothing is found if neither has a file, and then nothing is changed. *)
Theorem C85_place : forall T path nm s r s', dir_getmod T path nm s = (r, s') ->
  (forall b pkg, at_place T s path nm b pkg -> r <> Ok None /\ forall f, r = Ok (Some f) -> found_at T b pkg f) /\
  ((forall b pkg, ~ at_place T s path nm b pkg) -> r = Ok None /\ s' = s).
Proof. exact dir_choice. Qed.
Print Assumptions C85_place.
Example C85_place_ex :
  fst (dir_getmod demo_tools (L "/d") (L "p") (fsteps demo_tools [Write (L "/d/p/__init__.py") (L "x"); Write (L "/d/p.py") (L "y")] s0))
    = Ok (Some (FMod (L "x") (L "/d/p/__init__.py") (Some (L "/d/p")))) /\
  fst (dir_getmod demo_tools (L "/d") (L "p") (fsteps demo_tools [Write (L "/d/p.py") (L "y")] s0)) = Ok (Some (FMod (L "y") (L "/d/p.py") None)) /\
  fst (dir_getmod demo_tools (L "/d") (L "p") (fsteps demo_tools [Write (L "/d/p.py") (L "y"); Write (L "/d/p.so") (L "z")] s0)) = Ok (Some (FExt (L "/d/p.so"))) /\
  dir_getmod demo_tools (L "/d") (L "q") s0 = (Ok None, s0).
Proof. split; [vm_compute; reflexivity|]. split; [vm_compute; reflexivity|]. split; vm_compute; reflexivity. Qed.

(** Whatever is written, removed and looked for, if a second passes between looking for a module and writing a
    file, the code found is that of the source as it is now. *)
Theorem C85_fresh : forall T, sane T -> forall l s path nm f s', clean T s -> paced T false l ->
  dir_getmod T path nm (fsteps T l s) = (Ok (Some f), s') ->
  exists b pkg, at_place T (fsteps T l s) path nm b pkg /\ found_at T b pkg f /\ fresh T (fsteps T l s) b f.
Proof. exact always_fresh. Qed.
Print Assumptions C85_fresh.
Definition demo_ops : list fop :=
  [Write (L "/d/m.py") (L "one"); Find (L "/d") (L "m"); Find (L "/d") (L "m"); Tick; Write (L "/d/m.py") (L "two"); Write (L "/d/n.py") (L "!"); Find (L "/d") (L "m")].
Example C85_fresh_ex : sane demo_tools /\ clean demo_tools s0 /\ paced demo_tools false demo_ops /\
  (exists s', dir_getmod demo_tools (L "/d") (L "m") (fsteps demo_tools demo_ops s0) = (Ok (Some (FMod (L "two") (L "/d/m.pyc") None)), s')) /\
  fst (dir_getmod demo_tools (L "/d") (L "n") (fsteps demo_tools demo_ops s0)) = Raise FSyntax.
Proof.
  split; [exact demo_sane|]. split; [|split].
  - split; [|split].
    + vm_compute. repeat (apply NoDup_cons; [intros H; repeat (destruct H as [H|H]; [discriminate H|]); exact H|]). apply NoDup_nil.
    + intros p n H. cbn [files s0] in H. apply aget_Some_In in H. cbn in H. destruct H as [H|[H|[]]]; injection H as _ <-; cbn; lia.
    + intros q. destruct (aget (o_cache demo_tools q) (files s0)) as [n|] eqn:A; [|reflexivity]. exfalso. apply aget_Some_In in A. cbn [o_cache demo_tools files s0] in A.
      destruct A as [A|[A|[]]]; injection A as A _; apply (f_equal (@rev N)) in A; rewrite rev_app_distr in A; discriminate A.
  - assert (W : forall a, (forall q, o_cache demo_tools q <> a ++ L "y")).
    { intros a q H. cbn [o_cache demo_tools] in H. apply app_inj_tail in H. destruct H as (_ & H). discriminate H. }
    cbn [paced demo_ops]. split; [reflexivity|]. split; [exact (W (L "/d/m.p"))|]. split; [reflexivity|]. split; [exact (W (L "/d/m.p"))|].
    split; [reflexivity|]. split; [exact (W (L "/d/n.p")) | exact I].
  - split; [eexists; vm_compute; reflexivity | vm_compute; reflexivity].
Qed.

(** With a directory for the code of templates, an import after any edits and imports compiles the text of the
    template as it is now. *)
Theorem C85_template : forall T d path nm ext, elsewhere T d path nm ext -> forall l s mt t0 r s', no_module T path nm s ->
  aget (pjoin path (nm ++ ext)) (files s) = Some (NFile mt t0) ->
  getmod T (Some d) [ext] path nm (tsteps T d path nm ext l s) = (r, s') ->
  r <> Ok None /\ forall co file pkg, r = Ok (Some (FMod co file pkg)) ->
    exists code, o_template T nm (last_text l t0) = Some code /\ o_compile T (code ++ [10%N]) = Some co.
Proof. exact template_fresh. Qed.
Print Assumptions C85_template.
Definition s1 : fs := mkFs [(L "/d", NDir 1); (L "/cache", NDir 1); (L "/d/t.tmpl", NFile 2 (L "first"))] 5.
Example C85_template_ex : elsewhere demo_tools (L "/cache") (L "/d") (L "t") (L ".tmpl") /\ no_module demo_tools (L "/d") (L "t") s1 /\
  fst (getmod demo_tools (Some (L "/cache")) [L ".tmpl"] (L "/d") (L "t")
         (tsteps demo_tools (L "/cache") (L "/d") (L "t") (L ".tmpl") [TImport; TWrite (L "second"); TImport; TWrite (L "third")] s1))
    = Ok (Some (FMod (L "t:third") (L "/cache/_d_t_tmpl.py") None)).
Proof.
  assert (Nin : forall x l, existsb (str_eqb x) l = false -> ~ In x l).
  { intros x l H Hi. assert (existsb (str_eqb x) l = true) by (apply existsb_exists; exists x; split; [exact Hi | destruct (str_eqb_spec x x); congruence]). congruence. }
  split; [|split; [|vm_compute; reflexivity]].
  - intros x Hx. cbn [In] in Hx. destruct Hx as [Hx|[Hx|[Hx|[]]]]; subst x;
      (split; [apply Nin; vm_compute; reflexivity|]; split; [apply Nin; vm_compute; reflexivity|]; intros _; apply Nin; vm_compute; reflexivity).
  - split; apply (proj1 (scan_none _ _ _)); vm_compute; reflexivity.
Qed.

(** The path is searched in order, and only in the directories for which there is an owner. *)
Theorem C85_path : forall T cd exts nm paths shadow s f sh' s', search T cd exts paths nm shadow s = (Ok (Some f), sh', s') ->
  exists pre p post, paths = pre ++ p :: post /\ owned shadow s p = true /\ getmod T cd exts p nm s = (Ok (Some f), s') /\
    forall q, In q pre -> owned shadow s q = true -> getmod T cd exts q nm s = (Ok None, s).
Proof. exact search_first. Qed.
Print Assumptions C85_path.
Example C85_path_ex : fst (fst (search demo_tools None [L ".tmpl"] [L "/none"; L "/d/p"; L "/d"] (L "m") [] (fsteps demo_tools [Write (L "/d/m.py") (L "one")] s0)))
  = Ok (Some (FMod (L "one") (L "/d/m.py") None)).
Proof. vm_compute. reflexivity. Qed.

(** ** What does not hold *)
(** Without the second in between: a source written in the second in which its cache was is not seen. *)
Theorem C85_same_second_refuted : exists T l s path nm f s' b, sane T /\ dir_getmod T path nm (fsteps T l s) = (Ok (Some f), s') /\
  (forall p t, In (Write p t) l -> p = b ++ L ".py") /\ ~ fresh T (fsteps T l s) b f.
Proof.
  exists demo_tools, [Write (L "/d/m.py") (L "one"); Find (L "/d") (L "m"); Write (L "/d/m.py") (L "two")], s0, (L "/d"), (L "m").
  do 2 eexists. exists (L "/d/m"). split; [exact demo_sane|]. split; [vm_compute; reflexivity|]. split.
  - intros p t [H|[H|[H|[]]]]; try discriminate H; injection H as <- _; vm_compute; reflexivity.
  - intros H. specialize (H _ _ _ 5%N (L "two") eq_refl). vm_compute in H. specialize (H eq_refl). discriminate H.
Qed.
Print Assumptions C85_same_second_refuted.

(** A source that was removed is still found by its cache. *)
Theorem C85_removed_refuted : exists T l s path nm f s', sane T /\ paced T false l /\ aget (pjoin path nm ++ L ".py") (files (fsteps T l s)) = None /\
  dir_getmod T path nm (fsteps T l s) = (Ok (Some f), s').
Proof.
  exists demo_tools, [Write (L "/d/m.py") (L "one"); Find (L "/d") (L "m"); Tick; Remove (L "/d/m.py")], s0, (L "/d"), (L "m").
  do 2 eexists. split; [exact demo_sane|]. split; [|split; vm_compute; reflexivity].
  cbn [paced]. split; [reflexivity|]. split; [|exact I]. intros q H. cbn [o_cache demo_tools] in H.
  change (L "/d/m.py") with (L "/d/m.p" ++ [121%N]) in H. apply app_inj_tail in H. destruct H as (_ & H). discriminate H.
Qed.
Print Assumptions C85_removed_refuted.

(** A source replaced by a file with an older time is not seen. *)
Theorem C85_older_refuted : exists T l s path nm b mt t f s', sane T /\ (mt < clock (fsteps T l s))%N /\
  dir_getmod T path nm (mkFs (aset (b ++ L ".py") (NFile mt t) (files (fsteps T l s))) (clock (fsteps T l s))) = (Ok (Some f), s') /\
  ~ fresh T (mkFs (aset (b ++ L ".py") (NFile mt t) (files (fsteps T l s))) (clock (fsteps T l s))) b f.
Proof.
  exists demo_tools, [Write (L "/d/m.py") (L "one"); Find (L "/d") (L "m"); Tick; Tick], s0, (L "/d"), (L "m"), (L "/d/m"), 3%N, (L "two").
  do 2 eexists. split; [exact demo_sane|]. split; [vm_compute; reflexivity|]. split; [vm_compute; reflexivity|].
  intros H. specialize (H _ _ _ 3%N (L "two") eq_refl). vm_compute in H. specialize (H eq_refl). discriminate H.
Qed.
Print Assumptions C85_older_refuted.

(** A cache that cannot be read and has no source is a TypeError, not a missing module. *)
Theorem C85_broken_cache_refuted : exists T s path nm s', sane T /\ dir_getmod T path nm s = (Raise FType, s').
Proof.
  exists demo_tools, (mkFs [(L "/d", NDir 1); (L "/d/m.pyc", NFile 1 (L "junk"))] 5), (L "/d"), (L "m"). eexists.
  split; [exact demo_sane | vm_compute; reflexivity].
Qed.
Print Assumptions C85_broken_cache_refuted.

(** Without a directory for the code, a template is compiled once only: the .py written beside it is found from
    then on, whatever happens to the template. *)
Theorem C85_template_edit_refuted : exists T path nm ext s s' s'' t code co co' f f', sane T /\ no_module T path nm s /\
  getmod T None [ext] path nm s = (Ok (Some (FMod co' f' None)), s') /\
  getmod T None [ext] path nm (mkFs (aset (pjoin path (nm ++ ext)) (NFile (clock s' + 9) t) (files s')) (clock s' + 9)) = (Ok (Some (FMod co f None)), s'') /\
  o_template T nm t = Some code /\ o_compile T (code ++ [10%N]) <> Some co /\ co = co'.
Proof.
  exists demo_tools, (L "/d"), (L "t"), (L ".tmpl"), s1. do 2 eexists. exists (L "second"). do 5 eexists.
  split; [exact demo_sane|]. split; [split; apply (proj1 (scan_none _ _ _)); vm_compute; reflexivity|].
  split; [vm_compute; reflexivity|]. split; [vm_compute; reflexivity|]. split; [vm_compute; reflexivity|]. split; [vm_compute; discriminate | reflexivity].
Qed.
Print Assumptions C85_template_edit_refuted.

(** A directory made after the path was first searched is not searched. *)
Theorem C85_late_directory_refuted : exists T path nm s f s', let '(_, sh, s2) := search T None [] [path] nm [] s in
  let s3 := mkFs (aset path (NDir (clock s2)) (aset (pjoin path nm ++ L ".py") (NFile (clock s2) []) (files s2))) (clock s2) in
  getmod T None [] path nm s3 = (Ok (Some f), s') /\ fst (fst (search T None [] [path] nm sh s3)) = Ok None.
Proof. exists demo_tools, (L "/e"), (L "m"), s0. do 2 eexists. vm_compute. split; reflexivity. Qed.
Print Assumptions C85_late_directory_refuted.
