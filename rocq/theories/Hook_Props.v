(** C84: the import hook. *)
From Verif Require Import Base PyStr Alist Names_Model Hook_Model Hook_Spec Hook_Proofs.
Local Open Scope string_scope.
Local Open Scope list_scope.

(** A package [a] whose code imports from its submodule [b], which imports [a] again; [a.c] takes a name from
    [a.b]; [m] is no package; [bad] fails half way. *)
Definition demo_finder (p : option pystr) (nm : pystr) : option src :=
  match p with
  | None => if str_eqb nm (L "a") then Some (mkSrc true [L "c"] [SDef (L "x"); SFrom 1 (L "b") [L "y"]])
            else if str_eqb nm (L "m") then Some (mkSrc false [] [SDef (L "z")])
            else if str_eqb nm (L "bad") then Some (mkSrc false [] [SDef (L "p"); SFail 7; SDef (L "q")])
            else if str_eqb nm (L "b") then Some (mkSrc false [] [SDef (L "top")])
            else None
  | Some p => if str_eqb p (L "a") then
                if str_eqb nm (L "b") then Some (mkSrc false [] [SImport (L "a"); SDef (L "y")])
                else if str_eqb nm (L "c") then Some (mkSrc false [] [SFrom 1 (L "b") [L "y"]; SFrom 0 (L "a") [L "x"]])
                else if str_eqb nm (L "e") then Some (mkSrc false [] [SFrom 1 (L "m") [L "z"]])
                else if str_eqb nm (L "s") then Some (mkSrc true [] [])
                else None
              else if str_eqb p (L "a.s") then
                if str_eqb nm (L "t") then Some (mkSrc false [] [SFrom 2 (L "b") [L "y"]]) else None
              else None
  end.
Definition w0 : world := mkW [] [] [].

Lemma demo_good : good_finder demo_finder.
Proof.
  assert (P : forall l, forallb (fun a => negb (mem_char 46 a)) l = true -> plain_names l).
  { intros l H. apply Forall_forall. intros x Hx Hi. rewrite forallb_forall in H. specialize (H x Hx).
    apply (Names_Proofs.mem_char_In 46 x) in Hi. rewrite Hi in H. discriminate H. }
  intros p nm s H. unfold demo_finder in H.
  repeat match type of H with context [if ?b then _ else _] => destruct b end; destruct p; try discriminate H;
    repeat match type of H with context [if ?b then _ else _] => destruct b end; try discriminate H; injection H as <-; split; cbn [s_all s_code];
    try (apply P; vm_compute; reflexivity);
    repeat (apply Forall_cons; [try exact I; try (apply P; vm_compute; reflexivity)|]); apply Forall_nil.
Qed.
Lemma w0_ok : consistent w0 /\ NoDup (w_runs w0).
Proof.
  split; [|constructor]. split; [intros fq m H; discriminate H|]. split; [intros p nm m _ H; discriminate H|].
  split; [intros fq []|]. split; constructor.
Qed.

(** In any sequence of imports, nested and cyclic, from a consistent state the code of a module is started at
    most once, the state stays consistent (a submodule is an attribute of its package), and no module is removed
    or replaced. *)
Theorem C84_once : forall F fuel l w r w', good_finder F ->
  Forall (fun x => match snd x with Some names => plain_names names | None => True end) l ->
  consistent w -> NoDup (w_runs w) -> imports F fuel l w = Some (r, w') ->
  NoDup (w_runs w') /\ consistent w' /\ (forall fq m, loaded w fq m -> loaded w' fq m) /\ (exists new, w_runs w' = new ++ w_runs w).
Proof. exact once. Qed.
Print Assumptions C84_once.
Definition demo_imports : list (pystr * nat * pystr * option (list pystr)) :=
  [(L "main", 0%nat, L "a.b", None); (L "main", 0%nat, L "bad", None); (L "main", 0%nat, L "a", Some [L "*"; L "x"]); (L "main", 0%nat, L "a.c", None);
   (L "main", 0%nat, L "none", None); (L "main", 0%nat, L "a.s.t", None)].
Example C84_once_ex : good_finder demo_finder /\ Forall (fun x => match snd x with Some names => plain_names names | None => True end) demo_imports /\
  consistent w0 /\ NoDup (w_runs w0) /\
  exists w', imports demo_finder 10 demo_imports w0 =
    Some (Ok [Ok (Some 0%nat); Raise (ECode 7); Ok (Some 0%nat); Ok (Some 0%nat); Raise (ENotFound (L "none")); Raise EFrom], w') /\
    w_runs w' = map L ["b"; "a.s.t"; "a.s"; "a.c"; "bad"; "a.b"; "a"].
Proof.
  split; [exact demo_good|]. split; [|split; [apply w0_ok|]; split; [apply w0_ok|]; eexists; split; vm_compute; reflexivity].
  repeat (apply Forall_cons; [try exact I|]); try apply Forall_nil; intros H; repeat (destruct H as [H|H]; [discriminate H|]); exact H.
Qed.

(** A successful [import a.b.c]: the result is the module of the first part, and either every part is loaded, or
    the parts up to some point are and the next one is an attribute of the last of them. *)
Theorem C84_import : forall F fuel who name w r w', good_finder F -> consistent w -> NoDup (w_runs w) -> name <> [] ->
  import F fuel who 0 name None w = Some (Ok r, w') ->
  (exists m, r = Some m /\ loaded w' (hd [] (nameSplit name)) m) /\
  (all_loaded w' (prefixes None (nameSplit name)) \/ attribute_of w' None (nameSplit name)).
Proof. exact import_plain. Qed.
Print Assumptions C84_import.
Example C84_import_ex :
  (exists w', import demo_finder 10 (L "main") 0 (L "a.b") None w0 = Some (Ok (Some 0%nat), w') /\ keys (w_mods w') = map L ["a"; "a.b"]) /\
  (exists w', import demo_finder 10 (L "main") 0 (L "a.x") None w0 = Some (Ok (Some 0%nat), w') /\ keys (w_mods w') = map L ["a"; "a.b"; "a.x"] /\
              aget (L "a.x") (w_mods w') = Some None).
Proof.
  split; eexists; [split; vm_compute; reflexivity|]. split; [vm_compute; reflexivity|]. split; vm_compute; reflexivity.
Qed.

(** A successful [from a.b import c, d]: for one of the contexts the parts are loaded, the result is the module
    of the full name, and if it is a package it has every name asked for, a star standing for __all__; or a part
    of the name is an attribute only, and the result is the module of the first part. *)
Theorem C84_from : forall F fuel who level name names w r w', good_finder F -> consistent w -> NoDup (w_runs w) -> plain_names names ->
  import F fuel who level name (Some names) w = Some (Ok r, w') ->
  exists cx, In cx (contexts who level name w) /\
    ((aget (hd [] (nameSplit name)) (w_mods w') = Some r /\ attribute_of w' cx (nameSplit name)) \/
     (all_loaded w' (prefixes cx (nameSplit name)) /\
      exists c, full cx (nameSplit name) = Some c /\ aget c (w_mods w') = Some r /\
        (forall m, r = Some m -> package w' m -> forall a, asked w' m names a -> has_attr w' m a))).
Proof. exact import_from. Qed.
Print Assumptions C84_from.
Example C84_from_ex : exists w', import demo_finder 10 (L "main") 0 (L "a") (Some [L "*"; L "x"]) w0 = Some (Ok (Some 0%nat), w') /\
  has_attr w' 0 (L "c") /\ has_attr w' 0 (L "x") /\ w_runs w' = map L ["a.c"; "a.b"; "a"].
Proof.
  eexists. split; [vm_compute; reflexivity|]. split; [|split; [|vm_compute; reflexivity]]; eexists; (split; [vm_compute; reflexivity|]); vm_compute; tauto.
Qed.

(** An import whose parts are all loaded runs nothing and changes nothing. *)
Theorem C84_again : forall F fuel who name w, name <> [] -> nameSplit name <> [] -> all_loaded w (prefixes None (nameSplit name)) ->
  exists m, loaded w (hd [] (nameSplit name)) m /\ import F (S fuel) who 0 name None w = Some (Ok (Some m), w).
Proof. exact again. Qed.
Print Assumptions C84_again.
Definition w_a : world := match import demo_finder 10 (L "main") 0 (L "a") None w0 with Some (_, w) => w | None => w0 end.
Example C84_again_ex : all_loaded w_a (prefixes None (nameSplit (L "a.b"))) /\ w_runs w_a = map L ["a.b"; "a"].
Proof.
  split; [|vm_compute; reflexivity]. apply Forall_cons; [exists 0%nat; split; vm_compute; [reflexivity | lia]|].
  apply Forall_cons; [exists 1%nat; split; vm_compute; [reflexivity | lia]|]. apply Forall_nil.
Qed.

(** A name whose last part cannot be found raises ModuleNotFoundError with the full name and leaves sys.modules
    as it was. *)
Theorem C84_missing : forall F fuel who name a nm fl w, nameSplit name = a ++ [nm] -> name <> [] -> consistent w ->
  all_loaded w (prefixes None a) -> aget (dotted (full None a) nm) (w_mods w) = None ->
  match full None a with
  | None => F None nm = None
  | Some p => exists pm, loaded w p pm /\ package w pm /\ F (Some p) nm = None /\ ~ has_attr w pm nm
  end ->
  exists w', import F (S fuel) who 0 name fl w = Some (Raise (ENotFound (dotted (full None a) nm)), w') /\ same_modules w w' /\
             w_objs w' = w_objs w /\ w_runs w' = w_runs w.
Proof. exact missing. Qed.
Print Assumptions C84_missing.
Lemma w_a_ok : consistent w_a.
Proof.
  destruct (import_ok demo_finder demo_good 10 (L "main") 0 (L "a") None I w0 (Ok (Some 0%nat)) w_a) as ((C & _) & _); [vm_compute; reflexivity | exact w0_ok | exact C].
Qed.
Example C84_missing_ex : nameSplit (L "a.zz") = [L "a"] ++ [L "zz"] /\ consistent w_a /\ all_loaded w_a (prefixes None [L "a"]) /\
  aget (dotted (full None [L "a"]) (L "zz")) (w_mods w_a) = None /\
  exists pm, loaded w_a (L "a") pm /\ package w_a pm /\ demo_finder (Some (L "a")) (L "zz") = None /\ ~ has_attr w_a pm (L "zz").
Proof.
  split; [reflexivity|]. split; [exact w_a_ok|].
  split; [apply Forall_cons; [exists 0%nat; split; vm_compute; [reflexivity | lia] | apply Forall_nil]|]. split; [vm_compute; reflexivity|].
  exists 0%nat. split; [split; vm_compute; [reflexivity | lia]|]. split; [eexists; split; vm_compute; reflexivity|]. split; [vm_compute; reflexivity|].
  intros (o & E & H). vm_compute in E. injection E as <-. vm_compute in H. repeat (destruct H as [H|H]; [discriminate H|]). exact H.
Qed.

(** ** What does not hold *)
(** A missing module is not always reported: [import m.k] with [m] no package ends in a KeyError, because
    doimport returns before it makes the entry the hook then deletes. *)
Theorem C84_notfound_refuted : exists F who name w w', good_finder F /\ consistent w /\ name <> [] /\
  import F 5 who 0 name None w = Some (Raise EKey, w').
Proof.
  exists demo_finder, (L "main"), (L "m.k"), w0. eexists. split; [exact demo_good|]. split; [apply w0_ok|]. split; [discriminate|].
  vm_compute. reflexivity.
Qed.
Print Assumptions C84_notfound_refuted.

(** [from a.x import c], with [x] something in the package [a] that is no module, is not an error: the result is
    [a], and the statement takes the name from there. *)
Theorem C84_from_attribute_refuted : exists F who name names w m w', good_finder F /\ consistent w /\ plain_names names /\
  import F 10 who 0 name (Some names) w = Some (Ok (Some m), w') /\ loaded w' (hd [] (nameSplit name)) m /\
  (forall k, ~ loaded w' name k).
Proof.
  exists demo_finder, (L "main"), (L "a.x"), [L "y"], w0, 0%nat. eexists. split; [exact demo_good|]. split; [apply w0_ok|].
  split; [apply Forall_cons; [intros [H|[]]; discriminate H | apply Forall_nil]|]. split; [vm_compute; reflexivity|].
  split; [split; vm_compute; [reflexivity | lia]|]. intros k (H & _). vm_compute in H. discriminate H.
Qed.
Print Assumptions C84_from_attribute_refuted.

(** A relative import is not always relative: [from .m import z] in the package [a], which has no [m], takes the
    top-level [m]. *)
Theorem C84_relative_refuted : exists F who level name names w m w', good_finder F /\ consistent w /\ (0 < level)%nat /\
  import F 10 who level name (Some names) w = Some (Ok (Some m), w') /\ loaded w' name m /\ ~ In 46%N name.
Proof.
  exists demo_finder, (L "a.e"), 1%nat, (L "m"), [L "z"], w_a, 2%nat. eexists. split; [exact demo_good|]. split; [exact w_a_ok|].
  split; [lia|]. split; [vm_compute; reflexivity|]. split; [split; vm_compute; [reflexivity | lia]|]. intros [H|[]]. discriminate H.
Qed.
Print Assumptions C84_relative_refuted.

(** The number of dots is not looked at: [from ..b import y] in [a.s.t] does not give the loaded module [a.b]. *)
Theorem C84_level_refuted : exists F w m m' w', good_finder F /\ consistent w /\
  loaded w (L "a.b") m /\ import F 10 (L "a.s.t") 2 (L "b") (Some [L "y"]) w = Some (Ok (Some m'), w') /\ m <> m' /\
  loaded w' (L "b") m'.
Proof.
  exists demo_finder. destruct (import demo_finder 10 (L "main") 0 (L "a.s") None w_a) as [[r w]|] eqn:E; [|vm_compute in E; discriminate E].
  exists w, 1%nat, 3%nat. destruct (import_ok demo_finder demo_good 10 (L "main") 0 (L "a.s") None I w_a r w E) as ((C & _) & _).
  { split; [exact w_a_ok|]. vm_compute. repeat (apply NoDup_cons; [intros H; repeat (destruct H as [H|H]; [discriminate H|]); exact H|]). apply NoDup_nil. }
  vm_compute in E. injection E as <- <-. eexists. split; [exact demo_good|]. split; [exact C|]. split; [split; vm_compute; [reflexivity | lia]|].
  split; [vm_compute; reflexivity|]. split; [discriminate|]. split; vm_compute; [reflexivity | lia].
Qed.
Print Assumptions C84_level_refuted.

(** A module whose code raised an exception stays: the next import of it succeeds, and the module lacks what
    comes after the error. *)
Theorem C84_failed_refuted : exists F who name w m w' r, good_finder F /\ consistent w /\
  imports F 5 [(who, 0%nat, name, None); (who, 0%nat, name, None)] w = Some (Ok [Raise (ECode r); Ok (Some m)], w') /\
  has_attr w' m (L "p") /\ ~ has_attr w' m (L "q").
Proof.
  exists demo_finder, (L "main"), (L "bad"), w0, 0%nat. eexists. exists 7%N. split; [exact demo_good|]. split; [apply w0_ok|].
  split; [vm_compute; reflexivity|]. split; [eexists; split; [vm_compute; reflexivity|]; vm_compute; tauto|].
  intros (o & E & H). vm_compute in E. injection E as <-. vm_compute in H. repeat (destruct H as [H|H]; [discriminate H|]). exact H.
Qed.
Print Assumptions C84_failed_refuted.
