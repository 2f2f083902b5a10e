(** Property theorems C30 (#include), C44 (search lists), C50 (preprocessors) and C53 (class plumbing). *)
From Verif Require Import Base PyStr Alist Tmpl_Model Tmpl_Spec Tmpl_Proofs.
Local Open Scope string_scope.
Local Open Scope list_scope.

(** ** C44 *)

(** Globals, template, user namespaces. *)
Theorem C44_order : forall me fresh s n gsv i, i_init i = false -> s = None \/ n = None ->
  exists g m f, g = match gsv with Some g => g | None => fresh end /\
  init_inst me fresh s n false gsv None i =
    Ok (mkInst true g ([EGlob g; ETmpl me] ++ passed s ++ passed n) m f).
Proof. exact init_plain. Qed.
Print Assumptions C44_order.
Example C44_order_ex : i_init blank_inst = false /\ exists m f,
  init_inst 5 1 None (Some (NTuple [EUser 7; EUser 8])) false None None blank_inst =
    Ok (mkInst true 1 [EGlob 1; ETmpl 5; EUser 7; EUser 8] m f).
Proof. split; [reflexivity|]. eexists _, _. reflexivity. Qed.

(** User namespaces first when they are prioritised.  Missing: a tuple of namespaces, see below. *)
Theorem C44_prioritised_partial : forall me fresh s n gsv i, i_init i = false -> s = None \/ n = None ->
  (forall l, s <> Some (NTuple l)) -> (forall l, n <> Some (NTuple l)) ->
  exists g m f, g = match gsv with Some g => g | None => fresh end /\
  init_inst me fresh s n true gsv None i =
    Ok (mkInst true g ((passed s ++ passed n) ++ [EGlob g; ETmpl me]) m f).
Proof. exact init_prio. Qed.
Print Assumptions C44_prioritised_partial.
Example C44_prioritised_partial_ex : (forall l, Some (NList [EUser 7; EUser 8]) <> Some (NTuple l)) /\ exists m f,
  init_inst 5 1 (Some (NList [EUser 7; EUser 8])) None true None None blank_inst =
    Ok (mkInst true 1 [EUser 7; EUser 8; EGlob 1; ETmpl 5] m f).
Proof. split; [discriminate|]. eexists _, _. reflexivity. Qed.

(** A tuple of namespaces works when they are not prioritised, and is a TypeError when they are. *)
Theorem C44_prioritised_tuple_refuted : exists l me fresh,
  (exists j, init_inst me fresh (Some (NTuple l)) None false None None blank_inst = Ok j) /\
  init_inst me fresh (Some (NTuple l)) None true None None blank_inst = Raise ETypeE.
Proof. exists [EUser 7], 5%nat, 1%nat. split; [eexists; reflexivity|reflexivity]. Qed.
Print Assumptions C44_prioritised_tuple_refuted.

(** Both names of the argument at once are refused. *)
Theorem C44_both : forall me fresh s n prio gsv pre i, i_init i = false ->
  init_inst me fresh (Some s) (Some n) prio gsv pre i = Raise EAssert.
Proof. exact init_both. Qed.
Print Assumptions C44_both.
Example C44_both_ex : i_init blank_inst = false.
Proof. reflexivity. Qed.

(** An initialised instance keeps its search list, whatever happens to it: further initialisations and
    #includes change nothing, each web input is added in front. *)
Theorem C44_history : forall me fresh s n prio gsv pre i j os, init_inst me fresh s n prio gsv pre i = Ok j ->
  i_init (do_ops os j) = true /\ i_sl (do_ops os j) = inputs os (i_sl j) /\ i_glob (do_ops os j) = i_glob j.
Proof. intros me fresh s n prio gsv pre i j os H. apply history. eapply init_sets; exact H. Qed.
Print Assumptions C44_history.
Example C44_history_ex : exists j, init_inst 5 1 (Some (NOne (EUser 7))) None false None None blank_inst = Ok j /\
  i_sl (do_ops [OInput 2; OInit 6 3 None None true None None; OInput 4] j) =
    [EInput 4; EInput 2; EGlob 1; ETmpl 5; EUser 7].
Proof. eexists. split; reflexivity. Qed.

(** A nested template sees the list of its parent first and itself last, and shares the globals. *)
Theorem C44_included : forall me fresh gsv pre prio i, i_init i = false ->
  exists m f, init_inst me fresh None None prio (Some gsv) (Some pre) i = Ok (mkInst true gsv (pre ++ [ETmpl me]) m f).
Proof. exact init_nested. Qed.
Print Assumptions C44_included.
Example C44_included_ex : exists m f,
  init_inst 6 3 None None false (Some 1%nat) (Some [EGlob 1; ETmpl 5; EUser 7]) blank_inst =
    Ok (mkInst true 1 [EGlob 1; ETmpl 5; EUser 7; ETmpl 6] m f).
Proof. eexists _, _. reflexivity. Qed.

(** ** C30 *)

(** An #include shows what it names when the earlier #includes of the same argument, if any, were of the
    same kind and named the same text, and no web input came in since the first of them.  Missing: other
    histories, and file objects to be shown raw; see below. *)
Theorem C30_include_partial : forall os1 os2 w a f raw i, supported a raw -> i_init i = true -> i_memo i = [] ->
  Forall (fun o => includes a o = false) os1 -> Forall (harmless w (i_file i) a f raw) os2 ->
  snd (include w a f raw (do_ops (os1 ++ os2) i)) = shows w (i_file i) (i_sl (do_ops (os1 ++ os2) i)) a f raw.
Proof. exact include_ok. Qed.
Print Assumptions C30_include_partial.

Definition toy_world (text : string) : world :=
  mkWorld (fun p => if str_eqb p (L "/site/head.tmpl") then Some (L text) else None)
          (fun s => L "/site/" ++ s) (fun t => negb (str_eqb t (L "#if")))
          (fun t sl => Ok (L "<" ++ t ++ L ">" ++ repeat 33%N (length sl))).
Definition toy_inst : inst := mkInst true 1 [EGlob 1; ETmpl 5] [] None.
Definition head := AStr (L "head.tmpl").
Example C30_include_partial_ex :
  let w := toy_world "Hello" in
  let os1 := [OInput 3; OInclude w (AStr (L "x")) FSource true] in
  let os2 := [OInclude w head FFile false; OInclude w (AStr (L "x")) FSource true; OInclude w head FFile false] in
  supported head false /\ Forall (fun o => includes head o = false) os1 /\ Forall (harmless w None head FFile false) os2 /\
  snd (include w head FFile false (do_ops (os1 ++ os2) toy_inst)) = Ok (L "<Hello>!!!").
Proof.
  cbv zeta. split; [left; reflexivity|]. split; [repeat constructor|]. split; [|reflexivity].
  apply Forall_cons; [intros _; repeat split; reflexivity|]. apply Forall_cons; [intro H; discriminate H|].
  apply Forall_cons; [intros _; repeat split; reflexivity|]. constructor.
Qed.

(** The first #include of an argument that finds its text decides what all later ones do. *)
Theorem C30_first_wins : forall os w1 w2 a f1 f2 raw1 raw2 i t, supported a raw1 -> i_init i = true -> mget a (i_memo i) = None ->
  content w1 (i_file i) a f1 = Ok t -> raw1 = true \/ w_compiles w1 t = true ->
  snd (include w2 a f2 raw2 (do_ops os (fst (include w1 a f1 raw1 i)))) =
    if raw1 then (if raw2 then Ok t else Raise EAttr)
    else (if raw2 then Raise ETypeE else w_run w2 t (i_sl i)).
Proof. exact first_wins. Qed.
Print Assumptions C30_first_wins.
Example C30_first_wins_ex : supported head true /\ content (toy_world "Hello") None head FFile = Ok (L "Hello") /\
  snd (include (toy_world "Goodbye") head FSource true (do_ops [OInput 3] (fst (include (toy_world "Hello") head FFile true toy_inst)))) =
    Ok (L "Hello").
Proof. split; [right; eexists; reflexivity|]. split; reflexivity. Qed.

(** Raw after not raw, and not raw after raw: an exception. *)
Theorem C30_raw_and_not_refuted : exists w a t1 t2,
  (shows w None (i_sl toy_inst) a FFile true = Ok t1 /\ shows w None (i_sl toy_inst) a FFile false = Ok t2) /\
  snd (include w a FFile true (fst (include w a FFile false toy_inst))) = Raise ETypeE /\
  snd (include w a FFile false (fst (include w a FFile true toy_inst))) = Raise EAttr.
Proof. exists (toy_world "Hello"), head. eexists _, _. repeat split; reflexivity. Qed.
Print Assumptions C30_raw_and_not_refuted.

(** The name of a file shown as a source text: the file is shown instead. *)
Theorem C30_source_after_file_refuted : exists w a,
  shows w None (i_sl toy_inst) a FSource true = Ok (L "head.tmpl") /\
  snd (include w a FSource true (fst (include w a FFile true toy_inst))) = Ok (L "Hello").
Proof. exists (toy_world "Hello"), head. split; reflexivity. Qed.
Print Assumptions C30_source_after_file_refuted.

(** Web input between two #includes is not seen by the second. *)
Theorem C30_stale_search_list_refuted : exists w a, let i := do_ops [OInclude w a FFile false; OInput 3] toy_inst in
  shows w None (i_sl i) a FFile false = Ok (L "<Hello>!!!") /\
  snd (include w a FFile false i) = Ok (L "<Hello>!!").
Proof. exists (toy_world "Hello"), head. split; reflexivity. Qed.
Print Assumptions C30_stale_search_list_refuted.

(** A file object cannot be included raw. *)
Theorem C30_raw_file_object_refuted : exists w a,
  shows w None (i_sl toy_inst) a FFile true = Ok (L "text") /\ snd (include w a FFile true toy_inst) = Raise EAttr.
Proof. exists (toy_world "Hello"), (AFile 3 (L "text")). split; reflexivity. Qed.
Print Assumptions C30_raw_file_object_refuted.

(** ** C50 *)

(** What the user wrote stays; the settings that follow from the tokens fill the gaps; nothing else is
    added. *)
Theorem C50_tokens : forall p q, norm_settings p = Ok q ->
  exists ph dir cs, tokens_of p ph dir /\ p_cs q = Some (Some cs) /\
  (forall k, aget k cs = match aget k (written p) with
                         | Some x => Some x
                         | None => option_map SStr (derived (nonempty ph) (nonempty dir) k)
                         end) /\
  exists a, p_init q = Some (Some a) /\ passed (Some a) = passed (pp_list p) /\ (forall e, a <> NOne e).
Proof. exact norm_ok. Qed.
Print Assumptions C50_tokens.
Definition toy_pp := mkPP (Some (TStr (L "@  %"))) None None (Some (Some [(L "commentStartToken", SStr (L "//"))])) None (Some (NOne (EUser 7))) None.
Example C50_tokens_ex : exists q cs, norm_settings toy_pp = Ok q /\ p_cs q = Some (Some cs) /\
  aget (L "commentStartToken") cs = Some (SStr (L "//")) /\ aget (L "multiLineCommentEndToken") cs = Some (SStr (L "*%")) /\
  aget (L "cheetahVarStartToken") cs = Some (SStr (L "@")) /\ aget (L "useNameMapper") cs = None /\
  p_init q = Some (Some (NList [EUser 7])).
Proof. eexists _, _. split; [vm_compute; reflexivity|]. repeat split; vm_compute; reflexivity. Qed.

(** When normalising fails: tokens that are no pair, or neither tokens nor settings. *)
Theorem C50_errors : forall p e, norm_settings p = Raise e ->
  (e = EPre /\ p_tokens p = Some TBad) \/
  (e = EValue /\ exists l, length l <> 2%nat /\ (p_tokens p = Some (TSeq l) \/ exists s, p_tokens p = Some (TStr s) /\ split_ws s = l)) \/
  (e = ETypeE /\ (p_cs p = Some None \/ written p = [])).
Proof. exact norm_fails. Qed.
Print Assumptions C50_errors.
Example C50_errors_ex : norm_settings (mkPP (Some (TStr (L "@"))) None None None None None None) = Raise EValue /\
  norm_settings (mkPP None None (Some (L "%")) None None None None) = Raise ETypeE.
Proof. split; vm_compute; reflexivity. Qed.

(** Preprocessors are applied in order, up to the first that fails; one alone is a list of one. *)
Theorem C50_in_order : forall P (norm : P -> res terr (sf -> res terr sf)) l1 l2 x,
  preprocess_source norm (PMany (l1 ++ l2)) x =
    match preprocess_source norm (PMany l1) x with
    | Raise e => Raise e
    | Ok y => preprocess_source norm (PMany l2) y
    end.
Proof. exact pre_app. Qed.
Print Assumptions C50_in_order.
Theorem C50_one : forall P (norm : P -> res terr (sf -> res terr sf)) p x,
  preprocess_source norm (POne p) x = match norm p with Raise e => Raise e | Ok f => f x end.
Proof. intros P norm p x. unfold preprocess_source. cbn. destruct (norm p) as [f|e]; [|reflexivity]. destruct (f x); reflexivity. Qed.
Print Assumptions C50_one.
Definition toy_app (s : string) := Ok (E:=terr) (fun x : sf => Ok (E:=terr) (option_map (fun t => t ++ L s) (fst x), snd x)).
Example C50_in_order_ex :
  preprocess_source toy_app (PMany ["a"; "b"; "c"]) (Some (L "x"), None) = Ok (Some (L "xabc"), None).
Proof. vm_compute. reflexivity. Qed.
Example C50_one_ex : preprocess_source toy_app (POne "a") (Some (L "x"), None) = Ok (Some (L "xa"), None).
Proof. vm_compute. reflexivity. Qed.

(** One dictionary of settings given to two preprocessors: it is changed in place, so the second gets the
    tokens of the first. *)
Theorem C50_shared_settings_refuted : exists p1 p2 q1 q2 cs1 cs2,
  written p1 = written p2 /\ norm_settings p1 = Ok q1 /\ p_cs q1 = Some (Some cs1) /\
  norm_settings (mkPP (p_tokens p2) (p_ph p2) (p_dir p2) (Some (Some cs1)) None None None) = Ok q2 /\
  p_cs q2 = Some (Some cs2) /\ p_tokens p2 = Some (TStr (L "& !")) /\
  aget (L "cheetahVarStartToken") (written p2) = None /\ aget (L "cheetahVarStartToken") cs2 = Some (SStr (L "@")).
Proof.
  exists toy_pp, (mkPP (Some (TStr (L "& !"))) None None (p_cs toy_pp) None None None).
  eexists _, _, _, _. split; [reflexivity|]. split; [vm_compute; reflexivity|]. split; [reflexivity|].
  split; [vm_compute; reflexivity|]. repeat split; reflexivity.
Qed.
Print Assumptions C50_shared_settings_refuted.

(** ** C53 *)

(** Every needed name is there afterwards. *)
Theorem C53_complete : forall c nm, needed nm -> exists v, cget (plumb c) nm = Some v.
Proof. exact plumb_has. Qed.
Print Assumptions C53_complete.

(** Nothing the class or its bases have is replaced.  Missing: [__unicode__] of a class without [__str__], see
    below. *)
Theorem C53_keeps_partial : forall c nm v, cget c nm = Some v -> v <> VObjStr -> has_str c = true \/ nm <> L "__unicode__" ->
  cget (plumb c) nm = Some v.
Proof. exact plumb_keeps. Qed.
Print Assumptions C53_keeps_partial.

(** Nothing else is added. *)
Theorem C53_only : forall c nm, cget c nm = None -> ~ needed nm -> nm <> L "__unicode__" -> cget (plumb c) nm = None.
Proof. exact plumb_only. Qed.
Print Assumptions C53_only.

(** Doing it twice is the same as doing it once. *)
Theorem C53_twice : forall c, plumb (plumb c) = plumb c.
Proof. exact plumb_twice. Qed.
Print Assumptions C53_twice.

(** The string of an instance is what its main method returns, for a class without a [__str__]. *)
Theorem C53_str : forall c m, has_str c = false -> cget c (L "_mainCheetahMethod_for_" ++ c_name c) = Some (VName m) ->
  m <> [] -> cget (plumb c) (L "__str__") = Some (VStrMain (VName m)).
Proof. exact plumb_main. Qed.
Print Assumptions C53_str.

Definition toy_cls := mkCls (L "Page") [(L "_mainCheetahMethod_for_Page", VName (L "writeBody")); (L "searchList", VObj 3 true)]
  [(L "getVar", VObj 4 true)].
Example C53_complete_ex : needed (L "webInput") /\ cget toy_cls (L "webInput") = None /\ cget (plumb toy_cls) (L "webInput") = Some (VTemplate (L "webInput")).
Proof. split; [left; vm_compute; tauto|split; vm_compute; reflexivity]. Qed.
Example C53_keeps_partial_ex : cget toy_cls (L "getVar") = Some (VObj 4 true) /\ cget (plumb toy_cls) (L "getVar") = Some (VObj 4 true) /\
  cget (plumb toy_cls) (L "searchList") = Some (VObj 3 true).
Proof. repeat split; vm_compute; reflexivity. Qed.
Example C53_only_ex : cget toy_cls (L "foo") = None /\ ~ needed (L "foo").
Proof.
  split; [reflexivity|]. intros [H|H]; vm_compute in H; repeat (destruct H as [H|H]; [discriminate H|]); contradiction.
Qed.
Example C53_twice_ex : length (c_own (plumb toy_cls)) = 29%nat /\ plumb (plumb toy_cls) = plumb toy_cls.
Proof. split; vm_compute; reflexivity. Qed.
Example C53_str_ex : has_str toy_cls = false /\ cget (plumb toy_cls) (L "__str__") = Some (VStrMain (VName (L "writeBody"))).
Proof. split; vm_compute; reflexivity. Qed.

(** A [__unicode__] of the user is replaced when the class has no [__str__]. *)
Theorem C53_unicode_refuted : exists c v, cget c (L "__unicode__") = Some (VObj v true) /\
  cget (plumb c) (L "__unicode__") <> Some (VObj v true).
Proof.
  exists (mkCls (L "Page") [(L "__unicode__", VObj 3 true)] []), 3%nat. split; [reflexivity|].
  intro H. vm_compute in H. discriminate H.
Qed.
Print Assumptions C53_unicode_refuted.
