(** Property theorems C92 (the arguments of a template) and C93 (the attributes of a subclass given a source). *)
From Verif Require Import Base PyStr Alist Made_Model Made_Spec Made_Proofs.
Local Open Scope nat_scope.
Local Open Scope string_scope.
Local Open Scope list_scope.

(** ** A world for examples *)

(** Class 1 is a filter, 2 an error catcher, 3 neither; module 0 has the filter; object 5 cannot be iterated over, 6 can. *)
Definition w0 : world :=
  mkWorld (fun c => Nat.eqb c 1) (fun c => Nat.eqb c 2) (fun c => Nat.eqb c 1) (fun c => Nat.eqb c 2)
    (fun m n => if str_eqb n (L "Raw") then Some 1 else None) (fun n => if str_eqb n (L "Echo") then Some 2 else None)
    (fun _ => true) (fun o => Nat.eqb o 6) [L "respond"; L "session"].
Definition a0 := mkArgs (AStr (L "$x")) ANone (AStr (L "Raw")) (AMod 0) ANone AUnspec SNone SNone.
Definition with_filter (f : arg) (a : args) := mkArgs (a_source a) (a_file a) f (a_lib a) (a_catcher a) (a_settings a) (a_sl a) (a_ns a).
Definition with_lib (f : arg) (a : args) := mkArgs (a_source a) (a_file a) (a_filter a) f (a_catcher a) (a_settings a) (a_sl a) (a_ns a).
Definition with_file (f : arg) (a : args) := mkArgs (a_source a) f (a_filter a) (a_lib a) (a_catcher a) (a_settings a) (a_sl a) (a_ns a).
Definition with_catcher (f : arg) (a : args) := mkArgs (a_source a) (a_file a) (a_filter a) (a_lib a) f (a_settings a) (a_sl a) (a_ns a).
Definition with_settings (f : arg) (a : args) := mkArgs (a_source a) (a_file a) (a_filter a) (a_lib a) (a_catcher a) f (a_sl a) (a_ns a).

Ltac fits := intros ? K; cbn in K; intuition congruence.
Lemma right0 : forall f c, In f [AStr (L "Raw"); AClass 1; AOther; ANone] -> In c [ANone; AStr (L "Echo"); AClass 2; AOther] ->
  right_classes w0 (with_filter f (with_catcher c a0)).
Proof.
  intros f c F C. split; intros k E; cbn in E; subst; cbn in F, C; repeat (destruct F as [F|F]; [try discriminate F; try (injection F as <-; reflexivity)|]);
  repeat (destruct C as [C|C]; [try discriminate C; try (injection C as <-; reflexivity)|]); contradiction.
Qed.

(** ** C92: the arguments *)

(** C92: a TypeError names the first argument that is not what its message says it must be; if all are, and both a source and a
    file are given, that is the error; otherwise there is none in the checks. *)
Theorem C92_misfit : forall w a n, right_classes w a -> (check w a = Some (TypeE n) <-> first_misfit w a n).
Proof. exact check_misfit. Qed.
Print Assumptions C92_misfit.
Theorem C92_both : forall w a, right_classes w a -> (check w a = Some Both <-> fit w a /\ a_source a <> ANone /\ a_file a <> ANone).
Proof. exact check_both. Qed.
Print Assumptions C92_both.
Theorem C92_fit : forall w a, fit w a -> a_source a = ANone \/ a_file a = ANone -> check w a = None.
Proof. exact check_ok. Qed.
Print Assumptions C92_fit.

Example C92_misfit_ex : right_classes w0 (with_filter AOther (with_catcher AOther a0))
  /\ first_misfit w0 (with_filter AOther (with_catcher AOther a0)) (L "filter")
  /\ check w0 (with_filter AOther (with_catcher AOther a0)) = Some (TypeE (L "filter"))
  /\ check w0 (with_catcher AOther a0) = Some (TypeE (L "errorCatcher")).
Proof.
  assert (R : right_classes w0 (with_filter AOther (with_catcher AOther a0))) by (apply right0; cbn; tauto).
  split; [exact R|]. split; [apply C92_misfit; [exact R|vm_compute; reflexivity]|]. split; vm_compute; reflexivity.
Qed.
Example C92_both_ex : right_classes w0 (with_file AFile a0) /\ fit w0 (with_file AFile a0) /\ check w0 (with_file AFile a0) = Some Both.
Proof. split; [split; intros c E; discriminate E|]. split; [fits|]. vm_compute. reflexivity. Qed.
Example C92_fit_ex : fit w0 (with_catcher (AClass 2) a0) /\ a_file a0 = ANone.
Proof. split; [fits|reflexivity]. Qed.

(** C92: with arguments that pass the checks and mean a filter, an error catcher and namespaces, the instance has these; its
    search list is the dictionary of #set global, itself and the namespaces, or with prioritizeSearchListOverSelf the namespaces
    and these; and what is compiled is the source or the file. *)
Theorem C92_made : forall w a f c l, check w a = None -> meant_filter w a f -> meant_catcher w a c -> meant_spaces a l ->
  ~ lone w (a_sl a) -> (prio a = true -> forall l', a_sl a <> SSeq true l' /\ a_ns a <> SSeq true l') ->
  exists ws, make w a = (ws, Ok (mkMade (if prio a then map ENs l ++ [EGlobals; ESelf] else [EGlobals; ESelf] ++ map ENs l) f c
    (match a_source a, a_file a with ANone, ANone => None | s, g => Some (s, g) end))).
Proof. exact made_ok. Qed.
Print Assumptions C92_made.

Definition sp0 := [NDict [L "x"; L "session"]; NObj 5].
Definition a1 := as_search_list (with_catcher (AStr (L "Echo")) a0) (SSeq true sp0).
Example C92_made_ex : check w0 a1 = None /\ meant_filter w0 a1 1 /\ meant_catcher w0 a1 (Some 2) /\ meant_spaces a1 sp0 /\ ~ lone w0 (a_sl a1)
  /\ make w0 a1 = ([[L "session"]], Ok (mkMade [EGlobals; ESelf; ENs (NDict [L "x"; L "session"]); ENs (NObj 5)] 1 (Some 2) (Some (AStr (L "$x"), ANone)))).
Proof.
  split; [vm_compute; reflexivity|]. split; [split; [right; exists (L "Raw"), 0; repeat split|reflexivity]|].
  split; [split; [right; exists (L "Echo"); split; [discriminate|split; reflexivity]|reflexivity]|].
  split; [left; split; reflexivity|]. split; [intros (o & E & _); discriminate E|]. vm_compute. reflexivity.
Qed.

(** C92: searchList and namespaces are the same, but for one object that cannot be iterated over. *)
Theorem C92_alias : forall w a s, ~ lone w s -> snd (make w (as_search_list a s)) = snd (make w (as_namespaces a s)).
Proof. exact alias. Qed.
Print Assumptions C92_alias.
Example C92_alias_ex : ~ lone w0 (SOne (NDict [L "x"])) /\ ~ lone w0 (SOne (NObj 6)) /\ ~ lone w0 (SSeq false sp0)
  /\ exists r, snd (make w0 (as_namespaces a0 (SOne (NDict [L "x"])))) = Ok r /\ m_sl r = [EGlobals; ESelf; ENs (NDict [L "x"])].
Proof.
  split; [intros (o & E & _); discriminate E|]. split; [intros (o & E & T & I); injection E as <-; discriminate I|].
  split; [intros (o & E & _); discriminate E|].
  exists (mkMade [EGlobals; ESelf; ENs (NDict [L "x"])] 1 None (Some (AStr (L "$x"), ANone))). split; vm_compute; reflexivity.
Qed.

(** C92: searchList and namespaces together are an error, whatever they are. *)
Theorem C92_either : forall w a, check w a = None -> a_sl a <> SNone -> a_ns a <> SNone -> ~ lone w (a_sl a) -> snd (make w a) = Raise AssertE.
Proof. exact either. Qed.
Print Assumptions C92_either.
Definition a2 := mkArgs (a_source a0) (a_file a0) (a_filter a0) (a_lib a0) (a_catcher a0) (a_settings a0) (SSeq false sp0) (SOne (NDict [])).
Example C92_either_ex : check w0 a2 = None /\ a_sl a2 <> SNone /\ a_ns a2 <> SNone /\ ~ lone w0 (a_sl a2) /\ snd (make w0 a2) = Raise AssertE.
Proof.
  split; [vm_compute; reflexivity|]. split; [discriminate|]. split; [discriminate|]. split; [intros (o & E & _); discriminate E|]. vm_compute. reflexivity.
Qed.

(** C92: the name of a filter that is not in the module, or of an error catcher that is not there, is an AttributeError that
    names it; the filter comes first. *)
Theorem C92_unknown_filter : forall w a l n m, check w a = None -> meant_spaces a l -> ~ lone w (a_sl a) ->
  (prio a = true -> forall l', a_sl a <> SSeq true l' /\ a_ns a <> SSeq true l') ->
  a_filter a = AStr n -> a_lib a = AMod m -> w_mod w m n = None -> snd (make w a) = Raise (AttrE n).
Proof. exact unknown_filter. Qed.
Print Assumptions C92_unknown_filter.
Definition a3 := with_catcher (AStr (L "Ecco")) (with_filter (AStr (L "Row")) a1).
Example C92_unknown_filter_ex : check w0 a3 = None /\ meant_spaces a3 sp0 /\ ~ lone w0 (a_sl a3) /\ a_filter a3 = AStr (L "Row") /\ a_lib a3 = AMod 0
  /\ w_mod w0 0 (L "Row") = None /\ snd (make w0 a3) = Raise (AttrE (L "Row")).
Proof.
  split; [vm_compute; reflexivity|]. split; [left; split; reflexivity|]. split; [intros (o & E & _); discriminate E|].
  repeat split; vm_compute; reflexivity.
Qed.
Theorem C92_unknown_catcher : forall w a l c n, check w a = None -> meant_spaces a l -> ~ lone w (a_sl a) ->
  (prio a = true -> forall l', a_sl a <> SSeq true l' /\ a_ns a <> SSeq true l') -> meant_filter w a c ->
  a_catcher a = AStr n -> n <> [] -> w_catchers w n = None -> snd (make w a) = Raise (AttrE n).
Proof. exact unknown_catcher. Qed.
Print Assumptions C92_unknown_catcher.
Definition a4 := with_catcher (AStr (L "Ecco")) a1.
Example C92_unknown_catcher_ex : check w0 a4 = None /\ meant_spaces a4 sp0 /\ ~ lone w0 (a_sl a4) /\ meant_filter w0 a4 1
  /\ a_catcher a4 = AStr (L "Ecco") /\ w_catchers w0 (L "Ecco") = None /\ snd (make w0 a4) = Raise (AttrE (L "Ecco")).
Proof.
  split; [vm_compute; reflexivity|]. split; [left; split; reflexivity|]. split; [intros (o & E & _); discriminate E|].
  split; [split; [right; exists (L "Raw"), 0; repeat split|reflexivity]|]. repeat split; vm_compute; reflexivity.
Qed.

(** C92: there is a warning about a key of a dictionary in the list searchList if it is the name of a member of Template and
    prioritizeSearchListOverSelf is not in the settings, and about nothing else. *)
Theorem C92_warns : forall w a t l k, check w a = None -> a_sl a = SSeq t l ->
  ((exists i, In i (fst (make w a)) /\ In k i) <-> prio a = false /\ In k (w_reserved w) /\ exists ks, In (NDict ks) l /\ In k ks).
Proof. exact warns. Qed.
Print Assumptions C92_warns.
Theorem C92_quiet : forall w a i, In i (fst (make w a)) -> i <> [].
Proof. exact quiet. Qed.
Print Assumptions C92_quiet.
Example C92_warns_ex : check w0 a1 = None /\ a_sl a1 = SSeq true sp0 /\ fst (make w0 a1) = [[L "session"]]
  /\ fst (make w0 (as_search_list (with_settings (ADict true) a0) (SSeq false sp0))) = [].
Proof. split; [vm_compute; reflexivity|]. split; [reflexivity|]. split; vm_compute; reflexivity. Qed.
Example C92_quiet_ex : In [L "session"] (fst (make w0 a1)).
Proof. vm_compute. auto. Qed.

(** C92 does not hold of classes: any class passes the checks as a filter or an error catcher. *)
Theorem C92_any_class_refuted : exists w a, first_misfit w a (L "filter") /\ check w a = None /\ snd (make w a) = Raise (Fails 3).
Proof.
  exists w0, (with_filter (AClass 3) a0). split; [exists (firstn 2 (documented w0 a0)), (skipn 3 (documented w0 a0)); split; [vm_compute; reflexivity|fits]|].
  split; vm_compute; reflexivity.
Qed.
Print Assumptions C92_any_class_refuted.
(** Nor of a class that happens to work: it is taken. *)
Theorem C92_any_filter_refuted : exists w a r, first_misfit w a (L "filter") /\ first_misfit w (with_filter (AStr (L "Raw")) a) (L "errorCatcher")
  /\ snd (make w a) = Ok r /\ m_filter r = 3 /\ m_catcher r = Some 3.
Proof.
  exists (mkWorld (fun c => Nat.eqb c 1) (fun c => Nat.eqb c 2) (fun _ => true) (fun _ => true) (fun _ _ => None) (fun _ => None) (fun _ => true) (fun _ => true) []).
  exists (with_catcher (AClass 3) (with_filter (AClass 3) a0)), (mkMade [EGlobals; ESelf] 3 (Some 3) (Some (AStr (L "$x"), ANone))).
  split; [exists (firstn 2 (documented w0 a0)), [(L "filtersLib", true); (L "errorCatcher", false); (L "compilerSettings", true)]; split; [vm_compute; reflexivity|fits]|].
  split; [exists (firstn 4 (documented w0 a0)), [(L "compilerSettings", true)]; split; [vm_compute; reflexivity|fits]|].
  split; [vm_compute; reflexivity|]. split; reflexivity.
Qed.
Print Assumptions C92_any_filter_refuted.

(** C92 does not hold of filtersLib as a string: it passes the checks, and no filter is found in it. *)
Theorem C92_string_lib_refuted : exists w a, fit w a /\ check w a = None /\ snd (make w a) = Raise (AttrE (L "Raw")).
Proof. exists w0, (with_lib (AStr (L "Cheetah.Filters")) a0). split; [fits|]. split; vm_compute; reflexivity. Qed.
Print Assumptions C92_string_lib_refuted.

(** C92 does not hold of one object: as namespaces it is taken, as searchList it is a TypeError. *)
Theorem C92_object_refuted : exists w a s r, snd (make w (as_namespaces a s)) = Ok r /\ m_sl r = [EGlobals; ESelf; ENs (NObj 5)]
  /\ snd (make w (as_search_list a s)) = Raise NotIterable.
Proof.
  exists w0, a0, (SOne (NObj 5)), (mkMade [EGlobals; ESelf; ENs (NObj 5)] 1 None (Some (AStr (L "$x"), ANone))).
  split; [vm_compute; reflexivity|]. split; [reflexivity|]. vm_compute. reflexivity.
Qed.
Print Assumptions C92_object_refuted.

(** C92 does not hold of tuples with prioritizeSearchListOverSelf. *)
Theorem C92_tuple_refuted : exists w a l r, snd (make w (as_search_list a (SSeq true l))) = Raise Concat
  /\ snd (make w (as_search_list a (SSeq false l))) = Ok r /\ fit w a.
Proof.
  exists w0, (with_settings (ADict true) a0), sp0, (mkMade [ENs (NDict [L "x"; L "session"]); ENs (NObj 5); EGlobals; ESelf] 1 None (Some (AStr (L "$x"), ANone))).
  split; [vm_compute; reflexivity|]. split; [vm_compute; reflexivity|]. fits.
Qed.
Print Assumptions C92_tuple_refuted.

(** C92 does not hold of the warnings about a dictionary given as namespaces, or by itself: there are none. *)
Theorem C92_no_warning_refuted : exists w a ks, In (L "session") (w_reserved w) /\ In (L "session") ks /\ prio a = false
  /\ fst (make w (as_search_list a (SSeq false [NDict ks]))) = [[L "session"]]
  /\ fst (make w (as_namespaces a (SSeq false [NDict ks]))) = [] /\ fst (make w (as_search_list a (SOne (NDict ks)))) = [].
Proof.
  exists w0, a0, [L "x"; L "session"]. split; [cbn; auto|]. split; [cbn; auto|]. split; [reflexivity|].
  split; [vm_compute; reflexivity|]. split; vm_compute; reflexivity.
Qed.
Print Assumptions C92_no_warning_refuted.

(** ** C93: a subclass that is given a source *)

(** The bases: Template, with some of its members; the class of the new template. *)
Definition template0 : dict := [(L "searchList", Func 90); (L "respond", Func 91); (L "transaction", Plain false 92)].
Definition new0 : dict := [(L "respond", Func 80); (L "__init__", Func 81); (L "_mainMethodName", Plain true 82)].
Definition tmpl0 := [new0; template0].
Definition sub0 : dict :=
  [(L "__module__", Plain true 1); (L "greeting", Plain true 2); (L "shout", Func 3); (L "count", Plain false 4); (L "make", ClassM 5); (L "help", StaticM 6)].
Definition i0 := mkInst [(L "_CHEETAH__searchList", Plain true 70)] [].
Definition i1 := mkInst [(L "_CHEETAH__searchList", Plain true 70); (L "greeting", Plain true 2); (L "shout", Func 3); (L "make", ClassM 5); (L "help", StaticM 6)] [].

Lemma distinct0 : distinct sub0.
Proof. unfold distinct. cbn. repeat constructor; cbn; intuition discriminate. Qed.
Ltac nodunder := intros (r & K); vm_compute in K; congruence.

(** C93: the instance still has the values of its class that are true. *)
Theorem C93_kept : forall own bases tmpl i mro i' k v, compile_into false own bases tmpl i = Some (mro, i') -> distinct own ->
  In (k, Plain true v) own -> ~ dunder k -> ~ is_property k tmpl -> get_attr k mro (i_dict i') = Some (GObj (Plain true v)).
Proof. exact kept. Qed.
Print Assumptions C93_kept.
Example C93_kept_ex : compile_into false sub0 [template0] tmpl0 i0 = Some (tmpl0, i1) /\ distinct sub0
  /\ In (L "greeting", Plain true 2) sub0 /\ ~ dunder (L "greeting") /\ ~ is_property (L "greeting") tmpl0
  /\ get_attr (L "greeting") tmpl0 (i_dict i1) = Some (GObj (Plain true 2)).
Proof.
  split; [vm_compute; reflexivity|]. split; [exact distinct0|]. split; [cbn; auto|]. split; [nodunder|].
  split; [intros (g & s & E); discriminate E|]. vm_compute. reflexivity.
Qed.

(** C93: everything else that the class does not have is as in the new class and in the instance before. *)
Theorem C93_others : forall own bases tmpl i mro i' k, compile_into false own bases tmpl i = Some (mro, i') -> distinct own ->
  (forall v, In (k, v) own -> dunder k \/ exists u, v = Plain false u) -> get_attr k mro (i_dict i') = get_attr k tmpl (i_dict i).
Proof. exact others. Qed.
Print Assumptions C93_others.
Example C93_others_ex : (forall v, In (L "respond", v) sub0 -> dunder (L "respond") \/ exists u, v = Plain false u)
  /\ get_attr (L "respond") tmpl0 (i_dict i1) = Some (GBound 80).
Proof. split; [intros v K; cbn in K; intuition congruence|]. vm_compute. reflexivity. Qed.

(** C93: an instance of Template itself keeps all it has. *)
Theorem C93_itself : forall own bases tmpl i, compile_into true own bases tmpl i = Some (tmpl, i).
Proof. exact itself. Qed.
Print Assumptions C93_itself.
Example C93_itself_ex : get_attr (L "respond") tmpl0 (i_dict i0) = Some (GBound 80) /\ get_attr (L "searchList") tmpl0 (i_dict i0) = Some (GBound 90).
Proof. split; vm_compute; reflexivity. Qed.

(** C93: there is an AttributeError if and only if the class has a property without a setter. *)
Theorem C93_fails : forall own bases tmpl i, distinct own ->
  (compile_into false own bases tmpl i = None <-> exists k g, In (k, Property g false) own /\ ~ dunder k).
Proof. exact fails. Qed.
Print Assumptions C93_fails.
Example C93_fails_ex : distinct (sub0 ++ [(L "size", Property 7 false)]) /\ compile_into false (sub0 ++ [(L "size", Property 7 false)]) [template0] tmpl0 i0 = None.
Proof. split; [unfold distinct; cbn; repeat constructor; cbn; intuition discriminate|]. vm_compute. reflexivity. Qed.

(** C93 does not hold of methods: every method of the class is a function afterwards that is not given the instance. *)
Theorem C93_unbound : forall own bases tmpl i mro i' k f, compile_into false own bases tmpl i = Some (mro, i') -> distinct own ->
  In (k, Func f) own -> ~ dunder k -> ~ is_property k tmpl -> get_attr k mro (i_dict i') = Some (GObj (Func f)).
Proof. exact unbound. Qed.
Print Assumptions C93_unbound.
Example C93_unbound_ex : In (L "shout", Func 3) sub0 /\ ~ dunder (L "shout") /\ ~ is_property (L "shout") tmpl0
  /\ get_attr (L "shout") [sub0; template0] (i_dict i0) = Some (GBound 3) /\ get_attr (L "shout") tmpl0 (i_dict i1) = Some (GObj (Func 3)).
Proof.
  split; [cbn; auto|]. split; [nodunder|]. split; [intros (g & s & E); discriminate E|]. split; vm_compute; reflexivity.
Qed.
Theorem C93_methods_refuted : exists own bases tmpl i i' k f, compile_into false own bases tmpl i = Some (tmpl, i')
  /\ get_attr k (own :: bases) (i_dict i) = Some (GBound f) /\ get_attr k tmpl (i_dict i') = Some (GObj (Func f)).
Proof. exists sub0, [template0], tmpl0, i0, i1, (L "shout"), 3. split; [|split]; vm_compute; reflexivity. Qed.
Print Assumptions C93_methods_refuted.
(** So a compiled template whose class is given another source has the main method of the first one, without the instance. *)
Theorem C93_recompiled_refuted : exists own bases tmpl i i', compile_into false own bases tmpl i = Some (tmpl, i')
  /\ get_attr (L "respond") tmpl (i_dict i) = Some (GBound 80) /\ get_attr (L "respond") tmpl (i_dict i') = Some (GObj (Func 50)).
Proof.
  exists [(L "respond", Func 50)], [template0], tmpl0, i0, (mkInst [(L "_CHEETAH__searchList", Plain true 70); (L "respond", Func 50)] []).
  split; [|split]; vm_compute; reflexivity.
Qed.
Print Assumptions C93_recompiled_refuted.
(** C93 does not hold of classmethods and staticmethods: the instance has the very objects, not the functions. *)
Theorem C93_classmethods_refuted : exists own bases tmpl i i', compile_into false own bases tmpl i = Some (tmpl, i')
  /\ get_attr (L "make") (own :: bases) (i_dict i) = Some (GClass 5) /\ get_attr (L "make") tmpl (i_dict i') = Some (GObj (ClassM 5))
  /\ get_attr (L "help") (own :: bases) (i_dict i) = Some (GObj (Func 6)) /\ get_attr (L "help") tmpl (i_dict i') = Some (GObj (StaticM 6)).
Proof. exists sub0, [template0], tmpl0, i0, i1. repeat split; vm_compute; reflexivity. Qed.
Print Assumptions C93_classmethods_refuted.
(** C93 does not hold of values that are false: they are gone. *)
Theorem C93_false_refuted : exists own bases tmpl i i', compile_into false own bases tmpl i = Some (tmpl, i')
  /\ get_attr (L "count") (own :: bases) (i_dict i) = Some (GObj (Plain false 4)) /\ get_attr (L "count") tmpl (i_dict i') = None.
Proof. exists sub0, [template0], tmpl0, i0, i1. repeat split; vm_compute; reflexivity. Qed.
Print Assumptions C93_false_refuted.
(** C93 does not hold of what the class inherits from another subclass: it is gone. *)
Theorem C93_inherited_refuted : exists own bases tmpl i i', compile_into false own bases tmpl i = Some (tmpl, i')
  /\ get_attr (L "greeting") (own :: bases) (i_dict i) = Some (GObj (Plain true 2)) /\ get_attr (L "greeting") tmpl (i_dict i') = None.
Proof. exists [(L "title", Plain true 9)], [sub0; template0], tmpl0, i0, (mkInst [(L "_CHEETAH__searchList", Plain true 70); (L "title", Plain true 9)] []). repeat split; vm_compute; reflexivity. Qed.
Print Assumptions C93_inherited_refuted.
(** C93 does not hold of properties with a setter: they are set to the property, and gone. *)
Theorem C93_property_refuted : exists own bases tmpl i i', compile_into false own bases tmpl i = Some (tmpl, i')
  /\ get_attr (L "size") (own :: bases) (i_dict i) = Some (GProp 7) /\ i_sets i' = [(7, Property 7 true)] /\ get_attr (L "size") tmpl (i_dict i') = None.
Proof. exists [(L "size", Property 7 true)], [template0], tmpl0, i0, (mkInst (i_dict i0) [(7, Property 7 true)]). repeat split; vm_compute; reflexivity. Qed.
Print Assumptions C93_property_refuted.
