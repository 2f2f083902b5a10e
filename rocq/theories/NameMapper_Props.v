(** C04-C09, C57: the name mapper. *)
From Verif Require Import PyStr Alist NameMapper_Model NameMapper_Spec NameMapper_Proofs.

Local Open Scope string_scope.
Local Open Scope list_scope.

(** ** Two small object systems for examples and witnesses.  An object: is it a Mapping, does it
    support subscripting at the C level, is it a class, name of its type, items (with a flag telling
    whether [key in obj] is true), attributes, result when called.  State: number of calls made. *)
Inductive py := Py (m cm ty : bool) (tn : pystr) (items : list (pystr * (bool * res nexn py)))
                   (attrs : list (pystr * res nexn py)) (ret : option (res nexn py)).
Definition py_m o := match o with Py m _ _ _ _ _ _ => m end.
Definition py_cm o := match o with Py _ cm _ _ _ _ _ => cm end.
Definition py_ty o := match o with Py _ _ ty _ _ _ _ => ty end.
Definition py_tn o := match o with Py _ _ _ tn _ _ _ => tn end.
Definition py_items o := match o with Py _ _ _ _ i _ _ => i end.
Definition py_attrs o := match o with Py _ _ _ _ _ a _ => a end.
Definition py_ret o := match o with Py _ _ _ _ _ _ r => r end.
Definition always (k : pystr) : bool := str_eqb k (L "__class__") || str_eqb k (L "__init__").

(** Anything goes: subscripting and attribute access may raise. *)
Definition rawsys : psys py N := {|
  ismap := py_m;
  contains := fun _ o k => match aget k (py_items o) with Some (b, _) => b | None => false end;
  getitem := fun _ o k => match aget k (py_items o) with Some (_, r) => r | None => Raise (Other 0) end;
  getattr := fun _ o k => if always k then Ok o else match aget k (py_attrs o) with Some r => r | None => Raise AttributeError end;
  iscallable := fun o => match py_ret o with Some _ => true | None => false end;
  istype := py_ty;
  call0 := fun s o => (match py_ret o with Some r => r | None => Raise (Other 1) end, (s + 1)%N);
  cmap := py_cm; tname := py_tn |}.

(** Well-behaved objects. *)
Definition cleansys : psys py N := {|
  ismap := py_m;
  contains := fun _ o k => match aget k (py_items o) with Some (_, Ok _) => true | _ => false end;
  getitem := fun _ o k => match aget k (py_items o) with Some (_, Ok v) => Ok v | _ => Raise (Other 0) end;
  getattr := fun _ o k => if always k then Ok o else match aget k (py_attrs o) with Some (Ok v) => Ok v | _ => Raise AttributeError end;
  iscallable := fun o => match py_ret o with Some _ => true | None => false end;
  istype := py_ty;
  call0 := fun s o => (match py_ret o with Some (Ok r) => Ok r | _ => Raise (Other 1) end, (s + 1)%N);
  cmap := py_m; tname := fun o => L "object" |}.

Definition p_str (n : string) : py := Py false false false (L n) [] [] None.
Definition p_dict (l : list (string * py)) : py :=
  Py true true false (L "dict") (map (fun p => (L (fst p), (true, Ok (snd p)))) l)
     [(L "items", Ok (Py false false false (L "builtin") [] [(L "__self__", Ok (p_str "self"))] (Some (Ok (p_str "dict_items")))))] None.
Definition p_inst (l : list (string * py)) : py :=
  Py false false false (L "C") [] (map (fun p => (L (fst p), Ok (snd p))) l) None.
Definition p_fun (r : py) : py := Py false false false (L "f") [] [(L "__code__", Ok (p_str "code"))] (Some (Ok r)).
Definition p_cls (r : py) : py := Py false false true (L "type") [] [(L "mro", Ok (p_str "mro"))] (Some (Ok r)).

Example clean_modern : modern cleansys.
Proof. intros s o. split; exists o; reflexivity. Qed.
Example clean_introspectable : introspectable cleansys.
Proof.
  intros s o k _. unfold attr_present, attr_absent. simpl. destruct (always k); [left; exists o; reflexivity|].
  destruct (aget k (py_attrs o)) as [[v|e]|]; [left; exists v; reflexivity|right; reflexivity..].
Qed.
Example clean_no_foreign : no_foreign_notfound cleansys.
Proof.
  split; [|split]; simpl.
  - intros s o k key. destruct (aget k (py_items o)) as [[b [v|e]]|]; discriminate.
  - intros s o k key. destruct (always k); [discriminate|]. destruct (aget k (py_attrs o)) as [[v|e]|]; discriminate.
  - intros s o key. destruct (py_ret o) as [[v|e]|]; discriminate.
Qed.
Example clean_compatible : c_compatible cleansys.
Proof.
  split; [|split; [|split]]; simpl.
  - intros s o k H. split; [assumption|]. destruct (aget k (py_items o)) as [[b [v|e]]|].
    + split; [intros _; exists v; reflexivity|reflexivity].
    + split; [discriminate|intros [v H']; discriminate].
    + split; [discriminate|intros [v H']; discriminate].
  - intros s o k v H1 H2. congruence.
  - intros s o k. unfold attr_present, attr_absent. simpl. destruct (always k); [left; exists o; reflexivity|].
    destruct (aget k (py_attrs o)) as [[v|e]|]; [left; exists v; reflexivity|right; reflexivity..].
  - intros s o H. discriminate.
Qed.
Example dotfree_ab : forall c, In c [L "a"; L "b"] -> ~ In 46%N c.
Proof. intros c [<-|[<-|[]]]; vm_compute; intuition discriminate. Qed.

(** ** C04 *)
Theorem C04_first_namespace_wins : forall obj St (Y : psys obj St) s pre ns post k r ac x,
  introspectable Y -> modern Y -> (forall c, In c (k :: r) -> ~ In 46%N c) ->
  Forall (fun n => lacks Y s n k) pre -> has Y s ns k ->
  (valueFromSearchList Y s (pre ++ ns :: post) (join (L ".") (k :: r)) ac = x <-> walk Y ac s ns (k :: r) x).
Proof. exact @vfsl_first_walk. Qed.
Print Assumptions C04_first_namespace_wins.
Example C04_first_namespace_wins_ex :
  Forall (fun n => lacks cleansys 0%N n (L "a")) [p_inst [("b", p_str "no")]%string] /\
  has cleansys 0%N (p_dict [("a", p_inst [("b", p_str "yes")])]%string) (L "a") /\
  valueFromSearchList cleansys 0%N
    [p_inst [("b", p_str "no")]; p_dict [("a", p_inst [("b", p_str "yes")])]; p_dict [("a", p_str "late")]]%string
    (L "a.b") true = (Ok (p_str "yes"), 0%N).
Proof.
  split; [constructor; [|constructor]; split; [intros [H _]; discriminate|reflexivity]|].
  split; [left; split; reflexivity|]. vm_compute. reflexivity.
Qed.

(** Whatever follows the first namespace that has the name is irrelevant, for values and failures. *)
Theorem C04_later_namespaces_irrelevant : forall obj St (Y : psys obj St) s pre ns post post' k r ac,
  (forall c, In c (k :: r) -> ~ In 46%N c) -> has Y s ns k ->
  valueFromSearchList Y s (pre ++ ns :: post) (join (L ".") (k :: r)) ac =
  valueFromSearchList Y s (pre ++ ns :: post') (join (L ".") (k :: r)) ac.
Proof. exact @vfsl_later. Qed.
Print Assumptions C04_later_namespaces_irrelevant.
Example C04_later_namespaces_irrelevant_ex :
  has cleansys 0%N (p_dict [("a", p_str "x")]%string) (L "a") /\
  valueFromSearchList cleansys 0%N
    [p_dict [("a", p_str "x")]; p_dict [("a", p_inst [("b", p_str "late")])]]%string (L "a.b") true
  = (Raise (NotFound (L "b")), 0%N).
Proof. split; [left; split; reflexivity|vm_compute; reflexivity]. Qed.

(** ** C05 *)
Theorem C05_dotted_lookup : forall obj St (Y : psys obj St), introspectable Y -> modern Y ->
  forall chunks s o ac x, chunks <> [] -> (forall c, In c chunks -> ~ In 46%N c) ->
  (valueForName Y s o (join (L ".") chunks) ac = x <-> walk Y ac s o chunks x).
Proof. exact @vfn_join. Qed.
Print Assumptions C05_dotted_lookup.
Example C05_dotted_lookup_ex :
  introspectable cleansys /\ modern cleansys /\
  valueForName cleansys 0%N (p_inst [("a", p_fun (p_dict [("b", p_fun (p_cls (p_str "inst")))]))]%string)
    (join (L ".") [L "a"; L "b"]) true = (Ok (p_cls (p_str "inst")), 2%N) /\
  valueForName cleansys 0%N (p_inst [("a", p_fun (p_dict []))]%string) (join (L ".") [L "a"; L "b"]) false
    = (Raise (NotFound (L "b")), 0%N).
Proof. split; [exact clean_introspectable|]. split; [exact clean_modern|]. split; vm_compute; reflexivity. Qed.

(** The relation is a function: exactly one outcome. *)
Theorem C05_lookup_deterministic : forall obj St (Y : psys obj St), introspectable Y -> modern Y ->
  forall chunks s o ac, exists! x, walk Y ac s o chunks x.
Proof. exact @walk_unique. Qed.
Print Assumptions C05_lookup_deterministic.
Example C05_lookup_deterministic_ex : introspectable cleansys /\ modern cleansys.
Proof. exact (conj clean_introspectable clean_modern). Qed.

(** ** C06 *)
Theorem C06_notfound_iff : forall obj St (Y : psys obj St) s sl k r ac key,
  introspectable Y -> modern Y -> no_foreign_notfound Y -> (forall c, In c (k :: r) -> ~ In 46%N c) ->
  ((exists s', valueFromSearchList Y s sl (join (L ".") (k :: r)) ac = (Raise (NotFound key), s')) <->
   (key = k /\ Forall (fun n => lacks Y s n k) sl) \/
   (exists pre ns post, sl = pre ++ ns :: post /\ Forall (fun n => lacks Y s n k) pre /\ has Y s ns k /\
      lacks_chunk Y ac s ns (k :: r) key)).
Proof. exact @vfsl_notfound_clean. Qed.
Print Assumptions C06_notfound_iff.
Example C06_notfound_iff_ex : no_foreign_notfound cleansys /\
  fst (valueFromSearchList cleansys 0%N [p_dict [("b", p_str "x")]]%string (L "a.b") true)
    = Raise (NotFound (L "a")) /\
  fst (valueFromSearchList cleansys 0%N [p_dict [("a", p_fun (p_str "x"))]]%string (L "a.b") true)
    = Raise (NotFound (L "b")).
Proof. split; [exact clean_no_foreign|split; vm_compute; reflexivity]. Qed.

(** Without the assumption on user code: the third possibility is a NotFound it raised. *)
Theorem C06_notfound_iff_any_code : forall obj St (Y : psys obj St) s sl k r ac key,
  introspectable Y -> modern Y -> (forall c, In c (k :: r) -> ~ In 46%N c) ->
  ((exists s', valueFromSearchList Y s sl (join (L ".") (k :: r)) ac = (Raise (NotFound key), s')) <->
   (key = k /\ Forall (fun n => lacks Y s n k) sl) \/
   (exists pre ns post, sl = pre ++ ns :: post /\ Forall (fun n => lacks Y s n k) pre /\ ~ lacks Y s ns k /\
      (lacks_chunk Y ac s ns (k :: r) key \/ foreign Y ac s ns (k :: r) key))).
Proof. exact @vfsl_notfound. Qed.
Print Assumptions C06_notfound_iff_any_code.
Example C06_notfound_iff_any_code_ex :
  valueFromSearchList rawsys 0%N
    [p_dict [("a", Py false false false [] [] [(L "__code__", Ok (p_str "c"))] (Some (Raise (NotFound (L "zz")))))]]%string
    (L "a.b") true = (Raise (NotFound (L "zz")), 1%N).
Proof. vm_compute. reflexivity. Qed.

Theorem C06_value_iff : forall obj St (Y : psys obj St) s sl k r ac v s',
  introspectable Y -> modern Y -> (forall c, In c (k :: r) -> ~ In 46%N c) ->
  (valueFromSearchList Y s sl (join (L ".") (k :: r)) ac = (Ok v, s') <->
   exists pre ns post, sl = pre ++ ns :: post /\ Forall (fun n => lacks Y s n k) pre /\ has Y s ns k /\
     walk Y ac s ns (k :: r) (Ok v, s')).
Proof. exact @vfsl_value. Qed.
Print Assumptions C06_value_iff.
Example C06_value_iff_ex :
  valueFromSearchList cleansys 0%N [p_inst []; p_dict [("a", p_fun (p_inst [("b", p_str "x")]))]]%string
    (join (L ".") [L "a"; L "b"]) true = (Ok (p_str "x"), 1%N).
Proof. vm_compute. reflexivity. Qed.

(** ** C07 *)
Theorem C07_frame_lookup_is_concatenated_search :
  forall obj St (Y : psys obj St) s locals globals builtins sl name ac,
  valueFromFrameOrSearchList Y s locals globals builtins (Some sl) name ac =
  valueFromSearchList Y s ([locals] ++ sl ++ [globals; builtins]) name ac.
Proof. exact @vffsl_concat. Qed.
Print Assumptions C07_frame_lookup_is_concatenated_search.
Example C07_frame_lookup_is_concatenated_search_ex :
  valueFromFrameOrSearchList cleansys 0%N (p_dict []) (p_dict [("a", p_str "global")]) (p_dict [("a", p_str "builtin")])
    (Some [p_inst [("a", p_str "sl")]]) (L "a") true = (Ok (p_str "sl"), 0%N) /\
  valueFromFrameOrSearchList cleansys 0%N (p_dict []) (p_dict [("a", p_str "global")]) (p_dict [("a", p_str "builtin")])
    (Some []) (L "a") true = (Ok (p_str "global"), 0%N).
Proof. split; vm_compute; reflexivity. Qed.

(** The C version of the frame lookup, whose four stages are written out separately. *)
Theorem C07_frame_lookup_c_version :
  forall obj St (Y : psys obj St) s locals globals builtins sl name ac,
  c_valueFromFrameOrSearchList Y s locals globals builtins sl name ac =
  c_valueFromSearchList Y s ([locals] ++ sl ++ [globals; builtins]) name ac.
Proof. exact @c_vffsl_concat. Qed.
Print Assumptions C07_frame_lookup_c_version.
Example C07_frame_lookup_c_version_ex :
  c_valueFromFrameOrSearchList cleansys 0%N (p_dict []) (p_dict []) (p_dict [("a", p_str "builtin")])
    [p_inst []] (L "a") true = (Ok (p_str "builtin"), 0%N).
Proof. vm_compute. reflexivity. Qed.

(** Order, spelled out with the specification of C04: locals first, then the search list, then
    globals, then builtins. *)
Theorem C07_lookup_order : forall obj St (Y : psys obj St) s locals globals builtins sl k r ac,
  (forall c, In c (k :: r) -> ~ In 46%N c) ->
  let name := join (L ".") (k :: r) in
  let result := valueFromFrameOrSearchList Y s locals globals builtins (Some sl) name ac in
  (has Y s locals k -> result = valueForName Y s locals name ac) /\
  (lacks Y s locals k -> forall pre ns post, sl = pre ++ ns :: post ->
     Forall (fun n => lacks Y s n k) pre -> has Y s ns k -> result = valueForName Y s ns name ac) /\
  (lacks Y s locals k -> Forall (fun n => lacks Y s n k) sl -> has Y s globals k ->
     result = valueForName Y s globals name ac) /\
  (lacks Y s locals k -> Forall (fun n => lacks Y s n k) sl -> lacks Y s globals k -> has Y s builtins k ->
     result = valueForName Y s builtins name ac).
Proof. exact @vffsl_order. Qed.
Print Assumptions C07_lookup_order.
Example C07_lookup_order_ex : lacks cleansys 0%N (p_dict []) (L "a") /\ has cleansys 0%N (p_dict [("a", p_str "g")]%string) (L "a").
Proof. split; [split; [intros [_ H]; discriminate|reflexivity]|left; split; reflexivity]. Qed.

(** ** C08.  Full statement: equality for every name and every object system.  False (below);
    missing here: empty names, names ending in a dot, names of more than 14 chunks, and objects that
    the two versions classify differently ([c_compatible]). *)
Theorem C08_c_version_agrees_partial : forall obj St (Y : psys obj St), c_compatible Y -> modern Y ->
  forall l w s sl ac, (forall c, In c (l ++ [w]) -> ~ In 46%N c) -> w <> [] -> (length l <= 13)%nat ->
  c_valueFromSearchList Y s sl (join (L ".") (l ++ [w])) ac =
  valueFromSearchList Y s sl (join (L ".") (l ++ [w])) ac.
Proof. exact @c_vfsl_eq. Qed.
Print Assumptions C08_c_version_agrees_partial.
Example C08_c_version_agrees_partial_ex : c_compatible cleansys /\ modern cleansys /\
  c_valueFromSearchList cleansys 0%N [p_inst []; p_dict [("a", p_fun (p_inst [("b", p_str "x")]))]]%string
    (join (L ".") ([L "a"] ++ [L "b"])) true = (Ok (p_str "x"), 1%N).
Proof. split; [exact clean_compatible|]. split; [exact clean_modern|]. vm_compute. reflexivity. Qed.

Theorem C08_c_valueForName_agrees_partial : forall obj St (Y : psys obj St), c_compatible Y -> modern Y ->
  forall l w s o ac, (forall c, In c (l ++ [w]) -> ~ In 46%N c) -> w <> [] -> (length l <= 13)%nat ->
  c_valueForName Y s o (join (L ".") (l ++ [w])) ac = valueForName Y s o (join (L ".") (l ++ [w])) ac.
Proof. exact @c_vfn_eq. Qed.
Print Assumptions C08_c_valueForName_agrees_partial.
Example C08_c_valueForName_agrees_partial_ex :
  c_valueForName cleansys 0%N (p_dict [("a", p_cls (p_str "i"))]) (join (L ".") ([] ++ [L "a"])) true
  = (Ok (p_cls (p_str "i")), 0%N).
Proof. vm_compute. reflexivity. Qed.

Theorem C08_c_frame_lookup_agrees_partial : forall obj St (Y : psys obj St), c_compatible Y -> modern Y ->
  forall l w s locals globals builtins sl ac,
  (forall c, In c (l ++ [w]) -> ~ In 46%N c) -> w <> [] -> (length l <= 13)%nat ->
  c_valueFromFrameOrSearchList Y s locals globals builtins sl (join (L ".") (l ++ [w])) ac =
  valueFromFrameOrSearchList Y s locals globals builtins (Some sl) (join (L ".") (l ++ [w])) ac.
Proof. exact @c_vffsl_eq. Qed.
Print Assumptions C08_c_frame_lookup_agrees_partial.
Example C08_c_frame_lookup_agrees_partial_ex :
  c_valueFromFrameOrSearchList cleansys 0%N (p_dict [("a", p_str "l")]) (p_dict []) (p_dict []) []
    (join (L ".") ([] ++ [L "a"])) true = (Ok (p_str "l"), 0%N).
Proof. vm_compute. reflexivity. Qed.

(** A trailing dot is ignored by the C version only. *)
Theorem C08_trailing_dot_refuted : exists (sl : list py) v, c_compatible cleansys /\
  c_valueFromSearchList cleansys 0%N sl (L "a.") true = (Ok v, 0%N) /\
  valueFromSearchList cleansys 0%N sl (L "a.") true = (Raise (NotFound []), 0%N).
Proof. exists [p_dict [("a", p_str "x")]%string], (p_str "x"). split; [exact clean_compatible|]. split; vm_compute; reflexivity. Qed.
Print Assumptions C08_trailing_dot_refuted.

(** The C version limits a name to 14 chunks. *)
Theorem C08_many_chunks_refuted : exists (o : py) name v, c_compatible cleansys /\
  c_valueForName cleansys 0%N o name false = (Raise TooManyPeriods, 0%N) /\
  valueForName cleansys 0%N o name false = (Ok v, 0%N).
Proof.
  exists (Nat.iter 15 (fun o => p_inst [("a", o)]%string) (p_str "x")), (L "a.a.a.a.a.a.a.a.a.a.a.a.a.a.a"), (p_str "x").
  split; [exact clean_compatible|]. split; vm_compute; reflexivity.
Qed.
Print Assumptions C08_many_chunks_refuted.

Theorem C08_empty_name_refuted : exists sl : list py,
  c_valueFromSearchList cleansys 0%N sl [] true = (Raise ValueError, 0%N) /\
  valueFromSearchList cleansys 0%N sl [] true = (Raise (NotFound []), 0%N).
Proof. exists [p_dict []]. split; vm_compute; reflexivity. Qed.
Print Assumptions C08_empty_name_refuted.

(** An object with [__getitem__] that is not a registered Mapping. *)
Theorem C08_duck_mapping_refuted : exists (o v : py),
  ismap rawsys o = false /\ cmap rawsys o = true /\
  c_valueForName rawsys 0%N o (L "a") false = (Ok v, 0%N) /\
  valueForName rawsys 0%N o (L "a") false = (Raise (NotFound (L "a")), 0%N).
Proof.
  exists (Py false true false (L "Row") [(L "a", (true, Ok (p_str "x")))] [] None), (p_str "x").
  repeat split; vm_compute; reflexivity.
Qed.
Print Assumptions C08_duck_mapping_refuted.

(** A defaultdict: [key in d] is false but [d[key]] succeeds; the C version finds every name in it. *)
Theorem C08_defaultdict_refuted : exists (d : py) (rest : list py) v v', v <> v' /\
  ismap rawsys d = true /\
  c_valueFromSearchList rawsys 0%N (d :: rest) (L "a") false = (Ok v, 0%N) /\
  valueFromSearchList rawsys 0%N (d :: rest) (L "a") false = (Ok v', 0%N).
Proof.
  exists (Py true true false (L "defaultdict") [(L "a", (false, Ok (p_str "default")))] [] None),
    [p_dict [("a", p_str "x")]%string], (p_str "default"), (p_str "x").
  split; [discriminate|]. repeat split; vm_compute; reflexivity.
Qed.
Print Assumptions C08_defaultdict_refuted.

(** An attribute whose evaluation raises (a failing property): the Python version reports the error,
    the C version silently goes on to the next namespace. *)
Theorem C08_failing_property_refuted : exists (o : py) (rest : list py) v e,
  c_valueFromSearchList rawsys 0%N (o :: rest) (L "a") false = (Ok v, 0%N) /\
  valueFromSearchList rawsys 0%N (o :: rest) (L "a") false = (Raise (Other e), 0%N).
Proof.
  exists (Py false false false (L "C") [] [(L "a", Raise (Other 7))] None), [p_dict [("a", p_str "x")]%string], (p_str "x"), 7%N.
  split; vm_compute; reflexivity.
Qed.
Print Assumptions C08_failing_property_refuted.

(** An instance of a class that is called function. *)
Theorem C08_class_named_function_refuted : exists (o v : py),
  c_valueForName rawsys 0%N (p_dict [("a", o)]%string) (L "a") true = (Ok v, 1%N) /\
  valueForName rawsys 0%N (p_dict [("a", o)]%string) (L "a") true = (Ok o, 0%N) /\ v <> o.
Proof.
  exists (Py false false false (L "function") [] [] (Some (Ok (p_str "called")))), (p_str "called").
  split; [vm_compute; reflexivity|]. split; [vm_compute; reflexivity|discriminate].
Qed.
Print Assumptions C08_class_named_function_refuted.

(** ** C09 *)
Theorem C09_exists_iff_getvar : forall obj St (Y : psys obj St) s sl name ac s',
  varExists Y s sl name ac = (Ok true, s') <-> exists v, getVar Y s sl name None ac = (Ok v, s').
Proof. exact @varExists_true. Qed.
Print Assumptions C09_exists_iff_getvar.
Example C09_exists_iff_getvar_ex :
  varExists cleansys 0%N [p_dict [("a", p_fun (p_str "x"))]]%string (L "$a") true = (Ok true, 1%N).
Proof. vm_compute. reflexivity. Qed.

Theorem C09_not_exists_iff_notfound : forall obj St (Y : psys obj St) s sl name ac s',
  varExists Y s sl name ac = (Ok false, s') <-> exists k, getVar Y s sl name None ac = (Raise (NotFound k), s').
Proof. exact @varExists_false. Qed.
Print Assumptions C09_not_exists_iff_notfound.
Example C09_not_exists_iff_notfound_ex :
  varExists cleansys 0%N [p_dict [("a", p_str "x")]]%string (L "$a.b") true = (Ok false, 0%N).
Proof. vm_compute. reflexivity. Qed.

Theorem C09_same_other_exceptions : forall obj St (Y : psys obj St) s sl name ac e s',
  varExists Y s sl name ac = (Raise e, s') <->
  getVar Y s sl name None ac = (Raise e, s') /\ forall k, e <> NotFound k.
Proof. exact @varExists_raise. Qed.
Print Assumptions C09_same_other_exceptions.
Example C09_same_other_exceptions_ex :
  varExists rawsys 0%N [Py false false false (L "C") [] [(L "a", Raise (Other 7))] None] (L "a") true = (Raise (Other 7), 0%N).
Proof. vm_compute. reflexivity. Qed.

Theorem C09_default_used_iff_missing : forall obj St (Y : psys obj St) s sl name ac d,
  let '(b, s') := varExists Y s sl name ac in
  getVar Y s sl name (Some d) ac =
    (match b with Ok true => fst (getVar Y s sl name None ac) | Ok false => Ok d | Raise e => Raise e end, s').
Proof. exact @getVar_default. Qed.
Print Assumptions C09_default_used_iff_missing.
Example C09_default_used_iff_missing_ex :
  getVar cleansys 0%N [p_dict [("a", p_str "x")]]%string (L "$b") (Some (p_str "d")) true = (Ok (p_str "d"), 0%N) /\
  getVar cleansys 0%N [p_dict [("a", p_str "x")]]%string (L "$a") (Some (p_str "d")) true = (Ok (p_str "x"), 0%N).
Proof. split; vm_compute; reflexivity. Qed.

(** ** C57.  Full statement: a variable given as a key of a search-list mapping is what its
    placeholder yields when no earlier namespace has that key.  False: earlier namespaces are
    dictionaries and their methods count as names. *)
Theorem C57_dict_method_names_refuted : exists (locals globals builtins ns : py) k v w,
  in_mapping cleansys 0%N ns k /\ getitem cleansys 0%N ns k = Ok v /\ v <> w /\
  ~ in_mapping cleansys 0%N locals k /\
  valueFromFrameOrSearchList cleansys 0%N locals globals builtins (Some [ns]) k true = (Ok w, 1%N).
Proof.
  exists (p_dict []), (p_dict []), (p_dict []), (p_dict [("items", p_str "my items")]%string), (L "items"),
    (p_str "my items"), (p_str "dict_items").
  split; [split; reflexivity|]. split; [reflexivity|]. split; [discriminate|].
  split; [intros [_ H]; discriminate|]. vm_compute. reflexivity.
Qed.
Print Assumptions C57_dict_method_names_refuted.

(** True for names that are not attributes of the earlier namespaces. *)
Theorem C57_variable_reachable_partial : forall obj St (Y : psys obj St) s locals globals builtins pre ns post k v,
  ~ In 46%N k -> lacks Y s locals k -> Forall (fun n => lacks Y s n k) pre ->
  in_mapping Y s ns k -> getitem Y s ns k = Ok v ->
  valueFromFrameOrSearchList Y s locals globals builtins (Some (pre ++ ns :: post)) k false = (Ok v, s).
Proof. exact @vffsl_reach. Qed.
Print Assumptions C57_variable_reachable_partial.
Example C57_variable_reachable_partial_ex :
  ~ In 46%N (L "a") /\ lacks cleansys 0%N (p_dict []) (L "a") /\
  in_mapping cleansys 0%N (p_dict [("a", p_str "x")]%string) (L "a").
Proof.
  split; [vm_compute; intuition discriminate|].
  split; [split; [intros [_ H]; discriminate|reflexivity]|split; reflexivity].
Qed.
