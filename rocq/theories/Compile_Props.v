(** C20 compilation cache, C52 settings hashing, C60 class names. *)
From Coq Require Import Permutation.
From Verif Require Import Compile_Model Compile_Spec Compile_Proofs.
Local Open Scope string_scope.
Local Open Scope list_scope.

(** C52: equal settings dictionaries hash equal, whatever the order of their items at any depth,
    for every hash function that keeps Python's contract. *)
Theorem C52_key_order_ignored : forall hash_tuple aeq d e x y, hash_contract aeq hash_tuple ->
  (forall a b, aeq (AInt a) (AInt b) -> a = b) ->
  veq aeq (VDict d) (VDict e) -> dwf (VDict e) ->
  hashDict hash_tuple d = Ok x -> hashDict hash_tuple e = Ok y -> x = y.
Proof. exact hashDict_order. Qed.
Print Assumptions C52_key_order_ignored.
Definition ex_hash (l : list elem) : Z :=
  fold_left (fun z e => match e with
    | EVal (AInt n) => z * 31 + n | EPair k (AInt n) => z * 31 + n + Z.of_nat (length k)
    | _ => z * 31 end)%Z l 7%Z.
Example C52_key_order_ignored_ex :
  let d := [(L "b", VDict [(L "x", VAtom (AInt 1)); (L "y", VAtom (AInt 2))]); (L "a", VAtom (AInt 3))] in
  let e := [(L "a", VAtom (AInt 3)); (L "b", VDict [(L "y", VAtom (AInt 2)); (L "x", VAtom (AInt 1))])] in
  hash_contract eq ex_hash /\ veq eq (VDict d) (VDict e) /\ dwf (VDict e)
  /\ hashDict ex_hash d = hashDict ex_hash e.
Proof.
  cbv zeta. split; [|split; [|split]].
  - split; [reflexivity|]. intros l m H _ _. f_equal. induction H as [|a b l m Hab H IH]; [reflexivity|].
    f_equal; [|exact IH]. inversion Hab; congruence.
  - eapply veq_dict with (e' := [(L "b", VDict [(L "y", VAtom (AInt 2)); (L "x", VAtom (AInt 1))]);
                                 (L "a", VAtom (AInt 3))]); [apply perm_swap|].
    constructor; [|constructor; [|constructor]]; (split; [reflexivity|]); [|constructor; reflexivity].
    eapply veq_dict with (e' := [(L "x", VAtom (AInt 1)); (L "y", VAtom (AInt 2))]); [apply perm_swap|].
    constructor; [|constructor; [|constructor]]; (split; [reflexivity|]); constructor; reflexivity.
  - repeat (constructor; cbn; try (intuition discriminate)).
  - vm_compute. reflexivity.
Qed.

(** C52: hashing succeeds on every dictionary whose values are hashable, dicts and lists aside. *)
Theorem C52_hash_defined : forall hash_tuple d, all_hashable (VDict d) ->
  exists z, hashDict hash_tuple d = Ok (AInt z).
Proof. exact hashDict_total. Qed.
Print Assumptions C52_hash_defined.
Example C52_hash_defined_ex :
  all_hashable (VDict [(L "a", VList [VAtom (AInt 1); VDict []]); (L "b", VAtom (AOther 5 true))]).
Proof. repeat constructor. Qed.

(** C52: one unhashable value (a set, say) makes the hash raise, and the compile call with it,
    although compiling such a template is possible. *)
Theorem C52_unhashable_value_refuted : exists o, forall hs ho ht E (k : unit),
  compile hs ho ht (fun _ => @Ok E unit k) true true o [] = (HashError, []).
Proof.
  exists (mkO (Some (L "text")) None [] None (L "m") None 0 0 []
              [(L "words", VAtom (AOther 0 false))] None).
  reflexivity.
Qed.
Print Assumptions C52_unhashable_value_refuted.

(** C20: in every history of compile calls, a returned class was built by a call of the history;
    if that call and the present one differ in at most one component of the key, they have the
    same source, class name, module name, main method, compiler class, base class and cache
    directory (with hash collisions excluded).  Missing: calls that differ in several
    components, see the refutations. *)
Theorem C20_same_options_partial :
  forall hs ho ht {K E} (build : copts -> res E K) l outs c2 i x k,
  (forall a b, hs a = hs b -> a = b) -> (forall a b, ho a = ho b -> a = b) ->
  run_calls hs ho ht build l [] = (outs, c2) ->
  nth_error l i = Some x -> nth_error outs i = Some (Class k) ->
  exists o, In o (map c_opts (firstn (S i) l)) /\ build o = Ok k
    /\ (forall ps qs, pieces hs ho ht o = Ok ps -> pieces hs ho ht (c_opts x) = Ok qs ->
          differ_at_most_once ps qs -> agree o (c_opts x)).
Proof. exact @history_agrees. Qed.
Print Assumptions C20_same_options_partial.
Definition ex_opts (c m : pystr) : copts :=
  mkO (Some (L "text")) None [] (Some c) m (Some (L "respond")) 0 1 [] [] None.
Example C20_same_options_partial_ex :
  exists ps qs, pieces (fun _ => 5%Z) Z.of_nat ex_hash (ex_opts (L "A") (L "m")) = Ok ps
  /\ pieces (fun _ => 5%Z) Z.of_nat ex_hash (ex_opts (L "B") (L "m")) = Ok qs
  /\ differ_at_most_once ps qs.
Proof.
  eexists _, _. split; [reflexivity|]. split; [reflexivity|].
  apply (dao_one [L "5"; L "None"] (L "A") (L "B")).
Qed.

(** C20: a repeated call with the same options gets the same class without compiling. *)
Theorem C20_repeat_hits : forall hs ho ht {K E} (build : copts -> res E K) o c k c1,
  cacheHash hs ho ht o <> Ok (Some []) -> cacheHash hs ho ht o <> Ok None ->
  compile hs ho ht build true true o c = (Class k, c1) ->
  compile hs ho ht build true true o c1 = (Class k, c1).
Proof. exact @compile_again. Qed.
Print Assumptions C20_repeat_hits.
Example C20_repeat_hits_ex :
  cacheHash (fun _ => 5%Z) Z.of_nat ex_hash (ex_opts (L "A") (L "m"))
  = Ok (Some (L "5NoneAmrespond01NoneNone5"))
  /\ exists c1, compile (fun _ => 5%Z) Z.of_nat ex_hash (fun o => @Ok unit copts o) true true
                  (ex_opts (L "A") (L "m")) [] = (Class (ex_opts (L "A") (L "m")), c1).
Proof. split; [reflexivity|eexists; reflexivity]. Qed.

(** C20 is false in general: the parts of the key are joined without separators, so class a of
    module bc and class ab of module c share one key, whatever the hash functions are: the
    second call gets the first one's class. *)
Theorem C20_class_and_module_refuted : exists a b, o_class a <> o_class b /\ o_module a <> o_module b
  /\ forall hs ho ht E,
       fst (run_calls hs ho ht (fun o => @Ok E copts o) [mkCall true true a; mkCall true true b] [])
       = [Class a; Class a].
Proof.
  exists (ex_opts (L "a") (L "bc")), (ex_opts (L "ab") (L "c")).
  split; [discriminate|]. split; [discriminate|]. intros hs ho ht E.
  eapply same_key_shared; [reflexivity|reflexivity| |reflexivity].
  eapply (key_nonempty hs ho ht (ex_opts (L "a") (L "bc"))). reflexivity.
Qed.
Print Assumptions C20_class_and_module_refuted.

(** C20: the settings a={} and a=[] hash alike, whatever the hash functions are. *)
Theorem C20_nested_settings_refuted : exists a b, o_settings a <> o_settings b
  /\ forall hs ho ht E,
       fst (run_calls hs ho ht (fun o => @Ok E copts o) [mkCall true true a; mkCall true true b] [])
       = [Class a; Class a].
Proof.
  exists (mkO (Some (L "text")) None [] None (L "m") None 0 0 [(L "a", VDict [])] [] None),
         (mkO (Some (L "text")) None [] None (L "m") None 0 0 [(L "a", VList [])] [] None).
  split; [discriminate|]. intros hs ho ht E.
  eapply same_key_shared; [reflexivity|reflexivity| |reflexivity].
  eapply (key_nonempty hs ho ht
    (mkO (Some (L "text")) None [] None (L "m") None 0 0 [(L "a", VDict [])] [] None)). reflexivity.
Qed.
Print Assumptions C20_nested_settings_refuted.

(** C60: the class name made from a valid module or class name is a valid name again: leading
    underscores go, at least one character stays, no digit comes first, and doing it again
    changes nothing. *)
Theorem C60_class_name_valid : forall s, s <> [] ->
  Forall (fun c => is_alnum c = true \/ c = 95%N) s ->
  match s with c :: _ => ~ (48 <= c <= 57)%N | [] => True end ->
  strip_underscores s <> []
  /\ Forall (fun c => is_alnum c = true \/ c = 95%N) (strip_underscores s)
  /\ match strip_underscores s with c :: _ => ~ (48 <= c <= 57)%N | [] => True end
  /\ strip_underscores (strip_underscores s) = strip_underscores s
  /\ exists k, s = repeat 95%N k ++ strip_underscores s.
Proof. exact class_name_valid. Qed.
Print Assumptions C60_class_name_valid.
Example C60_class_name_valid_ex :
  strip_underscores (L "__1x") = L "_1x" /\ strip_underscores (L "__page") = L "page"
  /\ strip_underscores (L "___") = L "_" /\ strip_underscores (L "_9") = L "_9".
Proof. repeat split. Qed.

(** C60: different names can give one class name. *)
Theorem C60_distinct_names_refuted : exists a b, a <> b /\ strip_underscores a = strip_underscores b.
Proof. exists (L "_page"), (L "page"). split; [discriminate|reflexivity]. Qed.
Print Assumptions C60_distinct_names_refuted.
