(** C45 cache intervals, C46 response buffer, C47 indenter. *)
From Verif Require Import Small_Model Small_Spec Small_Proofs.
Local Open Scope string_scope.
Local Open Scope list_scope.

(** C45: a decimal number with a unit letter (or none, meaning minutes) is that many seconds. *)
Theorem C45_interval_seconds : forall num q suf u, decimal num q -> unit_suffix suf u ->
  exists v, genTimeInterval (num ++ suf) = Ok v /\ Qeq v (Qmult q (inject_Z (unit_seconds u))).
Proof. exact interval_value. Qed.
Print Assumptions C45_interval_seconds.
Example C45_interval_seconds_ex :
  decimal (L "1.5") (Qplus (inject_Z 1) (Qdiv (inject_Z 5) (inject_Z 10)))
  /\ unit_suffix (L "h") Hour
  /\ exists v, genTimeInterval (L "1.5h") = Ok v /\ Qeq v (inject_Z 5400).
Proof.
  split; [|split].
  - apply (dec_frac (L "1") (L "5")); [discriminate| |]; repeat constructor; unfold is_digit; cbn; lia.
  - right. right. left. split; reflexivity.
  - eexists. split; [vm_compute; reflexivity|vm_compute; reflexivity].
Qed.

(** C45: whatever the grammar accepts is either read as what it says or refused with a
    ValueError, and refused only when it is not a number followed by a unit. *)
Theorem C45_interval_not_misread : forall s, interval_grammar s ->
  match genTimeInterval s with
  | Raise e => e = ValueError
               /\ forall num suf u q, s = num ++ suf -> unit_suffix suf u -> ~ decimal num q
  | Ok v => exists num suf u q, s = num ++ suf /\ unit_suffix suf u /\ decimal num q
                                /\ Qeq v (Qmult q (inject_Z (unit_seconds u)))
  end.
Proof. exact interval_not_misread. Qed.
Print Assumptions C45_interval_not_misread.
Example C45_interval_not_misread_ex :
  interval_grammar (L "1.2.3m") /\ genTimeInterval (L "1.2.3m") = Raise ValueError
  /\ genTimeInterval (L ".5") = Ok (Qmult (5 # 10) (inject_Z 60)).
Proof.
  split; [|split; reflexivity].
  exists (L "1.2.3"), (L "m"), Minute. repeat split; try discriminate.
  - right. left. split; reflexivity.
  - repeat constructor; unfold is_digit; cbn; lia.
Qed.

(** C45: the grammar does accept strings that then crash the compilation: the grammar is not
    tight. *)
Theorem C45_grammar_accepts_only_numbers_refuted : exists s, interval_grammar s
  /\ genTimeInterval s = Raise ValueError.
Proof.
  exists (L "..m"). split; [|reflexivity].
  exists (L ".."), (L "m"), Minute. repeat split; try discriminate.
  - right. left. split; reflexivity.
  - repeat constructor; right; reflexivity.
Qed.
Print Assumptions C45_grammar_accepts_only_numbers_refuted.

(** C45: the timer argument of a cache directive, in either kind of quotes and among any other
    arguments, sets the interval. *)
Theorem C45_timer_argument : forall l1 l2 q num x suf u info,
  q = 34%N \/ q = 39%N -> decimal num x -> unit_suffix suf u ->
  (forall a, In a l2 -> fst a <> L "timer" /\ fst a <> L "interval") ->
  genCacheInfoFromArgList (l1 ++ (L "timer", Some (q :: (num ++ suf) ++ [q])) :: l2) = Ok info ->
  exists v, aget (L "interval") info = Some (CNum v)
            /\ Qeq v (Qmult x (inject_Z (unit_seconds u))).
Proof. exact timer_argument. Qed.
Print Assumptions C45_timer_argument.
Example C45_timer_argument_ex :
  genCacheInfoFromArgList [(L "id", Some (L "'x'")); (L "timer", Some (L "'30s'"))]
  = Ok [(L "id", CText (L "x")); (L "interval", CNum (30 # 1))].
Proof. reflexivity. Qed.

(** C45: every other argument is stored under its own name with its quotes removed. *)
Theorem C45_other_argument : forall l1 l2 key val info,
  key <> L "timer" -> key <> L "interval" ->
  (forall a, In a l2 -> fst a <> key) ->
  genCacheInfoFromArgList (l1 ++ (key, Some val) :: l2) = Ok info ->
  aget key info = Some (CText (unquote val)).
Proof. exact other_argument. Qed.
Print Assumptions C45_other_argument.
Example C45_other_argument_ex :
  genCacheInfoFromArgList [(L "varyBy", Some (L "$x")); (L "timer", Some (L "2"))]
  = Ok [(L "varyBy", CText (L "$x")); (L "interval", CNum (120 # 1))].
Proof. reflexivity. Qed.

(** C46: after any run of writes, flushes and reads, the value is the concatenation of the
    strings written, in order; reads change nothing. *)
Theorem C46_writes_in_order : forall ops ts, writes ops ts ->
  resp_getvalue None (rrun ops) = Ok (concat ts).
Proof. exact response_value. Qed.
Print Assumptions C46_writes_in_order.
Example C46_writes_in_order_ex :
  writes [Write (CStr (L "a")); GetValue; Writeln (CStr (L "b")); Write (CStr (L "c"))]
         [L "a"; L "b"; [10%N]; L "c"].
Proof. repeat constructor. Qed.

(** C46: a transform is applied once, to the whole text. *)
Theorem C46_transform_whole_text : forall ops ts f, writes ops ts ->
  transformer_getvalue f (rrun ops)
  = Ok (match f with Some f => f (concat ts) | None => concat ts end).
Proof. exact transformer_value. Qed.
Print Assumptions C46_transform_whole_text.
Example C46_transform_whole_text_ex :
  transformer_getvalue (Some (@rev N)) (rrun [Write (CStr (L "ab")); Write (CStr (L "c"))])
  = Ok (L "cba").
Proof. reflexivity. Qed.

(** C46: a transaction always hands out the same response. *)
Theorem C46_same_response : forall n w, exists i, fst (calls n dummy_response w) = repeat i n.
Proof. exact dummy_same_response. Qed.
Print Assumptions C46_same_response.
Example C46_same_response_ex :
  calls 2 dummy_response (mkW [] None) = ([0; 0], mkW [[]] (Some 0)).
Proof. reflexivity. Qed.

(** C46: a transformer transaction used on its own does not: text written to one response is
    lost to the next caller (the compiled code assigns the attribute itself and so avoids it). *)
Theorem C46_transformer_same_response_refuted :
  exists w, fst (calls 2 transformer_response w) = [0; 1].
Proof. exists (mkW [] None). reflexivity. Qed.
Print Assumptions C46_transformer_same_response_refuted.

(** C46: None written directly to the response does not contribute nothing, it makes the value
    unreadable for good, whatever else is written. *)
Theorem C46_none_contributes_nothing_refuted : forall ops v, In (Write COther) ops ->
  resp_getvalue None (rrun (ops ++ [v])) = Raise TypeError.
Proof. exact response_nonstring. Qed.
Print Assumptions C46_none_contributes_nothing_refuted.
Example C46_none_contributes_nothing_refuted_ex :
  resp_getvalue None (rrun [Write (CStr (L "a")); Write COther; Write (CStr (L "b"))])
  = Raise TypeError.
Proof. reflexivity. Qed.

(** C46: asked for the value of an empty list of chunks, the response gives everything it has. *)
Theorem C46_empty_chunk_list_refuted : exists chunks,
  resp_getvalue (Some []) chunks = Ok (L "secret").
Proof. exists [CStr (L "secret")]. reflexivity. Qed.
Print Assumptions C46_empty_chunk_list_refuted.

(** C47: levels are never negative, on any indenter, after any calls on any indenters. *)
Theorem C47_level_nonnegative : forall cs i, (0 <= i_level (is_obj (irun cs is_init) i))%Z.
Proof. exact level_nonneg. Qed.
Print Assumptions C47_level_nonnegative.
Example C47_level_nonnegative_ex :
  i_level (is_obj (irun [(0, Dec); (0, SetLevel (-3)); (0, Inc); (0, Dec); (0, Dec)] is_init) 0) = 0%Z
  /\ i_level (is_obj (irun [(0, Inc); (0, Inc); (0, Push); (1, Pop)] is_init) 1) = 2%Z.
Proof. split; reflexivity. Qed.

(** C47: a pop undoes the matching push as long as pushes and pops nest. *)
Theorem C47_push_pop_restores : forall i cs s, balanced cs ->
  i_level (is_obj (irun ((i, Push) :: cs ++ [(i, Pop)]) s) i) = i_level (is_obj s i).
Proof. exact push_pop_restores. Qed.
Print Assumptions C47_push_pop_restores.
Example C47_push_pop_restores_ex :
  balanced [(0, Inc); (1, Push); (0, SetLevel 7); (1, Pop); (0, Dec)].
Proof.
  apply bal_one; try discriminate.
  apply (bal_pair 1 1 [(0, SetLevel 7)] [(0, Dec)]); apply bal_one; try discriminate; constructor.
Qed.

(** C47: the text is level copies of the indent string, or the default number of blanks. *)
Theorem C47_indent_text : forall o d,
  indent o d = if i_on o then concat (repeat (i_chars o) (Z.to_nat (i_level o)))
               else repeat 32%N (Z.to_nat d).
Proof. exact indent_copies. Qed.
Print Assumptions C47_indent_text.
Example C47_indent_text_ex : indent (mkInd true 2 (L "ab")) 5 = L "abab"
  /\ indent (mkInd false 2 (L "ab")) 3 = L "   ".
Proof. split; reflexivity. Qed.

(** C47: without push and pop, an indenter sees only its own calls. *)
Theorem C47_isolation_partial : forall i cs s, Forall (fun c => plain (snd c) = true) cs ->
  is_obj (irun cs s) i = is_obj (irun (filter (fun c => Nat.eqb (fst c) i) cs) s) i.
Proof. exact isolated. Qed.
Print Assumptions C47_isolation_partial.
Example C47_isolation_partial_ex :
  Forall (fun c => plain (snd c) = true) [(0, Inc); (1, SetLevel 4); (0, Inc)]
  /\ i_level (is_obj (irun [(0, Inc); (1, SetLevel 4); (0, Inc)] is_init) 0) = 2%Z.
Proof. split; [repeat constructor|reflexivity]. Qed.

(** C47 is false with push and pop: the stack belongs to the class, so a pop on one indenter
    takes the level pushed by another. *)
Theorem C47_isolation_refuted : exists cs,
  i_level (is_obj (irun cs is_init) 0)
  <> i_level (is_obj (irun (filter (fun c => Nat.eqb (fst c) 0) cs) is_init) 0).
Proof. exists [(0, Push); (1, SetLevel 4); (1, Push); (0, Pop)]. vm_compute. discriminate. Qed.
Print Assumptions C47_isolation_refuted.
