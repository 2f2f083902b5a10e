(** Property theorems C101 (replacement strings, Cheetah/FileUtils.py) and C102 (Cheetah/Tools/RecursiveNull.py). *)
From Verif Require Import Base Subber_Model Subber_Spec Subber_Proofs.
Local Open Scope string_scope. Local Open Scope list_scope.

(** C101: every replacement string is taken apart, and nothing of it is lost. *)
Theorem C101_nothing_lost : forall s, exists l, chunks s = Some l /\
  concat (map (fun c => match c with CText t => t | CRef n => written (PNumber n) | CName n => written (PNamed n) end) l) = s.
Proof.
  intro s. destruct (parse_total (S (length s)) s (Nat.lt_succ_diag_r _)) as (l & P & W). exists l. split; [exact P|].
  transitivity (all_written (map of_chunk l)); [|exact W]. unfold all_written. rewrite map_map. f_equal. apply map_ext. intros []; reflexivity.
Qed.
Print Assumptions C101_nothing_lost.
Example C101_nothing_lost_ex : chunks (L "\g<a1>\0\12x\g<b_>\") = Some [CText (L "\g<a1>\0"); CRef (L "12"); CText (L "x"); CName (L "b_"); CText (L "\")].
Proof. vm_compute. reflexivity. Qed.

(** C101: texts, numbers and names of groups that are written clearly are read back, and the function puts the groups of the match in
    their places. *)
Theorem C101_replacement : forall l m v, clear l ->
  Forall (fun p => match p with PText _ => True | PNumber n | PNamed n => m n = GText (v n) end) l ->
  exists c, chunks (all_written l) = Some c /\ length c = length l /\
    subber m c = Ok (concat (map (fun p => match p with PText s => s | PNumber n => v n | PNamed n => v n end) l)).
Proof.
  intros l m v H F. exists (map to_chunk l). split; [apply roundtrip; [exact H|lia]|]. split; [apply map_length|].
  exact (subber_value m v l F).
Qed.
Print Assumptions C101_replacement.
Example C101_replacement_ex : let l := [PNumber (L "2"); PText (L "-"); PNamed (L "who"); PNumber (L "10"); PText (L "!")] in
  clear l /\ all_written l = L "\2-\g<who>\10!" /\
  subber (fun n => GText (L "<" ++ n ++ L ">")) (match chunks (all_written l) with Some c => c | None => [] end) = Ok (L "<2>-<who><10>!").
Proof.
  cbv zeta. split; [|split; vm_compute; reflexivity]. unfold all_written, is_number, is_id, is_letter. cbn.
  assert (Z : forall c : N, (48 <= c <= 57)%N \/ ~ (48 <= c <= 57)%N) by (intro; lia).
  repeat split; try discriminate; try (intro K; decompose [or] K; try discriminate; try contradiction; fail); try lia.
  - exists 50%N, []. repeat split; try lia. constructor.
  - repeat constructor; lia.
  - exists 49%N, [48%N]. repeat split; try lia. repeat constructor; lia.
Qed.

(** C101, errors: a group the pattern does not have is an IndexError. *)
Theorem C101_no_group : forall l m v n r, clear (l ++ PNumber n :: r) ->
  Forall (fun p => match p with PText _ => True | PNumber n | PNamed n => m n = GText (v n) end) l -> m n = GMissing ->
  exists c, chunks (all_written (l ++ PNumber n :: r)) = Some c /\ subber m c = Raise (IndexE n).
Proof.
  intros l m v n r H F E. exists (map to_chunk (l ++ PNumber n :: r)). split; [apply roundtrip; [exact H|lia]|].
  unfold subber. assert (K : elements m (map to_chunk (l ++ PNumber n :: r)) = Raise (IndexE n)); [|rewrite K; reflexivity].
  clear H. induction F as [|p l Hp _ IH]; cbn [app map elements to_chunk]; [rewrite E; reflexivity|].
  rewrite IH. destruct p; cbn [to_chunk]; try rewrite Hp; reflexivity.
Qed.
Print Assumptions C101_no_group.
Example C101_no_group_ex : let m n := if str_eqb n (L "1") then GText (L "a") else GMissing in
  m (L "7") = GMissing /\ subber m (match chunks (L "\1\7") with Some c => c | None => [] end) = Raise (IndexE (L "7")).
Proof. split; vm_compute; reflexivity. Qed.

(** C101, refuted: the replacement means what it means to re.sub: not with a doubled backslash, *)
Theorem C101_backslash_refuted : exists s v c, chunks s = Some c /\ expand 0 v s = L "\1" /\ subber (fun n => GText (v n)) c = Ok (L "\a").
Proof. exists (L "\\1"), (fun _ => L "a"). eexists. split; [vm_compute; reflexivity|]. split; vm_compute; reflexivity. Qed.
Print Assumptions C101_backslash_refuted.
(** ... not with the number of a group in angle brackets, *)
Theorem C101_number_refuted : exists s v c, chunks s = Some c /\ expand 0 v s = L "a0" /\ subber (fun n => GText (v n)) c = Ok s /\ s = L "\g<1>0".
Proof. exists (L "\g<1>0"), (fun _ => L "a"). eexists. split; [vm_compute; reflexivity|]. repeat split; vm_compute; reflexivity. Qed.
Print Assumptions C101_number_refuted.
(** ... and not with a group that took no part in the match, which is a TypeError instead of nothing. *)
Theorem C101_optional_refuted : exists s m c, chunks s = Some c /\ m (L "1") = GNone /\ expand 0 (fun _ => []) s = L "xy" /\ subber m c = Raise JoinE.
Proof. exists (L "x\1y"), (fun _ => GNone). eexists. split; [vm_compute; reflexivity|]. repeat split; vm_compute; reflexivity. Qed.
Print Assumptions C101_optional_refuted.

(** C101, refuted: [subberFunc] gives the function: it is a NameError for every replacement, unless the module has a name [subber]. *)
Theorem C101_function_refuted : exists (globals : pystr -> option nat), (exists n f, globals n = Some f) /\
  forall s c, chunks s = Some c -> subber_func globals c = Raise NameE.
Proof.
  exists (fun n => if str_eqb n (L "findFiles") then Some 0%nat else None). split; [exists (L "findFiles"), 0%nat; vm_compute; reflexivity|].
  intros s c _. unfold subber_func. vm_compute. reflexivity.
Qed.
Print Assumptions C101_function_refuted.

(** C102: whatever is done with nothing, in any number of steps, gives nothing, and this is written as the empty string. *)
Fixpoint chain (x : obj) (us : list use) : option obj :=
  match us with
  | [] => Some x
  | u :: r => match x with ONull => chain (use_null u) r | OOther _ => None end
  end.
Theorem C102_chain : forall us, chain ONull us = Some ONull /\ str_null = [].
Proof. intro us. split; [|reflexivity]. induction us as [|[n|k|a] us IH]; [reflexivity|exact IH..]. Qed.
Print Assumptions C102_chain.
Example C102_chain_ex : chain ONull [UAttr (L "anything"); UItem (L "you"); UAttr (L "might"); UCall [OOther true]] = Some ONull.
Proof. reflexivity. Qed.

(** C102: nothing is equal to what is false and different from what is true. *)
Theorem C102_equal : forall b, eq_null (OOther b) = Ok (negb b) /\ ne_null (OOther b) = Ok b.
Proof. intros []; split; reflexivity. Qed.
Print Assumptions C102_equal.
Example C102_equal_ex : eq_null (OOther false) = Ok true /\ ne_null (OOther true) = Ok true.
Proof. split; reflexivity. Qed.

(** C102, refuted: nothing is false: on Python 3 its truth is a TypeError, and so it is no more equal to itself. *)
Theorem C102_truth_refuted : exists x, chain ONull [UAttr (L "f1")] = Some x /\ truth x = Raise BoolE /\ eq_null x = Raise BoolE /\ ne_null x = Raise BoolE.
Proof. exists ONull. repeat split; reflexivity. Qed.
Print Assumptions C102_truth_refuted.
