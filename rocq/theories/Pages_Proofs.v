(** Proofs about the neighbouring pages. *)
From Verif Require Import Base PyStr Report_Model Pages_Model Pages_Spec.
Local Open Scope Z_scope.

Section WithA.
Context {A : Type}.
Implicit Types l : list A.

Lemma there_spec : forall l i, 0 <= i -> there l i = (i <? Z.of_nat (length l)).
Proof.
  intros l i Hi. unfold there, py_get.
  destruct (i <? 0) eqn:E0; [apply Z.ltb_lt in E0; lia|]. cbv zeta. rewrite E0.
  destruct (nth_error l (Z.to_nat i)) as [x|] eqn:E.
  - assert (Hx : nth_error l (Z.to_nat i) <> None) by congruence. apply nth_error_Some in Hx.
    symmetry. apply Z.ltb_lt. lia.
  - apply nth_error_None in E. symmetry. apply Z.ltb_ge. lia.
Qed.

Lemma py_get_nth : forall l i x, 0 <= i -> nth_error l (Z.to_nat i) = Some x -> py_get l i = Ok x.
Proof.
  intros l i x Hi E. unfold py_get. destruct (i <? 0) eqn:E0; [apply Z.ltb_lt in E0; lia|]. cbv zeta. rewrite E0, E. reflexivity.
Qed.

Lemma py_get_back : forall l i, - Z.of_nat (length l) <= i < 0 -> py_get l i = py_get l (i + Z.of_nat (length l)).
Proof.
  intros l i Hi. unfold py_get.
  destruct (i <? 0) eqn:E0; [|apply Z.ltb_ge in E0; lia].
  destruct (i + Z.of_nat (length l) <? 0) eqn:E1; [apply Z.ltb_lt in E1; lia|]. cbv zeta. rewrite E1. reflexivity.
Qed.

Lemma py_get_far : forall l i, Z.of_nat (length l) <= i -> py_get l i = Raise IndexError.
Proof.
  intros l i Hi. unfold py_get. destruct (i <? 0) eqn:E0; [apply Z.ltb_lt in E0; lia|]. cbv zeta. rewrite E0.
  assert (E : nth_error l (Z.to_nat i) = None) by (apply nth_error_None; lia). rewrite E. reflexivity.
Qed.

Lemma py_get_low : forall l i, i < - Z.of_nat (length l) -> py_get l i = Raise IndexError.
Proof.
  intros l i Hi. unfold py_get. destruct (i <? 0) eqn:E0; [|apply Z.ltb_ge in E0; lia]. cbv zeta.
  destruct (i + Z.of_nat (length l) <? 0) eqn:E1; [reflexivity|apply Z.ltb_ge in E1; lia].
Qed.

Lemma py_get_in : forall l i, 0 <= i < Z.of_nat (length l) -> exists x, py_get l i = Ok x.
Proof.
  intros l i Hi. destruct (nth_error l (Z.to_nat i)) as [x|] eqn:E.
  - exists x. apply py_get_nth; [lia|exact E].
  - apply nth_error_None in E. lia.
Qed.

Lemma record_range : forall l i s, record_stats l i = Ok s ->
  st_list s = l /\ st_index s = i /\ py_get l i = Ok (st_item s) /\ - Z.of_nat (length l) <= i < Z.of_nat (length l).
Proof.
  intros l i s H. unfold record_stats in H. destruct (py_get l i) as [x|e] eqn:E; [|discriminate]. injection H as <-.
  repeat split; auto; cbn.
  - destruct (Z_lt_ge_dec i (- Z.of_nat (length l))); [rewrite py_get_low in E by lia; discriminate|lia].
  - destruct (Z_lt_ge_dec i (Z.of_nat (length l))); [lia|rewrite py_get_far in E by lia; discriminate].
Qed.

Lemma next_exact : forall l i s, record_stats l i = Ok s ->
  next s = if i =? 0 then Ok None else Raise IndexError.
Proof.
  intros l i s H. destruct (record_range l i s H) as (Hl & Hi & _ & Hr).
  unfold next, st_length. rewrite Hl, Hi.
  destruct (i =? 0) eqn:E0.
  - apply Z.eqb_eq in E0. replace (i + Z.of_nat (length l) =? Z.of_nat (length l)) with true by (symmetry; apply Z.eqb_eq; lia). reflexivity.
  - apply Z.eqb_neq in E0.
    replace (i + Z.of_nat (length l) =? Z.of_nat (length l)) with false by (symmetry; apply Z.eqb_neq; lia).
    unfold prev_next_page.
    destruct (Z_lt_ge_dec i 0) as [Hn|Hp].
    + destruct (py_get_in l (i + Z.of_nat (length l))) as [x ->]; [lia|].
      rewrite py_get_far by lia. reflexivity.
    + rewrite py_get_far by lia. reflexivity.
Qed.

Lemma prev_exact : forall l i s, record_stats l i = Ok s ->
  prev s = if i =? 0 then Ok None
           else if i <? 0 then Raise IndexError
           else Ok (Some (mkEnds (i - Z.of_nat (length l)) (st_item s) i (st_item s) (Z.of_nat (length l)))).
Proof.
  intros l i s H. destruct (record_range l i s H) as (Hl & Hi & Hg & Hr).
  unfold prev, st_length. rewrite Hl, Hi.
  destruct (i =? 0) eqn:E0; [reflexivity|]. apply Z.eqb_neq in E0.
  unfold prev_next_page. destruct (i <? 0) eqn:E1.
  - apply Z.ltb_lt in E1. rewrite py_get_low by lia. reflexivity.
  - apply Z.ltb_ge in E1.
    rewrite py_get_back by lia.
    replace (i - Z.of_nat (length l) + Z.of_nat (length l)) with i by lia. rewrite Hg. reflexivity.
Qed.

(** ** The window *)

Lemma clip : forall l start, 0 < start -> 0 < Z.of_nat (length l) ->
  (if there l (start - 1) then start else Z.of_nat (length l)) = Z.min start (Z.of_nat (length l)).
Proof.
  intros l start Hs Hn. rewrite there_spec by lia.
  destruct (start - 1 <? Z.of_nat (length l)) eqn:E; [apply Z.ltb_lt in E|apply Z.ltb_ge in E]; lia.
Qed.

Lemma forth : forall l s size orphan, 1 <= s <= Z.of_nat (length l) -> 1 <= size -> 0 <= orphan ->
  let e := if there l (s + size - 1 + orphan - 1) then s + size - 1 else Z.of_nat (length l) in
  s <= e <= Z.of_nat (length l) /\ forward (Z.of_nat (length l)) size orphan s e.
Proof.
  intros l s size orphan Hs Hz Ho. rewrite there_spec by lia. cbv zeta. unfold forward.
  destruct (s + size - 1 + orphan - 1 <? Z.of_nat (length l)) eqn:E; [apply Z.ltb_lt in E|apply Z.ltb_ge in E]; lia.
Qed.

Lemma helper_forward : forall l start end_ size orphan,
  (0 < length l)%nat -> 0 < start -> end_ <= 0 -> 0 <= orphan ->
  exists e, helper start end_ size orphan l = (Z.min start (Z.of_nat (length l)), e, if size <? 1 then 7 else size)
    /\ Z.min start (Z.of_nat (length l)) <= e <= Z.of_nat (length l)
    /\ forward (Z.of_nat (length l)) (if size <? 1 then 7 else size) orphan (Z.min start (Z.of_nat (length l))) e.
Proof.
  intros l start end_ size orphan Hn Hs He Ho. unfold helper. cbv zeta.
  replace (0 <? start) with true by (symmetry; apply Z.ltb_lt; lia).
  replace (0 <? end_) with false by (symmetry; apply Z.ltb_ge; lia).
  cbn [andb]. rewrite (clip l start) by lia.
  set (sz := if size <? 1 then 7 else size).
  assert (Hz : 1 <= sz) by (unfold sz; destruct (size <? 1) eqn:E; [lia|apply Z.ltb_ge in E; lia]).
  eexists. split; [reflexivity|]. apply forth; lia.
Qed.

Lemma helper_start : forall l start end_ size orphan,
  (0 < length l)%nat -> start <= 0 -> end_ <= 0 -> 0 <= orphan ->
  helper start end_ size orphan l = helper 1 end_ size orphan l.
Proof.
  intros l start end_ size orphan Hn Hs He Ho. unfold helper. cbv zeta.
  replace (0 <? start) with false by (symmetry; apply Z.ltb_ge; lia).
  replace (0 <? end_) with false by (symmetry; apply Z.ltb_ge; lia).
  change (0 <? 1) with true. cbn [andb]. rewrite (clip l 1) by lia.
  replace (Z.min 1 (Z.of_nat (length l))) with 1 by lia. reflexivity.
Qed.

Lemma helper_backward : forall l start end_ size orphan,
  (0 < length l)%nat -> start <= 0 -> 0 < end_ -> 0 <= orphan ->
  exists s, helper start end_ size orphan l = (s, Z.min end_ (Z.of_nat (length l)), if size <? 1 then 7 else size)
    /\ 1 <= s <= Z.min end_ (Z.of_nat (length l))
    /\ backward (if size <? 1 then 7 else size) orphan s (Z.min end_ (Z.of_nat (length l))).
Proof.
  intros l start end_ size orphan Hn Hs He Ho. unfold helper. cbv zeta.
  replace (0 <? start) with false by (symmetry; apply Z.ltb_ge; lia).
  replace (0 <? end_) with true by (symmetry; apply Z.ltb_lt; lia).
  cbn [andb]. rewrite (clip l end_) by lia.
  set (sz := if size <? 1 then 7 else size).
  assert (Hz : 1 <= sz) by (unfold sz; destruct (size <? 1) eqn:E; [lia|apply Z.ltb_ge in E; lia]).
  eexists. split; [reflexivity|]. unfold backward.
  destruct (Z.min end_ (Z.of_nat (length l)) + 1 - sz - 1 <? orphan) eqn:E; [apply Z.ltb_lt in E|apply Z.ltb_ge in E]; lia.
Qed.

Lemma helper_both : forall l start end_ size orphan,
  (0 < length l)%nat -> 0 < start -> 0 < end_ ->
  let s := Z.min start (Z.of_nat (length l)) in
  fst (helper start end_ size orphan l) = (s, Z.max s end_).
Proof.
  intros l start end_ size orphan Hn Hs He. unfold helper. cbv zeta.
  replace (0 <? start) with true by (symmetry; apply Z.ltb_lt; lia).
  replace (0 <? end_) with true by (symmetry; apply Z.ltb_lt; lia).
  cbn [andb fst]. rewrite (clip l start) by lia. f_equal.
  destruct (end_ <? Z.min start (Z.of_nat (length l))) eqn:E; [apply Z.ltb_lt in E|apply Z.ltb_ge in E]; lia.
Qed.

(** ** Walking *)

Lemma numbers_split : forall a b c, a <= b + 1 -> b <= c -> numbers a c = numbers a b ++ numbers (b + 1) c.
Proof.
  intros a b c H1 H2. unfold numbers.
  replace (Z.to_nat (c + 1 - a)) with (Z.to_nat (b + 1 - a) + Z.to_nat (c + 1 - (b + 1)))%nat by lia.
  rewrite seq_app, map_app. f_equal.
  rewrite Nat.add_0_l.
  replace (seq (Z.to_nat (b + 1 - a)) (Z.to_nat (c + 1 - (b + 1))))
    with (map (fun k => (Z.to_nat (b + 1 - a) + k)%nat) (seq 0 (Z.to_nat (c + 1 - (b + 1))))).
  - rewrite map_map. apply map_ext. intros k. lia.
  - assert (G : forall m k j, map (fun x => (k + x)%nat) (seq j m) = seq (k + j) m).
    { induction m as [|m' IH]; intros k j; [reflexivity|]. cbn [seq map]. f_equal. rewrite IH. f_equal. lia. }
    rewrite G. f_equal. lia.
Qed.

Lemma walk_windows : forall l size orphan, (0 < length l)%nat -> 1 <= size -> 0 <= orphan ->
  forall fuel s first,
  1 <= s <= Z.of_nat (length l) -> Z.of_nat (length l) - s < Z.of_nat fuel ->
  (first = true \/ orphan <= Z.of_nat (length l) - s + 1) ->
  exists ws, walk (fun s => helper s 0 size orphan l) (Z.of_nat (length l)) fuel s = Some ws
    /\ flat_map (fun w => numbers (fst w) (snd w)) ws = numbers s (Z.of_nat (length l))
    /\ sizes size orphan first ws /\ ws <> [].
Proof.
  intros l size orphan Hn Hz Ho. induction fuel as [|f IH]; intros s first Hs Hf Hr; [lia|].
  cbn [walk].
  destruct (helper_forward l s 0 size orphan Hn ltac:(lia) ltac:(lia) Ho) as (e & Hh & He & Hw).
  replace (size <? 1) with false in Hh, Hw by (symmetry; apply Z.ltb_ge; lia).
  replace (Z.min s (Z.of_nat (length l))) with s in Hh, He, Hw by lia.
  rewrite Hh. unfold forward in Hw.
  destruct (e <? Z.of_nat (length l)) eqn:E; [apply Z.ltb_lt in E|apply Z.ltb_ge in E].
  - destruct (IH (e + 1) false ltac:(lia) ltac:(lia) ltac:(right; lia)) as (ws & H1 & H2 & H3 & H4).
    rewrite H1. eexists. split; [reflexivity|]. split; [|split; [|discriminate]].
    + cbn [flat_map fst snd]. rewrite H2. symmetry. apply numbers_split; lia.
    + destruct ws as [|w ws']; [congruence|]. cbn [sizes] in *. split; [lia|exact H3].
  - eexists. split; [reflexivity|]. split; [|split; [|discriminate]].
    + cbn. rewrite app_nil_r. f_equal. lia.
    + cbn. split; [lia|]. split; [destruct Hr as [Hr|Hr]; [left; exact Hr|right; lia]|lia].
Qed.

End WithA.
