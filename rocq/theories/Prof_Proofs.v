(** Proofs about the sampling profiler. *)
From Coq Require Permutation.
From Verif Require Import Base Prof_Model Prof_Spec.
Local Open Scope Z_scope.

Lemma level_run : forall h, p_level (prun h) = level h.
Proof.
  induction h as [|o r IH]; [reflexivity|]. cbn [prun level]. destruct o; cbn [pstep].
  - unfold start. destruct (p_level (prun r) + 1 =? 1); cbn; rewrite IH; reflexivity.
  - unfold stop, accumulate. cbn. destruct (p_level (prun r) - 1 =? 0); cbn; [|rewrite IH; reflexivity].
    destruct (p_last (prun r)); cbn; rewrite IH; reflexivity.
  - unfold reset. destruct (p_level (prun r) =? 0) eqn:Z0; cbn; [|exact IH]. apply Z.eqb_eq in Z0. congruence.
  - unfold handler, accumulate. destruct (0 <? p_level (prun r)); [|exact IH]. destruct (p_last (prun r)); exact IH.
Qed.

(** While it runs, the time of its last event is known: no subtraction fails. *)
Definition timed (s : pst) : Prop := 0 < p_level s -> p_last s <> None.

Lemma timed_run : forall h, timed (prun h).
Proof.
  induction h as [|o r IH]; [intro H; cbn in H; lia|]. unfold timed in *. cbn [prun]. destruct o; cbn [pstep].
  - unfold start. destruct (Z.eqb_spec (p_level (prun r) + 1) 1); cbn; [discriminate|]. intro H. apply IH. lia.
  - unfold stop, accumulate. cbn. destruct (Z.eqb_spec (p_level (prun r) - 1) 0) as [E|E]; cbn.
    + destruct (p_last (prun r)) eqn:PL; cbn; intro H; lia.
    + intro H. apply IH. lia.
  - unfold reset. destruct (p_level (prun r) =? 0); cbn; [lia|exact IH].
  - unfold handler, accumulate. destruct (0 <? p_level (prun r)) eqn:L; [|exact IH].
    destruct (p_last (prun r)) eqn:PL; cbn; [discriminate|]. intro H. rewrite PL. apply IH. exact H.
Qed.

Lemma no_error : forall o h e, fst (pstep o (prun h)) = Raise e -> e = AssertE /\ (exists t f, o = PReset t f) /\ level h <> 0.
Proof.
  intros o h e H. pose proof (timed_run h) as T. unfold timed in T. rewrite <- (level_run h). destruct o; cbn [pstep] in H.
  - discriminate H.
  - exfalso. unfold stop, accumulate in H. cbn in H. destruct (Z.eqb_spec (p_level (prun h) - 1) 0) as [E|E]; [|discriminate H].
    destruct (p_last (prun h)); [discriminate H|]. apply T; [lia|reflexivity].
  - unfold reset in H. destruct (Z.eqb_spec (p_level (prun h)) 0) as [E|E]; [discriminate H|]. injection H as <-. eauto.
  - exfalso. unfold handler, accumulate in H. destruct (Z.ltb_spec 0 (p_level (prun h))) as [E|E]; [|discriminate H].
    destruct (p_last (prun h)); [discriminate H|]. apply T; [lia|reflexivity].
Qed.

Lemma reset_refused : forall h t f, level h <> 0 -> pstep (PReset t f) (prun h) = (Raise AssertE, prun h).
Proof.
  intros h t f H. cbn [pstep]. unfold reset. destruct (Z.eqb_spec (p_level (prun h)) 0) as [E|E]; [|reflexivity].
  rewrite level_run in E. congruence.
Qed.

(** ** The rows *)

Lemma entry_upd : forall f k j l, entry j (upd f k l) = if Nat.eqb k j then Some (f (match entry k l with Some d => d | None => mkD 0 0 end)) else entry j l.
Proof.
  intros f k j l. induction l as [|[i d] r IH]; cbn [upd entry].
  - destruct (Nat.eqb k j); reflexivity.
  - destruct (Nat.eqb_spec i k) as [->|N]; cbn [entry].
    + destruct (Nat.eqb k j); reflexivity.
    + rewrite IH. destruct (Nat.eqb_spec i j) as [->|M]; [|reflexivity]. destruct (Nat.eqb_spec k j); [congruence|reflexivity].
Qed.

Lemma seen_spec : forall st acc, NoDup acc -> NoDup (seen st acc) /\ forall k, In k (seen st acc) <-> In k acc \/ In k st.
Proof.
  induction st as [|x r IH]; intros acc ND; cbn [seen].
  - split; [exact ND|]. intro k. cbn. tauto.
  - destruct (existsb (Nat.eqb x) acc) eqn:EX.
    + destruct (IH acc ND) as [A B]. split; [exact A|]. intro k. rewrite B. cbn. apply existsb_exists in EX as (y & I & E). apply Nat.eqb_eq in E. subst y.
      split; [tauto|]. intros [H|[<-|H]]; tauto.
    + assert (NX : ~ In x acc).
      { intro I. assert (existsb (Nat.eqb x) acc = true) by (apply existsb_exists; exists x; split; [exact I|apply Nat.eqb_refl]). congruence. }
      assert (ND' : NoDup (acc ++ [x])).
      { clear -ND NX. induction acc as [|y acc IH]; cbn; [constructor; [intros []|constructor]|]. inversion ND as [|? ? A B]. subst. constructor.
        - rewrite in_app_iff. cbn. intros [H|[<-|[]]]; [exact (A H)|apply NX; left; reflexivity].
        - apply IH; [exact B|]. intro H. apply NX. right. exact H. }
      destruct (IH _ ND') as [A B]. split; [exact A|]. intro k. rewrite B, in_app_iff. cbn. tauto.
Qed.

Definition part (g : cdata -> nat) (k : nat) (l : table) : nat := match entry k l with Some d => g d | None => O end.

Lemma part_upd : forall g f k j l, part g j (upd f k l) = if Nat.eqb k j then g (f (match entry k l with Some d => d | None => mkD 0 0 end)) else part g j l.
Proof. intros g f k j l. unfold part. rewrite entry_upd. destruct (Nat.eqb k j); reflexivity. Qed.

Lemma cum_bump : forall k j l, part d_cum j (upd bump_cum k l) = ((if Nat.eqb k j then 1 else 0) + part d_cum j l)%nat.
Proof.
  intros k j l. rewrite part_upd. destruct (Nat.eqb_spec k j) as [->|]; [|reflexivity]. unfold part. cbn. destruct (entry j l); reflexivity.
Qed.
Lemma self_bump : forall k j l, part d_self j (upd bump_self k l) = ((if Nat.eqb k j then 1 else 0) + part d_self j l)%nat.
Proof.
  intros k j l. rewrite part_upd. destruct (Nat.eqb_spec k j) as [->|]; [|reflexivity]. unfold part. cbn. destruct (entry j l); reflexivity.
Qed.
Lemma self_keep : forall k j l, part d_self j (upd bump_cum k l) = part d_self j l.
Proof. intros k j l. rewrite part_upd. destruct (Nat.eqb_spec k j) as [->|]; [|reflexivity]. unfold part. cbn. destruct (entry j l); reflexivity. Qed.
Lemma cum_keep : forall k j l, part d_cum j (upd bump_self k l) = part d_cum j l.
Proof. intros k j l. rewrite part_upd. destruct (Nat.eqb_spec k j) as [->|]; [|reflexivity]. unfold part. cbn. destruct (entry j l); reflexivity. Qed.

Lemma self_fold : forall ks j l, part d_self j (fold_left (fun l k => upd bump_cum k l) ks l) = part d_self j l.
Proof. induction ks as [|k ks IH]; intros j l; [reflexivity|]. cbn [fold_left]. rewrite IH. apply self_keep. Qed.
Lemma cum_fold : forall ks j l, NoDup ks ->
  part d_cum j (fold_left (fun l k => upd bump_cum k l) ks l) = ((if existsb (Nat.eqb j) ks then 1 else 0) + part d_cum j l)%nat.
Proof.
  induction ks as [|k ks IH]; intros j l ND; [reflexivity|]. cbn [fold_left existsb]. inversion ND as [|? ? A B]. subst.
  rewrite (IH _ _ B), cum_bump, (Nat.eqb_sym j k). destruct (Nat.eqb_spec k j) as [->|N]; cbn [orb]; [|reflexivity].
  destruct (existsb (Nat.eqb j) ks) eqn:EX; [|reflexivity]. apply existsb_exists in EX as (y & I & E). apply Nat.eqb_eq in E. subst y. contradiction.
Qed.

Lemma exists_seen : forall j st, existsb (Nat.eqb j) (seen st []) = existsb (Nat.eqb j) st.
Proof.
  intros j st. destruct (seen_spec st [] (NoDup_nil _)) as [_ S]. apply eq_true_iff_eq. rewrite !existsb_exists.
  split; intros (x & I & E); exists x; (split; [|exact E]); apply S in I || apply S; cbn in *; tauto.
Qed.

Lemma sample_self : forall top bl s j, self_of j (sample top bl s) = ((if on_top j (top, bl) then 1 else 0) + self_of j s)%nat.
Proof.
  intros top bl s j. change (self_of j (sample top bl s)) with (part d_self j (p_data (sample top bl s))). unfold sample. cbn [p_data].
  rewrite self_fold, self_bump. unfold on_top. cbn [fst]. rewrite (Nat.eqb_sym j). reflexivity.
Qed.
Lemma sample_cum : forall top bl s j, cum_of j (sample top bl s) = ((if on_stack j (top, bl) then 1 else 0) + cum_of j s)%nat.
Proof.
  intros top bl s j. change (cum_of j (sample top bl s)) with (part d_cum j (p_data (sample top bl s))). unfold sample. cbn [p_data].
  rewrite cum_fold, cum_keep, exists_seen; [reflexivity|]. apply seen_spec. constructor.
Qed.

Lemma total_upd : forall f k l, (forall d, d_self (f d) = d_self d) ->
  fold_right (fun x n => (d_self (snd x) + n)%nat) O (upd f k l) = fold_right (fun x n => (d_self (snd x) + n)%nat) O l.
Proof.
  intros f k l H. induction l as [|[j d] r IH]; cbn; [rewrite H; reflexivity|]. destruct (Nat.eqb j k); cbn; rewrite ?H, ?IH; reflexivity.
Qed.
Lemma total_self : forall k l,
  fold_right (fun x n => (d_self (snd x) + n)%nat) O (upd bump_self k l) = S (fold_right (fun x n => (d_self (snd x) + n)%nat) O l).
Proof. intros k l. induction l as [|[j d] r IH]; cbn; [reflexivity|]. destruct (Nat.eqb j k); cbn; rewrite ?IH; lia. Qed.
Lemma sample_total : forall top bl s, total (sample top bl s) = S (total s).
Proof.
  intros top bl s. unfold total, sample. cbn [p_data]. rewrite <- (total_self top). generalize (upd bump_self top (p_data s)).
  induction (seen (top :: bl) []) as [|k ks IH]; intro l; [reflexivity|]. cbn [fold_left]. rewrite IH. apply total_upd. reflexivity.
Qed.

(** ** The counts *)
Lemma counts : forall h, p_count (prun h) = length (taken h) /\ total (prun h) = length (taken h) /\
  (forall k, self_of k (prun h) = times (on_top k) (taken h)) /\ (forall k, cum_of k (prun h) = times (on_stack k) (taken h)).
Proof.
  induction h as [|o r IH]; [repeat split|]. cbn [prun taken]. destruct o; cbn [pstep].
  - unfold start. destruct (p_level (prun r) + 1 =? 1); exact IH.
  - unfold stop, accumulate. cbn. destruct (p_level (prun r) - 1 =? 0); [|exact IH]. destruct (p_last (prun r)); exact IH.
  - unfold reset. rewrite level_run. destruct (level r =? 0); [repeat split|exact IH].
  - unfold handler, accumulate. rewrite level_run. destruct (0 <? level r) eqn:L; [|exact IH].
    pose proof (timed_run r) as T. unfold timed in T. destruct (p_last (prun r)) as [l|] eqn:PL.
    2:{ exfalso. apply T; [rewrite level_run; apply Z.ltb_lt; exact L|reflexivity]. }
    destruct IH as (A & B & C & D). cbn [snd].
    match goal with |- context [sample top below ?x] => set (s1 := x) end.
    split; [cbn; rewrite A; reflexivity|]. split; [|split].
    + change (total (sample top below s1) = length ((top, below) :: taken r)). rewrite sample_total. cbn [length]. rewrite <- B. reflexivity.
    + intro k. change (self_of k (sample top below s1) = times (on_top k) ((top, below) :: taken r)). rewrite sample_self. unfold times. cbn [filter].
      change (self_of k s1) with (self_of k (prun r)). rewrite C. destruct (on_top k (top, below)); reflexivity.
    + intro k. change (cum_of k (sample top below s1) = times (on_stack k) ((top, below) :: taken r)). rewrite sample_cum. unfold times. cbn [filter].
      change (cum_of k s1) with (cum_of k (prun r)). rewrite D. destruct (on_stack k (top, below)); reflexivity.
Qed.

Lemma times_le : forall (p q : nat * list nat -> bool) l, (forall x, p x = true -> q x = true) -> (times p l <= times q l)%nat.
Proof.
  intros p q l H. unfold times. induction l as [|x l IH]; [cbn; lia|]. cbn [filter]. destruct (p x) eqn:P.
  - rewrite (H x P). cbn. lia.
  - destruct (q x); cbn; lia.
Qed.
Lemma times_len : forall p l, (times p l <= length l)%nat.
Proof. intros p l. unfold times. induction l as [|x l IH]; [cbn; lia|]. cbn [filter]. destruct (p x); cbn; lia. Qed.

Lemma ordered : forall h k, (self_of k (prun h) <= cum_of k (prun h))%nat /\ (cum_of k (prun h) <= p_count (prun h))%nat.
Proof.
  intros h k. destruct (counts h) as (A & _ & C & D). rewrite A, C, D. split; [|apply times_len].
  apply times_le. intros x H. unfold on_stack. cbn [existsb]. unfold on_top in H. rewrite H. reflexivity.
Qed.

(** ** The time *)
Definition pending (s : pst) (h : list pop) : Z :=
  match h with o :: _ => if 0 <? p_level s then match p_last s with Some l => t_out o - l | None => 0 end else 0 | [] => 0 end.
Lemma time : forall h, p_acc (prun h) + pending (prun h) h = active h.
Proof.
  induction h as [|o r IH]; [reflexivity|]. pose proof (timed_run r) as T. pose proof (level_run r) as LV. unfold timed in T.
  cbn [prun active]. rewrite <- LV.
  assert (NO : r = [] -> p_level (prun r) = 0) by (intros ->; reflexivity).
  unfold pending in IH.
  set (s := prun r) in *. clearbody s.
  assert (Q : forall t, active r + match r with p :: _ => if 0 <? p_level s then t - t_out p else 0 | [] => 0 end
     = p_acc s + match p_last s with Some l => if 0 <? p_level s then t - l else 0 | None => 0 end).
  { intro t. rewrite <- IH. destruct r as [|p r]; [rewrite NO by reflexivity; destruct (p_last s); cbn; lia|].
    destruct (Z.ltb_spec 0 (p_level s)) as [E|E]; [|destruct (p_last s); lia]. destruct (p_last s); [lia|]. exfalso. apply T; [exact E|reflexivity]. }
  rewrite Q. clear Q IH. destruct o; cbn [pstep t_in t_out pending].
  - unfold start. destruct (Z.eqb_spec (p_level s + 1) 1) as [E|E]; cbn.
    + replace (p_level s) with 0 by lia. cbn. destruct (p_last s); lia.
    + destruct (Z.ltb_spec 0 (p_level s + 1)); destruct (Z.ltb_spec 0 (p_level s)); try lia; destruct (p_last s); lia.
  - unfold stop, accumulate. cbn. destruct (Z.eqb_spec (p_level s - 1) 0) as [E|E]; cbn.
    + destruct (p_last s) eqn:PL; cbn.
      * replace (p_level s - 1) with 0 by lia. replace (p_level s) with 1 by lia. cbn. lia.
      * exfalso. apply T; [lia|reflexivity].
    + destruct (Z.ltb_spec 0 (p_level s - 1)); destruct (Z.ltb_spec 0 (p_level s)); try lia; destruct (p_last s); lia.
  - unfold reset. destruct (p_level s =? 0) eqn:Z0; cbn; [reflexivity|]. destruct (p_last s), (0 <? p_level s); reflexivity.
  - unfold handler, accumulate. destruct (Z.ltb_spec 0 (p_level s)) as [E|E].
    + destruct (p_last s) as [l|] eqn:PL; [|exfalso; apply T; [exact E|reflexivity]].
      cbn. destruct (Z.ltb_spec 0 (p_level s)); lia.
    + cbn. destruct (Z.ltb_spec 0 (p_level s)); [lia|]. destruct (p_last s); lia.
Qed.

Lemma stopped : forall h, level h <= 0 -> p_acc (prun h) = active h.
Proof.
  intros h H. rewrite <- time. unfold pending. rewrite level_run. destruct h; [lia|]. destruct (Z.ltb_spec 0 (level (p :: h))); lia.
Qed.

(** ** The report *)
Definition keys (l : list (Z * Z * nat)) := map fst l.

Fixpoint down (l : list (Z * Z * nat)) : Prop :=
  match l with
  | [] => True
  | x :: r => (forall y, In y r -> below x y = Ok false) /\ down r
  end.

Lemma below_err : forall x y e, below x y = Raise e <-> e = OrderE /\ fst x = fst y.
Proof.
  intros [[a b] i] [[c d] j] e. cbn. destruct (Z.eqb_spec a c) as [->|N]; [destruct (Z.eqb_spec b d) as [->|M]|]; split.
  - intro H. injection H as <-. auto.
  - intros [-> _]. reflexivity.
  - discriminate.
  - intros [_ H]. congruence.
  - discriminate.
  - intros [_ H]. congruence.
Qed.

Definition less (x y : Z * Z) : Prop := fst x < fst y \/ (fst x = fst y /\ snd x < snd y).
Lemma below_true : forall x y, below x y = Ok true <-> less (fst x) (fst y).
Proof.
  intros [[a b] i] [[c d] j]. cbn. unfold less. cbn. destruct (Z.eqb_spec a c) as [->|N]; [destruct (Z.eqb_spec b d) as [->|M]|]; split; intro H; try discriminate; try lia.
  - injection H as H. apply Z.ltb_lt in H. lia.
  - f_equal. apply Z.ltb_lt. lia.
  - injection H as H. apply Z.ltb_lt in H. lia.
  - f_equal. apply Z.ltb_lt. lia.
Qed.
Lemma below_false : forall x y, below x y = Ok false <-> less (fst y) (fst x).
Proof.
  intros [[a b] i] [[c d] j]. cbn. unfold less. cbn. destruct (Z.eqb_spec a c) as [->|N]; [destruct (Z.eqb_spec b d) as [->|M]|]; split; intro H; try discriminate; try lia.
  - injection H as H. apply Z.ltb_ge in H. lia.
  - f_equal. apply Z.ltb_ge. lia.
  - injection H as H. apply Z.ltb_ge in H. lia.
  - f_equal. apply Z.ltb_ge. lia.
Qed.

Lemma insert_spec : forall x l, down l ->
  match insert x l with
  | Ok l' => ~ In (fst x) (keys l) /\ down l' /\ Permutation.Permutation (x :: l) l'
  | Raise e => e = OrderE /\ In (fst x) (keys l)
  end.
Proof.
  intros x l. induction l as [|y r IH]; intro D; cbn [insert].
  - split; [intros []|]. split; [split; [intros y []|exact I]|]. apply Permutation.Permutation_refl.
  - destruct D as [D1 D2]. specialize (IH D2). destruct (below x y) as [[|]|e] eqn:B.
    + apply below_true in B. destruct (insert x r) as [r'|e].
      * destruct IH as (N & D' & P). split; [|split].
        -- cbn. intros [H|H]; [|exact (N H)]. rewrite H in B. unfold less in B. lia.
        -- split; [|exact D']. intros z Iz. apply (Permutation.Permutation_in _ (Permutation.Permutation_sym P)) in Iz. destruct Iz as [<-|Iz]; [apply below_false; exact B|].
           apply D1. exact Iz.
        -- apply (Permutation.Permutation_trans (l' := y :: x :: r)); [apply Permutation.perm_swap|apply Permutation.perm_skip; exact P].
      * destruct IH as [-> H]. split; [reflexivity|right; exact H].
    + apply below_false in B. split; [|split].
      * cbn. intros [H|H]; [rewrite H in B; unfold less in B; lia|].
        unfold keys in H. apply in_map_iff in H as (z & E & Iz). apply D1 in Iz. apply below_false in Iz. rewrite E in Iz. unfold less in *. lia.
      * split; [|split; [exact D1|exact D2]]. intros z [<-|Iz]; apply below_false; [exact B|]. apply D1 in Iz. apply below_false in Iz. unfold less in *. lia.
      * apply Permutation.Permutation_refl.
    + apply below_err in B as [-> E]. split; [reflexivity|left; symmetry; exact E].
Qed.

Lemma sort_spec : forall l, match sort l with
  | Ok l' => NoDup (keys l) /\ down l' /\ Permutation.Permutation l l'
  | Raise e => e = OrderE /\ ~ NoDup (keys l)
  end.
Proof.
  induction l as [|x r IH]; cbn [sort].
  - split; [constructor|]. split; [exact I|constructor].
  - destruct (sort r) as [r'|e].
    + destruct IH as (N & D & P). pose proof (insert_spec x r' D) as IS.
      assert (KP : forall k, In k (keys r') <-> In k (keys r)).
      { intro k. unfold keys. rewrite !in_map_iff. split; intros (z & E & Iz); exists z; (split; [exact E|]);
          [apply (Permutation.Permutation_in _ (Permutation.Permutation_sym P))|apply (Permutation.Permutation_in _ P)]; exact Iz. }
      destruct (insert x r') as [l'|e].
      * destruct IS as (N2 & D2 & P2). split; [|split; [exact D2|]].
        -- cbn. constructor; [|exact N]. intro H. apply N2. apply KP. exact H.
        -- apply (Permutation.Permutation_trans (l' := x :: r')); [apply Permutation.perm_skip; exact P|exact P2].
      * destruct IS as [-> H]. split; [reflexivity|]. cbn. intro ND. inversion ND as [|? ? A _]. apply A. apply KP. exact H.
    + destruct IH as [-> H]. split; [reflexivity|]. cbn. intro ND. inversion ND as [|? ? _ A]. contradiction.
Qed.

(** The keys of the table are different. *)
Lemma upd_keys : forall f k l, NoDup (map fst l) -> NoDup (map fst (upd f k l)) /\ forall j, In j (map fst (upd f k l)) <-> j = k \/ In j (map fst l).
Proof.
  intros f k l. induction l as [|[j d] r IH]; intro ND; cbn [upd map fst].
  - split; [constructor; [intros []|constructor]|]. intro j. cbn. intuition congruence.
  - cbn [map fst] in ND. inversion ND as [|? ? A B]. subst. destruct (Nat.eqb_spec j k) as [->|N]; cbn [map fst].
    + split; [exact ND|]. intro i. cbn. intuition congruence.
    + destruct (IH B) as [C D]. split.
      * constructor; [|exact C]. rewrite D. intros [H|H]; [congruence|exact (A H)].
      * intro i. cbn. rewrite D. intuition congruence.
Qed.
Lemma fold_keys : forall ks l, NoDup (map fst l) -> NoDup (map fst (fold_left (fun l k => upd bump_cum k l) ks l)).
Proof. induction ks as [|k ks IH]; intros l ND; [exact ND|]. cbn [fold_left]. apply IH. apply upd_keys. exact ND. Qed.

Lemma keys_run : forall h, NoDup (map fst (p_data (prun h))).
Proof.
  induction h as [|o r IH]; [constructor|]. cbn [prun]. destruct o; cbn [pstep].
  - unfold start. destruct (p_level (prun r) + 1 =? 1); exact IH.
  - unfold stop, accumulate. cbn. destruct (p_level (prun r) - 1 =? 0); [|exact IH]. destruct (p_last (prun r)); exact IH.
  - unfold reset. destruct (p_level (prun r) =? 0); [constructor|exact IH].
  - unfold handler, accumulate. destruct (0 <? p_level (prun r)); [|exact IH]. destruct (p_last (prun r)); [|exact IH].
    cbn [snd p_data sample]. apply fold_keys. apply upd_keys. exact IH.
Qed.

Lemma no_tie : forall acc l, NoDup (map fst l) -> (NoDup (keys (map (row acc) l)) <-> ~ exists j k, j <> k /\ exists d e, In (j, d) l /\ In (k, e) l /\
    Z.of_nat (d_self d) * acc = Z.of_nat (d_self e) * acc /\ Z.of_nat (d_cum d) * acc = Z.of_nat (d_cum e) * acc).
Proof.
  intros acc l. induction l as [|[j d] r IH]; intro ND; cbn [map keys].
  - split; [|intros _; constructor]. intros _ (j & k & _ & d & e & [] & _).
  - cbn [map fst] in ND. inversion ND as [|? ? A B]. subst. specialize (IH B). split.
    + intros K (i & k & NE & a & b & I1 & I2 & E1 & E2). inversion K as [|? ? K1 K2]. subst. destruct I1 as [I1|I1], I2 as [I2|I2].
      * congruence.
      * injection I1 as -> ->. apply K1. apply in_map_iff. exists (row acc (k, b)). split; [cbn; congruence|]. apply in_map. exact I2.
      * injection I2 as -> ->. apply K1. apply in_map_iff. exists (row acc (i, a)). split; [cbn; congruence|]. apply in_map. exact I1.
      * apply IH; [exact K2|]. exists i, k. split; [exact NE|]. exists a, b. auto.
    + intro NT. constructor.
      * intro I. apply in_map_iff in I as (z & E & Iz). apply in_map_iff in Iz as ([k e] & <- & Iz). cbn in E. injection E as E1 E2.
        apply NT. exists j, k. split; [intros ->; apply A; apply in_map_iff; exists (k, e); auto|]. exists d, e. cbn. auto.
      * apply IH. intros (i & k & NE & a & b & I1 & I2 & E). apply NT. exists i, k. split; [exact NE|]. exists a, b. cbn. auto.
Qed.

Lemma dup_tie : forall acc l, NoDup (map fst l) -> ~ NoDup (keys (map (row acc) l)) -> exists j k, j <> k /\ exists d e, In (j, d) l /\ In (k, e) l /\
    Z.of_nat (d_self d) * acc = Z.of_nat (d_self e) * acc /\ Z.of_nat (d_cum d) * acc = Z.of_nat (d_cum e) * acc.
Proof.
  intros acc l. induction l as [|[j d] r IH]; intros ND K; cbn [map keys] in *.
  - exfalso. apply K. constructor.
  - cbn [map fst] in ND. inversion ND as [|? ? A B]. subst.
    assert (DEC : forall x y : Z * Z, {x = y} + {x <> y}) by (decide equality; apply Z.eq_dec).
    destruct (in_dec DEC (fst (row acc (j, d))) (keys (map (row acc) r))) as [I|N].
    + apply in_map_iff in I as (z & E & Iz). apply in_map_iff in Iz as ([k e] & <- & Iz). cbn in E. injection E as E1 E2.
      exists j, k. split; [intros ->; apply A; apply in_map_iff; exists (k, e); auto|]. exists d, e. cbn. auto.
    + destruct (IH B) as (i & k & NE & a & b & I1 & I2 & E).
      * intro N2. apply K. constructor; assumption.
      * exists i, k. split; [exact NE|]. exists a, b. cbn. auto.
Qed.

(** Rows from the top: each has more time in itself than the next, or the same and more with what it calls. *)
Lemma displayed : forall h, (exists e, display (prun h) = Raise e) <-> taken h <> [] /\ tie (prun h).
Proof.
  intro h. destruct (counts h) as (A & _). unfold display. rewrite A. destruct (taken h) as [|x l] eqn:TK; cbn [length].
  - split; [intros [e H]; discriminate H|intros [H _]; congruence].
  - pose proof (sort_spec (map (row (p_acc (prun h))) (p_data (prun h)))) as SS. pose proof (no_tie (p_acc (prun h)) _ (keys_run h)) as NT.
    destruct (sort (map (row (p_acc (prun h))) (p_data (prun h)))) as [l'|e].
    + destruct SS as (N & _). split; [intros [e H]; discriminate H|]. intros [_ T]. exfalso. apply NT in N. apply N. exact T.
    + destruct SS as [-> N]. split; [|intros _; eauto]. intros _. split; [discriminate|].
      apply (dup_tie _ _ (keys_run h) N).
Qed.

Lemma entry_in : forall k l d, entry k l = Some d -> In (k, d) l.
Proof.
  intros k l d. induction l as [|[j e] r IH]; cbn [entry]; [discriminate|]. destruct (Nat.eqb_spec j k) as [->|N].
  - intro H. injection H as ->. left. reflexivity.
  - intro H. right. apply IH. exact H.
Qed.

(** Two functions that were never on top, and as often on the stack. *)
Lemma callers : forall h j k, j <> k -> times (on_stack j) (taken h) <> 0%nat ->
  times (on_stack j) (taken h) = times (on_stack k) (taken h) -> times (on_top j) (taken h) = times (on_top k) (taken h) ->
  display (prun h) = Raise OrderE.
Proof.
  intros h j k NE NZ E1 E2. destruct (counts h) as (A & _ & C & D).
  assert (X : exists e, display (prun h) = Raise e).
  { apply displayed. split; [intro T; rewrite T in NZ; apply NZ; reflexivity|].
    pose proof (C j) as Cj. pose proof (C k) as Ck. pose proof (D j) as Dj. pose proof (D k) as Dk. unfold self_of, cum_of in *.
    destruct (entry j (p_data (prun h))) as [d|] eqn:Ej; [|congruence]. destruct (entry k (p_data (prun h))) as [e|] eqn:Ek; [|congruence].
    exists j, k. split; [exact NE|]. exists d, e. split; [apply entry_in; exact Ej|]. split; [apply entry_in; exact Ek|].
    rewrite Cj, Dj, Ck, Dk, E1, E2. auto. }
  destruct X as [e X]. rewrite X. unfold display in X. destruct (p_count (prun h)); [discriminate X|].
  pose proof (sort_spec (map (row (p_acc (prun h))) (p_data (prun h)))) as SS. destruct (sort _) as [l|e']; [discriminate X|]. destruct SS as [-> _].
  congruence.
Qed.

(** What is displayed: each row once, the longest time first. *)
Lemma order : forall h l, 0 < p_acc (prun h) -> display (prun h) = Ok (Some l) ->
  Permutation.Permutation l (map fst (p_data (prun h))) /\
  forall a j b k c, l = a ++ j :: b ++ k :: c -> (self_of k (prun h) < self_of j (prun h))%nat \/
    (self_of k (prun h) = self_of j (prun h) /\ cum_of k (prun h) < cum_of j (prun h))%nat.
Proof.
  intros h l AP H. unfold display in H. destruct (p_count (prun h)); [discriminate H|].
  pose proof (sort_spec (map (row (p_acc (prun h))) (p_data (prun h)))) as SS. destruct (sort _) as [l'|e]; [|discriminate H].
  injection H as <-. destruct SS as (_ & DN & P). pose proof (keys_run h) as KR. split.
  - apply Permutation.Permutation_sym. apply (Permutation.Permutation_map snd) in P. rewrite map_map in P. cbn in P. exact P.
  - intros a j b k c E.
    assert (RW : forall y, In y l' -> y = (Z.of_nat (self_of (snd y) (prun h)) * p_acc (prun h), Z.of_nat (cum_of (snd y) (prun h)) * p_acc (prun h), snd y)).
    { intros y Iy. apply (Permutation.Permutation_in _ (Permutation.Permutation_sym P)) in Iy. apply in_map_iff in Iy as ([i d] & <- & Iy). cbn [row fst snd].
      assert (EN : entry i (p_data (prun h)) = Some d).
      { clear -Iy KR. induction (p_data (prun h)) as [|[i' d'] r IH]; [contradiction|]. cbn [map fst] in KR. inversion KR as [|? ? A B]. subst. cbn [entry].
        destruct Iy as [Q|Iy]; [injection Q as -> ->; rewrite Nat.eqb_refl; reflexivity|]. destruct (Nat.eqb_spec i' i) as [->|]; [|apply IH; assumption].
        exfalso. apply A. apply in_map_iff. exists (i, d). auto. }
      unfold self_of, cum_of. rewrite EN. reflexivity. }
    apply map_eq_app in E as (a' & l1 & -> & _ & E). apply map_eq_cons in E as (x & l2 & -> & X & E). apply map_eq_app in E as (b' & l3 & -> & _ & E).
    apply map_eq_cons in E as (y & l4 & -> & Y & E).
    assert (BX : below x y = Ok false).
    { clear -DN. induction a' as [|z a' IH]; [|apply IH; apply DN]. apply DN. apply in_app_iff. right. left. reflexivity. }
    apply below_false in BX. rewrite (RW x), (RW y) in BX by (rewrite !in_app_iff; cbn; rewrite ?in_app_iff; cbn; auto 10).
    rewrite X, Y in BX. unfold less in BX. cbn [fst snd] in BX. nia.
Qed.
