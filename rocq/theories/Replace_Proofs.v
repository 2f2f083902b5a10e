(** Proofs for Replace_Props.v. *)
From Verif Require Import Base Replace_Model Replace_Spec.

Lemma app_inj_len : forall (a b c d : pystr), a ++ b = c ++ d -> length a = length c -> a = c /\ b = d.
Proof.
  induction a as [|x a IH]; intros b [|y c] d E H; try discriminate H; [split; [reflexivity|exact E]|].
  injection E as -> E. injection H as H. destruct (IH _ _ _ E H) as [-> ->]. split; reflexivity.
Qed.
Lemma put_same : forall A k (v : A) d, put k v d k = Some v.
Proof. intros. unfold put. rewrite str_eqb_refl. reflexivity. Qed.
Lemma put_other : forall A k (v : A) d x, x <> k -> put k v d x = d x.
Proof. intros A k v d x H. unfold put. apply str_eqb_neq in H. rewrite H. reflexivity. Qed.

Lemma in_order_le : forall n ms pos, in_order n pos ms -> pos <= n.
Proof. intros n ms. induction ms as [|[i j] r IH]; cbn; intros pos H; [exact H|]. destruct H as (A & B & C). apply IH in C. lia. Qed.

Lemma skip_skip : forall (s : pystr) a b, skipn a (skipn b s) = skipn (b + a) s.
Proof. intros s a b. revert s. induction b as [|b IH]; intro s; [reflexivity|]. destruct s; [destruct a; reflexivity|]. exact (IH s). Qed.
Lemma cut3 : forall (s : pystr) p i j, p <= i -> i <= j -> j <= length s ->
  s = firstn p s ++ group s (p, i) ++ group s (i, j) ++ skipn j s.
Proof.
  intros s p i j H1 H2 H3. unfold group. cbn [fst snd].
  assert (X : forall a b, a <= b -> b <= length s -> skipn a s = firstn (b - a) (skipn a s) ++ skipn b s).
  { intros a b L1 L2. rewrite <- (firstn_skipn (b - a) (skipn a s)) at 1. f_equal. rewrite skip_skip. f_equal. lia. }
  rewrite <- (X i j) by lia. rewrite <- (X p i) by lia. symmetry. apply firstn_skipn.
Qed.
Lemma group_len : forall (s : pystr) p i, p <= i -> i <= length s -> length (group s (p, i)) = i - p.
Proof. intros. unfold group. cbn [fst snd]. rewrite firstn_length, skipn_length. lia. Qed.

Section P.
Variable regex : pystr -> list span.
Variable subber : pystr -> span -> pystr.
Variable recording : bool.
Notation sub := (sub subber recording).

Lemma sub_text : forall file s ms pos res, in_order (length s) pos ms ->
  replaced (fun i j => subber s (i, j)) s pos ms (fst (sub file s pos ms res)).
Proof.
  intros file s ms. induction ms as [|[i j] r IH]; intros pos res H; cbn [Replace_Model.sub].
  - cbn in *. apply rep_end with (a := firstn pos s); [symmetry; apply firstn_skipn|]. rewrite firstn_length. lia.
  - destruct H as (H1 & H2 & H3). pose proof (in_order_le _ _ _ H3) as H4.
    specialize (IH j (dispatch recording file s (i, j) res) H3). cbn [snd fst].
    destruct (sub file s j r (dispatch recording file s (i, j) res)) as [t res2]. cbn [fst] in *.
    apply rep_at with (a := firstn pos s) (c := group s (i, j)) (d := skipn j s); try exact IH.
    + apply cut3; assumption.
    + rewrite firstn_length. lia.
    + rewrite app_length, firstn_length, group_len; lia.
    + rewrite !app_length, firstn_length, !group_len; lia.
Qed.

Lemma sub_other : forall file s ms pos res x, x <> file -> snd (sub file s pos ms res) x = res x.
Proof.
  intros file s ms. induction ms as [|m r IH]; intros pos res x H; cbn [Replace_Model.sub]; [reflexivity|].
  specialize (IH (snd m) (dispatch recording file s m res) x H).
  destruct (sub file s (snd m) r (dispatch recording file s m res)) as [t res2]. cbn [snd] in *. rewrite IH.
  unfold dispatch. destruct recording; [apply put_other; exact H|reflexivity].
Qed.

Lemma round_other : forall w file x, x <> file ->
  w_file (round regex subber recording w file) x = w_file w x /\ w_res (round regex subber recording w file) x = w_res w x.
Proof.
  intros w file x H. unfold round. destruct (w_file w file) as [orig|]; [|split; reflexivity].
  destruct (regex orig) as [|m r]; [split; reflexivity|].
  pose proof (sub_other file orig (m :: r) 0 (w_res w) x H) as S.
  destruct (sub file orig 0 (m :: r) (w_res w)) as [t res]. cbn [snd w_file w_res] in *.
  split; [apply put_other; exact H|exact S].
Qed.

Lemma run_other : forall files w x, ~ In x files ->
  w_file (run regex subber recording files w) x = w_file w x /\ w_res (run regex subber recording files w) x = w_res w x.
Proof.
  unfold run. intro files. induction files as [|f r IH]; cbn; intros w x H; [split; reflexivity|].
  destruct (IH (round regex subber recording w f) x) as [A B]; [tauto|].
  destruct (round_other w f x) as [C D]; [intro; subst; tauto|]. rewrite A, B, C, D. split; reflexivity.
Qed.
End P.

Lemma sub_count : forall subber file s ms pos res r0, res file = Some r0 ->
  snd (sub subber true file s pos ms res) file =
  Some (mkR (r_count r0 + length ms) (r_matches r0 ++ map (fun m => (group s m, fst m, snd m)) ms)).
Proof.
  intros subber file s ms. induction ms as [|m r IH]; intros pos res r0 H; cbn [sub].
  - cbn. rewrite H, app_nil_r, Nat.add_0_r. destruct r0; reflexivity.
  - specialize (IH (snd m) (dispatch true file s m res) (mkR (S (r_count r0)) (r_matches r0 ++ [(group s m, fst m, snd m)]))).
    assert (D : dispatch true file s m res file = Some (mkR (S (r_count r0)) (r_matches r0 ++ [(group s m, fst m, snd m)]))).
    { unfold dispatch. rewrite H. apply put_same. }
    specialize (IH D). destruct (sub subber true file s (snd m) r (dispatch true file s m res)) as [t res2]. cbn [snd] in *. rewrite IH.
    cbn [r_count r_matches length map]. rewrite <- app_assoc. do 2 f_equal. lia.
Qed.
Lemma sub_first : forall subber file s m ms pos res, res file = None ->
  snd (sub subber true file s pos (m :: ms) res) file =
  Some (mkR (S (length ms)) (map (fun m => (group s m, fst m, snd m)) (m :: ms))).
Proof.
  intros subber file s m ms pos res H. cbn [sub].
  assert (D : dispatch true file s m res file = Some (mkR 1 [(group s m, fst m, snd m)])) by (unfold dispatch; rewrite H; apply put_same).
  pose proof (sub_count subber file s ms (snd m) _ _ D) as S.
  destruct (sub subber true file s (snd m) ms (dispatch true file s m res)) as [t res2]. cbn [snd] in *. rewrite S. reflexivity.
Qed.

Lemma listed_ok : forall s ms pos, in_order (length s) pos ms -> listed s ms (map (fun m => (group s m, fst m, snd m)) ms).
Proof.
  intros s ms. induction ms as [|[i j] r IH]; cbn [map fst snd]; intros pos H; [constructor|]. destruct H as (H1 & H2 & H3).
  pose proof (in_order_le _ _ _ H3) as H4.
  apply listed_cons with (a := firstn i s) (c := skipn j s).
  - pose proof (cut3 s i i j (le_n _) H2 H4) as C. unfold group at 1 in C. cbn [fst snd] in C. rewrite Nat.sub_diag in C. exact C.
  - pose proof (in_order_le _ _ _ H3); rewrite firstn_length; lia.
  - rewrite app_length, firstn_length, group_len; lia.
  - exact (IH j H3).
Qed.

Lemma run_at : forall regex subber files disk f s, NoDup files -> In f files -> disk f = Some s -> in_order (length s) 0 (regex s) ->
  exists t, replaced (fun i j => subber s (i, j)) s 0 (regex s) t /\
  let w := run regex subber true files (mkW disk (fun _ => None)) in
  w_file w f = Some t /\
  match regex s with
  | [] => w_res w f = None
  | _ => exists l, listed s (regex s) l /\ w_res w f = Some (mkR (length (regex s)) l)
  end.
Proof.
  intros regex subber files disk f s N I D O. destruct (in_split _ _ I) as (l1 & l2 & ->).
  apply NoDup_remove_2 in N. assert (N1 : ~ In f l1) by (intro; apply N, in_or_app; tauto).
  assert (N2 : ~ In f l2) by (intro; apply N, in_or_app; tauto).
  unfold run. rewrite fold_left_app. cbn [fold_left].
  set (w1 := fold_left (round regex subber true) l1 (mkW disk (fun _ => None))).
  destruct (run_other regex subber true l1 (mkW disk (fun _ => None)) f N1) as [A B]. fold (run regex subber true l1 (mkW disk (fun _ => None))) in w1. fold w1 in A, B. cbn [w_file w_res] in A, B.
  rewrite D in A.
  destruct (run_other regex subber true l2 (round regex subber true w1 f) f N2) as [A2 B2]. unfold run in A2, B2.
  pose proof (sub_text regex subber true f s (regex s) 0 (w_res w1) O) as T.
  exists (fst (sub subber true f s 0 (regex s) (w_res w1))). split; [exact T|]. cbv zeta. rewrite A2, B2. clear A2 B2.
  unfold round. rewrite A. destruct (regex s) as [|m r] eqn:E.
  - cbn. rewrite A, B. split; reflexivity.
  - pose proof (sub_first subber f s m r 0 (w_res w1) B) as S.
    unfold span, pystr in *. destruct (sub subber true f s 0 (m :: r) (w_res w1)) as [t res]. cbn [fst snd w_file w_res] in *. split; [apply put_same|].
    exists (map (fun m => (group s m, fst m, snd m)) (m :: r)). split; [exact (listed_ok s (m :: r) 0 O)|exact S].
Qed.

Lemma round_none : forall regex subber rec w g f, w_file w f = None -> w_res w f = None ->
  w_file (round regex subber rec w g) f = None /\ w_res (round regex subber rec w g) f = None.
Proof.
  intros regex subber rec w g f A B. destruct (str_eqb_spec f g) as [<-|H].
  - unfold round. rewrite A. split; assumption.
  - destruct (round_other regex subber rec w g f H) as [C D]. rewrite C, D. split; assumption.
Qed.
Lemma run_none : forall regex subber rec files disk f, disk f = None ->
  w_file (run regex subber rec files (mkW disk (fun _ => None))) f = disk f /\ w_res (run regex subber rec files (mkW disk (fun _ => None))) f = None.
Proof.
  intros regex subber rec files disk f H. rewrite H. unfold run.
  assert (G : forall l w, w_file w f = None -> w_res w f = None ->
    w_file (fold_left (round regex subber rec) l w) f = None /\ w_res (fold_left (round regex subber rec) l w) f = None).
  { intro l. induction l as [|g r IH]; cbn; intros w A B; [split; assumption|].
    destruct (round_none regex subber rec w g f A B) as [C D]. exact (IH _ C D). }
  apply G; [exact H|reflexivity].
Qed.

Definition good (res : pystr -> option result) : Prop :=
  forall f r, res f = Some r -> r_count r = length (r_matches r) /\ r_matches r <> [].
Lemma dispatch_good : forall rec file s m res, good res -> good (dispatch rec file s m res).
Proof.
  intros rec file s m res G f r. unfold dispatch. destruct rec; [|apply G]. unfold put. destruct (str_eqb_spec f file) as [->|_]; [|apply G].
  intros [= <-]. cbn [r_count r_matches]. split; [|destruct (r_matches _); discriminate]. rewrite app_length. cbn [length].
  destruct (res file) as [r0|] eqn:E; [|reflexivity]. destruct (G _ _ E) as [-> _]. lia.
Qed.
Lemma sub_good : forall subber rec file s ms pos res, good res -> good (snd (sub subber rec file s pos ms res)).
Proof.
  intros subber rec file s ms. induction ms as [|m r IH]; intros pos res G; cbn [sub]; [exact G|].
  specialize (IH (snd m) _ (dispatch_good rec file s m res G)). destruct (sub subber rec file s (snd m) r _) as [t res2]. exact IH.
Qed.
Lemma run_counts : forall regex subber rec files disk, good (w_res (run regex subber rec files (mkW disk (fun _ => None)))).
Proof.
  intros regex subber rec files disk. unfold run.
  assert (G : forall l w, good (w_res w) -> good (w_res (fold_left (round regex subber rec) l w))).
  { intro l. induction l as [|g r IH]; cbn [fold_left]; intros w A; [exact A|]. apply IH. unfold round.
    destruct (w_file w g) as [s|]; [|exact A]. destruct (regex s) as [|m q]; [exact A|].
    pose proof (sub_good subber rec g s (m :: q) 0 _ A) as S. destruct (sub subber rec g s 0 (m :: q) (w_res w)) as [t res]. exact S. }
  apply G. intros f r H. discriminate H.
Qed.

Lemma replaced_fun : forall by_ s pos ms t, replaced by_ s pos ms t -> forall t', replaced by_ s pos ms t' -> t = t'.
Proof.
  intros by_ s pos ms t H. induction H as [pos a b E P|pos i j ms a b c d t E P I J R IH]; intros t' H'.
  - inversion H' as [? a' b' E' P'|]; subst. apply app_inj_len in E'; [tauto|]. symmetry; exact P'.
  - inversion H' as [|? ? ? ? a' b' c' d' t2 E' P' I' J' R']; subst.
    f_equal; [|f_equal; apply IH; exact R'].
    apply app_inj_len in E'; [|symmetry; exact P']. destruct E' as [-> E']. rewrite !app_length in I'.
    apply app_inj_len in E'; [tauto|lia].
Qed.
