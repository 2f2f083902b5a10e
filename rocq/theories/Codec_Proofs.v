(** The three codecs. *)
From Verif Require Import Base PyStr Out_Model Out_Spec.
Local Open Scope N_scope.

Lemma below_inv : forall n s b, below n s = Some b -> b = s /\ Forall (fun c => c < n) s.
Proof.
  unfold below. intros n s b H. destruct (forallb _ s) eqn:F; [|discriminate]. injection H as <-. split; [reflexivity|].
  apply Forall_forall. intros c C. rewrite forallb_forall in F. apply F in C. apply N.ltb_lt in C. exact C.
Qed.
Lemma below_all : forall n s, Forall (fun c => c < n) s -> below n s = Some s.
Proof.
  unfold below. intros n s H. assert (F : forallb (fun c => c <? n) s = true).
  { apply forallb_forall. intros c C. apply N.ltb_lt. rewrite Forall_forall in H. auto. }
  rewrite F. reflexivity.
Qed.
Lemma below_reads_back : forall n, reads_back (mkCodec (below n) (below n)).
Proof. intros n s b H. simpl in *. destruct (below_inv _ _ _ H) as [-> F]. apply below_all. exact F. Qed.
Lemma below_one : forall n, one_form (mkCodec (below n) (below n)).
Proof. intros n b s H. simpl in *. destruct (below_inv _ _ _ H) as [-> F]. apply below_all. exact F. Qed.
Lemma below_keeps : forall n, 128 <= n -> keeps_ascii (mkCodec (below n) (below n)).
Proof.
  intros n Hn a s A. simpl. unfold below. rewrite forallb_app.
  assert (F : forallb (fun c => c <? n) a = true).
  { apply forallb_forall. intros c C. apply N.ltb_lt. rewrite Forall_forall in A. apply A in C. lia. }
  rewrite F. simpl. destruct (forallb _ s); reflexivity.
Qed.

Ltac Zify.zify_post_hook ::= Z.to_euclidean_division_equations.

Lemma cont_true : forall b, 128 <= b < 192 -> cont b = true.
Proof. intros b H. unfold cont. apply andb_true_intro. split; [apply N.leb_le|apply N.ltb_lt]; lia. Qed.
Lemma range_true : forall a b c, a <= b < c -> (a <=? b) && (b <? c) = true.
Proof. intros a b c H. apply andb_true_intro. split; [apply N.leb_le|apply N.ltb_lt]; lia. Qed.
Lemma range_false : forall a b c, c <= b -> (a <=? b) && (b <? c) = false.
Proof. intros a b c H. apply andb_false_iff. right. apply N.ltb_ge. lia. Qed.

Lemma dec2 : forall b0 b1 c r, 194 <= b0 < 224 -> 128 <= b1 < 192 -> c = (b0 - 192) * 64 + (b1 - 128) ->
  utf8_dec (b0 :: b1 :: r) = put c (utf8_dec r).
Proof.
  intros b0 b1 c r H0 H1 ->. cbn [utf8_dec]. destruct (N.ltb_spec b0 128); [lia|].
  rewrite (cont_true b1 H1), (range_true 194 b0 224 H0). reflexivity.
Qed.
Lemma dec3 : forall b0 b1 b2 c r, 224 <= b0 < 240 -> 128 <= b1 < 192 -> 128 <= b2 < 192 ->
  c = (b0 - 224) * 4096 + (b1 - 128) * 64 + (b2 - 128) -> 2048 <= c -> surrogate c = false ->
  utf8_dec (b0 :: b1 :: b2 :: r) = put c (utf8_dec r).
Proof.
  intros b0 b1 b2 c r H0 H1 H2 E C S. cbn [utf8_dec]. destruct (N.ltb_spec b0 128); [lia|].
  rewrite (cont_true b1 H1), (range_false 194 b0 224), (cont_true b2 H2), (range_true 224 b0 240 H0) by lia.
  cbn [negb]. cbv zeta. rewrite <- E, S. destruct (N.leb_spec 2048 c); [reflexivity|lia].
Qed.
Lemma dec4 : forall b0 b1 b2 b3 c r, 240 <= b0 -> 128 <= b1 < 192 -> 128 <= b2 < 192 -> 128 <= b3 < 192 ->
  c = (b0 - 240) * 262144 + (b1 - 128) * 4096 + (b2 - 128) * 64 + (b3 - 128) -> 65536 <= c < 1114112 ->
  utf8_dec (b0 :: b1 :: b2 :: b3 :: r) = put c (utf8_dec r).
Proof.
  intros b0 b1 b2 b3 c r H0 H1 H2 H3 E C. cbn [utf8_dec]. destruct (N.ltb_spec b0 128); [lia|].
  rewrite (cont_true b1 H1), (range_false 194 b0 224), (cont_true b2 H2), (range_false 224 b0 240), (cont_true b3 H3) by lia.
  cbn [negb]. cbv zeta. rewrite <- E. destruct (N.leb_spec 240 b0); [|lia]. destruct (N.leb_spec 65536 c); [|lia].
  destruct (N.ltb_spec c 1114112); [reflexivity|lia].
Qed.

Lemma some_eq : forall A (a b : A), Some a = Some b -> b = a.
Proof. intros A a b H. congruence. Qed.
Lemma utf8_char_dec : forall c a r, utf8_char c = Some a -> utf8_dec (a ++ r) = put c (utf8_dec r).
Proof.
  unfold utf8_char. intros c a r H.
  destruct (N.ltb_spec c 128) as [H1|H1].
  { apply some_eq in H. subst a. cbn [app utf8_dec]. destruct (N.ltb_spec c 128); [reflexivity|lia]. }
  destruct (N.ltb_spec c 2048) as [H2|H2].
  { apply some_eq in H. subst a. apply dec2; lia. }
  destruct (surrogate c) eqn:S; [discriminate|].
  destruct (N.ltb_spec c 65536) as [H3|H3].
  { apply some_eq in H. subst a. apply dec3; try assumption; lia. }
  destruct (N.ltb_spec c 1114112) as [H4|H4]; [|discriminate].
  apply some_eq in H. subst a. apply dec4; lia.
Qed.

Lemma utf8_reads_back : reads_back utf8.
Proof.
  intros s. cbn [utf8 cd_enc cd_dec]. induction s as [|c s IH]; intros b H; cbn [utf8_enc] in H.
  - injection H as <-. reflexivity.
  - destruct (utf8_char c) as [a|] eqn:C; [|discriminate]. destruct (utf8_enc s) as [b'|] eqn:B; [|discriminate].
    injection H as <-. rewrite (utf8_char_dec c a b' C), (IH b' eq_refl). reflexivity.
Qed.

Lemma utf8_keeps : keeps_ascii utf8.
Proof.
  intros a s A. cbn [utf8 cd_enc]. induction a as [|c a IH]; cbn [app].
  - destruct (utf8_enc s); reflexivity.
  - inversion A as [|? ? Hc A']; subst. cbn [utf8_enc]. rewrite (IH A'). unfold utf8_char.
    destruct (N.ltb_spec c 128); [|lia]. destruct (utf8_enc s); reflexivity.
Qed.

Lemma utf8_total : forall s, Forall scalar s -> exists b, utf8_enc s = Some b.
Proof.
  induction s as [|c s IH]; intros H; [exists []; reflexivity|]. inversion H as [|? ? Hc Hs]; subst.
  destruct (IH Hs) as [b B]. cbn [utf8_enc]. rewrite B.
  assert (X : exists a, utf8_char c = Some a).
  { unfold utf8_char, surrogate. unfold scalar in Hc.
    destruct (c <? 128); [eauto|]. destruct (c <? 2048); [eauto|].
    destruct (N.leb_spec 55296 c), (N.leb_spec c 57343); cbn [andb]; try lia;
    (destruct (c <? 65536); [eauto|]; destruct (N.ltb_spec c 1114112); [eauto|lia]). }
  destruct X as [a ->]. eauto.
Qed.

Lemma put_some : forall c r s, put c r = Some s -> exists s', r = Some s' /\ s = c :: s'.
Proof. unfold put. intros c [r|] s H; [|discriminate]. injection H as <-. eauto. Qed.

Lemma cont_iff : forall b, cont b = true -> 128 <= b < 192.
Proof. unfold cont. intros b H. apply andb_true_iff in H. destruct H as [H1 H2]. apply N.leb_le in H1. apply N.ltb_lt in H2. lia. Qed.

Lemma utf8_one_n : forall n b s, (length b <= n)%nat -> utf8_dec b = Some s -> utf8_enc s = Some b.
Proof.
  induction n as [|n IH]; intros b s Hn H.
  { destruct b; [|cbn in Hn; lia]. cbn in H. injection H as <-. reflexivity. }
  destruct b as [|b0 r]; [cbn in H; injection H as <-; reflexivity|].
  cbn [length] in Hn. cbn [utf8_dec] in H.
  destruct (N.ltb_spec b0 128) as [H1|H1].
  { apply put_some in H. destruct H as (s' & H & ->). apply IH in H; [|lia].
    cbn [utf8_enc]. rewrite H. unfold utf8_char. destruct (N.ltb_spec b0 128); [reflexivity|lia]. }
  destruct r as [|b1 r]; [discriminate|]. cbn [length] in Hn.
  destruct (cont b1) eqn:C1; [|discriminate]. cbn [negb] in H. apply cont_iff in C1.
  destruct ((194 <=? b0) && (b0 <? 224)) eqn:E2.
  { apply andb_true_iff in E2. destruct E2 as [E2 E2']. apply N.leb_le in E2. apply N.ltb_lt in E2'.
    apply put_some in H. destruct H as (s' & H & ->). apply IH in H; [|lia].
    cbn [utf8_enc]. rewrite H. set (c := (b0 - 192) * 64 + (b1 - 128)). assert (Hc : c = (b0 - 192) * 64 + (b1 - 128)) by reflexivity.
    clearbody c. unfold utf8_char. destruct (N.ltb_spec c 128); [lia|]. destruct (N.ltb_spec c 2048); [|lia].
    cbn [app]. do 2 f_equal; [lia|]. f_equal. lia. }
  destruct r as [|b2 r]; [discriminate|]. cbn [length] in Hn.
  destruct (cont b2) eqn:C2; [|discriminate]. cbn [negb] in H. apply cont_iff in C2.
  destruct ((224 <=? b0) && (b0 <? 240)) eqn:E3.
  { apply andb_true_iff in E3. destruct E3 as [E3 E3']. apply N.leb_le in E3. apply N.ltb_lt in E3'.
    cbv zeta in H. set (c := (b0 - 224) * 4096 + (b1 - 128) * 64 + (b2 - 128)) in H.
    assert (Hc : c = (b0 - 224) * 4096 + (b1 - 128) * 64 + (b2 - 128)) by reflexivity. clearbody c.
    destruct ((2048 <=? c) && negb (surrogate c)) eqn:E; [|discriminate].
    apply andb_true_iff in E. destruct E as [E E']. apply N.leb_le in E. apply negb_true_iff in E'.
    apply put_some in H. destruct H as (s' & H & ->). apply IH in H; [|lia].
    cbn [utf8_enc]. rewrite H. unfold utf8_char. destruct (N.ltb_spec c 128); [lia|]. destruct (N.ltb_spec c 2048); [lia|].
    rewrite E'. destruct (N.ltb_spec c 65536); [|lia].
    cbn [app]. do 2 f_equal; [lia|]. f_equal; [lia|]. f_equal. lia. }
  destruct r as [|b3 r]; [discriminate|]. cbn [length] in Hn. cbv zeta in H.
  set (c := (b0 - 240) * 262144 + (b1 - 128) * 4096 + (b2 - 128) * 64 + (b3 - 128)) in H.
  assert (Hc : c = (b0 - 240) * 262144 + (b1 - 128) * 4096 + (b2 - 128) * 64 + (b3 - 128)) by reflexivity. clearbody c.
  destruct (cont b3 && (240 <=? b0) && (65536 <=? c) && (c <? 1114112)) eqn:E; [|discriminate].
  apply andb_true_iff in E. destruct E as [E E4]. apply andb_true_iff in E. destruct E as [E E3'].
  apply andb_true_iff in E. destruct E as [C3 E240].
  apply cont_iff in C3. apply N.leb_le in E240. apply N.leb_le in E3'. apply N.ltb_lt in E4.
  apply put_some in H. destruct H as (s' & H & ->). apply IH in H; [|lia].
  cbn [utf8_enc]. rewrite H. unfold utf8_char. destruct (N.ltb_spec c 128); [lia|]. destruct (N.ltb_spec c 2048); [lia|].
  replace (surrogate c) with false
    by (symmetry; unfold surrogate; apply andb_false_iff; right; apply N.leb_gt; lia).
  destruct (N.ltb_spec c 65536); [lia|]. destruct (N.ltb_spec c 1114112); [|lia].
  cbn [app]. do 2 f_equal; [lia|]. f_equal; [lia|]. f_equal; [lia|]. f_equal. lia.
Qed.

Lemma utf8_one : one_form utf8.
Proof. intros b s H. exact (utf8_one_n (length b) b s (Nat.le_refl _) H). Qed.
