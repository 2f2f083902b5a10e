(** Proofs: the lexical part of the parser only ever moves forward over the source. *)
From Verif Require Import Base PyStr Lex_Model Lex_Spec Lex_Proofs LexLines_Proofs Expr_Proofs.
Local Open Scope nat_scope.

Lemma adv_tot : forall b r b' r', adv b r b' r' -> length b' + length r' = length b + length r.
Proof. intros b r b' r' [w [-> ->]]. rewrite !app_length, rev_length. lia. Qed.

(** Following a chain of moves. *)
Ltac advs := solve [apply adv_refl | assumption |
  match goal with H : adv ?b ?r _ _ |- adv ?b ?r _ _ => eapply adv_trans; [exact H|]; clear H; advs end].

Lemma skip_ws_adv : forall r b b' r', skip_ws b r = (b', r') -> adv b r b' r'.
Proof.
  induction r as [|c r IH]; intros b b' r' H; cbn in H; [injection H as <- <-; apply adv_refl|].
  destruct (blank c); [apply adv_cons; eauto|injection H as <- <-; apply adv_refl].
Qed.

Lemma read_eol_adv : forall g b r t b' r', read_eol g b r = (t, (b', r')) -> adv b r b' r'.
Proof. intros g b r t b' r' H. unfold read_eol in H. injection H as _ H. eapply go_adv. exact H. Qed.

Lemma snd_read_eol_adv : forall g b r b' r', snd (read_eol g b r) = (b', r') -> adv b r b' r'.
Proof. intros g b r b' r' H. destruct (read_eol g b r) as [t p] eqn:Q. cbn in H. subst p. eapply read_eol_adv. exact Q. Qed.

Lemma plain_run_adv : forall T r b t b' r', plain_run T b r = (t, b', r') -> adv b r b' r'.
Proof.
  induction r as [|c r IH]; intros b t b' r' H; cbn [plain_run] in H.
  { injection H as _ <- <-. apply adv_refl. }
  destruct (top_match T b (c :: r)); [injection H as _ <- <-; apply adv_refl|].
  destruct (plain_run T (c :: b) r) as [[t1 b1] r1] eqn:Q. injection H as _ <- <-. apply adv_cons. eauto.
Qed.

Lemma skip_dir_adv : forall T nm b r b' r', skip_dir T nm b r = (b', r') -> adv b r b' r'.
Proof.
  intros T nm b r b' r' H. unfold skip_dir in H. destruct (m_dirstart T b r); [eapply go_adv; exact H|].
  injection H as <- <-. apply adv_refl.
Qed.

Definition pmove (s s' : pst) : Prop := adv (before s) (rest s) (before s') (rest s').

Lemma comment_adv : forall T st, pmove st (eat_comment T st).
Proof.
  intros T st. unfold eat_comment, pmove. destruct (go (length (t_com T)) (before st) (rest st)) as [b r] eqn:G.
  apply go_adv in G. destruct (read_eol (line_clear (before st)) b r) as [t [b1 r1]] eqn:R. apply read_eol_adv in R.
  cbn [before rest]. advs.
Qed.

Lemma tag_adv : forall T clear fe st, pmove st (eat_rest_of_tag T clear fe st).
Proof.
  intros T clear fe st. unfold eat_rest_of_tag.
  destruct (if m_tok (t_com T) (before st) (rest st) then _ else _) as [found st1] eqn:Q.
  assert (A1 : pmove st st1).
  { destruct (m_tok (t_com T) (before st) (rest st)); [|injection Q as _ <-; apply adv_refl].
    destruct (go 1 (before st) (rest st)) as [b r]. destruct (m_dir T b r).
    - injection Q as _ <-. apply adv_refl.
    - injection Q as _ <-. apply comment_adv. }
  unfold pmove in A1.
  destruct (if negb found && _ then _ else _) as [b r] eqn:Q2.
  assert (A2 : adv (before st1) (rest st1) b r).
  { destruct (negb found && _); [eapply go_adv; exact Q2|].
    destruct (clear && _); [eapply snd_read_eol_adv; exact Q2|]. injection Q2 as <- <-. apply adv_refl. }
  unfold pmove. cbn [before rest]. advs.
Qed.

Lemma ml_loop_adv : forall fuel T level b r b' r', ml_loop fuel T level b r = Some (Ok (b', r')) -> adv b r b' r'.
Proof.
  induction fuel as [|n IH]; intros T level b r b' r' H; [discriminate|]. cbn [ml_loop] in H.
  destruct r as [|c r]; [injection H as <- <-; apply adv_refl|].
  destruct (if m_tok (t_ml T) b (c :: r) then _ else _) as [lv [b1 r1]] eqn:Q.
  assert (A : adv b (c :: r) b1 r1).
  { destruct (m_tok (t_ml T) b (c :: r)); [apply (f_equal snd) in Q; eapply go_adv; exact Q|].
    destruct (m_tok (t_mlend T) b (c :: r)); [apply (f_equal snd) in Q; eapply go_adv; exact Q|].
    injection Q as _ <- <-. apply adv_refl. }
  destruct lv; [injection H as <- <-; apply adv_refl|]. destruct r1 as [|d r1]; [discriminate|].
  apply IH in H. eapply adv_trans; [exact A|]. apply adv_cons. exact H.
Qed.

Lemma multi_adv : forall T st st', eat_multi T st = Some (Ok st') -> pmove st st'.
Proof.
  intros T st st' H. unfold eat_multi in H. unfold pmove.
  destruct (go (length (t_ml T)) (before st) (rest st)) as [b r] eqn:Q. apply go_adv in Q.
  destruct (ml_loop (S (length r)) T 1 b r) as [[[b1 r1]|e]|] eqn:Ml; try discriminate. apply ml_loop_adv in Ml.
  destruct r1 as [|c1 r1]; [injection H as <-; cbn [before rest]; advs|].
  destruct (m_tok (t_mlend T) b1 (c1 :: r1)); [|discriminate].
  destruct (go (length (t_mlend T)) b1 (c1 :: r1)) as [b2 r2] eqn:Q2. apply go_adv in Q2.
  destruct r2 as [|c2 r2]; [injection H as <-; cbn [before rest]; advs|].
  destruct (t_gobble T); [|injection H as <-; cbn [before rest]; advs].
  destruct (if forallb is_space _ then _ else _) as [b3 r3] eqn:Q3. injection H as <-. cbn [before rest].
  assert (A : adv b2 (c2 :: r2) b3 r3).
  { destruct (forallb is_space _); [eapply snd_read_eol_adv; exact Q3|]. injection Q3 as <- <-. apply adv_refl. }
  advs.
Qed.

Lemma slurp_adv : forall st, pmove st (eat_slurp st).
Proof.
  intro st. unfold eat_slurp, pmove. destruct (snd (read_eol true (before st) (rest st))) as [b r] eqn:Q.
  apply snd_read_eol_adv in Q. exact Q.
Qed.

Lemma plain_adv : forall T st, pmove st (eat_plain T st).
Proof.
  intros T st. unfold eat_plain, pmove. destruct (plain_run T (before st) (rest st)) as [[t b] r] eqn:Q.
  apply plain_run_adv in Q. exact Q.
Qed.

Lemma find_end_adv : forall fuel T name b r x y b' r', find_end fuel T name b r = Some (Ok (x, y, (b', r'))) -> adv b r b' r'.
Proof.
  induction fuel as [|n IH]; intros T name b r x y b' r' H; [discriminate|]. cbn [find_end] in H.
  destruct r as [|c r]; [injection H as _ _ <- <-; apply adv_refl|].
  destruct (m_dirstart T b (c :: r)) as [r1|]; [|apply adv_cons; eapply IH; exact H].
  destruct (starts_with (firstn 1 (t_dir T)) (c :: r) && _); [|apply adv_cons; eapply IH; exact H].
  destruct (go _ b (c :: r)) as [b2 r2] eqn:Q2. apply go_adv in Q2.
  destruct (skip_ws b2 r2) as [b3 r3] eqn:Q3. apply skip_ws_adv in Q3.
  destruct (starts_with name r3).
  - destruct (go (length name) b3 r3) as [b4 r4] eqn:Q4. apply go_adv in Q4.
    destruct (skip_ws b4 r4) as [b5 r5] eqn:Q5. apply skip_ws_adv in Q5. injection H as _ _ <- <-. advs.
  - destruct r3 as [|d r3]; [discriminate|]. apply IH in H. apply adv_cons in H. advs.
Qed.

Lemma to_end_adv : forall T name st t st', eat_to_end T name st = Some (Ok (t, st')) -> pmove st st'.
Proof.
  intros T name st t st' H. unfold eat_to_end in H. unfold pmove.
  destruct (find_end _ T name (before st) (rest st)) as [[[[x y] [b r]]|e]|] eqn:Q; try discriminate.
  apply find_end_adv in Q. destruct (if m_tok (t_dirend T) b r then _ else _) as [b1 r1] eqn:Q1.
  assert (A : adv b r b1 r1).
  { destruct (m_tok (t_dirend T) b r); [eapply go_adv; exact Q1|].
    destruct (y && _); [eapply snd_read_eol_adv; exact Q1|]. injection Q1 as <- <-. apply adv_refl. }
  injection H as _ <-. cbn [before rest]. advs.
Qed.

Lemma raw_adv : forall T st st', eat_raw T st = Some (Ok st') -> pmove st st'.
Proof.
  intros T st st' H. unfold eat_raw in H. unfold pmove.
  destruct (skip_dir T (L "raw") (before st) (rest st)) as [b r] eqn:Q. apply skip_dir_adv in Q.
  destruct (skip_ws b r) as [b1 r1] eqn:Q1. apply skip_ws_adv in Q1.
  destruct (short_form T r1).
  - destruct (go 1 b1 r1) as [b2 r2] eqn:Q2. apply go_adv in Q2.
    destruct (match r2 with [] => (b2, r2) | _ => _ end) as [b3 r3] eqn:E3.
    assert (A3 : adv b2 r2 b3 r3).
    { destruct r2 as [|c r2]; [injection E3 as <- <-; apply adv_refl|].
      destruct (blank c); injection E3 as <- <-; [apply adv_one|apply adv_refl]. }
    destruct (read_eol false b3 r3) as [t [b4 r4]] eqn:Q4. apply read_eol_adv in Q4.
    injection H as <-. cbn [before rest]. advs.
  - destruct r1 as [|c r1']; [discriminate|].
    destruct (if (c =? 58)%N then _ else _) as [b2 r2] eqn:E2.
    assert (A2 : adv b1 (c :: r1') b2 r2) by (destruct (c =? 58)%N; injection E2 as <- <-; [apply adv_one|apply adv_refl]).
    destruct (skip_ws b2 r2) as [b3 r3] eqn:Q3. apply skip_ws_adv in Q3.
    set (s1 := eat_rest_of_tag T (line_clear (before st)) (length (before st) + eol_off (rest st)) (mkP b3 r3 (out st))) in H.
    pose proof (tag_adv T (line_clear (before st)) (length (before st) + eol_off (rest st)) (mkP b3 r3 (out st))) as A4.
    fold s1 in A4. unfold pmove in A4. cbn [before rest] in A4.
    destruct (eat_to_end T (L "raw") s1) as [[[t s2]|e]|] eqn:Q5; try discriminate. apply to_end_adv in Q5. unfold pmove in Q5.
    injection H as <-. cbn [before rest]. advs.
Qed.

Lemma step_adv : forall T st st', Lex_Model.step T (fun _ _ => None) st = Some (Ok st') -> pmove st st'.
Proof.
  intros T st st' H. unfold step in H.
  destruct (classify T (before st) (rest st)) as [| | | |n| | |]; try discriminate.
  - injection H as <-. apply comment_adv.
  - apply (multi_adv T). exact H.
  - destruct (forbidden T n); [discriminate|]. destruct (str_eqb n (L "slurp")); [injection H as <-; apply slurp_adv|].
    destruct (str_eqb n (L "raw")); [|discriminate]. apply (raw_adv T). exact H.
  - destruct (forbidden T (L "psp")); discriminate.
  - injection H as <-. apply slurp_adv.
  - injection H as <-. apply plain_adv.
Qed.
