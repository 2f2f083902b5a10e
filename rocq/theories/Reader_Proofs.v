(** Proofs for C33 and C34 (source reader). *)
From Verif Require Import Report_Proofs Names_Model.
From Verif Require Import Reader_Model Reader_Spec.
Local Open Scope Z_scope.

(** ** Positions *)
Lemma checkPos_none : forall r p, checkPos r p = None <-> 0 <= p <= r_bp r.
Proof.
  intros r p. unfold checkPos. destruct (p <=? r_bp r) eqn:A; cbn [negb]; [|split; [discriminate|lia]].
  destruct (p >=? 0) eqn:B; cbn [negb]; split; intro; try discriminate; try reflexivity; lia.
Qed.

Lemma checkPos_some : forall r p e, checkPos r p = Some e -> e = RError /\ ~ 0 <= p <= r_bp r.
Proof.
  intros r p e H. split.
  - unfold checkPos in H. destruct (negb _); [congruence|]. destruct (negb _); congruence.
  - intro F. apply checkPos_none in F. congruence.
Qed.

Lemma zslice_between : forall s a b, 0 <= a <= b -> b <= slen s -> between s (zslice s a b) a b.
Proof.
  intros s a b H Hb. unfold slen in Hb. unfold zslice, norm_bound, slen.
  replace (a <? 0) with false by lia. replace (b <? 0) with false by lia.
  rewrite !Z.min_l by lia.
  exists (firstn (Z.to_nat a) s), (skipn (Z.to_nat b) s).
  split; [|split].
  - rewrite <- (firstn_skipn (Z.to_nat a) s) at 1. f_equal.
    rewrite <- (firstn_skipn (Z.to_nat (b - a)) (skipn (Z.to_nat a) s)) at 1. f_equal.
    rewrite skipn_skipn. f_equal. lia.
  - rewrite firstn_length. lia.
  - rewrite !firstn_length, skipn_length. lia.
Qed.

Lemma zslice_empty : forall s a b, 0 <= b <= a -> a <= slen s -> zslice s a b = [].
Proof.
  intros s a b H Ha. unfold zslice, norm_bound.
  replace (a <? 0) with false by lia. replace (b <? 0) with false by lia.
  rewrite !Z.min_l by lia. replace (Z.to_nat (b - a)) with O by lia. reflexivity.
Qed.

Lemma zslice_In : forall s a b c, 0 <= a <= b -> b <= slen s -> In c (zslice s a b) ->
  exists q, a <= q < b /\ nth_error s (Z.to_nat q) = Some c.
Proof.
  intros s a b c H Hb Hin. unfold zslice, norm_bound in Hin.
  replace (a <? 0) with false in Hin by lia. replace (b <? 0) with false in Hin by lia.
  rewrite !Z.min_l in Hin by lia.
  apply In_nth_error in Hin as [i Hi].
  assert (Li : (i < Z.to_nat (b - a))%nat).
  { assert (N : nth_error (firstn (Z.to_nat (b - a)) (skipn (Z.to_nat a) s)) i <> None) by (rewrite Hi; discriminate).
    apply nth_error_Some in N. rewrite firstn_length in N. lia. }
  rewrite nth_error_firstn in Hi by exact Li. rewrite nth_error_skipn in Hi.
  exists (a + Z.of_nat i). split; [lia|]. rewrite <- Hi. f_equal. lia.
Qed.

Lemma zslice_length : forall s a b, 0 <= a <= b -> b <= slen s -> Z.of_nat (length (zslice s a b)) = b - a.
Proof.
  intros s a b H Hb. destruct (zslice_between s a b H Hb) as (x & y & _ & H1 & H2). lia.
Qed.

Lemma char_at_pos : forall s i, 0 <= i -> char_at s i =
  match nth_error s (Z.to_nat i) with Some c => Ok c | None => Raise RIndexError end.
Proof. intros s i H. unfold char_at. cbv zeta. assert (E : (i <? 0) = false) by lia. rewrite E. cbv iota. rewrite E. reflexivity. Qed.

Lemma eolz_bounds : forall s, (fst (eolz s) <= snd (eolz s) <= length s)%nat.
Proof.
  induction s as [|c r IH]; [cbn; lia|]. cbn [eolz]. destruct (c =? 13)%N.
  - destruct r as [|d r']; [cbn; lia|]. destruct (d =? 10)%N; cbn; lia.
  - destruct (c =? 10)%N; [cbn; lia|]. destruct (eolz r) as [a b]. cbn [fst snd length] in *. lia.
Qed.

Lemma findEOL_bounds : forall s pos g, 0 <= pos <= slen s -> pos <= findEOL s pos g <= slen s.
Proof.
  intros s pos g H. unfold findEOL, eol_search. rewrite Z.max_r, Z.min_l by lia.
  pose proof (eolz_bounds (skipn (Z.to_nat pos) s)) as B. rewrite skipn_length in B.
  destruct (eolz (skipn (Z.to_nat pos) s)) as [a b]. cbn [fst snd] in B. unfold slen in *.
  destruct g; lia.
Qed.

(** ** Running over characters *)
Lemma advance_while_spec : forall again n p,
  let p' := advance_while again n p in
  p <= p' <= p + Z.of_nat n /\ (forall q, p < q < p' -> again q = true)
  /\ (p' = p + Z.of_nat n \/ again p' = false) /\ (n <> O -> p < p').
Proof.
  induction n as [|n IH]; intros p; cbn [advance_while].
  - cbv zeta. split; [lia|]. split; [intros; lia|]. split; [left; lia|congruence].
  - cbv zeta. destruct (again (p + 1)) eqn:A.
    + destruct (IH (p + 1)) as (B & C & D & F). split; [lia|]. split; [|split; [|intros _; lia]].
      * intros q Hq. destruct (Z.eq_dec q (p + 1)) as [->|Hn]; [exact A|]. apply C. lia.
      * destruct D as [D|D]; [left; lia|right; exact D].
    + split; [lia|]. split; [intros; lia|]. split; [right; exact A|intros _; lia].
Qed.

Lemma ws_at_iff : forall r W p, 0 <= p -> r_bp r <= slen (r_src r) ->
  ws_at r W p = true <-> p < r_bp r /\ exists c, nth_error (r_src r) (Z.to_nat p) = Some c /\ In c W.
Proof.
  intros r W p Hp Hb. unfold ws_at. rewrite char_at_pos by exact Hp.
  destruct (p >=? r_bp r) eqn:A; cbn [negb andb].
  - split; [discriminate|lia].
  - destruct (nth_error (r_src r) (Z.to_nat p)) as [c|] eqn:N.
    + split.
      * intro M. split; [lia|]. exists c. split; [reflexivity|]. unfold mem_char in M.
        apply existsb_exists in M as (x & Hx & E). apply N.eqb_eq in E. subst. exact Hx.
      * intros (_ & d & E & I). injection E as <-. unfold mem_char. apply existsb_exists. exists c.
        split; [exact I|apply N.eqb_refl].
    + split; [discriminate|]. intros (_ & d & E & _). discriminate.
Qed.

Lemma nonws_at_iff : forall r W p, 0 <= p -> r_bp r <= slen (r_src r) ->
  nonws_at r W p = true <-> p >= r_bp r \/ exists c, nth_error (r_src r) (Z.to_nat p) = Some c /\ ~ In c W.
Proof.
  intros r W p Hp Hb. unfold nonws_at. rewrite char_at_pos by exact Hp.
  destruct (p >=? r_bp r) eqn:A; cbn [orb].
  - split; [left; lia|reflexivity].
  - destruct (nth_error (r_src r) (Z.to_nat p)) as [c|] eqn:N.
    + split.
      * intro M. right. exists c. split; [reflexivity|]. intro I. apply negb_true_iff in M.
        assert (mem_char c W = true); [|congruence]. unfold mem_char. apply existsb_exists. exists c.
        split; [exact I|apply N.eqb_refl].
      * intros [F|(d & E & I)]; [lia|]. injection E as <-. apply negb_true_iff.
        destruct (mem_char c W) eqn:M; [|reflexivity]. exfalso. apply I. unfold mem_char in M.
        apply existsb_exists in M as (x & Hx & E). apply N.eqb_eq in E. subst. exact Hx.
    + exfalso. apply nth_error_None in N. unfold slen in Hb. lia.
Qed.

Definition ws_limit (r : reader) (mx : option Z) : Z :=
  match mx with None => r_bp r | Some m => Z.min (r_bp r) (r_pos r + m) end.

Lemma getWS_spec : forall r mx W t r', in_window r -> getWhiteSpace r mx W = (t, r') ->
  in_window r' /\ r' = with_pos r (r_pos r') /\ between (r_src r) t (r_pos r) (r_pos r')
  /\ (forall c, In c t -> In c W)
  /\ (r_pos r' = r_bp r \/ (exists m, mx = Some m /\ m <= Z.of_nat (length t) <= Z.max 0 m)
      \/ exists c, nth_error (r_src r) (Z.to_nat (r_pos r')) = Some c /\ ~ In c W)
  /\ (forall m, mx = Some m -> Z.of_nat (length t) <= Z.max 0 m).
Proof.
  intros r mx W t r' [[Hp Hb] Hl] H. unfold getWhiteSpace in H.
  assert (Hl' : r_bp r <= slen (r_src r)) by exact Hl.
  destruct (ws_at r W (r_pos r)) eqn:A; cbn [negb] in H.
  - fold (ws_limit r mx) in H.
    set (n := Z.to_nat (ws_limit r mx - r_pos r)) in *.
    pose proof (advance_while_spec (ws_at r W) n (r_pos r)) as S. cbv zeta in S, H.
    set (p' := advance_while (ws_at r W) n (r_pos r)) in *.
    destruct S as (B & C & D & F). injection H as <- <-. cbn [r_pos with_pos].
    assert (Hlim : ws_limit r mx <= r_bp r) by (unfold ws_limit; destruct mx; lia).
    apply ws_at_iff in A as (A1 & A2); [|lia|exact Hl'].
    assert (Hp' : p' <= r_bp r) by (subst n; lia).
    assert (Len : Z.of_nat (length (zslice (r_src r) (r_pos r) p')) = p' - r_pos r)
      by (apply zslice_length; lia).
    split; [|split; [|split; [|split; [|split]]]].
    + unfold in_window. cbn [r_pos r_bp r_src with_pos]. lia.
    + reflexivity.
    + apply zslice_between; lia.
    + intros c Hc. apply zslice_In in Hc as (q & Hq & Hc); [|lia|lia].
      destruct (Z.eq_dec q (r_pos r)) as [->|Hn].
      * destruct A2 as (d & E & I). congruence.
      * assert (Q : ws_at r W q = true) by (apply C; lia).
        apply ws_at_iff in Q as (_ & d & E & I); [congruence|lia|exact Hl'].
    + destruct (Z.eq_dec p' (r_bp r)) as [E|Hn]; [left; exact E|]. right.
      destruct D as [D|D].
      * left. destruct mx as [m|].
        -- exists m. split; [reflexivity|]. rewrite Len. unfold ws_limit in *. subst n. lia.
        -- exfalso. unfold ws_limit in *. subst n. lia.
      * right. destruct (nth_error (r_src r) (Z.to_nat p')) as [c|] eqn:N.
        -- exists c. split; [reflexivity|]. intro I.
           assert (ws_at r W p' = true); [|congruence]. apply ws_at_iff; [lia|exact Hl'|].
           split; [lia|]. exists c. split; [exact N|exact I].
        -- exfalso. apply nth_error_None in N. unfold slen in Hl'. lia.
    + intros m ->. rewrite Len. unfold ws_limit in *. subst n. lia.
  - injection H as <- <-. split; [split; [lia|exact Hl]|]. split; [destruct r; reflexivity|]. split; [|split; [|split]].
    + exists (firstn (Z.to_nat (r_pos r)) (r_src r)), (skipn (Z.to_nat (r_pos r)) (r_src r)).
      cbn [app length]. rewrite firstn_skipn, firstn_length. unfold slen in *. split; [reflexivity|lia].
    + intros c [].
    + destruct (Z.eq_dec (r_pos r) (r_bp r)) as [E|Hn]; [left; exact E|]. right. right.
      destruct (nth_error (r_src r) (Z.to_nat (r_pos r))) as [c|] eqn:N.
      * exists c. split; [reflexivity|]. intro I.
        assert (ws_at r W (r_pos r) = true); [|congruence]. apply ws_at_iff; [lia|exact Hl'|].
        split; [lia|]. exists c. split; [exact N|exact I].
      * exfalso. apply nth_error_None in N. unfold slen in Hl'. lia.
    + intros m _. cbn. lia.
Qed.

Lemma getNonWS_spec : forall r W t r', in_window r -> getNonWhiteSpace r W = (t, r') ->
  in_window r' /\ r' = with_pos r (r_pos r') /\ between (r_src r) t (r_pos r) (r_pos r')
  /\ (forall c, In c t -> ~ In c W)
  /\ (r_pos r' = r_bp r \/ exists c, nth_error (r_src r) (Z.to_nat (r_pos r')) = Some c /\ In c W).
Proof.
  intros r W t r' [[Hp Hb] Hl] H. unfold getNonWhiteSpace in H.
  assert (Hl' : r_bp r <= slen (r_src r)) by exact Hl.
  destruct (nonws_at r W (r_pos r)) eqn:A; cbn [negb] in H.
  - set (n := Z.to_nat (r_bp r - r_pos r)) in *.
    pose proof (advance_while_spec (nonws_at r W) n (r_pos r)) as S. cbv zeta in S, H.
    set (p' := advance_while (nonws_at r W) n (r_pos r)) in *.
    destruct S as (B & C & D & F). injection H as <- <-. cbn [r_pos with_pos].
    apply nonws_at_iff in A; [|lia|exact Hl'].
    assert (Hp' : p' <= r_bp r) by (subst n; lia).
    split; [|split; [|split; [|split]]].
    + unfold in_window. cbn [r_pos r_bp r_src with_pos]. lia.
    + reflexivity.
    + apply zslice_between; lia.
    + intros c Hc. apply zslice_In in Hc as (q & Hq & Hc); [|lia|lia].
      destruct (Z.eq_dec q (r_pos r)) as [->|Hn].
      * destruct A as [A|(d & E & I)]; [lia|congruence].
      * assert (Q : nonws_at r W q = true) by (apply C; lia).
        apply nonws_at_iff in Q; [|lia|exact Hl'].
        destruct Q as [Q|(d & E & I)]; [lia|congruence].
    + destruct (Z.eq_dec p' (r_bp r)) as [E|Hn]; [left; exact E|]. right.
      destruct D as [D|D]; [subst n; lia|].
      destruct (nth_error (r_src r) (Z.to_nat p')) as [c|] eqn:N.
      * exists c. split; [reflexivity|]. destruct (in_dec N.eq_dec c W) as [I|I]; [exact I|].
        assert (nonws_at r W p' = true); [|congruence]. apply nonws_at_iff; [lia|exact Hl'|].
        right. exists c. split; [exact N|exact I].
      * exfalso. apply nth_error_None in N. unfold slen in Hl'. lia.
  - injection H as <- <-. split; [split; [lia|exact Hl]|]. split; [destruct r; reflexivity|]. split; [|split].
    + exists (firstn (Z.to_nat (r_pos r)) (r_src r)), (skipn (Z.to_nat (r_pos r)) (r_src r)).
      cbn [app length]. rewrite firstn_skipn, firstn_length. unfold slen in *. split; [reflexivity|lia].
    + intros c [].
    + destruct (Z.eq_dec (r_pos r) (r_bp r)) as [E|Hn]; [left; exact E|]. right.
      destruct (nth_error (r_src r) (Z.to_nat (r_pos r))) as [c|] eqn:N.
      * exists c. split; [reflexivity|]. destruct (in_dec N.eq_dec c W) as [I|I]; [exact I|].
        assert (nonws_at r W (r_pos r) = true); [|congruence]. apply nonws_at_iff; [lia|exact Hl'|].
        right. exists c. split; [exact N|exact I].
      * exfalso. apply nth_error_None in N. unfold slen in Hl'. lia.
Qed.

Lemma step_window : forall o r, in_window r -> ~ leaves_window o r -> in_window (snd (rstep o r)).
Proof.
  intros o r [[Hp Hb] Hl] Hok.
  assert (M : forall p, in_window (snd (move_to r p))).
  { intro p. unfold move_to. destruct (checkPos r p) eqn:C; cbn [snd]; [unfold in_window; lia|].
    apply checkPos_none in C. unfold in_window. cbn [r_pos r_bp r_src with_pos]. lia. }
  assert (T : forall to st, in_window (snd (readTo r to st))).
  { intros to st. unfold readTo. destruct (checkPos r to) eqn:C; cbn [snd]; [unfold in_window; lia|].
    apply checkPos_none in C. unfold in_window. cbn [r_pos r_bp r_src with_pos]. lia. }
  destruct o; cbn [rstep]; try apply M; try apply T.
  - unfold setBreakPoint. cbn [leaves_window] in Hok. unfold slen.
    destruct (p >? _) eqn:A; cbn [snd]; [unfold in_window; lia|].
    destruct (negb _) eqn:B; cbn [snd]; unfold in_window; cbn [r_pos r_bp r_src]; lia.
  - cbn [snd]. unfold in_window. cbn. lia.
  - destruct (aget name (r_marks r)); cbn [snd]; [|unfold in_window; lia].
    destruct (validPos r z) eqn:V; cbn [snd]; [|unfold in_window; lia].
    unfold validPos in V. unfold in_window. cbn. lia.
  - cbn [snd]. unfold in_window. lia.
  - cbn [snd]. destruct (validPos r (r_pos r + 1)) eqn:V; [|unfold in_window; lia].
    unfold validPos in V. unfold in_window. cbn. lia.
  - cbn [leaves_window] in Hok. unfold atStart. destruct (r_pos r =? 0) eqn:A; [lia|]. cbn. unfold in_window. lia.
  - destruct (getWhiteSpace r mx WS) as [t r'] eqn:G. cbn [snd].
    apply (getWS_spec r mx WS t r') in G; [|unfold in_window; lia]. exact (proj1 G).
  - destruct (getNonWhiteSpace r WS) as [t r'] eqn:G. cbn [snd].
    apply (getNonWS_spec r WS t r') in G; [|unfold in_window; lia]. exact (proj1 G).
Qed.

Lemma run_window : forall ops r, in_window r -> stays ops r -> in_window (rrun_ops ops r).
Proof.
  induction ops as [|o ops IH]; intros r H S; [exact H|]. destruct S as [S1 S2].
  cbn [rrun_ops]. apply IH; [apply step_window; assumption|exact S2].
Qed.

Lemma step_source : forall o r, r_src (snd (rstep o r)) = r_src r.
Proof.
  intros o r.
  assert (M : forall p, r_src (snd (move_to r p)) = r_src r)
    by (intro p; unfold move_to; destruct (checkPos r p); reflexivity).
  assert (T : forall to st, r_src (snd (readTo r to st)) = r_src r)
    by (intros to st; unfold readTo; destruct (checkPos r to); reflexivity).
  destruct o; cbn [rstep]; try apply M; try apply T; try reflexivity.
  - unfold setBreakPoint. destruct (p >? _); [reflexivity|]. destruct (negb _); reflexivity.
  - destruct (aget name (r_marks r)); [|reflexivity]. destruct (validPos r z); reflexivity.
  - destruct (validPos r (r_pos r + 1)); reflexivity.
  - destruct (negb (atStart r)); reflexivity.
  - unfold getWhiteSpace. destruct (negb _); reflexivity.
  - unfold getNonWhiteSpace. destruct (negb _); reflexivity.
Qed.

Lemma run_source : forall ops r, r_src (rrun_ops ops r) = r_src r.
Proof.
  induction ops as [|o ops IH]; intro r; [reflexivity|]. cbn [rrun_ops]. rewrite IH. apply step_source.
Qed.

Lemma step_outside : forall o r p, wants o r = Some p -> ~ 0 <= p <= r_bp r ->
  rstep o r = (Raise RError, r).
Proof.
  intros o r p W H.
  assert (C : checkPos r p = Some RError).
  { destruct (checkPos r p) as [e|] eqn:C; [apply checkPos_some in C as [-> _]; reflexivity|].
    apply checkPos_none in C. contradiction. }
  destruct o; cbn [wants] in W; try discriminate; injection W as <-;
    cbn [rstep]; unfold move_to, readTo, peek; rewrite C; reflexivity.
Qed.

Lemma step_inside : forall o r p, wants o r = Some p -> (forall k, o <> Peek k) -> 0 <= p <= r_bp r ->
  exists v, rstep o r = (Ok v, with_pos r p).
Proof.
  intros o r p W K H. apply checkPos_none in H.
  destruct o; cbn [wants] in W; try discriminate; injection W as <-; try (exfalso; eapply K; reflexivity);
    cbn [rstep]; unfold move_to, readTo; rewrite H; eexists; reflexivity.
Qed.

Lemma step_failed_unchanged : forall o r e r', rstep o r = (Raise e, r') ->
  (forall c, o <> Ungetc (Some c)) -> (o = Getc -> r_bp r <= slen (r_src r) /\ 0 <= r_pos r) -> r' = r.
Proof.
  intros o r e r' H K G.
  assert (M : forall p, move_to r p = (Raise e, r') -> r' = r)
    by (intros p Q; unfold move_to in Q; destruct (checkPos r p); congruence).
  assert (T : forall to st, readTo r to st = (Raise e, r') -> r' = r)
    by (intros to st Q; unfold readTo in Q; destruct (checkPos r to); congruence).
  destruct o; cbn [rstep] in H; try (eapply M; exact H); try (eapply T; exact H); try congruence.
  - unfold setBreakPoint in H. destruct (p >? _); [congruence|]. destruct (negb _); congruence.
  - destruct (aget name (r_marks r)); [|congruence]. destruct (validPos r z); congruence.
  - destruct (G eq_refl) as [G1 G2]. rewrite char_at_pos in H by exact G2.
    destruct (nth_error (r_src r) (Z.to_nat (r_pos r))) eqn:N; [congruence|].
    apply nth_error_None in N. unfold slen in *. unfold validPos in H.
    replace (r_pos r + 1 <=? r_bp r) with false in H by lia. cbn [andb] in H. congruence.
  - destruct (negb (atStart r)); [congruence|]. destruct c as [c|]; [exfalso; eapply K; reflexivity|congruence].
  - destruct (getWhiteSpace r mx WS); congruence.
  - destruct (getNonWhiteSpace r WS); congruence.
Qed.

Lemma step_reads : forall o r v r', in_window r -> reads_forward o r -> rstep o r = (Ok v, r') ->
  exists t, v = VText t /\ between (r_src r) t (r_pos r) (r_pos r').
Proof.
  intros o r v r' [[Hp Hb] Hl] F H. assert (Hl' : r_bp r <= slen (r_src r)) by exact Hl.
  assert (T : forall to, r_pos r <= to -> readTo r to None = (Ok v, r') ->
    exists t, v = VText t /\ between (r_src r) t (r_pos r) (r_pos r')).
  { intros to Ht E. unfold readTo in E. destruct (checkPos r to) eqn:C; [discriminate|].
    apply checkPos_none in C. injection E as <- <-. cbn [r_pos with_pos].
    eexists. split; [reflexivity|]. apply zslice_between; lia. }
  destruct o; cbn [reads_forward] in F; try contradiction; cbn [rstep] in H.
  - apply (T (r_pos r + off)); [lia|exact H].
  - destruct start; [contradiction|]. apply (T to); [exact F|exact H].
  - destruct start; [contradiction|]. eapply T; [|exact H].
    pose proof (findEOL_bounds (r_src r) (r_pos r) gobble). lia.
  - destruct (getWhiteSpace r mx WS) as [t r1] eqn:G. injection H as <- <-.
    apply getWS_spec in G; [|unfold in_window; lia]. destruct G as (_ & _ & G & _).
    exists t. split; [reflexivity|exact G].
  - destruct (getNonWhiteSpace r WS) as [t r1] eqn:G. injection H as <- <-.
    apply getNonWS_spec in G; [|unfold in_window; lia]. destruct G as (_ & _ & G & _).
    exists t. split; [reflexivity|exact G].
Qed.

Lemma getc_reads : forall r, in_window r -> r_pos r < r_bp r ->
  exists c, rstep Getc r = (Ok (VChar c), with_pos r (r_pos r + 1))
            /\ between (r_src r) [c] (r_pos r) (r_pos r + 1).
Proof.
  intros r [[Hp Hb] Hl] H. cbn [rstep]. unfold validPos.
  replace ((r_pos r + 1 <=? r_bp r) && (r_pos r + 1 >=? 0)) with true by lia.
  rewrite char_at_pos by exact Hp.
  destruct (nth_error (r_src r) (Z.to_nat (r_pos r))) as [c|] eqn:N.
  - exists c. split; [reflexivity|]. apply nth_error_split in N as (x & y & E & Lx).
    exists x, y. split; [rewrite E; reflexivity|]. cbn. lia.
  - apply nth_error_None in N. lia.
Qed.

Lemma readToEOL_spec : forall r v r', in_window r -> rstep (ReadToEOL None false) r = (Ok v, r') ->
  exists t, v = VText t /\ between (r_src r) t (r_pos r) (r_pos r') /\ plain t
    /\ (r_pos r' = slen (r_src r) \/ exists c, nth_error (r_src r) (Z.to_nat (r_pos r')) = Some c
                                       /\ (c = 10 \/ c = 13)%N).
Proof.
  intros r v r' W H. pose proof W as [[Hp Hb] Hl]. assert (Hl' : r_bp r <= slen (r_src r)) by exact Hl.
  cbn [rstep] in H. unfold readTo, findEOL, eol_search in H. rewrite Z.max_r, Z.min_l in H by lia.
  assert (P : forall s, let a := fst (eolz s) in plain (firstn a s)
     /\ (a = length s \/ exists c, nth_error s a = Some c /\ (c = 10 \/ c = 13)%N)).
  { clear. induction s as [|c s IH]; cbv zeta.
    - cbn. split; [split; intros []|left; reflexivity].
    - cbn [eolz]. destruct (c =? 13)%N eqn:A.
      + apply N.eqb_eq in A. subst c. assert (E : fst (match s with
          | [] => (0, 1) | d :: _ => if (d =? 10)%N then (0, 2) else (0, 1) end)%nat = O)
          by (destruct s as [|d s']; [reflexivity|]; destruct (d =? 10)%N; reflexivity).
        rewrite E. cbn [firstn]. split; [split; intros []|]. right. exists 13%N. split; [reflexivity|right; reflexivity].
      + destruct (c =? 10)%N eqn:B.
        * apply N.eqb_eq in B. subst c. cbn. split; [split; intros []|]. right. exists 10%N. split; [reflexivity|left; reflexivity].
        * cbv zeta in IH. destruct (eolz s) as [a b]. cbn [fst] in *. destruct IH as [[I1 I2] I3]. cbn [firstn].
          apply N.eqb_neq in A, B. split.
          -- split; intros [F|F]; congruence || contradiction.
          -- destruct I3 as [->|I3]; [left; reflexivity|right; exact I3]. }
  specialize (P (skipn (Z.to_nat (r_pos r)) (r_src r))).
  pose proof (eolz_bounds (skipn (Z.to_nat (r_pos r)) (r_src r))) as B.
  destruct (eolz (skipn (Z.to_nat (r_pos r)) (r_src r))) as [a b]. cbn [fst snd] in *.
  destruct (checkPos r (r_pos r + Z.of_nat a)) eqn:C; [discriminate|]. apply checkPos_none in C.
  injection H as <- <-. cbn [r_pos with_pos]. cbv zeta in P. destruct P as [P1 P2].
  rewrite skipn_length in B, P2.
  eexists. split; [reflexivity|]. split; [apply zslice_between; lia|]. split.
  - unfold zslice, norm_bound.
    replace (r_pos r <? 0) with false by lia. replace (r_pos r + Z.of_nat a <? 0) with false by lia.
    rewrite !Z.min_l by lia. replace (Z.to_nat (r_pos r + Z.of_nat a - r_pos r)) with a by lia. exact P1.
  - destruct P2 as [P2|(c & P2 & P3)].
    + left. unfold slen in *. lia.
    + right. exists c. split; [|exact P3]. rewrite nth_error_skipn in P2. rewrite <- P2. f_equal. lia.
Qed.

(** ** Searching *)
Lemma find_from_ge : forall it s i, find_from it s i = -1 \/ i <= find_from it s i.
Proof.
  intros it s. induction s as [|c s IH]; intro i; cbn [find_from].
  - destruct (starts_with it []); [right; lia|left; reflexivity].
  - destruct (starts_with it (c :: s)); [right; lia|]. destruct (IH (i + 1)); [left|right]; lia.
Qed.

Lemma startswith_here : forall r it, in_window r ->
  r_startswith r it None = starts_with it (skipn (Z.to_nat (r_pos r)) (r_src r)).
Proof.
  intros r it [[Hp Hb] Hl]. unfold r_startswith, find_str, slen.
  replace (r_pos r >? Z.of_nat (length (r_src r))) with false by lia.
  set (s := skipn (Z.to_nat (r_pos r)) (r_src r)). destruct s as [|c s']; cbn [find_from].
  - destruct (starts_with it []); lia.
  - destruct (starts_with it (c :: s')); [lia|].
    destruct (find_from_ge it s' (r_pos r + 1)); lia.
Qed.

(** ** Beginning of the line *)
Lemma rfind_aux_app : forall c a b i best,
  rfind_char_aux c i best (a ++ b) = rfind_char_aux c (i + Z.of_nat (length a)) (rfind_char_aux c i best a) b.
Proof.
  induction a as [|x a IH]; intros b i best; cbn [app rfind_char_aux length].
  - f_equal. lia.
  - rewrite IH. f_equal. lia.
Qed.

Lemma rfind_aux_notin : forall c s i best, ~ In c s -> rfind_char_aux c i best s = best.
Proof.
  induction s as [|x s IH]; intros i best H; [reflexivity|]. cbn [rfind_char_aux].
  replace (x =? c)%N with false. { apply IH. intro F. apply H. right. exact F. }
  symmetry. apply N.eqb_neq. intros ->. apply H. left. reflexivity.
Qed.

Lemma rfind_aux_lt : forall c s i best, best < i ->
  rfind_char_aux c i best s < i + Z.of_nat (length s).
Proof.
  induction s as [|x s IH]; intros i best H; cbn [rfind_char_aux length]; [lia|].
  specialize (IH (i + 1) (if (x =? c)%N then i else best)).
  assert ((if (x =? c)%N then i else best) < i + 1) by (destruct (x =? c)%N; lia). lia.
Qed.

Lemma findBOL_line : forall pre l t, after_break pre -> plain l ->
  findBOL (pre ++ l ++ t) (Z.of_nat (length pre + length l)) = Z.of_nat (length pre).
Proof.
  intros pre l t H [L1 L2]. unfold findBOL, rfind_char. rewrite Nat2Z.id.
  replace (firstn (length pre + length l) (pre ++ l ++ t)) with (pre ++ l).
  2: { rewrite app_assoc, firstn_app. rewrite firstn_all2 by (rewrite app_length; lia).
       rewrite app_length, Nat.sub_diag. cbn [firstn]. rewrite app_nil_r. reflexivity. }
  rewrite !rfind_aux_app, (rfind_aux_notin 10 l), (rfind_aux_notin 13 l) by assumption.
  destruct H as [->|(x & c & -> & Hc)]; [reflexivity|].
  rewrite !rfind_aux_app. cbn [rfind_char_aux]. rewrite app_length. cbn [length].
  pose proof (rfind_aux_lt 10 x 0 (-1) ltac:(lia)) as B1.
  pose proof (rfind_aux_lt 13 x 0 (-1) ltac:(lia)) as B2.
  destruct Hc as [->|E]; [rewrite N.eqb_refl; change (10 =? 13)%N with false; cbv iota; lia|].
  subst c. rewrite N.eqb_refl. change (13 =? 10)%N with false. cbv iota. lia.
Qed.

(** ** Line tables *)
Inductive table : Z -> pystr -> list (Z * Z) -> Prop :=
| tb_nil : forall o, table o [] []
| tb_last : forall o l, plain l -> l <> [] -> table o l [(o, o + Z.of_nat (length l))]
| tb_next : forall o l k s t, plain l -> is_break k -> (k = [13]%N -> forall u, s <> 10%N :: u) ->
    table (o + Z.of_nat (length l + length k)) s t ->
    table o (l ++ k ++ s) ((o, o + Z.of_nat (length l)) :: t).

Lemma first_break : forall s, plain s \/ exists l k u, s = l ++ k ++ u /\ plain l /\ is_break k
  /\ (k = [13]%N -> forall v, u <> 10%N :: v).
Proof.
  induction s as [|c s IH]; [left; split; intros []|].
  destruct (N.eq_dec c 10) as [->|H10].
  { right. exists [], [10%N], s. split; [reflexivity|]. split; [split; intros []|].
    split; [right; left; reflexivity|]. discriminate. }
  destruct (N.eq_dec c 13) as [->|H13].
  { destruct s as [|d s'].
    - right. exists [], [13%N], []. split; [reflexivity|]. split; [split; intros []|].
      split; [right; right; reflexivity|]. discriminate.
    - destruct (N.eq_dec d 10) as [->|D].
      + right. exists [], [13; 10]%N, s'. split; [reflexivity|]. split; [split; intros []|].
        split; [left; reflexivity|]. discriminate.
      + right. exists [], [13%N], (d :: s'). split; [reflexivity|]. split; [split; intros []|].
        split; [right; right; reflexivity|]. intros _ v F. congruence. }
  destruct IH as [[P1 P2]|(l & k & u & -> & [P1 P2] & B & C)].
  - left. split; intros [F|F]; congruence || contradiction.
  - right. exists (c :: l), k, u. split; [reflexivity|]. split; [|split; assumption].
    split; intros [F|F]; congruence || contradiction.
Qed.

Lemma break_nonempty : forall k, is_break k -> (1 <= length k)%nat.
Proof. intros k [->|[->| ->]]; cbn; lia. Qed.

Lemma table_exists : forall n s o, (length s <= n)%nat -> exists t, table o s t.
Proof.
  induction n as [|n IH]; intros s o H.
  - destruct s; [|cbn in H; lia]. exists []. constructor.
  - destruct (first_break s) as [P|(l & k & u & -> & P & B & C)].
    + destruct s as [|c s']; [exists []; constructor|]. eexists. apply tb_last; [exact P|discriminate].
    + destruct (IH u (o + Z.of_nat (length l + length k))) as [t T].
      { rewrite !app_length in H. pose proof (break_nonempty k B). lia. }
      eexists. apply tb_next; [exact P|exact B|exact C|exact T].
Qed.

Lemma eolz_plain : forall l t, plain l -> eolz (l ++ t) =
  ((length l + fst (eolz t))%nat, (length l + snd (eolz t))%nat).
Proof.
  induction l as [|c l IH]; intros t [P1 P2].
  - cbn. destruct (eolz t); reflexivity.
  - cbn [app eolz length]. replace (c =? 13)%N with false.
    2: { symmetry. apply N.eqb_neq. intros ->. apply P2. left. reflexivity. }
    replace (c =? 10)%N with false.
    2: { symmetry. apply N.eqb_neq. intros ->. apply P1. left. reflexivity. }
    rewrite IH; [reflexivity|]. split; intro F; [apply P1|apply P2]; right; exact F.
Qed.

Lemma eolz_break : forall k u, is_break k -> (k = [13]%N -> forall v, u <> 10%N :: v) ->
  eolz (k ++ u) = (O, length k).
Proof.
  intros k u [->|[->| ->]] H; [reflexivity|reflexivity|]. cbn [app eolz].
  change (13 =? 13)%N with true. cbv iota. destruct u as [|d u]; [reflexivity|].
  destruct (N.eqb_spec d 10) as [->|]; [|reflexivity]. exfalso. exact (H eq_refl u eq_refl).
Qed.

Lemma eol_search_at : forall pre s, eol_search (pre ++ s) (Z.of_nat (length pre)) =
  (Z.of_nat (length pre + fst (eolz s)), Z.of_nat (length pre + snd (eolz s))).
Proof.
  intros pre s. unfold eol_search, slen. rewrite app_length.
  rewrite Z.max_r, Z.min_l by lia. rewrite Nat2Z.id.
  replace (skipn (length pre) (pre ++ s)) with s.
  2: { rewrite skipn_app, skipn_all, Nat.sub_diag. reflexivity. }
  destruct (eolz s) as [a b]. cbn [fst snd]. f_equal; lia.
Qed.

Lemma table_is_model : forall n pre s t, (length s <= n)%nat -> after_break pre ->
  table (Z.of_nat (length pre)) s t ->
  exists es, eols_from n (pre ++ s) (slen (pre ++ s)) (Z.of_nat (length pre)) = Some es
    /\ map (fun e => (findBOL (pre ++ s) e, e)) es = t.
Proof.
  induction n as [|n IH]; intros pre s t Hn Ha T.
  - destruct s; [|cbn in Hn; lia]. exists []. cbn [eols_from]. unfold slen. rewrite app_nil_r.
    replace (_ <? _) with false by lia. split; [reflexivity|].
    inversion T as [|? ? P N|? ? k ? ? ? B]; subst; [reflexivity|congruence|].
    pose proof (break_nonempty k B).
    match goal with E : _ ++ _ ++ _ = [] |- _ => apply (f_equal (@length N)) in E; rewrite !app_length in E; cbn in E end.
    lia.
  - inversion T as [|? l P N|? l k u t' P B C T']; subst.
    + exists []. cbn [eols_from]. unfold slen. rewrite app_nil_r.
      replace (_ <? _) with false by lia. split; reflexivity.
    + cbn [eols_from]. assert (L : (1 <= length s)%nat) by (destruct s; [congruence|cbn; lia]).
      unfold slen. rewrite app_length. replace (_ <? _) with true by lia.
      assert (Ez : eolz s = (length s, length s)).
      { rewrite <- (app_nil_r s) at 1. rewrite eolz_plain by exact P. cbn. f_equal; lia. }
      assert (Fb : findBOL (pre ++ s) (Z.of_nat (length pre + length s)) = Z.of_nat (length pre)).
      { rewrite <- (app_nil_r s) at 1. apply findBOL_line; assumption. }
      rewrite eol_search_at, Ez. cbn [fst snd].
      destruct n as [|n']; cbn [eols_from]; replace (_ <? _) with false by lia;
      (eexists; split; [reflexivity|]; cbn [map]; rewrite Fb, Nat2Z.inj_add; reflexivity).
    + pose proof (break_nonempty k B) as Bk. cbn [eols_from].
      unfold slen. rewrite !app_length in *. replace (_ <? _) with true by lia.
      rewrite eol_search_at. rewrite !eolz_plain by exact P. rewrite !eolz_break by assumption. cbn [fst snd].
      destruct (IH (pre ++ l ++ k) u t') as (es & E1 & E2).
      * lia.
      * right. destruct B as [->|[->| ->]].
        -- exists (pre ++ l ++ [13%N]), 10%N. rewrite <- !app_assoc. split; [reflexivity|left; reflexivity].
        -- exists (pre ++ l), 10%N. rewrite <- !app_assoc. split; [reflexivity|left; reflexivity].
        -- exists (pre ++ l), 13%N. rewrite <- !app_assoc. split; [reflexivity|right; reflexivity].
      * rewrite !app_length. replace (Z.of_nat (length pre + (length l + length k)))
          with (Z.of_nat (length pre) + Z.of_nat (length l + length k)) by lia. exact T'.
      * unfold slen in E1. rewrite !app_length in E1. rewrite <- !app_assoc in E1, E2.
        replace (length pre + (length l + (length k + length u)))%nat
          with (length pre + (length l + length k) + length u)%nat by lia.
        rewrite E1. eexists. split; [reflexivity|]. cbn [map]. rewrite E2.
        replace (length pre + (length l + 0))%nat with (length pre + length l)%nat by lia.
        rewrite findBOL_line by assumption. rewrite Nat2Z.inj_add. reflexivity.
Qed.

Lemma line_table_spec : forall s, exists t, line_table s = Some t /\ table 0 s t.
Proof.
  intro s. destruct (table_exists (length s) s 0 (le_n _)) as [t T].
  destruct (table_is_model (length s) [] s t (le_n _) (or_introl eq_refl) T) as (es & E1 & E2).
  exists t. split; [|exact T]. unfold line_table. cbn [app length Z.of_nat] in E1, E2. rewrite E1, E2. reflexivity.
Qed.

(** ** Rows and columns *)
Lemma plain_first : forall l k s p, is_break k -> (p <= length (l ++ k ++ s))%nat ->
  plain (firstn p (l ++ k ++ s)) -> (p <= length l)%nat.
Proof.
  intros l k s p B Hp [P1 P2]. destruct (le_lt_dec p (length l)) as [H|H]; [exact H|exfalso].
  destruct k as [|c k']; [destruct B as [F|[F|F]]; discriminate|].
  assert (I : In c (firstn p (l ++ (c :: k') ++ s))).
  { rewrite firstn_app. apply in_or_app. right. destruct (p - length l)%nat eqn:E; [lia|]. left. reflexivity. }
  destruct B as [F|[F|F]]; injection F as -> _; contradiction.
Qed.

Lemma plain_app_cons : forall l1 c1 r1 l2 c2 r2, plain l1 -> plain l2 ->
  (c1 = 10 \/ c1 = 13)%N -> (c2 = 10 \/ c2 = 13)%N -> l1 ++ c1 :: r1 = l2 ++ c2 :: r2 ->
  l1 = l2 /\ c1 = c2 /\ r1 = r2.
Proof.
  induction l1 as [|x l1 IH]; intros c1 r1 l2 c2 r2 [P1 P2] [Q1 Q2] H1 H2 E; destruct l2 as [|y l2].
  - cbn in E. injection E as -> ->. repeat split.
  - exfalso. cbn in E. injection E as <- _. destruct H1 as [->| ->]; [apply Q1|apply Q2]; left; reflexivity.
  - exfalso. cbn in E. injection E as -> _. destruct H2 as [->| ->]; [apply P1|apply P2]; left; reflexivity.
  - cbn in E. injection E as -> E. destruct (IH c1 r1 l2 c2 r2) as (-> & -> & ->); try assumption.
    + split; intro F; [apply P1|apply P2]; right; exact F.
    + split; intro F; [apply Q1|apply Q2]; right; exact F.
    + repeat split.
Qed.

Lemma break_unique : forall l1 k1 s1 l2 k2 s2, plain l1 -> plain l2 -> is_break k1 -> is_break k2 ->
  (k1 = [13]%N -> forall v, s1 <> 10%N :: v) -> (k2 = [13]%N -> forall v, s2 <> 10%N :: v) ->
  l1 ++ k1 ++ s1 = l2 ++ k2 ++ s2 -> l1 = l2 /\ k1 = k2 /\ s1 = s2.
Proof.
  intros l1 k1 s1 l2 k2 s2 P1 P2 B1 B2 C1 C2 E.
  assert (X : forall k, is_break k -> exists c k', k = c :: k' /\ (c = 10 \/ c = 13)%N).
  { intros k [->|[->| ->]]; eexists _, _; (split; [reflexivity|]); auto. }
  destruct (X k1 B1) as (c1 & k1' & E1 & H1). destruct (X k2 B2) as (c2 & k2' & E2 & H2).
  rewrite E1, E2 in E. cbn [app] in E. apply plain_app_cons in E as (-> & -> & E); try assumption.
  split; [reflexivity|].
  destruct B1 as [B1|[B1|B1]], B2 as [B2|[B2|B2]]; rewrite B1 in E1; rewrite B2 in E2;
    injection E1 as <- <-; try discriminate E2; injection E2 as <-;
    cbn [app] in E; try (split; congruence);
    exfalso; first [exact (C1 B1 _ E)|exact (C2 B2 _ (eq_sym E))].
Qed.

Lemma row_col_next : forall l k s p r c, plain l -> is_break k -> (k = [13]%N -> forall u, s <> 10%N :: u) ->
  row_col (l ++ k ++ s) p r c ->
  (r = O /\ c = p /\ (p <= length l)%nat)
  \/ exists p' r', p = (length l + length k + p')%nat /\ r = S r' /\ row_col s p' r' c.
Proof.
  intros l k s p r c P B C H. inversion H as [s0 p0 Hp Q E|l' k' s' p' r' c' P' B' C' H' E]; subst.
  - left. split; [reflexivity|]. split; [reflexivity|]. eapply plain_first; eassumption.
  - right. destruct (break_unique l' k' s' l k s P' P B' B C' C) as (-> & -> & ->); [exact E|].
    exists p', r'. repeat split. exact H'.
Qed.

Lemma row_col_len : forall s p r c, row_col s p r c -> (p <= length s)%nat /\ (c <= p)%nat.
Proof.
  intros s p r c H. induction H; [lia|]. rewrite !app_length. lia.
Qed.

Lemma row_col_plain : forall l p r c, plain l -> row_col l p r c -> r = O /\ c = p.
Proof.
  intros l p r c [P1 P2] H. inversion H as [|l' k s' p' r' c' P' B]; subst; [split; reflexivity|exfalso].
  destruct B as [->|[->| ->]]; [apply P1|apply P1|apply P2]; apply in_app_iff; right; [right|..]; left; reflexivity.
Qed.

Lemma row_col_fun : forall s p r c, row_col s p r c -> forall r' c', row_col s p r' c' -> r = r' /\ c = c'.
Proof.
  intros s p r c H. induction H as [s p Hp P|l k s p r c P B C H IH]; intros r' c' H'.
  - inversion H' as [|l k s0 p0 r0 c0 P0 B0 C0 H0]; subst; [split; reflexivity|exfalso].
    apply (plain_first l k s0) in P; [|exact B0|exact Hp]. pose proof (break_nonempty k B0). lia.
  - apply row_col_next in H'; try assumption. destruct H' as [(-> & -> & F)|(p' & r0 & E & -> & H')].
    + pose proof (break_nonempty k B). lia.
    + assert (p' = p) by lia. subst. destruct (IH _ _ H') as [-> ->]. split; reflexivity.
Qed.

Lemma row_col_inj : forall s p r c, row_col s p r c -> forall q, row_col s q r c -> p = q.
Proof.
  intros s p r c H. induction H as [s p Hp P|l k s p r c P B C H IH]; intros q H'.
  - inversion H'; subst; reflexivity.
  - apply row_col_next in H'; try assumption. destruct H' as [(F & _)|(p' & r0 & -> & E & H')]; [discriminate|].
    injection E as <-. rewrite (IH _ H'). reflexivity.
Qed.

Lemma table_lookup : forall o s t, table o s t -> forall i p r c, row_col s p r c ->
  (p < length s)%nat \/ ends_open s ->
  line_num t i (o + Z.of_nat p) = Some (i + Z.of_nat r)
  /\ exists e, nth_error t r = Some (o + Z.of_nat p - Z.of_nat c, e).
Proof.
  intros o s t T. induction T as [o|o l P N|o l k s t P B C T IH]; intros i p r c H Ho.
  - exfalso. apply row_col_len in H. cbn in H. destruct Ho as [Ho|(x & d & F & _)]; [cbn in Ho; lia|].
    destruct x; discriminate.
  - pose proof (row_col_len _ _ _ _ H) as [Lp _]. apply row_col_plain in H as [-> ->]; [|exact P].
    cbn [line_num]. replace (_ && _) with true by lia. split; [f_equal; lia|].
    eexists. cbn [nth_error]. f_equal. f_equal. lia.
  - apply row_col_next in H; try assumption. destruct H as [(-> & -> & F)|(p' & r' & -> & -> & H)].
    + cbn [line_num]. replace (_ && _) with true by lia. split; [f_equal; lia|].
      eexists. cbn [nth_error]. f_equal. f_equal. lia.
    + pose proof (break_nonempty k B) as Bk.
      cbn [line_num nth_error]. replace (_ && _) with false by lia.
      destruct (IH (i + 1) p' r' c H) as (E1 & e & E2).
      { destruct Ho as [Ho|(x & d & E & D1 & D2)].
        - left. rewrite !app_length in Ho. lia.
        - destruct s as [|d' s'] using rev_ind.
          + exfalso. rewrite app_nil_r in E. destruct B as [->|[->| ->]].
            * change [13; 10]%N with ([13] ++ [10])%N in E. rewrite app_assoc in E. apply app_inj_tail in E as [_ E]. congruence.
            * apply app_inj_tail in E as [_ E]. congruence.
            * apply app_inj_tail in E as [_ E]. congruence.
          + right. rewrite !app_assoc in E. apply app_inj_tail in E as [_ E]. subst d'.
            exists s', d. repeat split; assumption. }
      split.
      * replace (o + Z.of_nat (length l + length k + p'))
          with (o + Z.of_nat (length l + length k) + Z.of_nat p') by lia.
        rewrite E1. f_equal. lia.
      * exists e. rewrite E2. f_equal. f_equal. lia.
Qed.

Lemma firstn_plain_app : forall l t p, plain l -> (p <= length l)%nat -> plain (firstn p (l ++ t)).
Proof.
  intros l t p [P1 P2] H. rewrite firstn_app. replace (p - length l)%nat with O by lia. cbn [firstn].
  rewrite app_nil_r.
  assert (X : forall c, In c (firstn p l) -> In c l).
  { intros c Hc. rewrite <- (firstn_skipn p l). apply in_or_app. left. exact Hc. }
  split; intro F; apply X in F; contradiction.
Qed.

Lemma table_found : forall o s t, table o s t -> forall i pos j, line_num t i pos = Some j ->
  exists p r c, pos = o + Z.of_nat p /\ j = i + Z.of_nat r /\ row_col s p r c
    /\ ((p < length s)%nat \/ ends_open s) /\ exists e, nth_error t r = Some (pos - Z.of_nat c, e).
Proof.
  intros o s t T. induction T as [o|o l P N|o l k s t P B C T IH]; intros i pos j H.
  - discriminate.
  - cbn [line_num] in H. destruct (_ && _) eqn:E; [|discriminate]. injection H as <-.
    exists (Z.to_nat (pos - o)), O, (Z.to_nat (pos - o)). split; [lia|]. split; [lia|]. split; [|split].
    + apply rc_here; [lia|]. rewrite <- (app_nil_r l). apply firstn_plain_app; [exact P|lia].
    + right. destruct l as [|d l _] using rev_ind; [congruence|]. exists l, d. split; [reflexivity|].
      destruct P as [P1 P2]. split; intros ->; [apply P1|apply P2]; apply in_app_iff; right; left; reflexivity.
    + eexists. cbn [nth_error]. f_equal. f_equal. lia.
  - pose proof (break_nonempty k B) as Bk. cbn [line_num] in H. destruct (_ && _) eqn:E.
    + injection H as <-. exists (Z.to_nat (pos - o)), O, (Z.to_nat (pos - o)).
      split; [lia|]. split; [lia|]. split; [|split].
      * apply rc_here; [rewrite !app_length; lia|]. apply firstn_plain_app; [exact P|lia].
      * left. rewrite !app_length. lia.
      * eexists. cbn [nth_error]. f_equal. f_equal. lia.
    + apply IH in H as (p & r & c & -> & -> & H & Ho & e & Ne).
      exists (length l + length k + p)%nat, (S r), c. split; [lia|]. split; [lia|]. split; [|split].
      * apply rc_next; assumption.
      * destruct Ho as [Ho|(x & d & -> & D)]; [left; rewrite !app_length; lia|].
        right. exists (l ++ k ++ x), d. rewrite <- !app_assoc. split; [reflexivity|exact D].
      * exists e. exact Ne.
Qed.

Lemma getRowCol_iff : forall s t pos r c, line_table s = Some t ->
  getRowCol t pos = Ok (r, c) <->
  exists p r0 c0, pos = Z.of_nat p /\ r = Z.of_nat (S r0) /\ c = Z.of_nat (S c0) /\ row_col s p r0 c0
    /\ ((p < length s)%nat \/ ends_open s).
Proof.
  intros s t pos r c Ht. destruct (line_table_spec s) as (t' & E & T). rewrite Ht in E. injection E as <-.
  unfold getRowCol. split.
  - intro H. destruct (line_num t 0 pos) as [i|] eqn:N; [|discriminate].
    apply (table_found 0 s t T) in N as (p & r0 & c0 & Ep & -> & Hrc & Ho & e & Ne).
    replace (Z.to_nat (0 + Z.of_nat r0)) with r0 in H by lia.
    match type of H with match ?x with _ => _ end = _ => replace x with (Some (pos - Z.of_nat c0, e)) in H by (symmetry; exact Ne) end.
    injection H as <- <-. exists p, r0, c0. split; [lia|]. split; [lia|]. split; [lia|]. split; assumption.
  - intros (p & r0 & c0 & -> & -> & -> & Hrc & Ho).
    destruct (table_lookup 0 s t T 0 p r0 c0 Hrc Ho) as (E1 & e & E2).
    change (0 + Z.of_nat p) with (Z.of_nat p) in *. rewrite E1.
    change (0 + Z.of_nat r0) with (Z.of_nat r0). rewrite Nat2Z.id.
    match goal with |- match ?x with _ => _ end = _ => replace x with (Some (Z.of_nat p - Z.of_nat c0, e)) by (symmetry; exact E2) end.
    f_equal. f_equal; lia.
Qed.

Lemma row_col_total : forall n s p, (length s <= n)%nat -> (p <= length s)%nat -> ~ inside_break s p ->
  exists r c, row_col s p r c.
Proof.
  induction n as [|n IH]; intros s p Hn Hp Hi.
  - destruct s; [|cbn in Hn; lia]. cbn in Hp. assert (p = O) by lia. subst. exists O, O.
    apply rc_here; [cbn; lia|]. split; intros [].
  - destruct (first_break s) as [P|(l & k & u & -> & P & B & C)].
    + exists O, p. apply rc_here; [exact Hp|]. rewrite <- (app_nil_r s). apply firstn_plain_app; assumption.
    + pose proof (break_nonempty k B) as Bk. rewrite !app_length in *.
      destruct (le_lt_dec p (length l)) as [H|H].
      { exists O, p. apply rc_here; [rewrite !app_length; lia|]. apply firstn_plain_app; assumption. }
      destruct (le_lt_dec (length l + length k) p) as [H2|H2].
      * destruct (IH u (p - (length l + length k))%nat) as (r & c & R).
        -- lia.
        -- lia.
        -- intros (x & v & -> & Ex). apply Hi. exists (l ++ k ++ x), v. rewrite <- !app_assoc.
           split; [reflexivity|]. rewrite !app_length. lia.
        -- exists (S r), c. replace p with (length l + length k + (p - (length l + length k)))%nat by lia.
           apply rc_next; assumption.
      * exfalso. apply Hi. destruct B as [->|[->| ->]]; cbn [length] in *; try lia.
        exists l, u. split; [reflexivity|lia].
Qed.

Lemma row_col_not_inside : forall s p r c, row_col s p r c -> ~ inside_break s p.
Proof.
  intros s p r c H. induction H as [s p Hp [P1 P2]|l k s p r c P B C H IH]; intros (x & u & E & Ep).
  - subst. apply P2. replace (S (length x)) with (length x + 1)%nat by lia.
    rewrite firstn_app. apply in_app_iff. right. replace (length x + 1 - length x)%nat with 1%nat by lia. left. reflexivity.
  - destruct (le_lt_dec (length l + length k) (length x)) as [H2|H2].
    + assert (exists y, x = (l ++ k) ++ y) as [y ->].
      { pose proof E as F. rewrite app_assoc in F. apply app_eq_app in F as (y & [[F _]|[F _]]).
        - exists []. rewrite app_nil_r. apply (f_equal (@length N)) in F as G. rewrite !app_length in G.
          assert (length y = O) by lia. destruct y; [|discriminate]. rewrite app_nil_r in F. symmetry. exact F.
        - exists y. exact F. }
      rewrite <- !app_assoc in E. apply app_inv_head in E. apply app_inv_head in E.
      rewrite !app_length in Ep. apply IH. exists y, u. split; [exact E|lia].
    + assert (Hx : S (length x) = (length l + length k + p)%nat) by lia.
      assert (p = O) by lia. subst p.
      assert (length x = length l + length k - 1)%nat by lia.
      assert (Nx : nth_error (l ++ k ++ s) (length x) = Some 13%N).
      { rewrite E. rewrite nth_error_app2 by lia. rewrite Nat.sub_diag. reflexivity. }
      assert (Ny : nth_error (l ++ k ++ s) (S (length x)) = Some 10%N).
      { rewrite E. rewrite nth_error_app2 by lia. replace (S (length x) - length x)%nat with 1%nat by lia. reflexivity. }
      pose proof (break_nonempty k B) as Bk.
      rewrite nth_error_app2 in Nx, Ny by lia.
      destruct B as [->|[->| ->]]; cbn [length] in *.
      * replace (length x - length l)%nat with 1%nat in Nx by lia. discriminate.
      * replace (length x - length l)%nat with O in Nx by lia. discriminate.
      * replace (S (length x) - length l)%nat with 1%nat in Ny by lia. cbn in Ny.
        destruct s as [|d s']; [discriminate|]. injection Ny as ->. exact (C eq_refl s' eq_refl).
Qed.

Lemma getRowCol_ok : forall s t p, line_table s = Some t ->
  (exists r c, getRowCol t (Z.of_nat p) = Ok (r, c))
  <-> ~ inside_break s p /\ ((p < length s)%nat \/ (p = length s /\ ends_open s)).
Proof.
  intros s t p Ht. split.
  - intros (r & c & H). apply (getRowCol_iff s t _ r c Ht) in H as (p' & r0 & c0 & E & _ & _ & H & Ho).
    apply Nat2Z.inj in E. subst p'. split; [eapply row_col_not_inside; exact H|].
    apply row_col_len in H. destruct Ho as [Ho|Ho]; [left; exact Ho|].
    destruct (Nat.eq_dec p (length s)); [right; split; assumption|left; lia].
  - intros [Hi Ho]. assert (p <= length s)%nat by (destruct Ho as [|[]]; lia).
    destruct (row_col_total (length s) s p (le_n _) H Hi) as (r & c & R).
    exists (Z.of_nat (S r)), (Z.of_nat (S c)). apply (getRowCol_iff s t _ _ _ Ht).
    exists p, r, c. repeat (split; [reflexivity|]). split; [exact R|]. destruct Ho as [Ho|[_ Ho]]; [left|right]; exact Ho.
Qed.

Lemma getRowCol_inj : forall s t p q rc, line_table s = Some t ->
  getRowCol t p = Ok rc -> getRowCol t q = Ok rc -> p = q.
Proof.
  intros s t p q [r c] Ht H1 H2. apply (getRowCol_iff s t _ _ _ Ht) in H1 as (p1 & r1 & c1 & -> & E1 & F1 & G1 & _).
  apply (getRowCol_iff s t _ _ _ Ht) in H2 as (p2 & r2 & c2 & -> & E2 & F2 & G2 & _).
  assert (r1 = r2) by lia. assert (c1 = c2) by lia. subst. f_equal. eapply row_col_inj; eassumption.
Qed.

(** ** The line itself *)
Lemma linebreak_ordinary : forall c, is_linebreak c = true -> ~ In c [11; 12; 28; 29; 30; 133; 8232; 8233]%N ->
  (c = 10 \/ c = 13)%N.
Proof.
  intros c H N. cbn [In] in N. unfold is_linebreak in H. lia.
Qed.

Lemma splitlines_plain : forall l t cr cur, plain l -> ordinary_breaks l -> (cr = true -> cur = []) ->
  l <> [] -> splitlines_aux cr cur (l ++ t) = splitlines_aux false (rev l ++ cur) t.
Proof.
  induction l as [|c l IH]; intros t cr cur [P1 P2] O Hc N; [congruence|].
  cbn [app splitlines_aux].
  assert (C10 : (c =? 10)%N = false) by (apply N.eqb_neq; intros ->; apply P1; left; reflexivity).
  rewrite C10, andb_false_r.
  destruct (is_linebreak c) eqn:LB.
  { exfalso. apply linebreak_ordinary in LB; [|apply O; left; reflexivity].
    destruct LB as [->| ->]; [apply P1|apply P2]; left; reflexivity. }
  destruct l as [|d l'].
  - reflexivity.
  - rewrite IH.
    + cbn [rev]. rewrite <- !app_assoc. reflexivity.
    + split; intro F; [apply P1|apply P2]; right; exact F.
    + intros x Hx. apply O. right. exact Hx.
    + discriminate.
    + discriminate.
Qed.

Lemma ordinary_app : forall a b, ordinary_breaks (a ++ b) -> ordinary_breaks a /\ ordinary_breaks b.
Proof.
  intros a b H. split; intros c Hc; apply H; apply in_app_iff; [left|right]; exact Hc.
Qed.

Lemma split_line : forall l k s cr, plain l -> is_break k -> (k = [13]%N -> forall u, s <> 10%N :: u) ->
  ordinary_breaks (l ++ k ++ s) -> (cr = true -> forall u, l ++ k ++ s <> 10%N :: u) ->
  exists cr', splitlines_aux cr [] (l ++ k ++ s) = l :: splitlines_aux cr' [] s
    /\ (cr' = true -> forall u, s <> 10%N :: u).
Proof.
  intros l k s cr P B C O Hcr.
  assert (X : forall cur b, (b = true -> cur = [] /\ forall u, k ++ s <> 10%N :: u) ->
     exists cr', splitlines_aux b cur (k ++ s) = rev cur :: splitlines_aux cr' [] s
       /\ (cr' = true -> forall u, s <> 10%N :: u)).
  { intros cur b Hb. destruct B as [->|[->| ->]]; cbn [app splitlines_aux].
    - rewrite andb_false_r. exists false. split; [reflexivity|discriminate].
    - destruct b.
      + exfalso. destruct (Hb eq_refl) as [_ F]. exact (F s eq_refl).
      + exists false. split; [reflexivity|discriminate].
    - rewrite andb_false_r. exists true. split; [reflexivity|]. intros _. exact (C eq_refl). }
  destruct l as [|c l'] eqn:El.
  - cbn [app] in *. destruct (X [] cr) as (cr' & E & F).
    + intros ->. split; [reflexivity|]. exact (Hcr eq_refl).
    + exists cr'. split; [exact E|exact F].
  - rewrite <- El in *. rewrite splitlines_plain.
    + rewrite app_nil_r. destruct (X (rev l) false) as (cr' & E & F); [discriminate|].
      exists cr'. rewrite rev_involutive in E. split; assumption.
    + exact P.
    + exact (proj1 (ordinary_app _ _ O)).
    + reflexivity.
    + rewrite El. discriminate.
Qed.

Lemma table_lines : forall o s t, table o s t -> ordinary_breaks s -> forall cr p r c,
  (cr = true -> forall u, s <> 10%N :: u) -> row_col s p r c -> (p < length s)%nat \/ ends_open s ->
  exists l, nth_error (splitlines_aux cr [] s) r = Some l /\ line_at s p c l.
Proof.
  intros o s t T. induction T as [o|o l P N|o l k s t P B C T IH]; intros O cr p r c Hcr H Ho.
  - exfalso. destruct Ho as [Ho|(x & d & F & _)]; [cbn in Ho; lia|]. destruct x; discriminate.
  - pose proof (row_col_len _ _ _ _ H) as [Lp _]. apply row_col_plain in H as [-> ->]; [|exact P].
    exists l. split.
    + rewrite <- (app_nil_r l) at 1. rewrite splitlines_plain; try assumption; [|reflexivity].
      cbn [splitlines_aux]. rewrite app_nil_r. destruct (rev l) eqn:R.
      * exfalso. apply N. rewrite <- (rev_involutive l), R. reflexivity.
      * rewrite <- R, rev_involutive. reflexivity.
    + exists [], []. rewrite app_nil_r. repeat split; try lia; try (apply P). left. reflexivity.
  - destruct (split_line l k s cr P B C O Hcr) as (cr' & E & F). rewrite E.
    apply row_col_next in H; try assumption. destruct H as [(-> & -> & G)|(p' & r' & -> & -> & H)].
    + exists l. split; [reflexivity|]. exists [], (k ++ s). repeat split; try lia; try (apply P).
      right. exists k, s. split; [exact B|reflexivity].
    + destruct (IH (proj2 (ordinary_app _ _ (proj2 (ordinary_app _ _ O)))) cr' p' r' c F H) as (l' & E1 & a & b & -> & L1 & L2 & L3 & L4).
      { destruct Ho as [Ho|(x & d & Ex & D1 & D2)].
        - left. rewrite !app_length in Ho. lia.
        - destruct s as [|d' s'] using rev_ind.
          + exfalso. rewrite app_nil_r in Ex. destruct B as [->|[->| ->]].
            * change [13; 10]%N with ([13] ++ [10])%N in Ex. rewrite app_assoc in Ex. apply app_inj_tail in Ex as [_ Ex]. congruence.
            * apply app_inj_tail in Ex as [_ Ex]. congruence.
            * apply app_inj_tail in Ex as [_ Ex]. congruence.
          + right. rewrite !app_assoc in Ex. apply app_inj_tail in Ex as [_ Ex]. subst d'.
            exists s', d. repeat split; assumption. }
      exists l'. split; [exact E1|]. exists (l ++ k ++ a), b. rewrite <- !app_assoc. split; [reflexivity|].
      rewrite !app_length. split; [lia|]. split; [lia|]. split; assumption.
Qed.

Lemma getRowColLine_spec : forall s t pos r c, line_table s = Some t -> ordinary_breaks s ->
  getRowCol t pos = Ok (r, c) ->
  exists l, getRowColLine s t pos = Ok (r, c, l) /\ line_at s (Z.to_nat pos) (Z.to_nat (c - 1)) l.
Proof.
  intros s t pos r c Ht O H. pose proof H as H'.
  apply (getRowCol_iff s t _ _ _ Ht) in H' as (p & r0 & c0 & -> & -> & -> & R & Ho).
  destruct (line_table_spec s) as (t' & E & T). rewrite Ht in E. injection E as <-.
  destruct (table_lines 0 s t T O false p r0 c0) as (l & E1 & E2); [discriminate|exact R|exact Ho|].
  exists l. unfold getRowColLine. rewrite H. fold (splitlines s) in E1.
  replace (Z.to_nat (Z.of_nat (S r0) - 1)) with r0 by lia.
  match goal with |- context [match ?x with Some _ => _ | None => _ end] =>
    replace x with (Some l) by (symmetry; exact E1) end.
  split; [reflexivity|]. rewrite Nat2Z.id. replace (Z.to_nat (Z.of_nat (S c0) - 1)) with c0 by lia. exact E2.
Qed.

(** ** Reports *)
Lemma ascending_app : forall a b first, ascending first a -> ascending (first + Z.of_nat (length a)) b ->
  ascending first (a ++ b).
Proof.
  induction a as [|[k t] a IH]; intros b first Ha Hb; cbn [app].
  - cbn in Hb. rewrite Z.add_0_r in Hb. exact Hb.
  - destruct Ha as [-> Ha]. split; [reflexivity|]. apply IH; [exact Ha|].
    cbn [length] in Hb. replace (first + 1 + Z.of_nat (length a)) with (first + Z.of_nat (S (length a))) by lia. exact Hb.
Qed.

Lemma prev_lines_ascending : forall n lines row i l, prev_lines lines row i n = Ok l ->
  ascending (row - i - Z.of_nat (length l) + 1) (rev l).
Proof.
  induction n as [|n IH]; intros lines row i l H; cbn [prev_lines] in H; [injection H as <-; exact I|].
  destruct (row - 1 - i <=? 0); [injection H as <-; exact I|].
  destruct (nth_error lines (Z.to_nat (row - 1 - i))) as [x|]; [|discriminate].
  destruct (prev_lines lines row (i + 1) n) as [r|] eqn:E; [|discriminate]. injection H as <-.
  apply IH in E. cbn [rev length]. apply ascending_app.
  - replace (row - i - Z.of_nat (S (length r)) + 1) with (row - (i + 1) - Z.of_nat (length r) + 1) by lia. exact E.
  - rewrite rev_length. split; [lia|exact I].
Qed.

Lemma next_lines_ascending : forall n lines row i l, next_lines lines row i n = Ok l -> ascending (row + i) l.
Proof.
  induction n as [|n IH]; intros lines row i l H; cbn [next_lines] in H; [injection H as <-; exact I|].
  destruct (negb _); [injection H as <-; exact I|].
  destruct (nth_error lines (Z.to_nat (row - 1 + i))) as [x|]; [|discriminate].
  destruct (next_lines lines row (i + 1) n) as [r|] eqn:E; [|discriminate]. injection H as <-.
  apply IH in E. split; [reflexivity|]. replace (row + i + 1) with (row + (i + 1)) by lia. exact E.
Qed.

Lemma prev_lines_ok : forall n lines row i, 0 <= i -> row - 1 < Z.of_nat (length lines) ->
  exists l, prev_lines lines row i n = Ok l
    /\ forall k t, In (k, t) l -> 1 < k <= row - i /\ nth_error lines (Z.to_nat (k - 1)) = Some t.
Proof.
  induction n as [|n IH]; intros lines row i Hi Hr; cbn [prev_lines]; [exists []; split; [reflexivity|intros k t []]|].
  destruct (row - 1 - i <=? 0) eqn:A; [exists []; split; [reflexivity|intros k t []]|].
  destruct (nth_error lines (Z.to_nat (row - 1 - i))) as [l|] eqn:E.
  - destruct (IH lines row (i + 1)) as (r & E1 & E2); [lia|exact Hr|]. rewrite E1. eexists. split; [reflexivity|].
    intros k t [F|F].
    + injection F as <- <-. split; [lia|]. rewrite <- E. f_equal. lia.
    + destruct (E2 k t F). split; [lia|assumption].
  - apply nth_error_None in E. lia.
Qed.

Lemma next_lines_ok : forall n lines row i, 1 <= row + i ->
  exists l, next_lines lines row i n = Ok l
    /\ forall k t, In (k, t) l -> row + i <= k /\ nth_error lines (Z.to_nat (k - 1)) = Some t.
Proof.
  induction n as [|n IH]; intros lines row i Hr; cbn [next_lines]; [exists []; split; [reflexivity|intros k t []]|].
  destruct (negb _) eqn:A; [exists []; split; [reflexivity|intros k t []]|].
  destruct (nth_error lines (Z.to_nat (row - 1 + i))) as [l|] eqn:E.
  - destruct (IH lines row (i + 1)) as (r & E1 & E2); [lia|]. rewrite E1. eexists. split; [reflexivity|].
    intros k t [F|F].
    + injection F as <- <-. split; [lia|]. rewrite <- E. f_equal. lia.
    + destruct (E2 k t F). split; [lia|assumption].
  - apply nth_error_None in E. lia.
Qed.

Lemma parse_error_pos_spec : forall r, in_window r -> 0 < r_bp r ->
  exists r', parse_error_pos r = Ok r' /\ r_src r' = r_src r /\ r_pos r' = Z.min (r_pos r) (r_bp r - 1).
Proof.
  intros r [[Hp Hb] Hl] H. unfold parse_error_pos. destruct (r_pos r >=? r_bp r) eqn:A.
  - cbn [rstep]. unfold move_to. destruct (checkPos r (r_bp r - 1)) eqn:C.
    + apply checkPos_some in C as [_ C]. lia.
    + eexists. split; [reflexivity|]. cbn. split; [reflexivity|lia].
  - exists r. split; [reflexivity|]. split; [reflexivity|lia].
Qed.

Lemma parse_report_spec : forall r, in_window r -> r_bp r = slen (r_src r) -> r_src r <> [] ->
  ordinary_breaks (r_src r) -> ~ inside_break (r_src r) (Z.to_nat (Z.min (r_pos r) (r_bp r - 1))) ->
  exists r' row col lines p r0 c0 l, parse_error_pos r = Ok r' /\ parse_report r' = Ok (row, col, lines)
    /\ p = Z.to_nat (Z.min (r_pos r) (r_bp r - 1))
    /\ row = Z.of_nat (S r0) /\ col = Z.of_nat (S c0) /\ row_col (r_src r) p r0 c0
    /\ line_at (r_src r) p c0 l /\ In (row, l) lines
    /\ (exists first, ascending first lines)
    /\ (forall k t, In (k, t) lines -> nth_error (splitlines (r_src r)) (Z.to_nat (k - 1)) = Some t).
Proof.
  intros r W Hb Hn O Hi. assert (Hlen : 0 < r_bp r).
  { rewrite Hb. unfold slen. destruct (r_src r); [congruence|cbn; lia]. }
  destruct (parse_error_pos_spec r W Hlen) as (r' & E1 & E2 & E3).
  destruct (line_table_spec (r_src r)) as (t & Ht & T). destruct W as [[Hp _] _].
  set (p := Z.to_nat (Z.min (r_pos r) (r_bp r - 1))) in *.
  assert (Hpz : r_pos r' = Z.of_nat p) by lia.
  assert (Lp : (p < length (r_src r))%nat) by (unfold slen in Hb; lia).
  destruct (proj2 (getRowCol_ok (r_src r) t p Ht) (conj Hi (or_introl Lp))) as (row & col & G).
  pose proof G as G'. apply (getRowCol_iff (r_src r) t _ _ _ Ht) in G' as (p1 & r0 & c0 & Ep & -> & -> & R & _).
  apply Nat2Z.inj in Ep. subst p1.
  destruct (getRowColLine_spec (r_src r) t _ _ _ Ht O G) as (l & Gl & La).
  rewrite Nat2Z.id in La. replace (Z.to_nat (Z.of_nat (S c0) - 1)) with c0 in La by lia.
  assert (Nl : nth_error (splitlines (r_src r)) (Z.to_nat (Z.of_nat (S r0) - 1)) = Some l).
  { unfold getRowColLine in Gl. rewrite G in Gl.
    destruct (nth_error (splitlines (r_src r)) (Z.to_nat (Z.of_nat (S r0) - 1))); congruence. }
  assert (Lr : Z.of_nat (S r0) - 1 < Z.of_nat (length (splitlines (r_src r)))).
  { assert (N : nth_error (splitlines (r_src r)) (Z.to_nat (Z.of_nat (S r0) - 1)) <> None) by (rewrite Nl; discriminate).
    apply nth_error_Some in N. lia. }
  destruct (prev_lines_ok 3 (splitlines (r_src r)) (Z.of_nat (S r0)) 1) as (pl & P1 & P2); [lia|exact Lr|].
  destruct (next_lines_ok 3 (splitlines (r_src r)) (Z.of_nat (S r0)) 1) as (nl & N1 & N2); [lia|].
  exists r', (Z.of_nat (S r0)), (Z.of_nat (S c0)), (rev pl ++ (Z.of_nat (S r0), l) :: nl), p, r0, c0, l.
  split; [exact E1|]. split.
  { unfold parse_report. rewrite E2, Ht, Hpz, Gl, P1, N1. reflexivity. }
  repeat (split; [reflexivity|]). split; [exact R|]. split; [exact La|]. split.
  { apply in_app_iff. right. left. reflexivity. }
  split.
  - eexists. apply ascending_app; [eapply prev_lines_ascending; exact P1|]. rewrite rev_length.
    split; [lia|]. apply next_lines_ascending in N1.
    replace (Z.of_nat (S r0) - 1 - Z.of_nat (length pl) + 1 + Z.of_nat (length pl) + 1) with (Z.of_nat (S r0) + 1) by lia.
    exact N1.
  - intros k t' Hin. apply in_app_iff in Hin as [Hin|[Hin|Hin]].
    + apply in_rev in Hin. exact (proj2 (P2 k t' Hin)).
    + injection Hin as <- <-. exact Nl.
    + exact (proj2 (N2 k t' Hin)).
Qed.

(** ** Clear lines *)
Lemma clear_line : forall pre l t bp marks, after_break pre -> plain l ->
  Z.of_nat (length pre + length l) <= bp -> 
  isLineClearToPos (mkR (pre ++ l ++ t) bp (Z.of_nat (length pre + length l)) marks) None
  = Ok (forallb is_space l).
Proof.
  intros pre l t bp marks A P H. unfold isLineClearToPos. cbn [r_pos r_src].
  destruct (checkPos _ _) eqn:C.
  { apply checkPos_some in C as [_ C]. cbn [r_bp] in C. lia. }
  rewrite findBOL_line by assumption.
  assert (Z : zslice (pre ++ l ++ t) (Z.of_nat (length pre)) (Z.of_nat (length pre + length l)) = l).
  { unfold zslice, norm_bound, slen. replace (_ <? 0) with false by lia. replace (_ <? 0) with false by lia.
    rewrite !app_length. rewrite !Z.min_l by lia. rewrite Nat2Z.id.
    replace (Z.to_nat (Z.of_nat (length pre + length l) - Z.of_nat (length pre))) with (length l) by lia.
    rewrite skipn_app, skipn_all, Nat.sub_diag. cbn [skipn app]. rewrite firstn_app, Nat.sub_diag, firstn_all.
    cbn [firstn]. apply app_nil_r. }
  cbv zeta. rewrite Z. destruct l as [|c l'].
  - cbn [length]. replace (_ =? _) with true by lia. reflexivity.
  - replace (_ =? _) with false by (cbn [length]; lia). reflexivity.
Qed.

Lemma new_reader_run : forall s bp r ops, new_reader s bp = Ok r -> stays ops r ->
  in_window (rrun_ops ops r) /\ r_src (rrun_ops ops r) = s.
Proof.
  intros s bp r ops H S.
  assert (W : in_window r /\ r_src r = s).
  { unfold new_reader in H. destruct bp as [p|].
    - unfold setBreakPoint in H. cbn [r_src r_pos r_marks] in H. destruct (p >? slen s) eqn:A; [discriminate|].
      destruct (negb _) eqn:B; [discriminate|]. injection H as <-. unfold in_window, slen in *. cbn. split; [lia|reflexivity].
    - injection H as <-. unfold in_window, slen. cbn. split; [lia|reflexivity]. }
  destruct W as [W <-]. split; [apply run_window; assumption|apply run_source].
Qed.

Lemma step_failed : forall o r e r', rstep o r = (Raise e, r') -> in_window r ->
  (forall c, o <> Ungetc (Some c)) -> r' = r.
Proof.
  intros o r e r' H [[H1 H2] H3] K. eapply step_failed_unchanged; [exact H|exact K|]. intros _.
  split; [exact H3|exact H1].
Qed.

Lemma getRowCol_exact : forall s, exists t, line_table s = Some t /\ forall pos r c,
  getRowCol t pos = Ok (r, c) <->
  exists p r0 c0, pos = Z.of_nat p /\ r = Z.of_nat (S r0) /\ c = Z.of_nat (S c0) /\ row_col s p r0 c0
    /\ ((p < length s)%nat \/ ends_open s).
Proof.
  intro s. destruct (line_table_spec s) as (t & E & _). exists t. split; [exact E|].
  intros pos r c. apply (getRowCol_iff s t pos r c E).
Qed.

Lemma row_col_unique : forall s p r c r' c', row_col s p r c -> row_col s p r' c' -> r = r' /\ c = c'.
Proof. intros s p r c r' c' H H'. exact (row_col_fun s p r c H r' c' H'). Qed.
