(** Proofs about whole documents with comments. *)
From Verif Require Import Base PyStr Names_Model Report_Proofs StrConst_Model PyLiteral_Spec StrConst_Proofs
  Reader_Model Reader_Spec Reader_Proofs Lex_Model Lex_Spec Lex_Proofs LexLines_Proofs.

Lemma free_starts : forall T s, free T s -> toks_ok T -> forall c t, In c s -> In t (tokens T) -> forall r,
  starts_with t (c :: r) = false.
Proof.
  intros T s F K c t Hc Ht r. destruct t as [|d t]; [exfalso; exact (K [] Ht eq_refl)|].
  cbn [starts_with]. destruct (N.eqb_spec d c) as [->|]; [|reflexivity].
  exfalso. exact (F c (c :: t) Hc Ht t eq_refl).
Qed.

Lemma free_occurs : forall T s, free T s -> toks_ok T -> forall t, In t (tokens T) -> ~ occurs t s.
Proof.
  intros T s F K t Ht (a & b & E). destruct t as [|d t]; [exact (K [] Ht eq_refl)|].
  apply (F d (d :: t)) with t; [|exact Ht|reflexivity]. rewrite E. apply in_or_app. right. left. reflexivity.
Qed.

Lemma free_unescape : forall T s, free T s -> toks_ok T -> unescape T s = s.
Proof. intros T s F K. apply unescape_absent; apply (free_occurs T s F K); cbn; tauto. Qed.

Lemma free_sub : forall T s s', free T s -> (forall c, In c s' -> In c s) -> free T s'.
Proof. intros T s s' F I c t Hc Ht. apply F; [apply I; exact Hc|exact Ht]. Qed.

(** one round over text *)
Lemma text_round : forall T other st u v, toks_ok T -> free T u -> u <> [] -> rest st = u ++ v ->
  (v = [] \/ top_match T (rev u ++ before st) v = true) ->
  step T other st = Some (Ok (mkP (rev u ++ before st) v (add_text u (out st)))).
Proof.
  intros T other st u v K F N E S. unfold step, eat_plain. rewrite E.
  assert (C : forall x c y b r, u = x ++ c :: y -> classify T b (c :: r) = KText).
  { intros x c y b r Eu. apply classify_text. intros t Ht. apply (free_starts T u F K); [|exact Ht].
    rewrite Eu. apply in_or_app. right. left. reflexivity. }
  destruct u as [|c u]; [congruence|]. cbn [app]. rewrite (C [] c u _ _ eq_refl).
  change (c :: u ++ v) with ((c :: u) ++ v). rewrite plain_run_text.
  2: { intros x d y Eu. apply classify_top. exact (C x d y _ _ Eu). }
  assert (R : plain_run T (rev (c :: u) ++ before st) v = ([], rev (c :: u) ++ before st, v)).
  { destruct S as [->|S]; [reflexivity|apply plain_run_stop; exact S]. }
  rewrite R. rewrite app_nil_r. rewrite (free_unescape T (c :: u) F K). reflexivity.
Qed.

Definition nonempty_texts (l : list item) : Prop := forall s, In (Text s) l -> s <> [].

Lemma ne_commit : forall b, nonempty_texts (done b) -> nonempty_texts (done (commit b)).
Proof.
  intros [p d] H. unfold commit. cbn [pend done] in *. destruct p; [exact H|].
  destruct (concat (rev (p :: p0))) eqn:E; cbn [done]; [exact H|].
  intros s Hs. apply in_app_or in Hs as [Hs|[Hs|[]]]; [exact (H s Hs)|]. injection Hs as <-. discriminate.
Qed.

Lemma ne_add_comment : forall c b, nonempty_texts (done b) -> nonempty_texts (done (add_comment c b)).
Proof.
  intros c b H. unfold add_comment. destruct (bar_comment c || special_var c || _); [exact H|].
  revert b H. induction (splitlines c) as [|l ls IH]; intros b H; [exact H|]. cbn [fold_left]. apply IH.
  cbn [done]. intros s Hs. apply in_app_or in Hs as [Hs|[Hs|[]]]; [|discriminate Hs].
  exact (ne_commit b H s Hs).
Qed.

Lemma prints_written : forall printable l, nonempty_texts l -> valid_str (written l) ->
  prints printable l (written l).
Proof.
  intros printable l. induction l as [|[s|s] l IH]; intros N V; cbn [written] in *.
  - constructor.
  - destruct (str_const_literal_some printable s) as [lit E]; [apply N; left; reflexivity|].
    apply pr_text with lit; [exact E| |].
    + apply (str_const_literal_roundtrip printable s lit); [|exact E].
      unfold valid_str in *. apply Forall_app in V. tauto.
    + apply IH; [intros x Hx; apply N; right; exact Hx|]. unfold valid_str in *. apply Forall_app in V. tauto.
  - apply pr_rem. apply IH; [intros x Hx; apply N; right; exact Hx|exact V].
Qed.

(** the pending text is at the start of a line *)
Definition fresh (p : list pystr) : Prop := p = [] \/ exists a q, p = a :: q /\ after_break a.

Definition line_start (b : pystr) : Prop := b = [] \/ exists c b', b = c :: b' /\ (c = 10 \/ c = 13)%N.

Lemma pend_add_comment : forall c b, pend (add_comment c b) = pend b \/ pend (add_comment c b) = [].
Proof.
  intros c b. unfold add_comment. destruct (bar_comment c || special_var c || _); [left; reflexivity|].
  destruct (splitlines c) as [|l ls]; [left; reflexivity|right]. cbn [fold_left].
  assert (G : forall ls b, pend b = [] ->
    pend (fold_left (fun b line => let b := commit b in mkB (pend b) (done b ++ [Rem line])) ls b) = []).
  { induction ls0 as [|x ls0 IH]; intros b0 H; [exact H|]. cbn [fold_left]. apply IH. cbn [pend]. apply pend_commit. }
  apply G. cbn [pend]. apply pend_commit.
Qed.

Lemma starts_self : forall t r, starts_with t (t ++ r) = true.
Proof. induction t as [|c t IH]; intro r; [reflexivity|]. cbn [app starts_with]. rewrite N.eqb_refl. apply IH. Qed.

Lemma top_comment : forall T b r, toks_ok T -> esc_ok b = true -> top_match T b (t_com T ++ r) = true
  /\ classify T b (t_com T ++ r) = KComment.
Proof.
  intros T b r K E.
  assert (C : classify T b (t_com T ++ r) = KComment).
  { unfold classify, m_tok. rewrite E, starts_self. reflexivity. }
  split; [|exact C]. assert (N : t_com T <> []) by (apply K; left; reflexivity).
  unfold top_match. destruct (t_com T) as [|c t] eqn:Et; [congruence|]. cbn [app] in *. rewrite C.
  unfold first_chars. rewrite Et. cbn [firstn app mem_char existsb]. rewrite N.eqb_refl. reflexivity.
Qed.

Lemma indent_esc : forall w b, indent w -> line_start b -> esc_ok (rev w ++ b) = true.
Proof.
  intros w b W B. destruct w as [|x w] using rev_ind.
  - destruct B as [->|(c & b' & -> & [->| ->])]; reflexivity.
  - rewrite rev_app_distr. cbn [rev app]. apply esc_head. intros ->.
    destruct (W 92%N) as [F _]; [apply in_or_app; right; left; reflexivity|discriminate F].
Qed.

Lemma line_start_app : forall a b, after_break a -> line_start b -> line_start (rev a ++ b).
Proof.
  intros a b [->|(x & c & -> & Hc)] B; [exact B|]. right. rewrite rev_app_distr. exists c, (rev x ++ b). split; [reflexivity|exact Hc].
Qed.

Lemma commented_run : forall T other src o, toks_ok T -> commented T src o -> forall st,
  rest st = src -> (src = [] \/ line_start (before st)) -> fresh (pend (out st)) -> nonempty_texts (done (out st)) ->
  exists fuel st', parse fuel T other st = Some (Ok st') /\ text_so_far (out st') = text_so_far (out st) ++ o
    /\ nonempty_texts (done (out st')).
Proof.
  intros T other src o K C. induction C as [s F|a w c k src o F A W P LE C IH]; intros st E B0 Fr N.
  - destruct s as [|x s].
    + exists 1%nat, st. cbn [parse]. rewrite E. split; [reflexivity|]. split; [rewrite app_nil_r; reflexivity|exact N].
    + exists 2%nat. eexists. cbn [parse]. rewrite E.
      rewrite (text_round T other st (x :: s) [] K F); [|discriminate|rewrite app_nil_r; exact E|left; reflexivity].
      cbn [rest]. split; [reflexivity|]. cbn [out]. split; [|exact N].
      unfold text_so_far. cbn [add_text pend done rev]. rewrite concat_app. cbn [concat]. rewrite app_nil_r, app_assoc. reflexivity.
  - assert (B : line_start (before st)).
    { destruct B0 as [B0|B0]; [|exact B0]. exfalso. apply (K (t_com T)); [left; reflexivity|].
      apply app_eq_nil in B0 as [_ B0]. apply app_eq_nil in B0 as [_ B0]. apply app_eq_nil in B0 as [B0 _]. exact B0. }
    (* the state at the comment *)
    assert (Q : exists st1, visits T other st st1 /\ before st1 = rev w ++ rev a ++ before st
      /\ rest st1 = t_com T ++ c ++ k ++ src /\ done (out st1) = done (out st)
      /\ text_so_far (out st1) = text_so_far (out st) ++ a ++ w
      /\ exists p', pending_indent w (pend (out st1)) p' /\ fresh p').
    { assert (Es : esc_ok (rev (a ++ w) ++ before st) = true).
      { rewrite rev_app_distr, <- app_assoc. apply indent_esc; [exact W|]. apply line_start_app; assumption. }
      destruct (top_comment T (rev (a ++ w) ++ before st) (c ++ k ++ src) K Es) as [Tm _].
      destruct (a ++ w) as [|x u] eqn:Eu.
      - apply app_eq_nil in Eu as [-> ->]. exists st. split; [constructor|]. split; [reflexivity|].
        split; [exact E|]. split; [reflexivity|]. split; [rewrite app_nil_r; reflexivity|].
        exists (pend (out st)). split; [left|exact Fr]. split; [reflexivity|]. split; [reflexivity|exact Fr].
      - rewrite <- Eu in *.
        assert (R : step T other st = Some (Ok (mkP (rev (a ++ w) ++ before st) (t_com T ++ c ++ k ++ src)
                      (add_text (a ++ w) (out st))))).
        { apply text_round; [exact K|exact F|congruence| |right; exact Tm]. rewrite E, <- app_assoc. reflexivity. }
        eexists. split; [eapply vs_step; [|exact R|constructor]|].
        { rewrite E. destruct a; [|discriminate]. destruct w; [discriminate Eu|discriminate]. }
        cbn [before rest out add_text pend done]. split; [rewrite rev_app_distr, <- app_assoc; reflexivity|].
        split; [reflexivity|]. split; [reflexivity|]. split.
        + unfold text_so_far, add_text. cbn [pend done rev]. rewrite concat_app. cbn [concat]. rewrite app_nil_r, app_assoc. reflexivity.
        + exists (a :: pend (out st)). split; [right; exists a, (pend (out st)); split; [reflexivity|split; [reflexivity|exact A]]|].
          right. exists a, (pend (out st)). split; [reflexivity|exact A]. }
    destruct Q as (st1 & V & E1 & E2 & E3 & E4 & p' & Hp & Fp).
    assert (At : at_indent w (before st1)).
    { exists (rev a ++ before st). split; [exact E1|]. exact (line_start_app a (before st) A B). }
    destruct (comment_line T w st1 p' W At Hp c k src E2 P LE) as [R1 R2].
    set (st2 := eat_comment T st1) in *.
    assert (S2 : step T other st1 = Some (Ok st2)).
    { unfold step. rewrite E2.
      destruct (top_comment T (before st1) (c ++ k ++ src) K) as [_ ->]; [|reflexivity].
      rewrite E1. apply indent_esc; [exact W|]. apply line_start_app; assumption. }
    destruct (IH st2 R1) as (fuel & st3 & Pf & Tx & N3).
    + unfold st2, eat_comment. rewrite (here_clear w st1 W At), E2, go_app.
      rewrite (read_eol_line true _ c k src P LE). cbn [before].
      destruct LE as [[Bk _]|[-> ->]].
      * right. right. destruct Bk as [->|[->| ->]]; rewrite rev_app_distr; cbn [rev app]; eexists _, _; (split; [reflexivity|auto]).
      * left. reflexivity.
    + unfold st2, eat_comment. rewrite (here_clear w st1 W At), E2, go_app.
      rewrite (read_eol_line true _ c k src P LE). cbn [out]. rewrite (ws_cut w st1 p' W Hp).
      destruct (pend_add_comment (c ++ k) (mkB p' (done (out st1)))) as [->| ->]; [exact Fp|left; reflexivity].
    + unfold st2, eat_comment. rewrite (here_clear w st1 W At), E2, go_app.
      rewrite (read_eol_line true _ c k src P LE). cbn [out]. apply ne_add_comment.
      rewrite (ws_cut w st1 p' W Hp). cbn [done]. rewrite E3. exact N.
    + assert (G : exists f, parse f T other st = Some (Ok st3)).
      { apply (parse_visits T other st st1 V). exists (S fuel). cbn [parse]. rewrite E2.
        destruct (t_com T ++ c ++ k ++ src) eqn:Z.
        - exfalso. apply app_eq_nil in Z as [Z _]. apply (K (t_com T)); [left; reflexivity|exact Z].
        - rewrite S2. exact Pf. }
      destruct G as [f G]. exists f, st3. split; [exact G|]. split; [|exact N3].
      rewrite Tx. assert (Y : text_so_far (out st2) = text_so_far (out st) ++ a).
      { apply (app_inv_tail w). rewrite <- R2, E4, <- app_assoc. reflexivity. }
      rewrite Y, <- app_assoc. reflexivity.
Qed.

Lemma commented_document : forall T other printable src o, toks_ok T -> commented T src o -> valid_str o ->
  exists l, (exists fuel, compile_body fuel T other src = Some (Ok l)) /\ prints printable l o.
Proof.
  intros T other printable src o K C V.
  destruct (commented_run T other src o K C (start src)) as (fuel & st' & P & Tx & N).
  - reflexivity.
  - right. left. reflexivity.
  - left. reflexivity.
  - intros s [].
  - exists (done (commit (out st'))). split; [exists fuel; unfold compile_body; rewrite P; reflexivity|].
    assert (W : written (done (commit (out st'))) = o).
    { pose proof (text_commit (out st')) as TC. unfold text_so_far in TC at 1. rewrite pend_commit in TC.
      cbn [rev concat] in TC. rewrite app_nil_r in TC. rewrite TC, Tx. reflexivity. }
    rewrite <- W. apply prints_written; [apply ne_commit; exact N|]. rewrite W. exact V.
Qed.

(** ** A multi-line comment between two texts *)

Lemma top_multi : forall T b r, default_tokens T -> esc_ok b = true ->
  top_match T b ([35; 42]%N ++ r) = true /\ classify T b ([35; 42]%N ++ r) = KMulti.
Proof.
  intros T b r (D1 & D2 & D3 & D4 & D5 & D6 & D7 & D8) E.
  assert (C : classify T b ([35; 42]%N ++ r) = KMulti).
  { unfold classify, m_tok. rewrite E, D2, D3. reflexivity. }
  split; [|exact C]. unfold top_match. cbn [app] in *. rewrite C. unfold first_chars. rewrite D2. reflexivity.
Qed.

Lemma default_ok : forall T, default_tokens T -> toks_ok T.
Proof.
  intros T (D1 & D2 & D3 & D4 & D5 & D6 & D7 & D8) t Ht. unfold tokens in Ht.
  rewrite D1, D2, D3, D5, D7, D8 in Ht. cbn in Ht. intros ->.
  repeat (destruct Ht as [Ht|Ht]; [discriminate Ht|]). exact Ht.
Qed.

Lemma multi_document : forall T other printable a body z, default_tokens T -> free T a -> free T z ->
  (forall x, a <> x ++ [92%N]) -> comment_body body -> valid_str a -> valid_str z ->
  exists x y a' z' l, a = a' ++ x /\ z = y ++ z' /\ indent x /\ blank_rest y z
    /\ (t_gobble T = false -> x = [] /\ y = [])
    /\ (exists fuel, compile_body fuel T other (a ++ L "#*" ++ body ++ L "*#" ++ z) = Some (Ok l))
    /\ prints printable l (a' ++ z').
Proof.
  intros T other printable a body z D Fa Fz Na CB Va Vz. pose proof (default_ok T D) as K.
  change (L "#*") with [35; 42]%N. change (L "*#") with [42; 35]%N.
  set (src := a ++ [35; 42]%N ++ body ++ [42; 35]%N ++ z).
  assert (Es : esc_ok (rev a) = true).
  { destruct a as [|q a _] using rev_ind; [reflexivity|]. rewrite rev_app_distr. cbn [rev app]. apply esc_head.
    intros ->. exact (Na a eq_refl). }
  assert (Q : exists st1, visits T other (start src) st1 /\ before st1 = rev a
      /\ rest st1 = [35; 42]%N ++ body ++ [42; 35]%N ++ z /\ done (out st1) = []
      /\ text_so_far (out st1) = a /\ pend (out st1) = match a with [] => [] | _ => [a] end).
  { destruct (top_multi T (rev a) (body ++ [42; 35]%N ++ z) D Es) as [Tm _].
    destruct a as [|q a].
    - exists (start src). split; [constructor|]. repeat split.
    - assert (R : step T other (start src) = Some (Ok (mkP (rev (q :: a) ++ []) ([35; 42]%N ++ body ++ [42; 35]%N ++ z)
                      (add_text (q :: a) (out (start src)))))).
      { apply text_round; [exact K|exact Fa|discriminate|reflexivity|right].
        cbn [start before]. rewrite app_nil_r. exact Tm. }
      eexists. split; [eapply vs_step; [discriminate|exact R|constructor]|].
      cbn [before rest]. split; [apply app_nil_r|]. split; [reflexivity|]. split; [reflexivity|]. split; [|reflexivity].
      unfold text_so_far, add_text. cbn. rewrite app_nil_r. reflexivity. }
  destruct Q as (st1 & V & E1 & E2 & E3 & E4 & E5).
  destruct (multi_gone T D st1 body z E2 CB) as (st2 & x & y & M & Tx & Ez & Ix & Sy & G1 & G2).
  { intro C. apply line_clear_iff in C as (w & W & b & Eb & Hb). rewrite E1 in Eb.
    assert (Ea : a = rev b ++ w).
    { rewrite <- (rev_involutive a), Eb, rev_app_distr, rev_involutive. reflexivity. }
    assert (Ab : after_break (rev b)).
    { destruct Hb as [->|(q & b' & -> & Hq)]; [left; reflexivity|right]. exists (rev b'), q. split; [reflexivity|exact Hq]. }
    destruct a as [|q a].
    - symmetry in Ea. apply app_eq_nil in Ea as [_ ->]. exists [], []. split; [intros ? []|]. rewrite E5. left. repeat split. left. reflexivity.
    - exists w, [rev b]. split; [exact W|]. rewrite E5. right. exists (rev b), []. rewrite Ea. split; [reflexivity|].
      split; [reflexivity|exact Ab]. }
  assert (Na' : exists a', a = a' ++ x /\ text_so_far (out st2) = a').
  { exists (text_so_far (out st2)). split; [rewrite <- Tx; symmetry; exact E4|reflexivity]. }
  destruct Na' as (a' & Ea' & Ta').
  assert (S2 : step T other st1 = Some (Ok st2)).
  { unfold step. rewrite E1, E2. destruct (top_multi T (rev a) (body ++ [42; 35]%N ++ z) D Es) as [_ ->]. exact M. }
  assert (Nd : nonempty_texts (done (out st2))).
  { rewrite (eat_multi_eq T D st1 body z E2 CB) in M. injection M as <-.
    assert (N0 : forall o, done o = [] -> nonempty_texts (done (add_comment body o))).
    { intros o Ho. apply ne_add_comment. rewrite Ho. intros ? []. }
    destruct z as [|q z]; [apply N0; exact E3|]. destruct (t_gobble T); [|apply N0; exact E3].
    destruct (if forallb is_space _ then _ else _) as [b3 r3]. cbn [out]. apply N0.
    destruct (line_clear (before st1) && _); [rewrite safe_handle|]; exact E3. }
  assert (Fz' : free T (rest st2)).
  { apply (free_sub T z); [exact Fz|]. intros c Hc. rewrite Ez. apply in_or_app. right. exact Hc. }
  assert (St3 : exists st3, visits T other st1 st3 /\ rest st3 = [] /\ text_so_far (out st3) = a' ++ rest st2
      /\ nonempty_texts (done (out st3))).
  { assert (Nr : rest st1 <> []) by (rewrite E2; discriminate).
    destruct (rest st2) as [|c r] eqn:Er.
    - exists st2. split; [eapply vs_step; [exact Nr|exact S2|constructor]|]. split; [exact Er|].
      split; [rewrite app_nil_r; exact Ta'|exact Nd].
    - eexists. split.
      + eapply vs_step; [exact Nr|exact S2|]. eapply vs_step; [rewrite Er; discriminate| |constructor].
        apply (text_round T other st2 (c :: r) [] K Fz'); [discriminate|rewrite app_nil_r; exact Er|left; reflexivity].
      + cbn [rest out]. split; [reflexivity|]. split; [|exact Nd].
        rewrite <- Ta'. unfold text_so_far, add_text. cbn [pend done rev]. rewrite concat_app. cbn [concat].
        rewrite app_nil_r, app_assoc. reflexivity. }
  destruct St3 as (st3 & V3 & E6 & T3 & N3).
  exists x, y, a', (rest st2), (done (commit (out st3))). split; [exact Ea'|]. split; [exact Ez|].
  split; [exact Ix|]. split; [exact Sy|]. split; [exact G1|]. split.
  - assert (P : exists fuel, parse fuel T other (start src) = Some (Ok st3)).
    { apply (parse_visits _ _ _ _ V). apply (parse_visits _ _ _ _ V3). exists 1%nat. cbn [parse]. rewrite E6. reflexivity. }
    destruct P as [f P]. exists f. unfold compile_body. rewrite P. reflexivity.
  - assert (W : written (done (commit (out st3))) = a' ++ rest st2).
    { pose proof (text_commit (out st3)) as TC. unfold text_so_far in TC at 1. rewrite pend_commit in TC.
      cbn [rev concat] in TC. rewrite app_nil_r in TC. rewrite TC. exact T3. }
    rewrite <- W. apply prints_written; [apply ne_commit; exact N3|]. rewrite W.
    unfold valid_str in *. rewrite Ea' in Va. rewrite Ez in Vz. apply Forall_app in Va, Vz. apply Forall_app. tauto.
Qed.
