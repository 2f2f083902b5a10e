(** Proofs about comments, lines, the restriction of directives and the end of parsing. *)
From Verif Require Import Base PyStr Names_Model Report_Proofs StrConst_Model PyLiteral_Spec
  Reader_Model Reader_Spec Reader_Proofs Lex_Model Lex_Spec Lex_Proofs.

(** ** The buffer *)

Lemma written_app : forall a b, written (a ++ b) = written a ++ written b.
Proof.
  induction a as [|[s|s] a IH]; intros b; cbn [app written]; rewrite ?IH; [reflexivity|apply app_assoc|reflexivity].
Qed.

Lemma text_commit : forall b, text_so_far (commit b) = text_so_far b.
Proof.
  intros [p d]. unfold commit, text_so_far. cbn [pend done]. destruct p as [|x p]; [reflexivity|].
  destruct (concat (rev (x :: p))) as [|c s] eqn:E; cbn [pend done rev concat].
  - reflexivity.
  - rewrite written_app. cbn [written]. rewrite !app_nil_r. reflexivity.
Qed.

Lemma pend_commit : forall b, pend (commit b) = [].
Proof. intros [p d]. unfold commit. cbn [pend done]. destruct p as [|x p]; [reflexivity|]. destruct (concat (rev (x :: p))); reflexivity. Qed.

Lemma text_rems : forall ls b,
  text_so_far (fold_left (fun b line => let b := commit b in mkB (pend b) (done b ++ [Rem line])) ls b)
  = text_so_far b.
Proof.
  induction ls as [|l ls IH]; intros b; [reflexivity|]. cbn [fold_left]. rewrite IH.
  rewrite <- (text_commit b). unfold text_so_far. cbn [pend done].
  rewrite written_app. cbn [written]. rewrite app_nil_r. reflexivity.
Qed.

Lemma text_add_comment : forall c b, text_so_far (add_comment c b) = text_so_far b.
Proof.
  intros c b. unfold add_comment. destruct (bar_comment c || special_var c || _); [reflexivity|apply text_rems].
Qed.

(** ** Lines *)

Lemma eolchar_iff : forall c, eolchar c = true <-> (c = 10 \/ c = 13)%N.
Proof. intro c. unfold eolchar. lia. Qed.

Lemma indent_plain : forall w, indent w -> plain w.
Proof. intros w H. split; intro F; destruct (H _ F) as (_ & A & B); congruence. Qed.

Lemma line_clear_iff : forall b, line_clear b = true <-> exists w, indent w /\ at_indent w b.
Proof.
  intro b. split.
  - induction b as [|c b IH]; cbn [line_clear]; intro H.
    + exists []. split; [intros ? []|]. exists []. split; [reflexivity|left; reflexivity].
    + destruct (eolchar c) eqn:E.
      * exists []. split; [intros ? []|]. exists (c :: b). split; [reflexivity|right].
        exists c, b. split; [reflexivity|apply eolchar_iff; exact E].
      * apply andb_true_iff in H as [H1 H2]. destruct (IH H2) as (w & W & b' & -> & Hb).
        exists (w ++ [c]). split.
        -- intros x Hx. apply in_app_or in Hx as [Hx|[<-|[]]]; [exact (W x Hx)|]. split; [exact H1|].
           split; intros ->; discriminate E.
        -- exists b'. split; [rewrite rev_app_distr; reflexivity|exact Hb].
  - intros (w & W & b' & -> & Hb).
    assert (B : line_clear b' = true).
    { destruct Hb as [->|(c & b1 & -> & Hc)]; [reflexivity|]. cbn [line_clear].
      apply eolchar_iff in Hc. rewrite Hc. reflexivity. }
    induction w as [|c w IH] using rev_ind; [exact B|]. rewrite rev_app_distr. cbn [rev app line_clear].
    destruct (W c) as (S & N1 & N2); [apply in_or_app; right; left; reflexivity|].
    replace (eolchar c) with false.
    2: { symmetry. destruct (eolchar c) eqn:E; [|reflexivity]. apply eolchar_iff in E. destruct E; congruence. }
    rewrite S. cbn [andb]. apply IH. intros x Hx. apply W. apply in_or_app. left. exact Hx.
Qed.

Lemma findBOL_end : forall a w, after_break a -> plain w -> findBOL (a ++ w) (slen (a ++ w)) = slen a.
Proof.
  intros a w Ha Hw. pose proof (findBOL_line a w [] Ha Hw) as F. rewrite app_nil_r in F.
  unfold slen. rewrite app_length. exact F.
Qed.

Lemma handle_ws_spec : forall w p p' d, indent w -> pending_indent w p p' ->
  handle_ws (mkB p d) = mkB p' d.
Proof.
  intros w p p' d W H. unfold handle_ws. cbn [pend done].
  destruct H as [(-> & -> & [->|(a & q & -> & A)])|(a & q & -> & -> & A)]; [reflexivity| |].
  - pose proof (findBOL_end a [] A) as F. rewrite app_nil_r in F. rewrite F by (split; intros []).
    rewrite Z.ltb_irrefl. reflexivity.
  - rewrite (findBOL_end a w A (indent_plain w W)). unfold slen. rewrite app_length, Nat2Z.id.
    destruct (Z.of_nat (length a) <? Z.of_nat (length a + length w))%Z eqn:E.
    + rewrite firstn_app_exact. reflexivity.
    + destruct w; [rewrite app_nil_r; reflexivity|cbn [length] in E; lia].
Qed.

Lemma pending_text : forall w p p' d, pending_indent w p p' ->
  text_so_far (mkB p d) = text_so_far (mkB p' d) ++ w.
Proof.
  intros w p p' d [(-> & -> & _)|(a & q & -> & -> & _)]; unfold text_so_far; cbn [pend done rev].
  - rewrite app_nil_r. reflexivity.
  - rewrite !concat_app. cbn [concat]. rewrite !app_nil_r, !app_assoc. reflexivity.
Qed.

Lemma plain_app : forall a b, plain a -> plain b -> plain (a ++ b).
Proof. intros a b [A1 A2] [B1 B2]. split; intro F; apply in_app_or in F; tauto. Qed.

Lemma eolz_line : forall l k post, plain l -> line_end k post ->
  eolz (l ++ k ++ post) = (length l, (length l + length k)%nat).
Proof.
  intros l k post P H. rewrite eolz_plain by exact P. destruct H as [[B C]|[-> ->]].
  - rewrite eolz_break by assumption. cbn [fst snd]. rewrite Nat.add_0_r. reflexivity.
  - cbn [app eolz fst snd length]. rewrite Nat.add_0_r. reflexivity.
Qed.

Lemma read_eol_line : forall g b l k post, plain l -> line_end k post ->
  read_eol g b (l ++ k ++ post) =
    if g then (l ++ k, (rev (l ++ k) ++ b, post)) else (l, (rev l ++ b, k ++ post)).
Proof.
  intros g b l k post P H. unfold read_eol, eol_end, eol_off. rewrite (eolz_line l k post P H). cbn [fst snd].
  destruct g.
  - rewrite <- app_length. rewrite app_assoc. rewrite firstn_app_exact, go_app. reflexivity.
  - rewrite firstn_app_exact, go_app. reflexivity.
Qed.

Lemma line_end_head : forall k post c r, line_end k post -> k ++ post = c :: r -> (c = 10 \/ c = 13)%N.
Proof.
  intros k post c r [[[->|[->| ->]] _]|[-> ->]] E; cbn in E; try (injection E as <- _; auto); discriminate E.
Qed.

Lemma line_end_nil : forall k post, line_end k post -> k ++ post = [] -> k = [] /\ post = [].
Proof. intros k post [[[->|[->| ->]] _]|[-> ->]] E; try discriminate E. split; reflexivity. Qed.

Lemma line_end_nonbreak : forall k post, line_end k post -> k = [] -> post = [].
Proof. intros k post [[[->|[->| ->]] _]|[_ H]] E; try discriminate E. exact H. Qed.

Lemma solid_no_match : forall t b k post, solid t -> line_end k post -> m_tok t b (k ++ post) = false.
Proof.
  intros t b k post (c & r & -> & N1 & N2) H. unfold m_tok.
  destruct (k ++ post) as [|d u] eqn:E; [apply andb_false_r|].
  pose proof (line_end_head k post d u H E) as Hd. cbn [starts_with].
  replace (c =? d)%N with false; [apply andb_false_r|].
  symmetry. apply N.eqb_neq. destruct Hd as [->| ->]; assumption.
Qed.

(** ** C43 *)

Section Lines.
Variables (T : toks) (w : pystr) (st : pst) (p' : list pystr).
Hypothesis Hw : indent w.
Hypothesis Hat : at_indent w (before st).
Hypothesis Hp : pending_indent w (pend (out st)) p'.

Lemma here_clear : line_clear (before st) = true.
Proof. apply line_clear_iff. exists w. split; assumption. Qed.

Lemma ws_cut : handle_ws (out st) = mkB p' (done (out st)).
Proof. pose proof (handle_ws_spec w (pend (out st)) p' (done (out st)) Hw Hp) as H. destruct (out st). exact H. Qed.

Lemma text_cut : text_so_far (out st) = text_so_far (mkB p' (done (out st))) ++ w.
Proof. pose proof (pending_text w (pend (out st)) p' (done (out st)) Hp) as H. destruct (out st). exact H. Qed.

Lemma comment_line : forall c k post, rest st = t_com T ++ c ++ k ++ post -> plain c -> line_end k post ->
  rest (eat_comment T st) = post /\ text_so_far (out st) = text_so_far (out (eat_comment T st)) ++ w.
Proof.
  intros c k post E P H. unfold eat_comment. rewrite here_clear, E, go_app.
  rewrite (read_eol_line true _ c k post P H). cbn [rest out].
  split; [reflexivity|]. rewrite text_add_comment, ws_cut. exact text_cut.
Qed.

Lemma slurp_line : forall l k post, rest st = l ++ k ++ post -> plain l -> line_end k post ->
  rest (eat_slurp st) = post /\ text_so_far (out st) = text_so_far (out (eat_slurp st)) ++ w.
Proof.
  intros l k post E P H. unfold eat_slurp. rewrite here_clear, E.
  rewrite (read_eol_line true _ l k post P H). cbn [snd rest out].
  split; [reflexivity|]. rewrite text_commit, ws_cut. exact text_cut.
Qed.

(** the end of a tag that reaches the end of its line *)
Lemma tag_line : forall fe b k post, solid (t_com T) -> solid (t_dirend T) -> line_end k post ->
  (fe <= length b)%nat ->
  let st' := eat_rest_of_tag T true fe (mkP b (k ++ post) (out st)) in
  rest st' = post /\ text_so_far (out st) = text_so_far (out st') ++ w.
Proof.
  intros fe b k post S1 S2 H Hfe. unfold eat_rest_of_tag. cbn [before rest out].
  rewrite (solid_no_match (t_com T) b k post S1 H). cbn [negb andb].
  cbn [before rest out]. rewrite (solid_no_match (t_dirend T) b k post S2 H).
  destruct (k ++ post) as [|c r] eqn:E.
  - apply line_end_nil in E as [-> ->]; [|exact H]. cbn [orb andb]. cbn [rest out].
    split; [reflexivity|]. rewrite ws_cut. exact text_cut.
  - assert (Hc : eolchar c = true) by (apply eolchar_iff; eapply line_end_head; eassumption).
    rewrite Hc. rewrite <- E. pose proof (read_eol_line true b [] k post) as R. cbn [app] in R.
    rewrite R; [|split; intros []|exact H]. cbn [snd rest out].
    assert (Hk : (1 <= length k)%nat).
    { destruct k as [|x k]; [|cbn; lia]. exfalso.
      pose proof (line_end_nonbreak [] post H eq_refl) as F. subst post. discriminate E. }
    replace ((match post with [] => true | _ :: _ => false end || (fe <? length (rev k ++ b))%nat)) with true.
    + split; [reflexivity|]. rewrite ws_cut. exact text_cut.
    + symmetry. apply orb_true_iff. right. apply Nat.ltb_lt. rewrite app_length, rev_length. lia.
Qed.

Lemma skip_dir_len : forall nm b r b' r', skip_dir T nm b r = (b', r') ->
  (length b' + length r' = length b + length r)%nat.
Proof.
  intros nm b r b' r' H. unfold skip_dir in H. destruct (m_dirstart T b r); [|injection H as <- <-; reflexivity].
  rewrite go_spec in H. injection H as <- <-. rewrite app_length, rev_length, firstn_length, skipn_length. lia.
Qed.

Lemma first_eol_line : forall l k post, plain l -> line_end k post -> rest st = l ++ k ++ post ->
  (length (before st) + eol_off (rest st) = length (before st) + length l)%nat.
Proof. intros l k post P H E. unfold eol_off. rewrite E, (eolz_line l k post P H). reflexivity. Qed.

Lemma expr_line : forall (gx : xreader) (incl : bool) name l k post b1 l1 x,
  solid (t_com T) -> solid (t_dirend T) ->
  rest st = l ++ k ++ post -> plain l -> line_end k post ->
  skip_dir T (if incl then [] else name) (before st) (rest st) = (b1, l1 ++ k ++ post) ->
  gx b1 (l1 ++ k ++ post) = Ok (x, length l1) -> split_ws (strip x) <> [] ->
  exists st', eat_simple_expr T gx incl name st = Ok (strip x, st')
    /\ rest st' = post /\ text_so_far (out st) = text_so_far (out st') ++ w.
Proof.
  intros gx incl name l k post b1 l1 x S1 S2 E P H Esk Eg Hx. unfold eat_simple_expr.
  pose proof (skip_dir_len _ _ _ _ _ Esk) as Len. rewrite E, !app_length in Len.
  rewrite Esk, Eg, go_app, here_clear. cbv zeta.
  destruct (split_ws (strip x)) eqn:Ex; [congruence|]. eexists. split; [reflexivity|].
  apply tag_line; try assumption. rewrite (first_eol_line l k post P H E).
  rewrite app_length, rev_length. lia.
Qed.

Lemma skip_ws_spec : forall r b, exists w r' : pystr, r = w ++ r' /\ skip_ws b r = (rev w ++ b, r')
  /\ (forall c, In c w -> blank c = true) /\ (forall c t, r' = c :: t -> blank c = false).
Proof.
  induction r as [|c r IH]; intro b.
  - exists [], []. repeat split; [intros ? []|discriminate].
  - cbn [skip_ws]. destruct (blank c) eqn:B.
    + destruct (IH (c :: b)) as (u & r' & -> & E & W & N). exists (c :: u), r'. split; [reflexivity|]. split.
      * rewrite E. cbn [rev]. rewrite <- app_assoc. reflexivity.
      * split; [|exact N]. intros x [<-|Hx]; [exact B|exact (W x Hx)].
    + exists [], (c :: r). split; [reflexivity|]. split; [reflexivity|]. split; [intros ? []|].
      intros x t F. injection F as <- _. exact B.
Qed.

Lemma skip_ws_none : forall b k post, line_end k post -> skip_ws b (k ++ post) = (b, k ++ post).
Proof.
  intros b k post H. destruct (k ++ post) as [|c r] eqn:E; [reflexivity|].
  pose proof (line_end_head _ _ _ _ H E) as Hc. cbn [skip_ws].
  destruct Hc as [->| ->]; reflexivity.
Qed.

Lemma indenting_line : forall (gx : xreader) name l k post b1 r1 l1 x colon,
  solid (t_com T) -> solid (t_dirend T) ->
  rest st = l ++ k ++ post -> plain l -> line_end k post -> k <> [] ->
  skip_dir T (if keeps_name name then [] else name) (before st) (rest st) = (b1, r1) ->
  snd (skip_ws b1 r1) = l1 ++ colon ++ k ++ post ->
  gx (fst (skip_ws b1 r1)) (l1 ++ colon ++ k ++ post) = Ok (x, length l1) ->
  (colon = [] \/ colon = [58%N]) ->
  exists st', eat_indenting T gx name st = Some (Ok (x, st'))
    /\ rest st' = post /\ text_so_far (out st) = text_so_far (out st') ++ w.
Proof.
  intros gx name l k post b1 r1 l1 x colon S1 S2 E P H Hk Esk Ews Eg Hcol. unfold eat_indenting.
  pose proof (skip_dir_len _ _ _ _ _ Esk) as Len. rewrite E, !app_length in Len.
  rewrite Esk. destruct (skip_ws_spec r1 b1) as (u & r2 & -> & Eu & Wu & Nu). rewrite Eu in *. cbn [fst snd] in *.
  subst r2. rewrite Eg, go_app, here_clear. cbv zeta.
  pose proof (first_eol_line l k post P H E) as FE. rewrite !app_length in Len.
  assert (SF : short_form T (colon ++ k ++ post) = false).
  { destruct Hcol as [->| ->]; cbn [app].
    - destruct (k ++ post) as [|c r] eqn:Ek; [reflexivity|]. cbn [short_form].
      pose proof (line_end_head _ _ _ _ H Ek) as Hc. destruct Hc as [->| ->]; reflexivity.
    - cbn [short_form]. change (58 =? 58)%N with true. cbn [andb].
      unfold eol_off. pose proof (eolz_line [] k post) as EZ. cbn [app] in EZ.
      rewrite EZ; [|split; intros []|exact H]. cbn [fst length firstn]. reflexivity. }
  rewrite SF. destruct Hcol as [->| ->]; cbn [app length] in *.
  - assert (Z : forall b, skip_ws b (k ++ post) = (b, k ++ post)) by (intro b; apply skip_ws_none; exact H).
    destruct (k ++ post) as [|c r'] eqn:Ekp.
    { exfalso. apply Hk. destruct k; [reflexivity|discriminate Ekp]. }
    pose proof (line_end_head _ _ _ _ H Ekp) as Hc.
    replace (c =? 58)%N with false by (destruct Hc as [->| ->]; reflexivity).
    rewrite Z. eexists. split; [reflexivity|]. rewrite <- Ekp. apply tag_line; try assumption.
    rewrite !app_length, !rev_length. lia.
  - change (58 =? 58)%N with true. cbv iota.
    rewrite (skip_ws_none _ k post H). eexists. split; [reflexivity|]. apply tag_line; try assumption.
    rewrite FE. cbn [length]. rewrite !app_length, !rev_length. lia.
Qed.
End Lines.

(** ** C42 *)

Section Comments.
Variable T : toks.
Hypothesis D : default_tokens T.

Lemma ml_tokens : t_ml T = [35; 42]%N /\ t_mlend T = [42; 35]%N.
Proof. destruct D as (_ & _ & E1 & E2 & _). rewrite E1, E2. split; reflexivity. Qed.

Lemma lone_no_tok : forall c s b post, lone c s ->
  m_tok (t_ml T) b (c :: s ++ [42; 35]%N ++ post) = false
  /\ m_tok (t_mlend T) b (c :: s ++ [42; 35]%N ++ post) = false.
Proof.
  intros c s b post (_ & N1 & N2). destruct ml_tokens as [-> ->]. unfold m_tok.
  assert (X : forall x y z, (forall t, c :: s ++ L "*#" <> [x; y] ++ t) ->
    starts_with [x; y] (c :: s ++ 42%N :: 35%N :: z) = false).
  { intros x y z N. cbn [starts_with]. destruct (N.eqb_spec x c) as [->|]; [|reflexivity].
    destruct s as [|d s].
    - cbn [app]. destruct (N.eqb_spec y 42) as [->|]; [|reflexivity]. exfalso. exact (N [35%N] eq_refl).
    - cbn [app]. destruct (N.eqb_spec y d) as [->|]; [|reflexivity]. exfalso. exact (N (s ++ L "*#") eq_refl). }
  cbn [app]. split; rewrite X; try apply andb_false_r; [exact N1|exact N2].
Qed.

Lemma esc_head : forall c b, c <> 92%N -> esc_ok (c :: b) = true.
Proof. intros c b H. cbn [esc_ok]. apply N.eqb_neq in H. rewrite H. reflexivity. Qed.

Lemma body_no_backslash : forall s, comment_body s -> ~ In 92%N s.
Proof.
  intros s H. induction H as [|c s [N _] H IH|c s d t [N1 _] H IH [N2 _] H' IH']; cbn; intro F.
  - exact F.
  - destruct F as [F|F]; [congruence|auto].
  - destruct F as [F|[F|[F|F]]]; try discriminate F; [congruence|].
    apply in_app_or in F as [F|[F|[F|[F|F]]]]; try discriminate F; [auto|congruence|auto].
Qed.

(** going over the body of a comment at any depth *)
Lemma ml_body : forall s, comment_body s -> forall fuel level b post,
  esc_ok b = true -> (length s < fuel)%nat ->
  exists fuel', (fuel' >= fuel - length s)%nat /\
    ml_loop fuel T (S level) b (s ++ [42; 35]%N ++ post)
    = ml_loop fuel' T (S level) (rev s ++ b) ([42; 35]%N ++ post)
    /\ esc_ok (rev s ++ b) = true.
Proof.
  intros s H. induction H as [|c s Hl H IH|c s d t Hc H IH Hd H' IH']; intros fuel level b post He Hf.
  - exists fuel. split; [cbn; lia|]. split; [reflexivity|exact He].
  - destruct fuel as [|n]; [lia|]. destruct (lone_no_tok c s b post Hl) as [M1 M2].
    destruct (IH n level (c :: b) post) as (f & F1 & F2 & F3).
    + apply esc_head. exact (proj1 Hl).
    + cbn [length] in Hf. lia.
    + exists f. split; [cbn [length]; lia|]. split.
      * cbn [app] in M1, M2, F2. cbn [app ml_loop]. rewrite M1, M2. cbv iota beta. cbn [rev]. rewrite <- app_assoc. exact F2.
      * cbn [rev]. rewrite <- app_assoc. exact F3.
  - destruct ml_tokens as [T1 T2].
    change (L "#*") with [35; 42]%N in *. change (L "*#") with [42; 35]%N in *.
    cbn [app length] in *. rewrite !app_length in *. cbn [length app] in *.
    destruct fuel as [|n]; [lia|].
    assert (Q : (([35; 42]%N ++ (c :: s) ++ [42; 35]%N ++ d :: t) ++ [42; 35]%N ++ post)
      = 35%N :: 42%N :: c :: s ++ [42; 35]%N ++ (d :: t ++ [42; 35]%N ++ post)).
    { cbn [app]. rewrite <- !app_assoc. cbn [app]. reflexivity. }
    cbn [app] in Q. rewrite <- ?app_assoc in *. cbn [app] in *.
    (* the nested start token *)
    destruct (IH n (S level) (c :: 42%N :: 35%N :: b) (d :: t ++ [42; 35]%N ++ post)) as (f1 & F1 & F2 & F3).
    { apply esc_head. exact (proj1 Hc). }
    { lia. }
    destruct f1 as [|f1]; [lia|].
    destruct (IH' f1 level (d :: 35%N :: 42%N :: rev s ++ c :: 42%N :: 35%N :: b) post) as (f2 & G1 & G2 & G3).
    { apply esc_head. exact (proj1 Hd). }
    { lia. }
    exists f2. split; [lia|]. cbn [app] in F2, G2.
    split.
    + cbn [ml_loop]. unfold m_tok at 1. rewrite T1, He. cbn [starts_with]. rewrite !N.eqb_refl. cbn [andb length go].
      rewrite F2. cbn [ml_loop]. unfold m_tok. rewrite T1, T2, F3. cbn [starts_with andb].
      change (35 =? 42)%N with false. change (42 =? 42)%N with true. change (35 =? 35)%N with true.
      cbn [andb length go Nat.sub].
      rewrite G2. f_equal. cbn [rev app]. rewrite ?rev_app_distr. cbn [rev app]. rewrite <- ?app_assoc. cbn [rev app].
      rewrite <- ?app_assoc. reflexivity.
    + match goal with |- esc_ok ?x = true => match type of G3 with esc_ok ?y = true => replace x with y; [exact G3|] end end.
      cbn [rev app]. rewrite ?rev_app_distr. cbn [rev app]. rewrite <- ?app_assoc. cbn [rev app].
      rewrite <- ?app_assoc. reflexivity.
Qed.

Lemma ml_whole : forall body b post, comment_body body ->
  ml_loop (S (length (body ++ [42; 35]%N ++ post))) T 1 (42%N :: b) (body ++ [42; 35]%N ++ post)
  = Some (Ok (rev body ++ 42%N :: b, [42; 35]%N ++ post))
  /\ m_tok (t_mlend T) (rev body ++ 42%N :: b) ([42; 35]%N ++ post) = true.
Proof.
  intros body b post H.
  destruct (ml_body body H (S (length (body ++ [42; 35]%N ++ post))) 0 (42%N :: b) post) as (f & F1 & F2 & F3).
  { reflexivity. }
  { rewrite app_length. lia. }
  destruct f as [|f]; [rewrite app_length in F1; cbn [length app] in F1; lia|].
  destruct ml_tokens as [T1 T2].
  assert (M : m_tok (t_mlend T) (rev body ++ 42%N :: b) ([42; 35]%N ++ post) = true).
  { unfold m_tok. rewrite F3, T2. reflexivity. }
  split; [|exact M]. rewrite F2. cbn [ml_loop app]. cbn [app] in M. rewrite M.
  unfold m_tok at 1. rewrite T1. cbn [starts_with]. change (35 =? 42)%N with false.
  cbn [andb]. rewrite andb_false_r. rewrite T2. cbn [length go Nat.sub]. reflexivity.
Qed.

Lemma eat_multi_eq : forall st body post, rest st = [35; 42]%N ++ body ++ [42; 35]%N ++ post ->
  comment_body body ->
  let b2 := 35%N :: 42%N :: rev body ++ 42%N :: 35%N :: before st in
  let clear := line_clear (before st) in
  eat_multi T st = Some (Ok (
    match post with
    | [] => mkP b2 [] (add_comment body (out st))
    | _ =>
        if t_gobble T then
          let '(b3, r3) := if forallb is_space (firstn (eol_off post) post)
                           then snd (read_eol clear b2 post) else (b2, post) in
          mkP b3 r3 (add_comment body (
            if clear && (match r3 with [] => true | _ => false end
                         || (length (before st) + eol_off (rest st) <? length b3)%nat)
            then handle_ws (out st) else out st))
        else mkP b2 post (add_comment body (out st))
    end)).
Proof.
  intros st body post E H b2 clear. unfold eat_multi. destruct ml_tokens as [T1 T2].
  assert (G0 : go (length (t_ml T)) (before st) (rest st) = (42%N :: 35%N :: before st, body ++ 42%N :: 35%N :: post)).
  { rewrite E, T1. reflexivity. }
  rewrite G0.
  destruct (ml_whole body (35%N :: before st) post H) as [M1 M2]. cbn [app] in M1, M2. rewrite M1, M2.
  assert (G1 : forall z, go (length (t_mlend T)) z (42%N :: 35%N :: post) = (35%N :: 42%N :: z, post))
    by (intro z; rewrite T2; reflexivity).
  rewrite G1.
  replace (firstn (length (rev body ++ 42%N :: 35%N :: before st) - length (42%N :: 35%N :: before st))
             (body ++ 42%N :: 35%N :: post)) with body.
  2: { symmetry. replace (length (rev body ++ 42%N :: 35%N :: before st) - length (42%N :: 35%N :: before st))%nat
         with (length body) by (rewrite app_length, rev_length; cbn [length]; lia).
       apply firstn_app_exact. }
  fold b2. destruct post as [|c r]; [reflexivity|]. destruct (t_gobble T); [|reflexivity].
  subst clear. cbv zeta.
  destruct (forallb is_space (firstn (eol_off (c :: r)) (c :: r))); [|reflexivity].
  destruct (snd (read_eol (line_clear (before st)) b2 (c :: r))) as [b3 r3]. reflexivity.
Qed.

Lemma multi_gone : forall st body post, rest st = [35; 42]%N ++ body ++ [42; 35]%N ++ post ->
  comment_body body ->
  (line_clear (before st) = true -> exists w p', indent w /\ pending_indent w (pend (out st)) p') ->
  exists st' x y, eat_multi T st = Some (Ok st')
    /\ text_so_far (out st) = text_so_far (out st') ++ x /\ post = y ++ rest st'
    /\ indent x /\ blank_rest y post
    /\ (t_gobble T = false -> x = [] /\ y = [])
    /\ (line_clear (before st) = false -> x = [] /\ plain y).
Proof.
  intros st body post E H Hc. rewrite (eat_multi_eq st body post E H).
  assert (NW : forall o, text_so_far o = text_so_far (add_comment body o) ++ [])
    by (intro o; rewrite text_add_comment, app_nil_r; reflexivity).
  assert (I0 : indent []) by (intros ? []). assert (P0 : plain []) by (split; intros []).
  assert (S0 : forall z, blank_rest [] z) by (intro z; left; reflexivity).
  destruct post as [|c r].
  { eexists _, [], []. split; [reflexivity|]. cbn [out rest]. repeat split; auto. }
  destruct (t_gobble T) eqn:G.
  2: { eexists _, [], []. split; [reflexivity|]. cbn [out rest]. repeat split; auto. }
  set (post := c :: r) in *. set (b2 := 35%N :: 42%N :: rev body ++ 42%N :: 35%N :: before st).
  assert (Y : exists y b3 r3, (if forallb is_space (firstn (eol_off post) post)
                        then snd (read_eol (line_clear (before st)) b2 post) else (b2, post)) = (b3, r3)
                /\ post = y ++ r3 /\ blank_rest y post /\ (line_clear (before st) = false -> plain y)).
  { destruct (forallb is_space (firstn (eol_off post) post)) eqn:F.
    - assert (A : exists l k u, post = l ++ k ++ u /\ plain l /\ line_end k u).
      { destruct (first_break post) as [P|(l & k & u & Ep & P & B & C)].
        - exists post, [], []. rewrite app_nil_r. split; [reflexivity|]. split; [exact P|right; split; reflexivity].
        - exists l, k, u. split; [exact Ep|]. split; [exact P|left; split; assumption]. }
      destruct A as (l & k & u & Ep & P & LE). rewrite Ep. unfold eol_off in F. rewrite Ep, (eolz_line l k u P LE) in F.
      cbn [fst] in F. rewrite firstn_app_exact in F. rewrite forallb_forall in F.
      assert (Il : indent l).
      { intros z Hz. split; [exact (F z Hz)|]. destruct P as [P1 P2]. split; intros ->; contradiction. }
      rewrite (read_eol_line _ b2 l k u P LE). destruct (line_clear (before st)); cbn [snd].
      + exists (l ++ k), (rev (l ++ k) ++ b2), u. split; [reflexivity|]. split; [apply app_assoc|].
        split; [|discriminate]. right. exists l, k, u. repeat (split; [first [reflexivity|assumption]|]). right. reflexivity.
      + exists l, (rev l ++ b2), (k ++ u). split; [reflexivity|]. split; [reflexivity|].
        split; [|intros _; exact P]. right. exists l, k, u. repeat (split; [first [reflexivity|assumption]|]). left. reflexivity.
    - exists [], b2, post. split; [reflexivity|]. split; [reflexivity|]. split; [apply S0|intros _; exact P0]. }
  destruct Y as (y & b3 & r3 & EY & Ep & Sy & Py). fold b2. rewrite EY.
  destruct (line_clear (before st) && _) eqn:C.
  - apply andb_true_iff in C as [C _]. destruct (Hc C) as (w & p' & W & Hp).
    eexists _, w, y. split; [reflexivity|]. cbn [out rest]. split.
    + rewrite text_add_comment. pose proof (handle_ws_spec w _ p' (done (out st)) W Hp) as Q.
      pose proof (pending_text w _ p' (done (out st)) Hp) as R. destruct (out st) as [pp dd]. cbn [pend done] in *.
      rewrite Q. exact R.
    + split; [exact Ep|]. split; [exact W|]. split; [exact Sy|]. split; [discriminate|]. intro F. congruence.
  - eexists _, [], y. split; [reflexivity|]. cbn [out rest]. split; [apply NW|].
    split; [exact Ep|]. split; [exact I0|]. split; [exact Sy|]. split; [discriminate|]. intro F. split; [reflexivity|exact (Py F)].
Qed.

(** alone on its lines *)
Lemma multi_alone : forall st body l k post w p', rest st = [35; 42]%N ++ body ++ [42; 35]%N ++ l ++ k ++ post ->
  comment_body body -> t_gobble T = true -> indent w -> at_indent w (before st) ->
  pending_indent w (pend (out st)) p' -> indent l -> line_end k post -> l ++ k ++ post <> [] ->
  exists st', eat_multi T st = Some (Ok st') /\ rest st' = post
    /\ text_so_far (out st) = text_so_far (out st') ++ w.
Proof.
  intros st body l k post w p' E H G W A P Il LE N. rewrite (eat_multi_eq st body _ E H).
  pose proof (here_clear w st W A) as C. rewrite C.
  destruct (l ++ k ++ post) as [|c r] eqn:Eq; [congruence|]. rewrite <- Eq. rewrite G.
  assert (Pl : plain l) by (apply indent_plain; exact Il).
  unfold eol_off at 1. rewrite (eolz_line l k post Pl LE). cbn [fst]. rewrite firstn_app_exact.
  replace (forallb is_space l) with true.
  2: { symmetry. apply forallb_forall. intros x Hx. exact (proj1 (Il x Hx)). }
  rewrite (read_eol_line true _ l k post Pl LE). cbn [snd andb].
  eexists. split; [reflexivity|]. cbn [rest out]. split; [reflexivity|].
  rewrite text_add_comment.
  assert (K : (match post with [] => true | _ :: _ => false end
               || (length (before st) + eol_off (rest st) <?
                   length (rev (l ++ k) ++ 35%N :: 42%N :: rev body ++ 42%N :: 35%N :: before st))%nat) = true).
  { destruct LE as [[B C']|[-> ->]]; [|reflexivity]. apply orb_true_iff. right. apply Nat.ltb_lt.
    assert (X : (eol_off (rest st) <= length ([35; 42]%N ++ body ++ [42; 35]%N ++ l))%nat).
    { assert (Z : forall u v, (fst (eolz (u ++ v)) <= length u + fst (eolz v))%nat).
      { induction u as [|z u IH]; intro v; [cbn; lia|]. cbn [app eolz length]. destruct (z =? 13)%N.
        - destruct (u ++ v) as [|q ?]; [cbn; lia|]. destruct (q =? 10)%N; cbn; lia.
        - destruct (z =? 10)%N; [cbn; lia|]. specialize (IH v). destruct (eolz (u ++ v)). cbn [fst] in *. lia. }
      unfold eol_off. rewrite E, <- Eq.
      replace ([35; 42]%N ++ body ++ [42; 35]%N ++ l ++ k ++ post)
        with (([35; 42]%N ++ body ++ [42; 35]%N ++ l) ++ k ++ post) by (rewrite <- !app_assoc; reflexivity).
      pose proof (Z ([35; 42]%N ++ body ++ [42; 35]%N ++ l) (k ++ post)) as Q.
      rewrite (eolz_break k post B C') in Q. cbn [fst] in Q. lia. }
    pose proof (break_nonempty k B) as Bk.
    repeat (rewrite app_length in * || rewrite rev_length in * || cbn [length] in *). lia. }
  rewrite K. rewrite (ws_cut w st p' W P). exact (text_cut w st p' P).
Qed.
End Comments.

(** ** C51 *)

Lemma classify_unrestricted : forall T b r, classify (unrestricted T) b r = classify T b r.
Proof. reflexivity. Qed.

Lemma lower_id : forall n, no_capitals n -> lower_ascii n = n.
Proof.
  induction n as [|c n IH]; intro H; [reflexivity|]. cbn [lower_ascii map].
  replace ((65 <=? c) && (c <=? 90))%N with false.
  - f_equal. apply IH. intros x Hx. apply H. right. exact Hx.
  - symmetry. specialize (H c (or_introl eq_refl)). lia.
Qed.

Lemma forbidden_iff : forall T n, no_capitals n -> forbidden T n = true <-> restricted T n.
Proof.
  intros T n H. unfold forbidden, restricted. rewrite (lower_id n H). rewrite orb_true_iff, existsb_str.
  destruct (t_enabled T) as [|e es].
  - split; [intros [A|A]; [left; exact A|discriminate]|intros [A|[A _]]; [left; exact A|congruence]].
  - rewrite negb_true_iff, <- not_true_iff_false, existsb_str. split.
    + intros [A|A]; [left; exact A|right; split; [discriminate|exact A]].
    + intros [A|[_ A]]; [left; exact A|right; exact A].
Qed.

Lemma parse_visits : forall T other st st1, visits T other st st1 -> forall r,
  (exists fuel, parse fuel T other st1 = Some r) -> exists fuel, parse fuel T other st = Some r.
Proof.
  intros T other st st1 V. induction V as [st|st st1 st2 N Hs V IH]; intros r H; [exact H|].
  destruct (IH r H) as [fuel F]. exists (S fuel). cbn [parse]. destruct (rest st); [congruence|].
  rewrite Hs. exact F.
Qed.

Lemma parse_mono : forall fuel T other st r, parse fuel T other st = Some r ->
  forall fuel', (fuel <= fuel')%nat -> parse fuel' T other st = Some r.
Proof.
  induction fuel as [|n IH]; intros T other st r H fuel' F; [discriminate|].
  destruct fuel' as [|m]; [lia|]. cbn [parse] in *. destruct (rest st); [exact H|].
  destruct (step T other st) as [[st'|e]|]; [apply IH; [exact H|lia]|exact H|discriminate].
Qed.

Lemma parse_fun : forall T other st f1 f2 r1 r2, parse f1 T other st = Some r1 -> parse f2 T other st = Some r2 -> r1 = r2.
Proof.
  intros T other st f1 f2 r1 r2 H1 H2.
  pose proof (parse_mono _ _ _ _ _ H1 (f1 + f2)%nat ltac:(lia)) as A.
  pose proof (parse_mono _ _ _ _ _ H2 (f1 + f2)%nat ltac:(lia)) as B. congruence.
Qed.

Lemma step_restricted : forall T other st n, uses T st n -> no_capitals n -> restricted T n ->
  step T other st = Some (Raise (PForbidden n)).
Proof.
  intros T other st n [_ U] C R. apply forbidden_iff in R; [|exact C]. unfold step.
  destruct U as [->|[-> ->]]; rewrite R; reflexivity.
Qed.

Lemma restricted_refused : forall T other src st n, visits T other (start src) st -> uses T st n ->
  no_capitals n -> restricted T n ->
  (exists fuel, compile_body fuel T other src = Some (Raise (PForbidden n)))
  /\ forall fuel l, compile_body fuel T other src <> Some (Ok l).
Proof.
  intros T other src st n V U C R. pose proof (step_restricted T other st n U C R) as S.
  assert (H : exists fuel, parse fuel T other (start src) = Some (Raise (PForbidden n))).
  { apply (parse_visits _ _ _ _ V). exists 1%nat. cbn [parse]. destruct U as [N _].
    destruct (rest st); [congruence|]. rewrite S. reflexivity. }
  destruct H as [f Hf]. split.
  - exists f. unfold compile_body. rewrite Hf. reflexivity.
  - intros fuel l F. unfold compile_body in F. destruct (parse fuel T other (start src)) as [[s|e]|] eqn:E; try discriminate.
    pose proof (parse_fun _ _ _ _ _ _ _ Hf E). discriminate.
Qed.

Lemma ml_loop_unrestricted : forall fuel T level b r, ml_loop fuel (unrestricted T) level b r = ml_loop fuel T level b r.
Proof.
  induction fuel as [|n IH]; intros T level b r; [reflexivity|]. cbn [ml_loop].
  change (t_ml (unrestricted T)) with (t_ml T). change (t_mlend (unrestricted T)) with (t_mlend T).
  destruct r as [|c r]; [reflexivity|].
  destruct (if m_tok (t_ml T) b (c :: r) then _ else _) as [l [b' r']]. destruct l; [reflexivity|].
  destruct r'; [reflexivity|]. apply IH.
Qed.

Lemma find_end_unrestricted : forall fuel T name b r, find_end fuel (unrestricted T) name b r = find_end fuel T name b r.
Proof.
  induction fuel as [|n IH]; intros T name b r; [reflexivity|]. cbn [find_end].
  destruct r as [|c r]; [reflexivity|]. change (m_dirstart (unrestricted T) b (c :: r)) with (m_dirstart T b (c :: r)).
  change (t_dir (unrestricted T)) with (t_dir T). change (t_names (unrestricted T)) with (t_names T).
  destruct (m_dirstart T b (c :: r)) as [r1|]; [|apply IH].
  destruct (starts_with _ _ && _); [|apply IH].
  destruct (go (length (c :: r) - length r1 + 3) b (c :: r)) as [b2 r2]. destruct (skip_ws b2 r2) as [b3 r3].
  destruct (starts_with name r3); [reflexivity|]. destruct r3; [reflexivity|apply IH].
Qed.

Lemma plain_run_unrestricted : forall T r b, plain_run (unrestricted T) b r = plain_run T b r.
Proof.
  induction r as [|c r IH]; intro b; [reflexivity|]. cbn [plain_run].
  change (top_match (unrestricted T) b (c :: r)) with (top_match T b (c :: r)). rewrite IH. reflexivity.
Qed.

Lemma eat_multi_unrestricted : forall T st, eat_multi (unrestricted T) st = eat_multi T st.
Proof.
  intros T st. unfold eat_multi. change (t_ml (unrestricted T)) with (t_ml T).
  change (t_mlend (unrestricted T)) with (t_mlend T). change (t_gobble (unrestricted T)) with (t_gobble T).
  destruct (go (length (t_ml T)) (before st) (rest st)) as [b r]. rewrite ml_loop_unrestricted. reflexivity.
Qed.

Lemma eat_to_end_unrestricted : forall T name st, eat_to_end (unrestricted T) name st = eat_to_end T name st.
Proof. intros T name st. unfold eat_to_end. rewrite find_end_unrestricted. reflexivity. Qed.

Lemma eat_raw_unrestricted : forall T st, eat_raw (unrestricted T) st = eat_raw T st.
Proof.
  intros T st. unfold eat_raw. change (skip_dir (unrestricted T)) with (skip_dir T).
  destruct (skip_dir T (L "raw") (before st) (rest st)) as [b r]. destruct (skip_ws b r) as [b1 r1].
  change (short_form (unrestricted T) r1) with (short_form T r1). destruct (short_form T r1); [reflexivity|].
  destruct r1 as [|c r1]; [reflexivity|]. destruct (if (c =? 58)%N then _ else _) as [b2 r2].
  destruct (skip_ws b2 r2) as [b3 r3]. rewrite eat_to_end_unrestricted. reflexivity.
Qed.

Lemma eat_plain_unrestricted : forall T st, eat_plain (unrestricted T) st = eat_plain T st.
Proof. intros T st. unfold eat_plain. rewrite plain_run_unrestricted. reflexivity. Qed.

Lemma step_unrestricted : forall T other st, (forall n, uses T st n -> forbidden T n = false) -> rest st <> [] ->
  step T other st = step (unrestricted T) other st.
Proof.
  intros T other st H N. unfold step. rewrite classify_unrestricted.
  destruct (classify T (before st) (rest st)) as [| | | |n| | |] eqn:K; try reflexivity.
  - symmetry. apply eat_multi_unrestricted.
  - rewrite (H n) by (split; [exact N|left; exact K]). rewrite eat_raw_unrestricted. reflexivity.
  - rewrite (H (L "psp")) by (split; [exact N|right; split; [exact K|reflexivity]]). reflexivity.
  - rewrite eat_plain_unrestricted. reflexivity.
Qed.

Lemma parse_unaffected : forall fuel T other st,
  (forall st1 n, visits (unrestricted T) other st st1 -> uses T st1 n -> forbidden T n = false) ->
  parse fuel T other st = parse fuel (unrestricted T) other st.
Proof.
  induction fuel as [|m IH]; intros T other st H; [reflexivity|]. cbn [parse].
  destruct (rest st) as [|c r] eqn:E; [reflexivity|].
  assert (N : rest st <> []) by congruence.
  rewrite (step_unrestricted T other st); [|intros n U; exact (H st n (vs_here _ _ _) U)|exact N].
  destruct (step (unrestricted T) other st) as [[st'|e]|] eqn:S; try reflexivity.
  apply IH. intros st1 n V. apply H. eapply vs_step; eassumption.
Qed.

Lemma others_unaffected : forall fuel T other src,
  (forall st1 n, visits (unrestricted T) other (start src) st1 -> uses T st1 n -> no_capitals n /\ ~ restricted T n) ->
  compile_body fuel T other src = compile_body fuel (unrestricted T) other src.
Proof.
  intros fuel T other src H. unfold compile_body. rewrite (parse_unaffected fuel T other); [reflexivity|].
  intros st1 n V U. destruct (H st1 n V U) as [C R]. destruct (forbidden T n) eqn:F; [|reflexivity].
  apply forbidden_iff in F; [contradiction|exact C].
Qed.

(** ** C63 *)

Lemma splitlines_plain : forall s cr cur, (forall c, In c cur -> is_linebreak c = false) ->
  forall l, In l (splitlines_aux cr cur s) -> forall c, In c l -> is_linebreak c = false.
Proof.
  induction s as [|x s IH]; intros cr cur H l; cbn [splitlines_aux].
  - destruct cur as [|y cur]; [intros []|]. intros [<-|[]] c Hc. apply H. apply in_rev. exact Hc.
  - destruct (cr && (x =? 10)%N); [apply IH; intros c []|].
    destruct (is_linebreak x) eqn:E.
    + intros [<-|Hl] c Hc; [apply H; apply in_rev; exact Hc|].
      eapply IH; [|exact Hl|exact Hc]. intros ? [].
    + apply IH. intros c [<-|Hc]; [exact E|exact (H c Hc)].
Qed.

Lemma safe_commit : forall b, comments_safe (done b) -> comments_safe (done (commit b)).
Proof.
  intros [p d] H. unfold commit. cbn [pend done] in *. destruct p; [exact H|].
  destruct (concat (rev (p :: p0))); cbn [done]; [exact H|].
  intros x Hx. apply in_app_or in Hx as [Hx|[Hx|[]]]; [exact (H x Hx)|discriminate Hx].
Qed.

Lemma safe_add_comment : forall c b, comments_safe (done b) -> comments_safe (done (add_comment c b)).
Proof.
  intros c b H. unfold add_comment. destruct (bar_comment c || special_var c || _); [exact H|].
  assert (P : forall l, In l (splitlines c) -> plain l).
  { intros l Hl. assert (Q := splitlines_plain c false [] (fun x Hx => match Hx with end) l Hl).
    split; intro F; specialize (Q _ F); discriminate Q. }
  revert b H. induction (splitlines c) as [|l ls IH]; intros b H; [exact H|]. cbn [fold_left]. apply IH.
  - intros l' Hl'. apply P. right. exact Hl'.
  - cbn [done]. intros x Hx. apply in_app_or in Hx as [Hx|[Hx|[]]].
    + exact (safe_commit b H x Hx).
    + injection Hx as <-. apply P. left. reflexivity.
Qed.

Lemma safe_handle : forall b, done (handle_ws b) = done b.
Proof. intros [[|x p] d]; unfold handle_ws; cbn [pend done]; [reflexivity|]. destruct (_ <? _)%Z; reflexivity. Qed.

Lemma safe_comment : forall T st, comments_safe (done (out st)) -> comments_safe (done (out (eat_comment T st))).
Proof.
  intros T st H. unfold eat_comment. destruct (go (length (t_com T)) (before st) (rest st)) as [b r].
  destruct (read_eol (line_clear (before st)) b r) as [c [b' r']]. cbn [out]. apply safe_add_comment.
  destruct (line_clear (before st)); [rewrite safe_handle|]; exact H.
Qed.

Lemma safe_rest_of_tag : forall T cl fe st, comments_safe (done (out st)) ->
  comments_safe (done (out (eat_rest_of_tag T cl fe st))).
Proof.
  intros T cl fe st H. unfold eat_rest_of_tag.
  destruct (if m_tok (t_com T) (before st) (rest st) then _ else _) as [found st1] eqn:E.
  assert (S1 : comments_safe (done (out st1))).
  { destruct (m_tok (t_com T) (before st) (rest st)); [|injection E as _ <-; exact H].
    destruct (go 1 (before st) (rest st)) as [b r]. destruct (m_dir T b r); injection E as _ <-; [exact H|].
    apply safe_comment. exact H. }
  destruct (if negb found && _ then _ else _) as [b r]. cbn [out].
  destruct (cl && _); [rewrite safe_handle|]; exact S1.
Qed.

Lemma safe_step : forall T other st st', keeps_safe other -> step T other st = Some (Ok st') ->
  comments_safe (done (out st)) -> comments_safe (done (out st')).
Proof.
  intros T other st st' K HS H. unfold step in HS.
  assert (SL : comments_safe (done (out (eat_slurp st)))).
  { unfold eat_slurp. destruct (snd (read_eol true (before st) (rest st))) as [b r]. cbn [out].
    apply safe_commit. destruct (line_clear (before st)); [rewrite safe_handle|]; exact H. }
  destruct (classify T (before st) (rest st)) as [| | | |n| | |].
  - injection HS as <-. apply safe_comment. exact H.
  - unfold eat_multi in HS. destruct (go (length (t_ml T)) (before st) (rest st)) as [b r].
    destruct (ml_loop (S (length r)) T 1 b r) as [[[b1 r1]|e]|]; try discriminate.
    destruct r1 as [|c1 r1']; [injection HS as <-; apply safe_add_comment; exact H|].
    destruct (m_tok (t_mlend T) b1 (c1 :: r1')); [|discriminate].
    destruct (go (length (t_mlend T)) b1 (c1 :: r1')) as [b2 r2].
    destruct r2 as [|c2 r2']; [injection HS as <-; apply safe_add_comment; exact H|].
    destruct (t_gobble T); [|injection HS as <-; apply safe_add_comment; exact H].
    destruct (if forallb _ _ then _ else _) as [b3 r3]. injection HS as <-. cbn [out]. apply safe_add_comment.
    destruct (line_clear (before st) && _); [rewrite safe_handle|]; exact H.
  - eapply K; eassumption.
  - eapply K; eassumption.
  - destruct (forbidden T n); [discriminate|].
    destruct (str_eqb n (L "slurp")); [injection HS as <-; exact SL|].
    destruct (str_eqb n (L "raw")); [|eapply K; eassumption].
    unfold eat_raw in HS. destruct (skip_dir T (L "raw") (before st) (rest st)) as [b r].
    destruct (skip_ws b r) as [b1 r1]. destruct (short_form T r1).
    + destruct (go 1 b1 r1) as [b2 r2].
      destruct (match r2 with [] => _ | _ => _ end) as [b3 r3]. destruct (read_eol false b3 r3) as [t [b4 r4]].
      injection HS as <-. exact H.
    + destruct r1 as [|c r1']; [discriminate|]. destruct (if (c =? 58)%N then _ else _) as [b2 r2].
      destruct (skip_ws b2 r2) as [b3 r3]. unfold eat_to_end in HS.
      set (s1 := eat_rest_of_tag T (line_clear (before st)) (length (before st) + eol_off (rest st)) (mkP b3 r3 (out st))) in HS.
      assert (H1 : comments_safe (done (out s1))) by (apply safe_rest_of_tag; exact H).
      destruct (find_end _ T (L "raw") (before s1) (rest s1)) as [[[[re cl] [b5 r5]]|e]|]; try discriminate.
      destruct (if m_tok (t_dirend T) b5 r5 then _ else _) as [b6 r6]. injection HS as <-. cbn [out add_text done].
      destruct (cl && _); [rewrite safe_handle|]; exact H1.
  - destruct (forbidden T (L "psp")); [discriminate|]. eapply K; eassumption.
  - injection HS as <-. exact SL.
  - injection HS as <-. unfold eat_plain. destruct (plain_run T (before st) (rest st)) as [[t b] r]. exact H.
Qed.

Lemma comments_never_code : forall T other src fuel l, keeps_safe other ->
  compile_body fuel T other src = Some (Ok l) -> comments_safe l.
Proof.
  intros T other src fuel l K H. unfold compile_body in H.
  destruct (parse fuel T other (start src)) as [[st|e]|] eqn:E; try discriminate. injection H as <-.
  apply safe_commit.
  assert (S0 : comments_safe (done (out (start src)))) by (intros ? []).
  revert E S0. generalize (start src) as s0. revert st.
  induction fuel as [|n IH]; intros st s0 E S0; [discriminate|]. cbn [parse] in E.
  destruct (rest s0); [injection E as <-; exact S0|].
  destruct (step T other s0) as [[s1|e]|] eqn:S; try discriminate.
  eapply IH; [exact E|]. eapply safe_step; eassumption.
Qed.

(** ** C64 *)

Lemma go_len : forall n b r, (length (snd (go n b r)) = length r - n)%nat.
Proof. intros n b r. rewrite go_spec. cbn [snd]. apply skipn_length. Qed.

Lemma skip_ws_len : forall r b, (length (snd (skip_ws b r)) <= length r)%nat.
Proof.
  induction r as [|c r IH]; intro b; [cbn; lia|]. cbn [skip_ws]. destruct (blank c); [|cbn; lia].
  specialize (IH (c :: b)). cbn [length]. lia.
Qed.

Lemma eolz_pos : forall c r, (1 <= snd (eolz (c :: r)))%nat.
Proof.
  intros c r. cbn [eolz]. destruct (c =? 13)%N; [destruct r as [|d ?]; [cbn; lia|destruct (d =? 10)%N; cbn; lia]|].
  destruct (c =? 10)%N; [cbn; lia|]. destruct (eolz r). cbn. lia.
Qed.

Lemma read_eol_len : forall g b r, (length (snd (snd (read_eol g b r))) <= length r)%nat.
Proof. intros g b r. unfold read_eol. cbn [snd]. rewrite go_len. lia. Qed.

Lemma ml_loop_ends : forall fuel T level b r, (length r < fuel)%nat ->
  exists x, ml_loop fuel T level b r = Some x /\ forall b1 r1, x = Ok (b1, r1) -> (length r1 <= length r)%nat.
Proof.
  induction fuel as [|n IH]; intros T level b r H; [lia|]. cbn [ml_loop]. destruct r as [|c r].
  { eexists. split; [reflexivity|]. intros b1 r1 E. injection E as _ <-. lia. }
  destruct (if m_tok (t_ml T) b (c :: r) then _ else _) as [l [b' r']] eqn:E.
  assert (Hl : (length r' <= length (c :: r))%nat).
  { destruct (m_tok (t_ml T) b (c :: r)).
    - pose proof (go_len (length (t_ml T)) b (c :: r)) as G. injection E as _ E. rewrite E in G. cbn [snd] in G. lia.
    - destruct (m_tok (t_mlend T) b (c :: r)).
      + pose proof (go_len (length (t_mlend T)) b (c :: r)) as G. injection E as _ E. rewrite E in G. cbn [snd] in G. lia.
      + injection E as _ _ <-. lia. }
  destruct l.
  { eexists. split; [reflexivity|]. intros b1 r1 F. injection F as _ <-. lia. }
  destruct r' as [|d r']; [eexists; split; [reflexivity|discriminate]|].
  cbn [length] in *. destruct (IH T (S l) (d :: b') r') as (x & X1 & X2); [lia|].
  exists x. split; [exact X1|]. intros b1 r1 F. specialize (X2 b1 r1 F). lia.
Qed.

Lemma find_end_ends : forall fuel T name b r, (length r < fuel)%nat ->
  exists x, find_end fuel T name b r = Some x
    /\ forall e c b1 r1, x = Ok (e, c, (b1, r1)) -> (length r1 <= length r)%nat.
Proof.
  induction fuel as [|n IH]; intros T name b r H; [lia|]. cbn [find_end]. destruct r as [|c r].
  { eexists. split; [reflexivity|]. intros e q b1 r1 E. injection E as _ _ _ <-. cbn. lia. }
  assert (Rec : forall b' r', (length r' <= length r)%nat ->
    exists x, find_end n T name b' r' = Some x
      /\ forall e q b1 r1, x = Ok (e, q, (b1, r1)) -> (length r1 <= length (c :: r))%nat).
  { intros b' r' L'. cbn [length] in H. destruct (IH T name b' r') as (x & X1 & X2); [lia|].
    exists x. split; [exact X1|]. intros e q b1 r1 F. specialize (X2 e q b1 r1 F). cbn [length]. lia. }
  destruct (m_dirstart T b (c :: r)) as [r1|]; [|apply Rec; lia].
  destruct (starts_with _ _ && _); [|apply Rec; lia].
  pose proof (go_len (length (c :: r) - length r1 + 3) b (c :: r)) as G.
  destruct (go (length (c :: r) - length r1 + 3) b (c :: r)) as [b2 r2]. cbn [snd] in G.
  pose proof (skip_ws_len r2 b2) as W. destruct (skip_ws b2 r2) as [b3 r3]. cbn [snd] in W.
  destruct (starts_with name r3).
  - pose proof (go_len (length name) b3 r3) as G2. destruct (go (length name) b3 r3) as [b4 r4]. cbn [snd] in G2.
    eexists. split; [reflexivity|]. intros e q b1 r1' F. pose proof (skip_ws_len r4 b4) as W2.
    injection F as _ _ F. rewrite F in W2. cbn [snd] in W2. lia.
  - destruct r3 as [|d r4]; [eexists; split; [reflexivity|discriminate]|]. apply Rec. cbn [length] in *. lia.
Qed.

Lemma comment_len : forall T st, (length (rest (eat_comment T st)) <= length (rest st) - length (t_com T))%nat.
Proof.
  intros T st. unfold eat_comment. pose proof (go_len (length (t_com T)) (before st) (rest st)) as G.
  destruct (go (length (t_com T)) (before st) (rest st)) as [b r]. cbn [snd] in G.
  pose proof (read_eol_len (line_clear (before st)) b r) as R.
  destruct (read_eol (line_clear (before st)) b r) as [c [b' r']]. cbn [snd rest] in *. lia.
Qed.

Lemma rest_of_tag_len : forall T cl fe st, (length (rest (eat_rest_of_tag T cl fe st)) <= length (rest st))%nat.
Proof.
  intros T cl fe st. unfold eat_rest_of_tag.
  destruct (if m_tok (t_com T) (before st) (rest st) then _ else _) as [found st1] eqn:E.
  assert (S1 : (length (rest st1) <= length (rest st))%nat).
  { destruct (m_tok (t_com T) (before st) (rest st)); [|injection E as _ <-; lia].
    destruct (go 1 (before st) (rest st)) as [b r]. destruct (m_dir T b r); injection E as _ <-; [lia|].
    pose proof (comment_len T st). lia. }
  destruct (if negb found && _ then _ else _) as [b r] eqn:F. cbn [rest].
  destruct (negb found && _).
  - pose proof (go_len (length (t_dirend T)) (before st1) (rest st1)) as G. rewrite F in G. cbn [snd] in G. lia.
  - destruct (cl && _).
    + pose proof (read_eol_len true (before st1) (rest st1)) as G. rewrite F in G. cbn [snd] in G. lia.
    + injection F as _ <-. exact S1.
Qed.

Lemma to_end_ends : forall T name st, exists x, eat_to_end T name st = Some x
  /\ forall t st', x = Ok (t, st') -> (length (rest st') <= length (rest st))%nat.
Proof.
  intros T name st. unfold eat_to_end.
  destruct (find_end_ends (S (length (rest st))) T name (before st) (rest st)) as (x & -> & X); [lia|].
  destruct x as [[[e cl] [b r]]|err]; [|eexists; split; [reflexivity|discriminate]].
  specialize (X e cl b r eq_refl).
  destruct (if m_tok (t_dirend T) b r then _ else _) as [b' r'] eqn:F.
  eexists. split; [reflexivity|]. intros t st' Q. injection Q as _ <-. cbn [rest].
  destruct (m_tok (t_dirend T) b r).
  - pose proof (go_len (length (t_dirend T)) b r) as G. rewrite F in G. cbn [snd] in G. lia.
  - destruct (cl && _).
    + pose proof (read_eol_len true b r) as G. rewrite F in G. cbn [snd] in G. lia.
    + injection F as _ <-. exact X.
Qed.

Lemma raw_ends : forall T st, m_dir T (before st) (rest st) <> None -> exists x, eat_raw T st = Some x
  /\ forall st', x = Ok st' -> (length (rest st') < length (rest st))%nat.
Proof.
  intros T st M. unfold eat_raw.
  assert (Sk : (length (snd (skip_dir T (L "raw") (before st) (rest st))) < length (rest st))%nat).
  { unfold skip_dir. unfold m_dir in M. destruct (m_dirstart T (before st) (rest st)) as [r1|] eqn:E; [|congruence].
    rewrite go_len. destruct (rest st) as [|c r]; [|cbn [length]; change (length (L "raw")) with 3%nat; lia].
    exfalso. apply M. apply m_dirstart_iff in E. destruct E as (_ & (w0 & E & _) & _).
    apply (f_equal (@length N)) in E. rewrite !app_length in E. cbn [length] in E.
    destruct r1; [reflexivity|cbn in E; lia]. }
  destruct (skip_dir T (L "raw") (before st) (rest st)) as [b r]. cbn [snd] in Sk.
  pose proof (skip_ws_len r b) as W1. destruct (skip_ws b r) as [b1 r1]. cbn [snd] in W1.
  destruct (short_form T r1).
  - pose proof (go_len 1 b1 r1) as G. destruct (go 1 b1 r1) as [b2 r2]. cbn [snd] in G.
    destruct (match r2 with [] => (b2, r2) | _ => _ end) as [b3 r3] eqn:E3.
    assert (L3 : (length r3 <= length r2)%nat).
    { destruct r2 as [|c r2]; [injection E3 as _ <-; lia|]. destruct (blank c); injection E3 as _ <-; cbn; lia. }
    pose proof (read_eol_len false b3 r3) as R. destruct (read_eol false b3 r3) as [t [b4 r4]]. cbn [snd] in R.
    eexists. split; [reflexivity|]. intros st' Q. injection Q as <-. cbn [rest]. lia.
  - destruct r1 as [|c r1']; [eexists; split; [reflexivity|discriminate]|].
    destruct (if (c =? 58)%N then _ else _) as [b2 r2] eqn:E2.
    assert (L2 : (length r2 <= length (c :: r1'))%nat) by (destruct (c =? 58)%N; injection E2 as _ <-; cbn [length]; lia).
    pose proof (skip_ws_len r2 b2) as W2. destruct (skip_ws b2 r2) as [b3 r3]. cbn [snd] in W2.
    set (s1 := eat_rest_of_tag T (line_clear (before st)) (length (before st) + eol_off (rest st)) (mkP b3 r3 (out st))).
    pose proof (rest_of_tag_len T (line_clear (before st)) (length (before st) + eol_off (rest st)) (mkP b3 r3 (out st))) as L1.
    fold s1 in L1. cbn [rest] in L1.
    destruct (to_end_ends T (L "raw") s1) as (x & -> & X).
    destruct x as [[t st']|e]; [|eexists; split; [reflexivity|discriminate]].
    specialize (X t st' eq_refl). eexists. split; [reflexivity|]. intros q Q. injection Q as <-. cbn [rest]. lia.
Qed.

Lemma multi_ends : forall T st, rest st <> [] -> t_ml T <> [] -> exists x, eat_multi T st = Some x
  /\ forall st', x = Ok st' -> (length (rest st') < length (rest st))%nat.
Proof.
  intros T st N Nt. unfold eat_multi. pose proof (go_len (length (t_ml T)) (before st) (rest st)) as G.
  destruct (go (length (t_ml T)) (before st) (rest st)) as [b r]. cbn [snd] in G.
  assert (Lr : (length r < length (rest st))%nat).
  { destruct (rest st); [congruence|]. destruct (t_ml T); [congruence|]. cbn [length] in *. lia. }
  destruct (ml_loop_ends (S (length r)) T 1 b r) as (x & -> & X); [lia|].
  destruct x as [[b1 r1]|e]; [|eexists; split; [reflexivity|discriminate]]. specialize (X b1 r1 eq_refl).
  destruct r1 as [|c1 r1'].
  { eexists. split; [reflexivity|]. intros st' Q. injection Q as <-. cbn [rest length]. lia. }
  destruct (m_tok (t_mlend T) b1 (c1 :: r1')); [|eexists; split; [reflexivity|discriminate]].
  pose proof (go_len (length (t_mlend T)) b1 (c1 :: r1')) as G2.
  destruct (go (length (t_mlend T)) b1 (c1 :: r1')) as [b2 r2]. cbn [snd] in G2.
  destruct r2 as [|c2 r2'].
  { eexists. split; [reflexivity|]. intros st' Q. injection Q as <-. cbn [rest length]. lia. }
  destruct (t_gobble T).
  2: { eexists. split; [reflexivity|]. intros st' Q. injection Q as <-. cbn [rest]. lia. }
  destruct (if forallb is_space (firstn (eol_off (c2 :: r2')) (c2 :: r2')) then _ else _) as [b3 r3] eqn:E3.
  eexists. split; [reflexivity|]. intros st' Q. injection Q as <-. cbn [rest].
  destruct (forallb is_space _).
  - pose proof (read_eol_len (line_clear (before st)) b2 (c2 :: r2')) as R. rewrite E3 in R. cbn [snd] in R. lia.
  - injection E3 as _ <-. lia.
Qed.

Lemma slurp_ends : forall st, rest st <> [] -> (length (rest (eat_slurp st)) < length (rest st))%nat.
Proof.
  intros st N. unfold eat_slurp, read_eol. cbn [snd].
  pose proof (go_len (eol_end (rest st)) (before st) (rest st)) as G.
  destruct (go (eol_end (rest st)) (before st) (rest st)) as [b r]. cbn [snd rest] in *.
  destruct (rest st) as [|c t]; [congruence|]. unfold eol_end in G. pose proof (eolz_pos c t). cbn [length] in *. lia.
Qed.

Lemma plain_run_len : forall T r b, (length (snd (plain_run T b r)) <= length r)%nat.
Proof.
  induction r as [|c r IH]; intro b; [cbn; lia|]. cbn [plain_run]. destruct (top_match T b (c :: r)); [cbn; lia|].
  specialize (IH (c :: b)). destruct (plain_run T (c :: b) r) as [[t b'] r']. cbn [snd length] in *. lia.
Qed.

Lemma plain_ends : forall T st, classify T (before st) (rest st) = KText -> rest st <> [] ->
  (length (rest (eat_plain T st)) < length (rest st))%nat.
Proof.
  intros T st K N. apply classify_top in K. unfold eat_plain. destruct (rest st) as [|c r]; [congruence|].
  cbn [plain_run]. rewrite K. pose proof (plain_run_len T r (c :: before st)) as P.
  destruct (plain_run T (c :: before st) r) as [[t b] r']. cbn [snd rest length] in *. lia.
Qed.

Lemma step_ends : forall T other st, toks_ok T -> progresses other -> rest st <> [] ->
  exists x, step T other st = Some x /\ forall st', x = Ok st' -> (length (rest st') < length (rest st))%nat.
Proof.
  intros T other st TK P N. unfold step.
  assert (C1 : t_com T <> []) by (apply TK; left; reflexivity).
  assert (C2 : t_ml T <> []) by (apply TK; right; left; reflexivity).
  pose proof (slurp_ends st N) as SL.
  destruct (classify T (before st) (rest st)) as [| | | |n| | |] eqn:K.
  - eexists. split; [reflexivity|]. intros st' Q. injection Q as <-. pose proof (comment_len T st).
    destruct (rest st); [congruence|]. destruct (t_com T); [congruence|]. cbn [length] in *. lia.
  - apply multi_ends; assumption.
  - apply P.
  - apply P.
  - destruct (forbidden T n); [eexists; split; [reflexivity|discriminate]|].
    destruct (str_eqb n (L "slurp")).
    { eexists. split; [reflexivity|]. intros st' Q. injection Q as <-. exact SL. }
    destruct (str_eqb n (L "raw")); [|apply P]. apply raw_ends. unfold classify in K.
    destruct (m_tok (t_com T) (before st) (rest st)); [discriminate|].
    destruct (m_tok (t_ml T) (before st) (rest st)); [discriminate|].
    destruct (m_var T (before st) (rest st)); [discriminate|].
    destruct (m_expr T (before st) (rest st)); [discriminate|].
    destruct (m_dir T (before st) (rest st)); [discriminate|].
    destruct (m_tok (t_psp T) (before st) (rest st)); [discriminate K|].
    destruct (m_slurp T (rest st)); discriminate K.
  - destruct (forbidden T (L "psp")); [eexists; split; [reflexivity|discriminate]|]. apply P.
  - eexists. split; [reflexivity|]. intros st' Q. injection Q as <-. exact SL.
  - eexists. split; [reflexivity|]. intros st' Q. injection Q as <-. apply plain_ends; assumption.
Qed.

Lemma parse_ends : forall T other fuel st, toks_ok T -> progresses other -> (length (rest st) < fuel)%nat ->
  exists x, parse fuel T other st = Some x.
Proof.
  intros T other fuel. induction fuel as [|n IH]; intros st TK P H; [lia|]. cbn [parse].
  destruct (rest st) as [|c r] eqn:E; [eexists; reflexivity|].
  destruct (step_ends T other st TK P) as (x & -> & X); [congruence|].
  destruct x as [st'|e]; [|eexists; reflexivity]. specialize (X st' eq_refl). apply IH; [exact TK|exact P|].
  rewrite E in X. cbn [length] in *. lia.
Qed.

Lemma compile_ends : forall T other src, toks_ok T -> progresses other ->
  exists x, forall fuel, (length src < fuel)%nat -> compile_body fuel T other src = Some x.
Proof.
  intros T other src TK P.
  destruct (parse_ends T other (S (length src)) (start src) TK P) as (x & X); [cbn; lia|].
  exists (match x with Raise e => Raise e | Ok st => Ok (done (commit (out st))) end).
  intros fuel F. unfold compile_body. rewrite (parse_mono _ _ _ _ _ X fuel) by lia. destruct x; reflexivity.
Qed.
