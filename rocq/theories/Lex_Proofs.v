(** Proofs about the lexical level of the parser: text, escapes and directive names. *)
From Verif Require Import Base PyStr Names_Model Report_Proofs StrConst_Model PyLiteral_Spec StrConst_Proofs
  Reader_Model Reader_Spec Reader_Proofs Lex_Model Lex_Spec.

(** ** Moving *)

Lemma go_spec : forall n b r, go n b r = (rev (firstn n r) ++ b, skipn n r).
Proof.
  induction n as [|n IH]; intros b r; [reflexivity|]. destruct r as [|c r]; [reflexivity|].
  cbn [go firstn skipn rev]. rewrite IH, <- app_assoc. reflexivity.
Qed.

Lemma firstn_app_exact : forall A (a b : list A), firstn (length a) (a ++ b) = a.
Proof. intros A a b. rewrite firstn_app, firstn_all, Nat.sub_diag. cbn. apply app_nil_r. Qed.

Lemma skipn_app_exact : forall A (a b : list A), skipn (length a) (a ++ b) = b.
Proof. intros A a b. rewrite skipn_app, skipn_all, Nat.sub_diag. reflexivity. Qed.

Lemma go_app : forall a b r, go (length a) b (a ++ r) = (rev a ++ b, r).
Proof. intros a b r. rewrite go_spec, firstn_app_exact, skipn_app_exact. reflexivity. Qed.

Lemma go_rest_length : forall n b r, (length (snd (go n b r)) <= length r)%nat.
Proof. intros. rewrite go_spec. cbn [snd]. rewrite skipn_length. lia. Qed.

(** ** Tokens *)

Lemma m_tok_starts : forall t b r, m_tok t b r = true -> starts_with t r = true.
Proof. intros t b r H. apply andb_true_iff in H. tauto. Qed.

Lemma m_tok_escaped : forall t b r, m_tok t (92%N :: b) r = false.
Proof. reflexivity. Qed.

Lemma starts_with_occurs : forall t r, starts_with t r = true -> exists b, r = t ++ b.
Proof. intros t r H. apply starts_with_iff in H. exact H. Qed.

Lemma m_var_tok : forall T b r, m_var T b r = true -> m_tok (t_var T) b r = true.
Proof. intros T b r H. apply andb_true_iff in H. tauto. Qed.

Lemma m_expr_tok : forall T b r, m_expr T b r = true -> m_tok (t_var T) b r = true.
Proof. intros T b r H. apply andb_true_iff in H. tauto. Qed.

Lemma m_dir_tok : forall T b r n, m_dir T b r = Some n -> m_tok (t_dir T) b r = true.
Proof. intros T b r n H. unfold m_dir, m_dirstart in H. destruct (m_tok (t_dir T) b r); [reflexivity|discriminate]. Qed.

Lemma m_slurp_tok : forall T r, m_slurp T r = true -> t_slurp T <> [] /\ starts_with (t_slurp T) r = true.
Proof.
  intros T r H. unfold m_slurp in H. destruct (t_slurp T); [discriminate|].
  apply andb_true_iff in H. split; [discriminate|tauto].
Qed.

(** Nothing but text where no token starts. *)
Lemma classify_text : forall T b r,
  (forall t, In t (tokens T) -> starts_with t r = false) -> classify T b r = KText.
Proof.
  intros T b r H. unfold classify.
  assert (M : forall t, In t (tokens T) -> m_tok t b r = false).
  { intros t Ht. unfold m_tok. rewrite (H t Ht). apply andb_false_r. }
  rewrite (M (t_com T)) by (cbn; tauto). rewrite (M (t_ml T)) by (cbn; tauto).
  destruct (m_var T b r) eqn:E1; [apply m_var_tok in E1; rewrite (M (t_var T)) in E1 by (cbn; tauto); discriminate|].
  destruct (m_expr T b r) eqn:E2; [apply m_expr_tok in E2; rewrite (M (t_var T)) in E2 by (cbn; tauto); discriminate|].
  destruct (m_dir T b r) eqn:E3; [apply m_dir_tok in E3; rewrite (M (t_dir T)) in E3 by (cbn; tauto); discriminate|].
  rewrite (M (t_psp T)) by (cbn; tauto).
  destruct (m_slurp T r) eqn:E4; [|reflexivity].
  apply m_slurp_tok in E4 as [N E4]. rewrite (H (t_slurp T)) in E4; [discriminate|].
  unfold tokens. apply in_app_iff. right. destruct (t_slurp T); [congruence|left; reflexivity].
Qed.

Lemma classify_top : forall T b r, classify T b r = KText -> top_match T b r = false.
Proof. intros T b [|c r] H; [reflexivity|]. unfold top_match. rewrite H. apply andb_false_r. Qed.

(** Text is read as far as no token is seen. *)
Lemma plain_run_text : forall T a b r,
  (forall x c y, a = x ++ c :: y -> top_match T (rev x ++ b) (c :: y ++ r) = false) ->
  plain_run T b (a ++ r) =
    let '(t, b', r') := plain_run T (rev a ++ b) r in (a ++ t, b', r').
Proof.
  induction a as [|c a IH]; intros b r H; cbn [app rev].
  - destruct (plain_run T b r) as [[t b'] r']. reflexivity.
  - cbn [plain_run]. pose proof (H [] c a eq_refl) as H0. cbn [rev app] in H0. rewrite H0. rewrite IH.
    + rewrite <- app_assoc. cbn [app]. destruct (plain_run T (rev a ++ c :: b) r) as [[t b'] r']. reflexivity.
    + intros x d y ->. specialize (H (c :: x) d y eq_refl). cbn [rev] in H.
      rewrite <- app_assoc in H. exact H.
Qed.

Lemma plain_run_stop : forall T b r, top_match T b r = true -> plain_run T b r = ([], b, r).
Proof. intros T b [|c r] H; [reflexivity|]. cbn [plain_run]. rewrite H. reflexivity. Qed.

Lemma plain_run_all : forall T a b,
  (forall x c y, a = x ++ c :: y -> top_match T (rev x ++ b) (c :: y) = false) ->
  plain_run T b a = (a, rev a ++ b, []).
Proof.
  intros T a b H. pose proof (plain_run_text T a b []) as P. rewrite app_nil_r in P. rewrite P.
  - cbn [plain_run]. rewrite app_nil_r. reflexivity.
  - intros x c y E. rewrite app_nil_r. exact (H x c y E).
Qed.

(** ** Replacing *)

Lemma replace_aux_absent : forall p r s, ~ occurs p s -> replace_aux 0 p r s = s.
Proof.
  intros p r s. induction s as [|c s IH]; intros H; [reflexivity|]. cbn [replace_aux].
  destruct (starts_with p (c :: s)) eqn:E.
  - apply starts_with_occurs in E as [b E]. exfalso. apply H. exists [], b. exact E.
  - rewrite IH; [reflexivity|]. intros (x & y & F). apply H. exists (c :: x), y. rewrite F. reflexivity.
Qed.

Lemma unescape_absent : forall T s, ~ occurs (t_var T) s -> ~ occurs (t_dir T) s -> unescape T s = s.
Proof.
  intros T s Hv Hd. unfold unescape, replace_str.
  assert (B : forall t, ~ occurs t s -> ~ occurs (92%N :: t) s).
  { intros t H (a & b & E). apply H. exists (a ++ [92%N]), b. rewrite <- app_assoc. exact E. }
  rewrite (replace_aux_absent (92%N :: t_var T)) by (apply B; exact Hv).
  apply replace_aux_absent. apply B. exact Hd.
Qed.

(** ** C02 *)

Lemma parse_all_text : forall fuel T other src, (2 <= fuel)%nat -> src <> [] ->
  classify T [] src = KText ->
  (forall x c y, src = x ++ c :: y -> top_match T (rev x) (c :: y) = false) ->
  compile_body fuel T other src =
    Some (Ok (match unescape T src with [] => [] | s => [Text s] end)).
Proof.
  intros fuel T other src Hf Hn Hc Ht. destruct fuel as [|[|n]]; [lia|lia|].
  unfold compile_body, start. cbn [parse rest]. destruct src as [|c s]; [congruence|].
  unfold step. cbn [before rest]. rewrite Hc. unfold eat_plain. cbn [before rest out].
  rewrite (plain_run_all T (c :: s) []).
  - cbn [rest out]. unfold commit, add_text. cbn [pend done rev app concat].
    rewrite app_nil_r. destruct (unescape T (c :: s)); reflexivity.
  - intros x d y E. rewrite app_nil_r. exact (Ht x d y E).
Qed.

Lemma prints_one : forall printable s, valid_str s -> prints printable (match s with [] => [] | _ => [Text s] end) s.
Proof.
  intros printable s V. destruct s as [|c s]; [constructor|].
  destruct (str_const_literal_some printable (c :: s)) as [lit E]; [discriminate|].
  pose proof (str_const_literal_roundtrip printable (c :: s) lit V E) as R.
  pose proof (pr_text printable (c :: s) lit (c :: s) [] [] E R (pr_nil printable)) as P.
  rewrite app_nil_r in P. exact P.
Qed.

Lemma token_free_verbatim : forall T other printable src fuel,
  (forall t, In t (tokens T) -> ~ occurs t src) -> valid_str src -> (2 <= fuel)%nat ->
  exists l, compile_body fuel T other src = Some (Ok l) /\ prints printable l src.
Proof.
  intros T other printable src fuel H V F.
  assert (C : forall x y, src = x ++ y -> forall b, classify T b y = KText).
  { intros x y E b. apply classify_text. intros t Ht. destruct (starts_with t y) eqn:S; [|reflexivity].
    apply starts_with_occurs in S as [z S]. exfalso. apply (H t Ht). exists x, z. rewrite <- S. exact E. }
  destruct src as [|c s].
  - exists []. split; [|constructor]. destruct fuel as [|n]; [lia|]. reflexivity.
  - eexists. split.
    + apply parse_all_text; [exact F|discriminate|apply (C [] (c :: s) eq_refl)|].
      intros x d y E. apply classify_top. apply (C x). exact E.
    + rewrite unescape_absent by (apply H; cbn; tauto). exact (prints_one printable (c :: s) V).
Qed.

(** ** C03 *)

Lemma replace2_here : forall v t, replace_str [92%N; v] [v] (92%N :: v :: t) = v :: replace_str [92%N; v] [v] t.
Proof.
  intros v t. unfold replace_str. cbn [replace_aux starts_with]. rewrite !N.eqb_refl.
  cbn [andb app length Nat.sub]. reflexivity.
Qed.
Lemma replace2_other : forall v c t, c <> 92%N ->
  replace_str [92%N; v] [v] (c :: t) = c :: replace_str [92%N; v] [v] t.
Proof.
  intros v c t H. unfold replace_str. cbn [replace_aux starts_with].
  apply N.eqb_neq in H. rewrite N.eqb_sym in H. rewrite H. reflexivity.
Qed.
Lemma replace2_back : forall v d t, d <> v ->
  replace_str [92%N; v] [v] (92%N :: d :: t) = 92%N :: replace_str [92%N; v] [v] (d :: t).
Proof.
  intros v d t H. unfold replace_str. cbn [replace_aux starts_with].
  apply N.eqb_neq in H. rewrite (N.eqb_sym v d), H. rewrite andb_false_r. reflexivity.
Qed.
Lemma replace2_end : forall v, replace_str [92%N; v] [v] [92%N] = [92%N].
Proof. intro v. unfold replace_str. cbn [replace_aux starts_with]. rewrite andb_false_r. reflexivity. Qed.

Lemma unescaped_eq : forall v d b c t, unescaped v d (b :: c :: t) =
  if ((b =? 92) && ((c =? v) || (c =? d)))%N then c :: unescaped v d t else b :: unescaped v d (c :: t).
Proof. reflexivity. Qed.

Lemma unescape_pass : forall v d s, v <> 92%N -> d <> 92%N -> v <> d ->
  replace_str [92%N; d] [d] (replace_str [92%N; v] [v] s) = unescaped v d s.
Proof.
  intros v d s Hv Hd Hvd. remember (length s) as n eqn:En. revert s En.
  induction n as [n IH] using lt_wf_ind. intros s ->. destruct s as [|b r]; [reflexivity|].
  destruct (N.eq_dec b 92) as [->|Hb].
  - destruct r as [|c t].
    + rewrite (replace2_end v). rewrite (replace2_end d). reflexivity.
    + rewrite unescaped_eq. change (92 =? 92)%N with true. cbn [andb].
      destruct (N.eqb_spec c v) as [->|Hcv].
      * cbn [orb]. rewrite replace2_here, replace2_other by exact Hv. f_equal.
        apply (IH (length t)); [cbn; lia|reflexivity].
      * rewrite replace2_back by exact Hcv. destruct (N.eqb_spec c d) as [->|Hcd].
        -- cbn [orb]. rewrite (replace2_other v d) by exact Hd. rewrite replace2_here. f_equal.
           apply (IH (length t)); [cbn; lia|reflexivity].
        -- cbn [orb]. rewrite <- (IH (length (c :: t)) (Nat.lt_succ_diag_r _) (c :: t) eq_refl).
           destruct (N.eq_dec c 92) as [->|Hc].
           ++ destruct t as [|e t'].
              ** rewrite replace2_end. rewrite replace2_back by congruence. reflexivity.
              ** destruct (N.eq_dec e v) as [->|He].
                 --- rewrite replace2_here. rewrite (replace2_back d v) by exact Hvd. reflexivity.
                 --- rewrite replace2_back by exact He. rewrite (replace2_back d 92) by congruence. reflexivity.
           ++ rewrite (replace2_other v c) by exact Hc. rewrite (replace2_back d c) by exact Hcd. reflexivity.
  - rewrite replace2_other by exact Hb. rewrite replace2_other by exact Hb.
    rewrite (IH (length r) (Nat.lt_succ_diag_r _) r eq_refl).
    destruct r as [|c t]; [reflexivity|]. rewrite unescaped_eq.
    apply N.eqb_neq in Hb. rewrite Hb. reflexivity.
Qed.

Lemma unescaped_escape : forall s, ~ In 92%N s -> unescaped 36 35 (escape s) = s.
Proof.
  induction s as [|c s IH]; intros H; [reflexivity|]. cbn [escape].
  assert (I : unescaped 36 35 (escape s) = s) by (apply IH; intro F; apply H; right; exact F).
  assert (Hc : c <> 92%N) by (intros ->; apply H; left; reflexivity).
  destruct ((c =? 36) || (c =? 35))%N eqn:E.
  - rewrite unescaped_eq. change (92 =? 92)%N with true. rewrite E. cbn [andb]. rewrite I. reflexivity.
  - destruct (escape s) as [|e t] eqn:Ee.
    + cbn [unescaped] in I. rewrite <- I. reflexivity.
    + rewrite unescaped_eq. apply N.eqb_neq in Hc. rewrite Hc. cbn [andb]. rewrite I. reflexivity.
Qed.

Lemma escape_app : forall a b, escape (a ++ b) = escape a ++ escape b.
Proof.
  induction a as [|c a IH]; intros b; [reflexivity|]. cbn [app escape]. rewrite IH.
  destruct ((c =? 36) || (c =? 35))%N; reflexivity.
Qed.

(** blanks and line breaks behind an escaped text's position are those of the text *)
Lemma dropws_escape : forall s c t, dropws (escape s) = c :: t -> eolchar c = true ->
  exists w u, s = w ++ c :: u /\ (forall x, In x w -> In x [32; 9; 12]%N).
Proof.
  induction s as [|x s IH]; intros c t H Hc; [discriminate|]. cbn [escape] in H.
  destruct ((x =? 36) || (x =? 35))%N eqn:E.
  - cbn [dropws] in H. change (blank 92) with false in H. cbv iota in H. injection H as <- _.
    discriminate Hc.
  - cbn [dropws] in H. destruct (blank x) eqn:B.
    + destruct (IH c t H Hc) as (w & u & -> & W). exists (x :: w), u. split; [reflexivity|].
      intros y [<-|Hy]; [|exact (W y Hy)].
      unfold blank in B. cbn. destruct (N.eqb_spec x 32); [left; congruence|].
      destruct (N.eqb_spec x 9); [right; left; congruence|].
      destruct (N.eqb_spec x 12); [right; right; left; congruence|discriminate].
    + injection H as <- _. exists [], s. split; [reflexivity|]. intros y [].
Qed.

Section C03.
Variable T : toks.
Hypothesis D : default_tokens T.

Lemma default_eqs : t_var T = [36%N] /\ t_com T = [35; 35]%N /\ t_ml T = [35; 42]%N /\ t_dir T = [35%N]
  /\ t_psp T = [60; 37]%N /\ t_slurp T = [35%N].
Proof. destruct D as (E1 & E2 & E3 & _ & E4 & _ & E5 & E6). rewrite E1, E2, E3, E4, E5, E6. repeat split. Qed.

Lemma default_tokens_list : tokens T = [[35; 35]; [35; 42]; [36]; [35]; [60; 37]; [35]]%N.
Proof.
  destruct default_eqs as (E1 & E2 & E3 & E4 & E5 & E6). unfold tokens. rewrite E1, E2, E3, E4, E5, E6. reflexivity.
Qed.

Lemma classify_plainchar : forall b c r, c <> 36%N -> c <> 35%N ->
  (c = 60%N -> forall u, r <> 37%N :: u) -> classify T b (c :: r) = KText.
Proof.
  intros b c r H1 H2 H3. apply classify_text. rewrite default_tokens_list.
  assert (A : (35 =? c)%N = false) by (apply N.eqb_neq; congruence).
  assert (B : (36 =? c)%N = false) by (apply N.eqb_neq; congruence).
  intros t [<-|[<-|[<-|[<-|[<-|[<-|[]]]]]]]; cbn [starts_with]; rewrite ?A, ?B; try reflexivity.
  destruct (N.eqb_spec 60 c) as [<-|]; [|reflexivity]. destruct r as [|d r]; [reflexivity|].
  destruct (N.eqb_spec 37 d) as [<-|]; [|reflexivity]. exfalso. exact (H3 eq_refl r eq_refl).
Qed.

Lemma classify_escaped : forall b c s, (c = 36 \/ c = 35)%N ->
  (c = 35%N -> forall w d u, s = w ++ d :: u -> (forall x, In x w -> In x [32; 9; 12]%N) -> (d = 10 \/ d = 13)%N -> False) ->
  classify T (92%N :: b) (c :: escape s) = KText.
Proof.
  intros b c s Hc Hs. unfold classify, m_var, m_expr, m_dir, m_dirstart. rewrite !m_tok_escaped. cbn [andb].
  destruct (m_slurp T (c :: escape s)) eqn:M; [|reflexivity]. exfalso.
  unfold m_slurp in M. destruct default_eqs as (_ & _ & _ & _ & _ & E). rewrite E in M.
  cbn [starts_with] in M. rewrite andb_true_r in M. apply andb_true_iff in M as [M1 M2].
  apply N.eqb_eq in M1. subst c. cbn [length skipn] in M2.
  destruct (dropws (escape s)) as [|d u] eqn:E2; [discriminate|].
  destruct (dropws_escape s d u E2 M2) as (w & v & -> & W). apply (Hs eq_refl w d v eq_refl W).
  unfold eolchar in M2. apply orb_true_iff in M2 as [M2|M2]; apply N.eqb_eq in M2; subst; auto.
Qed.

Lemma escaped_no_token : forall s, ~ In 92%N s -> ~ occurs (L "<%") s -> ~ hash_at_eol s ->
  forall b, (forall b', b' = b -> s <> [] -> classify T b' (escape s) = KText)
    /\ forall x c y, escape s = x ++ c :: y -> top_match T (rev x ++ b) (c :: y) = false.
Proof.
  induction s as [|c s IH]; intros Hb Hp Hh b.
  - split; [congruence|]. intros x c y E. destruct x; discriminate E.
  - assert (Hb' : ~ In 92%N s) by (intro F; apply Hb; right; exact F).
    assert (Hp' : ~ occurs (L "<%") s).
    { intros (x & y & E). apply Hp. exists (c :: x), y. rewrite E. reflexivity. }
    assert (Hh' : ~ hash_at_eol s).
    { intros (x & w & d & y & E & R). apply Hh. exists (c :: x), w, d, y. rewrite E. split; [reflexivity|exact R]. }
    cbn [escape]. destruct ((c =? 36) || (c =? 35))%N eqn:E.
    + assert (Ec : (c = 36 \/ c = 35)%N) by (apply orb_true_iff in E as [E|E]; apply N.eqb_eq in E; auto).
      assert (K1 : forall b0 r, classify T b0 (92%N :: r) = KText)
        by (intros b0 r; apply classify_plainchar; discriminate).
      split; [intros b' _ _; apply K1|]. intros x d y F. destruct x as [|x0 x].
      { cbn [app] in F. injection F as <- <-. apply classify_top, K1. }
      cbn [app] in F. injection F as <- F. destruct x as [|x1 x].
      { cbn [app] in F. injection F as <- <-. cbn [rev app]. apply classify_top.
        apply classify_escaped; [exact Ec|]. intros -> w d u -> W Hd. apply Hh.
        exists [], w, d, u. split; [reflexivity|]. split; assumption. }
      cbn [app] in F. injection F as <- F. cbn [rev]. rewrite <- !app_assoc. cbn [app].
      apply (proj2 (IH Hb' Hp' Hh' (c :: 92%N :: b))). exact F.
    + apply orb_false_iff in E as [E1 E2]. apply N.eqb_neq in E1, E2.
      assert (K : forall b0, classify T b0 (c :: escape s) = KText).
      { intro b0. apply classify_plainchar; [exact E1|exact E2|]. intros -> u F.
        destruct s as [|d s']; [discriminate F|]. cbn [escape] in F.
        destruct ((d =? 36) || (d =? 35))%N; [discriminate F|]. injection F as -> _.
        apply Hp. exists [], s'. reflexivity. }
      split; [intros b' _ _; apply K|]. intros x d y F. destruct x as [|x0 x].
      { cbn [app] in F. injection F as <- <-. apply classify_top, K. }
      cbn [app] in F. injection F as <- F. cbn [rev]. rewrite <- app_assoc. cbn [app].
      apply (proj2 (IH Hb' Hp' Hh' (c :: b))). exact F.
Qed.

Lemma unescape_default : forall s, unescape T s = unescaped 36 35 s.
Proof.
  intro s. unfold unescape. destruct default_eqs as (E1 & _ & _ & E4 & _). rewrite E1, E4.
  apply unescape_pass; discriminate.
Qed.

Lemma escaped_text_literal : forall other printable s fuel,
  valid_str s -> ~ In 92%N s -> ~ occurs (L "<%") s -> ~ hash_at_eol s -> (2 <= fuel)%nat ->
  exists l, compile_body fuel T other (escape s) = Some (Ok l) /\ prints printable l s.
Proof.
  intros other printable s fuel V Hb Hp Hh F.
  destruct s as [|c s].
  - exists []. split; [|constructor]. destruct fuel as [|n]; [lia|]. reflexivity.
  - destruct (escaped_no_token (c :: s) Hb Hp Hh []) as [K1 K2].
    eexists. split.
    + apply parse_all_text; [exact F| |apply K1; [reflexivity|discriminate]|].
      * cbn [escape]. destruct ((c =? 36) || (c =? 35))%N; discriminate.
      * intros x d y E. specialize (K2 x d y E). rewrite app_nil_r in K2. exact K2.
    + rewrite unescape_default, unescaped_escape by exact Hb. exact (prints_one printable (c :: s) V).
Qed.
End C03.

(** Backslashes elsewhere are kept. *)
Lemma unescaped_keeps : forall v d s, (forall a c b, s = a ++ 92%N :: c :: b -> c <> v /\ c <> d) ->
  unescaped v d s = s.
Proof.
  intros v d. induction s as [|b r IH]; intros H; [reflexivity|].
  assert (I : unescaped v d r = r).
  { apply IH. intros a c t E. apply (H (b :: a) c t). rewrite E. reflexivity. }
  destruct r as [|c t]; [reflexivity|]. rewrite unescaped_eq.
  destruct ((b =? 92) && ((c =? v) || (c =? d)))%N eqn:E.
  - exfalso. apply andb_true_iff in E as [E1 E2]. apply N.eqb_eq in E1. subst b.
    destruct (H [] c t eq_refl) as [H1 H2].
    apply orb_true_iff in E2 as [E2|E2]; apply N.eqb_eq in E2; congruence.
  - rewrite I. reflexivity.
Qed.

(** ** C35 *)

Lemma identchar_iff : forall c, identchar c = true <-> letter c.
Proof. intro c. unfold identchar, letter. lia. Qed.

Lemma dnchar_iff : forall c, dnchar c = true <-> name_char c.
Proof. intro c. unfold dnchar, identchar, name_char, letter. lia. Qed.

Lemma existsb_str : forall n l, existsb (str_eqb n) l = true <-> In n l.
Proof.
  intros n l. rewrite existsb_exists. split.
  - intros (x & H & E). apply str_eqb_eq in E. subst. exact H.
  - intro H. exists n. split; [exact H|apply str_eqb_refl].
Qed.

(** the loop, from a name read so far that does not start with the decorator sign *)
Lemma match_name_iff : forall s names possible nm c0 nm',
  nm = c0 :: nm' -> c0 <> 64%N ->
  (forall p, In p possible <-> In p names /\ exists q, p = nm ++ q) ->
  forall n, match_name possible nm s = Some n <->
    exists m, m <> [] /\ n = nm ++ m /\ In n names /\ whole_run m s.
Proof.
  induction s as [|c r IH]; intros names possible nm c0 nm' En Hc0 HP n.
  - cbn [match_name]. split; [discriminate|]. intros (m & Hm & _ & _ & t & E & _).
    destruct m; [congruence|discriminate E].
  - cbn [match_name]. destruct (dnchar c) eqn:Dc; cbn [negb].
    2: { split; [discriminate|]. intros (m & Hm & _ & _ & t & E & A & _). exfalso.
         destruct m as [|x m]; [congruence|]. cbn [app] in E. injection E as <- _.
         specialize (A c (or_introl eq_refl)). apply dnchar_iff in A. congruence. }
    destruct (str_eqb_spec (nm ++ [c]) [64%N]) as [E|_].
    { exfalso. subst nm. destruct nm'; discriminate E. }
    assert (HF : forall p, In p (filter (starts_with (nm ++ [c])) possible) <->
                 In p names /\ exists q, p = (nm ++ [c]) ++ q).
    { intro p. rewrite filter_In, HP, starts_with_iff. split.
      - intros [[A _] B]. split; assumption.
      - intros [A [q B]]. split; [split; [exact A|]|exists q; exact B].
        exists (c :: q). rewrite B, <- app_assoc. reflexivity. }
    assert (NXT : (exists m, m <> [] /\ n = nm ++ m /\ In n names /\ whole_run m (c :: r)) <->
      (n = nm ++ [c] /\ In n names /\ whole_run [] r)
      \/ exists m, m <> [] /\ n = (nm ++ [c]) ++ m /\ In n names /\ whole_run m r).
    { split.
      - intros (m & Hm & -> & Hin & t & E & A & B). destruct m as [|x m]; [congruence|].
        cbn [app] in E. injection E as <- ->. destruct m as [|y m].
        + left. split; [reflexivity|]. split; [exact Hin|]. exists t. split; [reflexivity|]. split; [intros ? []|exact B].
        + right. exists (y :: m). split; [discriminate|]. split; [rewrite <- app_assoc; reflexivity|].
          split; [exact Hin|]. exists t. split; [reflexivity|]. split; [|exact B].
          intros z Hz. apply A. right. exact Hz.
      - intros [(-> & Hin & t & E & A & B)|(m & Hm & -> & Hin & t & E & A & B)].
        + exists [c]. split; [discriminate|]. split; [reflexivity|]. split; [exact Hin|].
          exists t. split; [cbn; rewrite E; reflexivity|]. split; [|exact B].
          intros z [<-|[]]. apply dnchar_iff. exact Dc.
        + exists (c :: m). split; [discriminate|]. split; [rewrite <- app_assoc; reflexivity|].
          split; [exact Hin|].
          exists t. split; [cbn; rewrite E; reflexivity|]. split; [|exact B].
          intros z [<-|Hz]; [apply dnchar_iff; exact Dc|exact (A z Hz)]. }
    rewrite NXT. clear NXT.
    destruct (filter (starts_with (nm ++ [c])) possible) as [|p0 ps] eqn:EF.
    { split; [discriminate|]. intros [(-> & Hin & _)|(m & _ & -> & Hin & _)]; exfalso.
      - apply (proj2 (HF (nm ++ [c]))). split; [exact Hin|exists []; rewrite app_nil_r; reflexivity].
      - apply (proj2 (HF ((nm ++ [c]) ++ m))). split; [exact Hin|exists m; reflexivity]. }
    rewrite <- EF in *. clear p0 ps EF.
    assert (Hex : existsb (str_eqb (nm ++ [c])) (filter (starts_with (nm ++ [c])) possible) = true
                  <-> In (nm ++ [c]) names).
    { rewrite existsb_str, HF. split; [tauto|]. intro Hin. split; [exact Hin|exists []; rewrite app_nil_r; reflexivity]. }
    assert (Hend : match r with d :: _ => negb (dnchar d) | [] => true end = true <-> whole_run [] r).
    { split.
      - intro E. exists r. split; [reflexivity|]. split; [intros ? []|]. destruct r as [|d r]; [left; reflexivity|right].
        exists d, r. split; [reflexivity|]. rewrite <- dnchar_iff. destruct (dnchar d); [discriminate E|discriminate].
      - intros (t & E & _ & B). cbn in E. subst t. destruct B as [->|(d & u & -> & B)]; [reflexivity|].
        rewrite <- dnchar_iff in B. destruct (dnchar d); [exfalso; apply B; reflexivity|reflexivity]. }
    destruct (existsb (str_eqb (nm ++ [c])) (filter (starts_with (nm ++ [c])) possible)
              && match r with d :: _ => negb (dnchar d) | [] => true end) eqn:EE.
    + apply andb_true_iff in EE as [E1 E2]. apply Hex in E1. apply Hend in E2. split.
      * intro F. injection F as <-. left. split; [reflexivity|]. split; assumption.
      * intros [(-> & _)|(m & Hm & _ & _ & t & E & A & _)]; [reflexivity|exfalso].
        destruct m as [|y m]; [congruence|]. destruct E2 as (t2 & E3 & _ & B2). cbn in E3. subst t2.
        destruct B2 as [->|(d & u & -> & B2)]; [discriminate E|]. cbn in E. injection E as -> _.
        apply B2, A. left. reflexivity.
    + assert (NOT : ~ (n = nm ++ [c] /\ In n names /\ whole_run [] r)).
      { intros (-> & Hin & W). apply Hex in Hin. apply Hend in W. rewrite Hin, W in EE. discriminate. }
      rewrite (IH names _ (nm ++ [c]) c0 (nm' ++ [c])).
      * split; [intro; right; assumption|]. intros [F|F]; [contradiction|exact F].
      * subst nm. reflexivity.
      * exact Hc0.
      * exact HF.
Qed.

Lemma match_name_top : forall names s n, (exists c t, s = c :: t /\ (letter c \/ c = 64%N)) ->
  match_name names [] s = Some n <-> names_directive names s n.
Proof.
  intros names s n (c & r & -> & Hc). cbn [match_name app].
  assert (Dc : dnchar c = true).
  { apply dnchar_iff. destruct Hc as [Hc| ->]; [left; exact Hc|right; right; right; reflexivity]. }
  rewrite Dc. cbn [negb]. destruct (str_eqb_spec [c] [64%N]) as [E|E].
  - injection E as ->. split.
    + intro H. left. destruct r as [|d r]; [discriminate|]. destruct (identchar d) eqn:I; [|discriminate].
      injection H as <-. split; [reflexivity|]. exists d, r. split; [reflexivity|apply identchar_iff; exact I].
    + intros [(-> & d & t & F & I)|(_ & _ & d & t & F & I)].
      * injection F as ->. apply identchar_iff in I. rewrite I. reflexivity.
      * exfalso. injection F as <- <-. unfold letter in I. lia.
  - assert (Hne : c <> 64%N) by congruence.
    assert (Hl : letter c) by (destruct Hc as [Hc|Hc]; [exact Hc|congruence]).
    (* one round of the general lemma, with the empty name *)
    set (F := filter (starts_with [c]) names).
    assert (HF : forall p, In p F <-> In p names /\ exists q, p = [c] ++ q).
    { intro p. unfold F. rewrite filter_In, starts_with_iff. reflexivity. }
    assert (Hex : existsb (str_eqb [c]) F = true <-> In [c] names).
    { rewrite existsb_str, HF. split; [tauto|]. intro Hin. split; [exact Hin|exists []; reflexivity]. }
    assert (Hend : match r with d :: _ => negb (dnchar d) | [] => true end = true <-> whole_run [] r).
    { split.
      - intro E1. exists r. split; [reflexivity|]. split; [intros ? []|]. destruct r as [|d r']; [left; reflexivity|right].
        exists d, r'. split; [reflexivity|]. rewrite <- dnchar_iff. destruct (dnchar d); [discriminate E1|discriminate].
      - intros (t & E1 & _ & B). cbn in E1. subst t. destruct B as [->|(d & u & -> & B)]; [reflexivity|].
        rewrite <- dnchar_iff in B. destruct (dnchar d); [exfalso; apply B; reflexivity|reflexivity]. }
    assert (SP : names_directive names (c :: r) n <->
      (n = [c] /\ In n names /\ whole_run [] r) \/ exists m, m <> [] /\ n = [c] ++ m /\ In n names /\ whole_run m r).
    { split.
      - intros [(_ & d & t & F1 & _)|(Hin & (t & E1 & A & B) & _)]; [injection F1 as -> _; congruence|].
        destruct n as [|x m].
        + exfalso. cbn in E1. subst t. destruct B as [B|(d & u & B & B2)]; [discriminate B|].
          injection B as <- <-. apply B2. left. exact Hl.
        + cbn in E1. injection E1 as <- ->. destruct m as [|y m].
          * left. split; [reflexivity|]. split; [exact Hin|]. exists t. split; [reflexivity|]. split; [intros ? []|exact B].
          * right. exists (y :: m). split; [discriminate|]. split; [reflexivity|]. split; [exact Hin|].
            exists t. split; [reflexivity|]. split; [|exact B]. intros z Hz. apply A. right. exact Hz.
      - intros [(-> & Hin & t & E1 & A & B)|(m & Hm & -> & Hin & t & E1 & A & B)]; right; (split; [exact Hin|]).
        + cbn in E1. subst t. split; [|exists c, r; split; [reflexivity|exact Hl]].
          exists r. split; [reflexivity|]. split; [|exact B]. intros z [<-|[]]. left. exact Hl.
        + subst r. split; [|exists c, (m ++ t); split; [reflexivity|exact Hl]].
          exists t. split; [reflexivity|]. split; [|exact B].
          intros z [<-|Hz]; [left; exact Hl|exact (A z Hz)]. }
    rewrite SP. clear SP.
    destruct F as [|p0 ps] eqn:EF.
    { split; [discriminate|]. intros [(-> & Hin & _)|(m & _ & -> & Hin & _)]; exfalso.
      - apply (proj2 (HF [c])). split; [exact Hin|exists []; reflexivity].
      - apply (proj2 (HF ([c] ++ m))). split; [exact Hin|exists m; reflexivity]. }
    rewrite <- EF in *.
    destruct (existsb (str_eqb [c]) F && match r with d :: _ => negb (dnchar d) | [] => true end) eqn:EE.
    + apply andb_true_iff in EE as [E1 E2]. apply Hex in E1. apply Hend in E2. split.
      * intro G. injection G as <-. left. split; [reflexivity|]. split; assumption.
      * intros [(-> & _)|(m & Hm & _ & _ & t & E3 & A & _)]; [reflexivity|exfalso].
        destruct m as [|y m]; [congruence|]. destruct E2 as (t2 & E4 & _ & B2). cbn in E4. subst t2.
        destruct B2 as [->|(d & u & -> & B2)]; [discriminate E3|]. cbn in E3. injection E3 as -> _.
        apply B2, A. left. reflexivity.
    + assert (NOT : ~ (n = [c] /\ In n names /\ whole_run [] r)).
      { intros (-> & Hin & W). apply Hex in Hin. apply Hend in W. rewrite Hin, W in EE. discriminate. }
      rewrite (match_name_iff r names F [c] c []) by (reflexivity || assumption).
      split; [intro; right; assumption|]. intros [G|G]; [contradiction|exact G].
Qed.

Lemma dropbl_spec : forall s, exists w, s = w ++ dropbl s /\ (forall c, In c w -> (c = 32 \/ c = 9)%N)
  /\ (forall c t, dropbl s = c :: t -> (c <> 32 /\ c <> 9)%N).
Proof.
  induction s as [|c s (w & E & W & H)]; [exists []; split; [reflexivity|]; split; [intros ? []|discriminate]|].
  cbn [dropbl]. destruct ((c =? 32) || (c =? 9))%N eqn:B.
  - exists (c :: w). split; [cbn; rewrite <- E; reflexivity|]. split; [|exact H].
    intros x [<-|Hx]; [|exact (W x Hx)]. apply orb_true_iff in B as [B|B]; apply N.eqb_eq in B; auto.
  - exists []. split; [reflexivity|]. split; [intros ? []|]. intros x t F. injection F as <- _.
    apply orb_false_iff in B as [B1 B2]. apply N.eqb_neq in B1, B2. split; assumption.
Qed.

Lemma dropbl_app : forall w s, (forall c, In c w -> (c = 32 \/ c = 9)%N) -> dropbl (w ++ s) = dropbl s.
Proof.
  induction w as [|c w IH]; intros s H; [reflexivity|]. cbn [app dropbl].
  replace ((c =? 32) || (c =? 9))%N with true.
  - apply IH. intros x Hx. apply H. right. exact Hx.
  - destruct (H c (or_introl eq_refl)) as [->| ->]; reflexivity.
Qed.

Lemma dropbl_stop : forall c s, (c <> 32 /\ c <> 9)%N -> dropbl (c :: s) = c :: s.
Proof. intros c s [A B]. cbn [dropbl]. apply N.eqb_neq in A, B. rewrite A, B. reflexivity. Qed.

(** What stands behind a recognised directive token. *)
Lemma m_dirstart_iff : forall T b r s, m_dirstart T b r = Some s <->
  esc_ok b = true /\ (exists w, r = t_dir T ++ w ++ s /\ (forall c, In c w -> (c = 32 \/ c = 9)%N)
                                /\ (w = [] \/ t_dirws T = true))
  /\ exists c t, s = c :: t /\ (letter c \/ c = 64%N).
Proof.
  intros T b r s. unfold m_dirstart, m_tok. split.
  - intro H. destruct (esc_ok b); [|discriminate]. cbn [andb] in H.
    destruct (starts_with (t_dir T) r) eqn:E; [|discriminate]. apply starts_with_occurs in E as [r1 ->].
    rewrite skipn_app_exact in H. split; [reflexivity|]. cbv zeta in H.
    assert (HC : forall c, identchar c || (c =? 64)%N = true -> letter c \/ c = 64%N).
    { intros c Hc. apply orb_true_iff in Hc as [Hc|Hc]; [left; apply identchar_iff; exact Hc|right; apply N.eqb_eq; exact Hc]. }
    destruct (t_dirws T).
    + destruct (dropbl_spec r1) as (w & E & W & _). destruct (dropbl r1) as [|c t]; [discriminate|].
      destruct (identchar c || (c =? 64)%N) eqn:Ec; [|discriminate]. injection H as <-.
      split; [exists w; rewrite E; split; [reflexivity|]; split; [exact W|right; reflexivity]|].
      exists c, t. split; [reflexivity|apply HC; exact Ec].
    + destruct r1 as [|c t]; [discriminate|].
      destruct (identchar c || (c =? 64)%N) eqn:Ec; [|discriminate]. injection H as <-.
      split; [exists []; split; [reflexivity|]; split; [intros ? []|left; reflexivity]|].
      exists c, t. split; [reflexivity|apply HC; exact Ec].
  - intros (E1 & (w & -> & W & Wd) & c & t & -> & Hc). rewrite E1. cbn [andb].
    replace (starts_with (t_dir T) (t_dir T ++ w ++ c :: t)) with true
      by (symmetry; apply starts_with_iff; eexists; reflexivity).
    rewrite skipn_app_exact. cbv zeta.
    assert (Ec : identchar c || (c =? 64)%N = true).
    { destruct Hc as [Hc| ->]; [apply identchar_iff in Hc; rewrite Hc; reflexivity|apply orb_true_r]. }
    assert (Nb : (c <> 32 /\ c <> 9)%N) by (destruct Hc as [Hc|Hc]; unfold letter in *; lia).
    destruct (t_dirws T).
    + rewrite dropbl_app by exact W. rewrite dropbl_stop by exact Nb. rewrite Ec. reflexivity.
    + destruct Wd as [->|F]; [|discriminate F]. cbn [app]. rewrite Ec. reflexivity.
Qed.

Lemma m_dir_iff : forall T b r n, m_dir T b r = Some n <->
  (forall b', b <> 92%N :: b') /\
  exists w s, r = t_dir T ++ w ++ s /\ (forall c, In c w -> (c = 32 \/ c = 9)%N)
    /\ (w = [] \/ t_dirws T = true) /\ names_directive (t_names T) s n.
Proof.
  intros T b r n. unfold m_dir.
  assert (EB : esc_ok b = true <-> forall b', b <> 92%N :: b').
  { unfold esc_ok. destruct b as [|x b].
    - split; [discriminate|reflexivity].
    - destruct (N.eqb_spec x 92) as [->|Hx]; cbn [negb]; split; intro H; try reflexivity; try discriminate.
      + exfalso. exact (H b eq_refl).
      + intros b' F. injection F as -> _. congruence. }
  split.
  - destruct (m_dirstart T b r) as [s|] eqn:E; [|discriminate]. intro H.
    apply m_dirstart_iff in E as (E1 & (w & -> & W & Wd) & HS). split; [apply EB; exact E1|].
    exists w, s. split; [reflexivity|]. split; [exact W|]. split; [exact Wd|]. apply match_name_top; assumption.
  - intros (E1 & w & s & -> & W & Wd & HN). apply EB in E1.
    assert (HS : exists c t, s = c :: t /\ (letter c \/ c = 64%N)).
    { destruct HN as [(_ & c & t & -> & _)|(_ & _ & c & t & -> & Hc)].
      - exists 64%N, (c :: t). split; [reflexivity|right; reflexivity].
      - exists c, t. split; [reflexivity|left; exact Hc]. }
    replace (m_dirstart T b (t_dir T ++ w ++ s)) with (Some s).
    + apply match_name_top; assumption.
    + symmetry. apply m_dirstart_iff. split; [exact E1|]. split; [|exact HS].
      exists w. split; [reflexivity|]. split; assumption.
Qed.

Lemma unescape_single : forall T v d s, t_var T = [v] -> t_dir T = [d] ->
  v <> 92%N -> d <> 92%N -> v <> d -> unescape T s = unescaped v d s.
Proof. intros T v d s Ev Ed Hv Hd N. unfold unescape. rewrite Ev, Ed. apply unescape_pass; assumption. Qed.
