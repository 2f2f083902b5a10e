(** Proofs about the regular expressions for placeholders and the slurp token. *)
From Verif Require Import Base PyStr Names_Model Report_Proofs StrConst_Model PyLiteral_Spec StrConst_Proofs
  Reader_Model Reader_Spec Reader_Proofs Lex_Model Lex_Spec Lex_Proofs LexLines_Proofs LexWhole_Proofs.

Lemma blank_iff : forall c, blank c = true <-> In c [32; 9; 12]%N.
Proof. intro c. unfold blank. cbn. lia. Qed.

Lemma opener_iff : forall c, opener c = true <-> In c (L "{([").
Proof. intro c. unfold opener. cbn. lia. Qed.

Lemma closer_iff : forall c, closer c = true <-> In c (L ")}]").
Proof. intro c. unfold closer. cbn. lia. Qed.

Lemma unit_iff : forall c, mem_char c (L "smhdw") = true <-> In c (L "smhdw").
Proof. intro c. cbn. lia. Qed.

Definition numchar (c : N) : bool := ((48 <=? c) && (c <=? 57) || (c =? 46))%N.

Lemma dropnum_spec : forall s, exists n, s = n ++ dropnum s /\ (forall c, In c n -> numchar c = true)
  /\ (forall c t, dropnum s = c :: t -> numchar c = false).
Proof.
  induction s as [|c s IH].
  - exists []. split; [reflexivity|]. split; [intros ? []|discriminate].
  - cbn [dropnum]. fold (numchar c). destruct (numchar c) eqn:E.
    + destruct IH as (n & H1 & H2 & H3). exists (c :: n). split; [cbn [app]; f_equal; exact H1|].
      split; [|exact H3]. intros x [<-|Hx]; [exact E|exact (H2 x Hx)].
    + exists []. split; [reflexivity|]. split; [intros ? []|]. intros x t F. injection F as <- _. exact E.
Qed.

Lemma dropnum_app : forall n s, (forall c, In c n -> numchar c = true) ->
  (forall c t, s = c :: t -> numchar c = false) -> dropnum (n ++ s) = s.
Proof.
  induction n as [|c n IH]; intros s H1 H2; cbn [app].
  - destruct s as [|c s]; [reflexivity|]. cbn [dropnum]. fold (numchar c). rewrite (H2 c s eq_refl). reflexivity.
  - cbn [dropnum]. fold (numchar c). rewrite (H1 c (or_introl eq_refl)). apply IH; [|exact H2].
    intros x Hx. apply H1. right. exact Hx.
Qed.

Lemma dropws_spec : forall s, exists w, s = w ++ dropws s /\ (forall c, In c w -> blank c = true)
  /\ (forall c t, dropws s = c :: t -> blank c = false).
Proof.
  induction s as [|c s IH].
  - exists []. split; [reflexivity|]. split; [intros ? []|discriminate].
  - cbn [dropws]. destruct (blank c) eqn:E.
    + destruct IH as (n & H1 & H2 & H3). exists (c :: n). split; [cbn [app]; f_equal; exact H1|].
      split; [|exact H3]. intros x [<-|Hx]; [exact E|exact (H2 x Hx)].
    + exists []. split; [reflexivity|]. split; [intros ? []|]. intros x t F. injection F as <- _. exact E.
Qed.

Lemma dropws_app : forall n s, (forall c, In c n -> blank c = true) ->
  (forall c t, s = c :: t -> blank c = false) -> dropws (n ++ s) = s.
Proof.
  induction n as [|c n IH]; intros s H1 H2; cbn [app].
  - destruct s as [|c s]; [reflexivity|]. cbn [dropws]. rewrite (H2 c s eq_refl). reflexivity.
  - cbn [dropws]. rewrite (H1 c (or_introl eq_refl)). apply IH; [|exact H2].
    intros x Hx. apply H1. right. exact Hx.
Qed.

Lemma numchar_iff : forall c, numchar c = true <-> (48 <= c <= 57)%N \/ c = 46%N.
Proof. intro c. unfold numchar. lia. Qed.

(** what [after_cache] drops is a cache token *)
Lemma after_cache_spec : forall s, exists k, s = k ++ after_cache s /\ cache_text k.
Proof.
  intro s. destruct s as [|c r]; [exists []; split; [reflexivity|left; reflexivity]|]. cbn [after_cache].
  destruct (N.eqb_spec c 42) as [->|]; [|exists []; split; [reflexivity|left; reflexivity]].
  assert (Star : exists k, 42%N :: r = k ++ r /\ cache_text k).
  { exists [42%N]. split; [reflexivity|right; left; reflexivity]. }
  destruct (length (dropnum r) =? length r)%nat eqn:E; [exact Star|].
  destruct (dropnum_spec r) as (n & H1 & H2 & H3).
  assert (Nn : n <> []).
  { intros ->. cbn [app] in H1. rewrite <- H1 in E. rewrite Nat.eqb_refl in E. discriminate. }
  destruct (dropnum r) as [|u n'] eqn:D; [exact Star|].
  destruct (N.eqb_spec u 42) as [->|Hu].
  { exists (42%N :: n ++ [42%N]). split; [cbn [app]; rewrite <- app_assoc; cbn [app]; rewrite H1 at 1; reflexivity|].
    right. right. exists n. split; [reflexivity|]. exists n, []. rewrite app_nil_r. split; [reflexivity|]. split; [exact Nn|].
    split; [|left; reflexivity]. intros x Hx. apply numchar_iff. exact (H2 x Hx). }
  destruct (mem_char u (L "smhdw")) eqn:Mu; [|exact Star].
  destruct n' as [|v n'']; [exact Star|]. destruct (N.eqb_spec v 42) as [->|]; [|exact Star].
  exists (42%N :: (n ++ [u]) ++ [42%N]). split.
  { cbn [app]. rewrite <- !app_assoc. cbn [app]. rewrite H1 at 1. reflexivity. }
  right. right. exists (n ++ [u]). split; [reflexivity|]. exists n, [u]. split; [reflexivity|]. split; [exact Nn|].
  split; [intros x Hx; apply numchar_iff; exact (H2 x Hx)|]. right. exists u. split; [reflexivity|]. apply unit_iff. exact Mu.
Qed.

(** and what may follow a cache token decides how much is dropped *)
Lemma after_cache_app : forall k c t, cache_text k -> numchar c = false -> c <> 42%N ->
  after_cache (k ++ c :: t) = c :: t.
Proof.
  intros k c t H Nc Sc. destruct H as [->|[->|(i & -> & n & u & -> & Hn & Nn & Hu)]].
  - cbn [app after_cache]. destruct (N.eqb_spec c 42); [congruence|reflexivity].
  - change (L "*" ++ c :: t) with (42%N :: c :: t). cbn [after_cache]. change (42 =? 42)%N with true. cbv iota.
    cbn [dropnum]. fold (numchar c). rewrite Nc. rewrite Nat.eqb_refl. reflexivity.
  - assert (Nn' : forall x, In x n -> numchar x = true) by (intros x Hx; apply numchar_iff; exact (Nn x Hx)).
    assert (Q : (L "*" ++ (n ++ u) ++ L "*") ++ c :: t = 42%N :: n ++ (u ++ 42%N :: c :: t)).
    { cbn [L app]. change (L "*") with [42%N]. cbn [app]. rewrite <- !app_assoc. reflexivity. }
    rewrite Q. cbn [after_cache]. change (42 =? 42)%N with true. cbv iota.
    assert (Du : dropnum (n ++ u ++ 42%N :: c :: t) = u ++ 42%N :: c :: t).
    { apply dropnum_app; [exact Nn'|]. intros x y F. destruct Hu as [->|(z & -> & Hz)]; cbn [app] in F; injection F as <- _; [reflexivity|].
      cbn in Hz. repeat (destruct Hz as [<-|Hz]; [reflexivity|]). destruct Hz. }
    rewrite Du.
    assert (Ln : (length (u ++ 42%N :: c :: t) =? length (n ++ u ++ 42%N :: c :: t))%nat = false).
    { apply Nat.eqb_neq. rewrite !app_length. destruct n; [congruence|]. cbn [length]. lia. }
    rewrite Ln. destruct Hu as [->|(z & -> & Hz)]; cbn [app].
    + reflexivity.
    + apply unit_iff in Hz as Hz'. destruct (N.eqb_spec z 42) as [->|]; [discriminate Hz'|]. rewrite Hz'. reflexivity.
Qed.

Lemma esc_iff : forall b, esc_ok b = true <-> forall b', b <> 92%N :: b'.
Proof.
  intro b. unfold esc_ok. destruct b as [|x b].
  - split; [discriminate|reflexivity].
  - destruct (N.eqb_spec x 92) as [->|Hx]; cbn [negb]; split; intro H; try reflexivity; try discriminate.
    + exfalso. exact (H b eq_refl).
    + intros b' F. injection F as -> _. congruence.
Qed.

Lemma m_tok_iff : forall tok b r, m_tok tok b r = true <-> (forall b', b <> 92%N :: b') /\ exists s, r = tok ++ s.
Proof.
  intros tok b r. unfold m_tok. rewrite andb_true_iff, esc_iff. split; intros [H1 H2]; (split; [exact H1|]).
  - exact (starts_with_occurs tok r H2).
  - destruct H2 as [s ->]. apply starts_self.
Qed.

Lemma letter_not : forall c, letter c -> numchar c = false /\ c <> 42%N /\ c <> 33%N /\ opener c = false /\ blank c = false.
Proof. intros c H. unfold letter in H. unfold numchar, opener, blank. repeat split; lia. Qed.

Lemma opener_not : forall c, opener c = true -> numchar c = false /\ c <> 42%N /\ c <> 33%N.
Proof. intros c H. unfold opener in H. unfold numchar. repeat split; lia. Qed.

Lemma m_var_iff : forall T b r, m_var T b r = true <->
  (forall b', b <> 92%N :: b') /\ variable_start (t_var T) r.
Proof.
  intros T b r. unfold m_var. rewrite andb_true_iff, m_tok_iff. split.
  - intros [[E (s & ->)] H]. split; [exact E|]. cbv zeta in H. rewrite skipn_app_exact in H.
    set (r1 := match s with [] => [] | c :: r' => if (c =? 33)%N then r' else s end) in H.
    assert (R1 : exists sil, s = sil ++ r1 /\ (sil = [] \/ sil = L "!")).
    { unfold r1. destruct s as [|c s']; [exists []; split; [reflexivity|left; reflexivity]|].
      destruct (N.eqb_spec c 33) as [->|]; [exists [33%N]|exists []]; (split; [reflexivity|auto]). }
    destruct R1 as (sil & Es & Hs). destruct (after_cache_spec r1) as (k & Ek & Hk).
    set (r2 := after_cache r1) in *.
    assert (R3 : exists enc c t, r2 = enc ++ c :: t /\ (enc = [] \/ enclosure enc) /\ letter c).
    { destruct r2 as [|c r']; [discriminate H|]. destruct (opener c) eqn:O.
      - destruct (dropws_spec r') as (w & Ew & Hw & _). destruct (dropws r') as [|d t]; [discriminate H|].
        exists (c :: w), d, t. split; [cbn [app]; f_equal; exact Ew|]. split; [right|apply identchar_iff; exact H].
        exists c, w. split; [reflexivity|]. split; [apply opener_iff; exact O|]. intros x Hx. apply blank_iff. exact (Hw x Hx).
      - exists [], c, r'. split; [reflexivity|]. split; [left; reflexivity|]. apply identchar_iff. exact H. }
    destruct R3 as (enc & c & t & E3 & He & Hc).
    exists sil, k, enc, c, t. split; [|repeat split; assumption]. rewrite Es, Ek, E3. reflexivity.
  - intros [E (sil & k & enc & c & t & -> & Hs & Hk & He & Hc)]. split.
    + split; [exact E|]. eexists. reflexivity.
    + cbv zeta. rewrite skipn_app_exact. destruct (letter_not c Hc) as (L1 & L2 & L3 & L4 & L5).
      assert (Hd : exists h u, enc ++ c :: t = h :: u /\ numchar h = false /\ h <> 42%N /\ h <> 33%N).
      { destruct He as [->|(h & w & -> & Hh & Hw)].
        - exists c, t. repeat split; assumption.
        - exists h, (w ++ c :: t). split; [reflexivity|]. apply opener_not. apply opener_iff. exact Hh. }
      destruct Hd as (h & u & Eh & N1 & N2 & N3).
      assert (S1 : match sil ++ k ++ enc ++ c :: t with [] => [] | c0 :: r' => if (c0 =? 33)%N then r' else sil ++ k ++ enc ++ c :: t end
                   = k ++ enc ++ c :: t).
      { destruct Hs as [->| ->]; [|reflexivity]. cbn [app]. rewrite Eh.
        assert (K : exists x y, k ++ h :: u = x :: y /\ x <> 33%N).
        { destruct Hk as [->|[->|(i & -> & _)]].
          - exists h, u. split; [reflexivity|exact N3].
          - exists 42%N, (h :: u). split; [reflexivity|discriminate].
          - eexists 42%N, _. split; [reflexivity|discriminate]. }
        destruct K as (x & y & -> & Hx). destruct (N.eqb_spec x 33); [congruence|reflexivity]. }
      rewrite S1. rewrite Eh. rewrite (after_cache_app k h u Hk N1 N2).
      destruct He as [->|(h' & w & -> & Hh & Hw)]; cbn [app] in Eh; injection Eh as <- <-.
      * rewrite L4. apply identchar_iff. exact Hc.
      * apply opener_iff in Hh. rewrite Hh. rewrite dropws_app.
        -- apply identchar_iff. exact Hc.
        -- intros x Hx. apply blank_iff. exact (Hw x Hx).
        -- intros x y F. injection F as <- _. exact L5.
Qed.

Lemma m_expr_iff : forall T b r, m_expr T b r = true <->
  (forall b', b <> 92%N :: b') /\ expression_start (t_var T) r.
Proof.
  intros T b r. unfold m_expr. rewrite andb_true_iff, m_tok_iff. split.
  - intros [[E (s & ->)] H]. split; [exact E|]. rewrite skipn_app_exact in H.
    destruct (after_cache_spec s) as (k & Ek & Hk). destruct (after_cache s) as [|c r']; [discriminate H|].
    apply andb_true_iff in H as [O H]. destruct r' as [|d t]; [discriminate H|].
    exists k, [c], d, t. split; [rewrite Ek; reflexivity|]. split; [exact Hk|]. split.
    + exists c, []. split; [reflexivity|]. split; [apply opener_iff; exact O|intros ? []].
    + rewrite <- closer_iff. destruct (closer d); [discriminate H|discriminate].
  - intros [E (k & enc & c & t & -> & Hk & (h & w & -> & Hh & Hw) & Hc)]. split.
    + split; [exact E|]. eexists. reflexivity.
    + rewrite skipn_app_exact. apply opener_iff in Hh. destruct (opener_not h Hh) as (N1 & N2 & _).
      cbn [app]. rewrite (after_cache_app k h _ Hk N1 N2). rewrite Hh. cbn [andb].
      destruct w as [|x w]; cbn [app].
      * rewrite <- closer_iff in Hc. destruct (closer c); [congruence|reflexivity].
      * specialize (Hw x (or_introl eq_refl)). cbn in Hw.
        repeat (destruct Hw as [<-|Hw]; [reflexivity|]). destruct Hw.
Qed.

Lemma m_slurp_iff : forall T r, m_slurp T r = true <-> t_slurp T <> [] /\ slurp_start (t_slurp T) r.
Proof.
  intros T r. unfold m_slurp. destruct (t_slurp T) as [|x tok].
  { split; [discriminate|]. intros [H _]. congruence. }
  set (tk := x :: tok). rewrite andb_true_iff. split.
  - intros [H1 H2]. split; [discriminate|]. destruct (starts_with_occurs tk r H1) as (s & ->).
    rewrite skipn_app_exact in H2. destruct (dropws_spec s) as (w & Ew & Hw & _).
    destruct (dropws s) as [|c t]; [discriminate|]. exists w, c, t. split; [rewrite <- Ew; reflexivity|].
    split; [intros y Hy; apply blank_iff; exact (Hw y Hy)|apply eolchar_iff; exact H2].
  - intros [_ (w & c & t & -> & Hw & Hc)]. split; [apply starts_self|]. rewrite skipn_app_exact.
    rewrite dropws_app.
    + apply eolchar_iff. exact Hc.
    + intros y Hy. apply blank_iff. exact (Hw y Hy).
    + intros y z F. injection F as <- _. destruct Hc as [->| ->]; reflexivity.
Qed.

(** ** Dollar signs that start no placeholder *)

Lemma unescape_plain : forall s v d, (forall a b, s <> a ++ [92; v]%N ++ b) -> (forall a b, s <> a ++ [92; d]%N ++ b) ->
  replace_str [92%N; d] [d] (replace_str [92%N; v] [v] s) = s.
Proof.
  intros s v d H1 H2. unfold replace_str.
  rewrite (replace_aux_absent [92; v]%N) by (intros (a & b & E); exact (H1 a b E)).
  apply replace_aux_absent. intros (a & b & E). exact (H2 a b E).
Qed.

Lemma literal_dollars : forall T other printable src fuel, default_tokens T ->
  ~ In 35%N src -> ~ occurs (L "<%") src -> ~ occurs (L "\$") src ->
  (forall a b, src = a ++ b -> ~ variable_start (L "$") b /\ ~ expression_start (L "$") b) ->
  valid_str src -> (2 <= fuel)%nat ->
  exists l, compile_body fuel T other src = Some (Ok l) /\ prints printable l src.
Proof.
  intros T other printable src fuel D Nh Np Nb Nv V F.
  destruct D as (D1 & D2 & D3 & D4 & D5 & D6 & D7 & D8).
  assert (Hash : forall tok x y, src = x ++ y -> (exists t, tok = 35%N :: t) -> starts_with tok y = false).
  { intros tok x y E (t & ->). destruct y as [|c y]; [reflexivity|]. cbn [starts_with].
    destruct (N.eqb_spec 35 c) as [<-|]; [|reflexivity]. exfalso. apply Nh. rewrite E. apply in_or_app. right. left. reflexivity. }
  assert (C : forall x y, src = x ++ y -> forall b, classify T b y = KText).
  { intros x y E b. unfold classify.
    assert (M : forall tok, (exists t, tok = 35%N :: t) -> m_tok tok b y = false).
    { intros tok Ht. unfold m_tok. rewrite (Hash tok x y E Ht). apply andb_false_r. }
    rewrite (M (t_com T)) by (rewrite D2; eexists; reflexivity). rewrite (M (t_ml T)) by (rewrite D3; eexists; reflexivity).
    destruct (Nv x y E) as [V1 V2].
    destruct (m_var T b y) eqn:E1; [apply m_var_iff in E1 as [_ E1]; rewrite D1 in E1; contradiction|].
    destruct (m_expr T b y) eqn:E2; [apply m_expr_iff in E2 as [_ E2]; rewrite D1 in E2; contradiction|].
    destruct (m_dir T b y) eqn:E3; [apply m_dir_tok in E3; rewrite M in E3 by (rewrite D5; eexists; reflexivity); discriminate|].
    destruct (m_tok (t_psp T) b y) eqn:E4.
    { apply m_tok_iff in E4 as [_ (t & ->)]. exfalso. apply Np. exists x, t. rewrite E, D7. reflexivity. }
    destruct (m_slurp T y) eqn:E5; [|reflexivity].
    apply m_slurp_tok in E5 as [_ E5]. rewrite (Hash (t_slurp T) x y E) in E5 by (rewrite D8; eexists; reflexivity). discriminate. }
  destruct src as [|c s].
  - exists []. split; [|constructor]. destruct fuel as [|n]; [lia|]. reflexivity.
  - eexists. split.
    + apply parse_all_text; [exact F|discriminate|apply (C [] (c :: s) eq_refl)|].
      intros x d y E. apply classify_top. apply (C x). exact E.
    + unfold unescape. rewrite D1, D5. change (L "$") with [36%N]. change (L "#") with [35%N].
      rewrite unescape_plain.
      * exact (prints_one printable (c :: s) V).
      * intros a b E. apply Nb. exists a, b. exact E.
      * intros a b E. apply Nh. rewrite E. apply in_or_app. right. right. left. reflexivity.
Qed.

(** a dollar sign before a character that starts nothing *)
Lemma no_start : forall c t, ~ letter c -> ~ In c (L "!*{([") ->
  ~ variable_start (L "$") (36%N :: c :: t) /\ ~ expression_start (L "$") (36%N :: c :: t).
Proof.
  intros c t Hl Hc. assert (K : forall k h u r, cache_text k -> k ++ h :: u = c :: r -> c = h \/ c = 42%N).
  { intros k h u r [->|[->|(i & -> & _)]] E; cbn [app] in E; [injection E as -> _; left; reflexivity| |]; right; injection E as <- _; reflexivity. }
  assert (St : c <> 42%N) by (intros ->; apply Hc; cbn; tauto).
  split.
  - intros (sil & k & enc & d & u & E & Hs & Hk & He & Hd). cbn [L app] in E. injection E as E.
    destruct Hs as [->| ->].
    + cbn [app] in E. symmetry in E. destruct He as [->|(h & w & -> & Hh & Hw)]; cbn [app] in E.
      * destruct (K k d u t Hk E) as [->|]; contradiction.
      * destruct (K k h _ t Hk E) as [->|]; [|contradiction]. apply Hc. cbn in Hh |- *. tauto.
    + injection E as -> _. apply Hc. cbn. tauto.
  - intros (k & enc & d & u & E & Hk & (h & w & -> & Hh & Hw) & Hd). cbn [L app] in E. injection E as E. symmetry in E.
    cbn [app] in E. destruct (K k h _ t Hk E) as [->|]; [|contradiction]. apply Hc. cbn in Hh |- *. tauto.
Qed.

Lemma price_list : forall T other printable src fuel, default_tokens T ->
  ~ In 35%N src -> ~ In 92%N src -> ~ occurs (L "<%") src ->
  (forall a b, src = a ++ 36%N :: b -> b = [] \/ exists c t, b = c :: t /\ ~ letter c /\ ~ In c (L "!*{([")) ->
  valid_str src -> (2 <= fuel)%nat ->
  exists l, compile_body fuel T other src = Some (Ok l) /\ prints printable l src.
Proof.
  intros T other printable src fuel D Nh Nb Np H V F. apply literal_dollars; try assumption.
  - intros (a & b & E). apply Nb. rewrite E. apply in_or_app. right. left. reflexivity.
  - intros a b E.
    assert (Z : (forall t, b <> 36%N :: t) -> ~ variable_start (L "$") b /\ ~ expression_start (L "$") b).
    { intro N. split; [intros (? & ? & ? & ? & ? & Q & _)|intros (? & ? & ? & ? & Q & _)]; exact (N _ Q). }
    destruct b as [|x b]; [apply Z; discriminate|]. destruct (N.eq_dec x 36) as [->|Hx].
    + destruct (H a b E) as [->|(c & t & -> & Hl & Hc)].
      * split.
        -- intros (sil & k & enc & d & u & Q & _). cbn [L app] in Q. injection Q as Q. symmetry in Q.
           apply app_eq_nil in Q as [_ Q]. apply app_eq_nil in Q as [_ Q]. apply app_eq_nil in Q as [_ Q]. discriminate Q.
        -- intros (k & enc & d & u & Q & _). cbn [L app] in Q. injection Q as Q. symmetry in Q.
           apply app_eq_nil in Q as [_ Q]. apply app_eq_nil in Q as [_ Q]. discriminate Q.
      * apply no_start; assumption.
    + apply Z. intros t Q. injection Q as -> _. congruence.
Qed.
