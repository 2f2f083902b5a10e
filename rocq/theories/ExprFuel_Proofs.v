(** The expression parser always comes to an end: a nesting bound linear in the text is enough. *)
From Verif Require Import Base PyStr Lex_Model Expr_Model Expr_Spec Expr_Proofs ExprMain_Proofs.

Section Fuel.
Variable X : lang.
Hypothesis XO : lang_ok X.
Variable src : pystr.
Local Notation T := (x_T X).

Lemma bnd_some : forall A B (P : A -> pystr -> pystr -> Prop) F (x : out A) (f : A -> pystr -> pystr -> out B),
  x <> None -> post P F x -> (forall a b r, P a b r -> f a b r <> None) -> bnd x f <> None.
Proof. intros A B P F [[[a [b r]]|e]|] f H1 H2 H3; cbn in *; [eauto|discriminate|congruence]. Qed.

Lemma pre_some : forall t x, x <> None -> pre t x <> None.
Proof. intros t [[[a [b r]]|e]|] H; cbn in *; [discriminate|discriminate|congruence]. Qed.

Lemma fail_some : forall A b r m, @fail A b r m <> None.
Proof. intros. unfold fail, err. discriminate. Qed.

Lemma var_error_some : forall A b r, @var_error A T b r <> None.
Proof.
  intros. unfold var_error. cbv zeta.
  repeat match goal with |- context [if ?c then _ else _] => destruct c | |- context [match ?c with _ => _ end] => destruct c end;
    apply fail_some.
Qed.

Record enough (n : nat) : Prop := {
  u_expr : forall um en enc brk b r, rev b ++ r = src -> opened X src enc r -> 5 * length r + 3 <= n ->
    expr X n um en enc brk b r <> None;
  u_callargs : forall um enc b r, rev b ++ r = src -> opened X src enc r -> (enc = [] -> r <> []) ->
    5 * length r + 5 <= n -> callargs X n um enc b r <> None;
  u_cargs : forall um o p enc b r, rev b ++ r = src -> opened X src ((o, p) :: enc) r -> 5 * length r + 4 <= n ->
    cargs X n um ((o, p) :: enc) b r <> None;
  u_cvar : forall um plain b r, rev b ++ r = src -> m_xvar T r = true -> 5 * length r + 2 <= n ->
    cvar X n um plain b r <> None;
  u_chunks : forall um b r, rev b ++ r = src -> 5 * length r + 1 <= n -> chunks X n um b r <> None;
  u_transform : forall um b0 r0 k b r, rev b0 ++ r0 = src -> x_tok X r0 = Some k -> go k b0 r0 = (b, r) ->
    5 * length r0 + 1 <= n -> transform X n um b0 r0 (firstn k r0) b r <> None;
  u_cstr : forall um lim acc b r, rev b ++ r = src -> 5 * length r + 5 <= n -> cstr X n um lim acc b r <> None;
  u_placeholder : forall um cache b r, rev b ++ r = src -> 5 * length r + 4 <= n ->
    placeholder X n um cache b r <> None }.

Lemma go_len : forall k b r b' r', go k b r = (b', r') -> length r' = length r - k.
Proof.
  induction k as [|k IH]; intros b r b' r' H; [destruct r; cbn in *; injection H as <- <-; cbn; lia|].
  destruct r as [|c r]; cbn in H; [injection H as <- <-; reflexivity|]. apply IH in H. cbn. lia.
Qed.

Ltac srcs := solve [assumption |
  match goal with A : adv ?b ?r ?b' ?r' |- rev ?b' ++ ?r' = src => apply (adv_src' src b r b' r'); [srcs|exact A] end |
  match goal with A : go _ ?b ?r = (?b', ?r') |- rev ?b' ++ ?r' = src => apply (adv_src' src b r b' r'); [srcs|eapply go_adv; exact A] end |
  match goal with A : take_ws ?b ?r = (_, (?b', ?r')) |- rev ?b' ++ ?r' = src =>
    apply (adv_src' src b r b' r'); [srcs|apply (take_ws_ok X _ _ _ _ _ A)] end |
  apply cons_src; srcs].

Lemma adv_strict : forall b r b' r', adv b r b' r' -> at_open r = true -> at_open r' = false -> length r' < length r.
Proof.
  intros b r b' r' [[|c w] [-> _]] A B; cbn in *; [congruence|]. rewrite app_length. lia.
Qed.

Lemma vartok_len : forall b r, m_vartok T b r = true -> length (t_var T) <= length r /\ 1 <= length (t_var T).
Proof.
  intros b r H. unfold m_vartok, m_tok in H. apply andb_true_iff in H as [H _]. apply andb_true_iff in H as [_ H].
  apply starts_with_iff in H as [s ->]. rewrite app_length. destruct XO as (_ & _ & NE & _).
  destruct (t_var T); [congruence|]. cbn. lia.
Qed.

Lemma xvar_len : forall r, m_xvar T r = true -> length (t_var T) <= length r /\ 1 <= length (t_var T).
Proof.
  intros r H. unfold m_xvar in H. apply andb_true_iff in H as [H _].
  apply starts_with_iff in H as [s ->]. rewrite app_length. destruct XO as (_ & _ & NE & _).
  destruct (t_var T); [congruence|]. cbn. lia.
Qed.

(** Strict progress. *)
Lemma cvar_strict : forall n um plain b r, rev b ++ r = src -> m_xvar T r = true ->
  post (fun code b' r' => adv b r b' r' /\ span X r r' /\ length r' < length r) (fun _ => True) (cvar X n um plain b r).
Proof.
  intros n um plain b r HS MX. pose proof (i_cvar X src _ (all_inv X XO src n) um plain b r HS MX) as P.
  change (f_cvar (fns_at X n) um plain b r) with (cvar X n um plain b r) in P.
  destruct (cvar X n um plain b r) as [[[code [b' r']]|e]|] eqn:C; cbn in P |- *; auto.
  destruct P as (A & SP & _). split; [exact A|]. split; [exact SP|].
  destruct n as [|n]; [discriminate C|]. change (cvar X (S n)) with (cvar_step X (chunks X n)) in C.
  unfold cvar_step in C. destruct (m_vartok T b r); [|discriminate].
  pose proof (xvar_len r MX) as [L1 L2]. unfold m_xvar in MX. apply andb_true_iff in MX as [_ MX].
  rewrite go_eq, skip_silent_ident, skip_cache_ident in C by (exact L1 || exact MX).
  pose proof (i_chunks X src _ (all_inv X XO src n) um (rev (firstn (length (t_var T)) r) ++ b) (skipn (length (t_var T)) r)) as PC.
  assert (HS2 : rev (rev (firstn (length (t_var T)) r) ++ b) ++ skipn (length (t_var T)) r = src).
  { rewrite rev_app_distr, rev_involutive, <- app_assoc, firstn_skipn. exact HS. }
  specialize (PC HS2). change (f_chunks (fns_at X n)) with (chunks X n) in PC.
  destruct (chunks X n um (rev (firstn (length (t_var T)) r) ++ b) (skipn (length (t_var T)) r))
    as [[[cs [b2 r2]]|e]|]; cbn in C, PC; try discriminate.
  destruct PC as (A2 & _). apply adv_len in A2. rewrite skipn_length in A2.
  destruct (gen_var X um plain cs); [|discriminate]. injection C as <- <- <-. lia.
Qed.

Section Step.
Variable n : nat.
Hypothesis IH : enough n.
Let INV := all_inv X XO src n.

Lemma transform_some : forall um b0 r0 k b r, rev b0 ++ r0 = src -> x_tok X r0 = Some k -> go k b0 r0 = (b, r) ->
  5 * length r0 + 1 <= S n -> transform X (S n) um b0 r0 (firstn k r0) b r <> None.
Proof.
  intros um b0 r0 k b r HS K G LE. change (transform X (S n)) with (transform_step X (cstr X n)).
  unfold transform_step. destruct (str_eqb (firstn k r0) (L "c") && quote_at r) eqn:C; [|discriminate].
  destruct (x_tok X r) as [k2|]; [|apply fail_some]. destruct (go k2 b r) as [be re].
  destruct (x_ceval X (firstn k2 r)) as [[|]|]; try discriminate.
  destruct (go (S (quote_len (firstn k2 r))) b0 r0) as [b1 r1] eqn:G3.
  assert (HS1 : rev b1 ++ r1 = src) by srcs.
  pose proof (go_len _ _ _ _ _ G3) as L3.
  assert (1 <= quote_len (firstn k2 r)) by (unfold quote_len; destruct (_ || _); lia).
  assert (2 <= length r0).
  { apply andb_true_iff in C as [C1 C2]. apply str_eqb_eq in C1. pose proof (go_len _ _ _ _ _ G) as L4.
    apply (f_equal (@length N)) in C1. rewrite firstn_length in C1. cbn in C1.
    destruct r; [discriminate C2|]. cbn in L4. lia. }
  eapply bnd_some; [apply (u_cstr n IH); [exact HS1|lia]|apply (i_cstr X src _ INV); exact HS1|discriminate].
Qed.

Lemma cstr_some : forall um lim acc b r, rev b ++ r = src -> 5 * length r + 5 <= S n -> cstr X (S n) um lim acc b r <> None.
Proof.
  intros um lim acc b r HS LE. change (cstr X (S n)) with (cstr_step X (cstr X n) (placeholder X n)).
  unfold cstr_step. destruct (length b <? lim); [|discriminate].
  destruct (m_var T b r || m_expr T b r) eqn:M.
  - destruct (placeholder X n um false b r) as [[[x [b1 r1]]|e]|] eqn:PH; cbn; try discriminate.
    2:{ exfalso. revert PH. apply (u_placeholder n IH); [exact HS|lia]. }
    pose proof (i_placeholder X src _ INV um false b r HS) as P.
    change (f_placeholder (fns_at X n)) with (placeholder X n) in P. rewrite PH in P. destruct P as [A _].
    assert (length r1 < length r).
    { destruct n as [|n']; [discriminate PH|].
      change (placeholder X (S n')) with (placeholder_step X (expr X n') (callargs X n') (chunks X n')) in PH.
      unfold placeholder_step in PH. destruct (m_vartok T b r) eqn:MV; [|discriminate].
      pose proof (i_placeholder X src _ INV um false b r HS) as P.
      change (f_placeholder (fns_at X (S n'))) with (placeholder_step X (expr X n') (callargs X n') (chunks X n')) in P.
      unfold placeholder_step in P. rewrite MV, PH in P. destruct P as [_ P].
      destruct (vartok_len _ _ MV) as [L1 L2].
      destruct (ph_start X false b r) as [b0 r0] eqn:PS. cbn [snd fst] in P.
      assert (length r0 < length r).
      { unfold ph_start in PS. destruct (go (length (t_var T)) b r) as [b2 r2] eqn:G. apply go_len in G.
        unfold skip_silent in PS. destruct r2 as [|c r2]; [injection PS as _ <-; cbn; lia|].
        destruct (c =? 33)%N; injection PS as _ <-; cbn in *; lia. }
      unfold ph_post in P. destruct r0 as [|o r0]; [contradiction|].
      destruct (opener o).
      - destruct P as (r3 & S3 & G3 & _). apply (span_len X) in S3. apply (groups_len X) in G3. cbn in *. lia.
      - destruct P as [S3 _]. apply (span_len X) in S3. cbn in *. lia. }
    assert (HS1 : rev b1 ++ r1 = src) by srcs.
    eapply bnd_some; [apply (u_cstr n IH); [exact HS1|lia]|apply (i_cstr X src _ INV); exact HS1|discriminate].
  - destruct r as [|c r]; [discriminate|]. apply (u_cstr n IH); [srcs|cbn in *; lia].
Qed.

Lemma chunks_some : forall um b r, rev b ++ r = src -> 5 * length r + 1 <= S n -> chunks X (S n) um b r <> None.
Proof.
  intros um b r HS LE. change (chunks X (S n)) with (chunks_step (expr X n) (callargs X n) (chunks X n)).
  unfold chunks_step. cbv zeta.
  assert (NAME : forall b r, rev b ++ r = src -> at_ident r = true -> 5 * length r + 1 <= S n ->
      (let '(dn, (b, r)) := dotted b r in
       match r with
       | [] => bnd (chunks X n um b r) (fun cs b r => ok (add_chunks dn [] ++ cs) b r)
       | c :: _ =>
           if (c =? 40)%N
           then bnd (callargs X n um [] b r) (fun rest b r => bnd (chunks X n um b r) (fun cs b r => ok (add_chunks dn rest ++ cs) b r))
           else if (c =? 91)%N
           then bnd (expr X n um true [] [] b r) (fun rest b r => bnd (chunks X n um b r) (fun cs b r => ok (add_chunks dn rest ++ cs) b r))
           else bnd (chunks X n um b r) (fun cs b r => ok (add_chunks dn [] ++ cs) b r)
       end) <> None).
  { clear b r HS LE. intros b r HS AI LE. destruct (dotted b r) as [dn [b1 r1]] eqn:D.
    destruct (dotted_ok X _ _ _ _ _ D) as (A1 & _ & E1 & _).
    pose proof (dotted_nonempty _ _ _ _ _ D AI) as NE.
    assert (L1 : length r1 < length r).
    { rewrite E1, app_length. destruct dn; [congruence|]. cbn. lia. }
    assert (HS1 : rev b1 ++ r1 = src) by srcs.
    assert (MORE : forall rest b2 r2, rev b2 ++ r2 = src -> length r2 < length r ->
      bnd (chunks X n um b2 r2) (fun cs b r => ok (add_chunks dn rest ++ cs) b r) <> None).
    { intros rest b2 r2 H2 L2. eapply bnd_some; [apply (u_chunks n IH); [exact H2|lia]|apply (i_chunks X src _ INV); exact H2|discriminate]. }
    destruct r1 as [|c r1']; [apply MORE; auto|].
    destruct (c =? 40)%N; [|destruct (c =? 91)%N; [|apply MORE; auto]].
    - eapply bnd_some; [apply (u_callargs n IH); [exact HS1|exact Logic.I|discriminate|lia]
        |apply (i_callargs X src _ INV); [exact HS1|exact Logic.I|discriminate]|].
      cbn beta. intros rest b2 r2 (A2 & _). apply MORE; [srcs|]. apply adv_len in A2. lia.
    - eapply bnd_some; [apply (u_expr n IH); [exact HS1|exact Logic.I|lia]|apply (i_expr X src _ INV); [exact HS1|exact Logic.I]|].
      cbn beta. intros rest b2 r2 (A2 & _). apply MORE; [srcs|]. apply adv_len in A2. lia. }
  destruct r as [|c r]; [discriminate|].
  destruct (identchar c) eqn:I1; [apply NAME; auto|].
  destruct ((c =? 46)%N && at_ident r) eqn:I2; [|discriminate].
  apply andb_true_iff in I2 as [_ I2]. apply NAME; [srcs|exact I2|cbn in *; lia].
Qed.

Lemma cvar_some : forall um plain b r, rev b ++ r = src -> m_xvar T r = true -> 5 * length r + 2 <= S n ->
  cvar X (S n) um plain b r <> None.
Proof.
  intros um plain b r HS MX LE. change (cvar X (S n)) with (cvar_step X (chunks X n)).
  unfold cvar_step. destruct (m_vartok T b r); [|apply fail_some].
  pose proof (xvar_len r MX) as [L1 L2]. unfold m_xvar in MX. apply andb_true_iff in MX as [_ MX].
  rewrite go_eq, skip_silent_ident, skip_cache_ident by (exact L1 || exact MX).
  assert (HS2 : rev (rev (firstn (length (t_var T)) r) ++ b) ++ skipn (length (t_var T)) r = src).
  { rewrite rev_app_distr, rev_involutive, <- app_assoc, firstn_skipn. exact HS. }
  eapply bnd_some; [apply (u_chunks n IH); [exact HS2|rewrite skipn_length; lia]|apply (i_chunks X src _ INV); exact HS2|].
  intros cs b2 r2 _. destruct (gen_var X um plain cs); discriminate.
Qed.

Lemma callargs_some : forall um enc b r, rev b ++ r = src -> opened X src enc r -> (enc = [] -> r <> []) ->
    5 * length r + 5 <= S n -> callargs X (S n) um enc b r <> None.
Proof.
  intros um enc b r HS OP NE LE. change (callargs X (S n)) with (callargs_step (cargs X n)).
  unfold callargs_step. destruct enc as [|[o p] enc].
  - destruct r as [|c r]; [discriminate|]. destruct (N.eqb_spec c 40) as [->|]; [|apply fail_some].
    apply pre_some, (u_cargs n IH); [srcs|apply opened_push; auto|cbn in *; lia].
  - apply pre_some, (u_cargs n IH); auto. lia.
Qed.

Lemma cargs_some : forall um o p enc b r, rev b ++ r = src -> opened X src ((o, p) :: enc) r -> 5 * length r + 4 <= S n ->
    cargs X (S n) um ((o, p) :: enc) b r <> None.
Proof.
  intros um o p enc b r HS OP LE.
  change (cargs X (S n)) with (cargs_step X (expr X n) (cargs X n) (cvar X n) (transform X n)). unfold cargs_step.
  assert (REC : forall b1 r1, rev b1 ++ r1 = src -> span X r r1 -> length r1 < length r ->
    cargs X n um ((o, p) :: enc) b1 r1 <> None).
  { intros b1 r1 H1 S1 L1. apply (u_cargs n IH); [exact H1|eapply opened_step; eassumption|lia]. }
  destruct r as [|c r]; [discriminate|].
  destruct (closer c) eqn:CL; [destruct (c =? mate o)%N; [discriminate|apply fail_some]|].
  destruct (blank c || eolchar c) eqn:BL.
  { apply pre_some, REC; [srcs| |cbn; lia]. eapply sp_item; [apply lx_blank; exact BL|apply sp_nil]. }
  destruct (m_xvar T (c :: r)) eqn:MX.
  { eapply bnd_some; [apply (u_cvar n IH); [exact HS|exact MX|lia]|apply cvar_strict; [exact HS|exact MX]|].
    cbn beta. intros x b1 r1 (A1 & S1 & L1). destruct (take_ws b1 r1) as [w [b2 r2]] eqn:W.
    destruct (take_ws_ok X _ _ _ _ _ W) as (A2 & S2 & _ & _ & _). pose proof (adv_len _ _ _ _ A2) as L2.
    destruct (at_char 61 r2) eqn:EQ; [|apply pre_some, REC; [srcs|eauto using span_trans|lia]].
    destruct (x_tok X r2) as [k|] eqn:K; [|apply fail_some].
    destruct (go k b2 r2) as [b3 r3] eqn:G. pose proof (adv_len _ _ _ _ (go_adv _ _ _ _ _ G)) as L3.
    assert (S3 : span X r2 r3).
    { destruct r2 as [|q r2q]; [discriminate EQ|]. cbn in EQ.
      eapply (tok_span X XO); [|exact K|exact G]. unfold bracket, opener, closer; lia. }
    assert (HS3 : rev b3 ++ r3 = src) by srcs.
    destruct (str_eqb (firstn k r2) (L "=")).
    - eapply bnd_some; [apply (u_cvar n IH um true b (c :: r)); [exact HS|exact MX|lia]|apply cvar_strict; [exact HS|exact MX]|].
      intros x' b4 r4 _. apply pre_some, REC; [exact HS3|eauto using span_trans|lia].
    - apply pre_some, REC; [exact HS3|eauto using span_trans|lia]. }
  destruct (m_var T b (c :: r)); [apply var_error_some|].
  destruct (x_tok X (c :: r)) as [k|] eqn:K; [|apply fail_some].
  pose proof (tok_len X XO _ _ K) as KL.
  destruct (go k b (c :: r)) as [b1 r1] eqn:G.
  destruct (is_open_tok (firstn k (c :: r))) eqn:OT.
  { assert (OC : opener c = true).
    { destruct (opener c) eqn:OC; [reflexivity|]. destruct k as [|k]; [lia|]. cbn in OT.
      destruct (firstn k r); congruence. }
    eapply bnd_some; [apply (u_expr n IH); [exact HS|exact Logic.I|lia]|apply (i_expr X src _ INV); [exact HS|exact Logic.I]|].
    cbn beta. intros x b2 r2 (A2 & [[S2 _] _] & N2). apply pre_some, REC; [srcs|apply groups_span; exact S2|].
    eapply adv_strict; [exact A2|exact OC|auto]. }
  assert (NB : bracket c = false).
  { apply nonbracket; [|exact CL]. destruct (opener c) eqn:OC; [|reflexivity].
    pose proof XO as (_ & XO2 & _). rewrite (XO2 c r OC) in K. injection K as <-. cbn in OT. congruence. }
  pose proof (tok_span X XO _ _ _ _ _ _ NB K G) as S1. pose proof (go_len _ _ _ _ _ G) as L1.
  eapply bnd_some; [eapply (u_transform n IH); [exact HS|exact K|exact G|lia]|eapply (i_transform X src _ INV); eassumption|].
  cbn beta. intros [t|] b2 r2 (A2 & S2 & _); pose proof (adv_len _ _ _ _ A2) as L2; cbn [length] in *.
  - apply pre_some, REC; [srcs|eauto using span_trans|lia].
  - assert (HS2 : rev b2 ++ r2 = src) by srcs.
    eapply bnd_some; [apply REC; [exact HS2|eauto using span_trans|lia]| |discriminate].
    apply (i_cargs X src _ INV um o p enc b2 r2); [exact HS2|]. eapply opened_step; [exact OP|eauto using span_trans].
Qed.

Lemma expr_some : forall um en enc brk b r, rev b ++ r = src -> opened X src enc r -> 5 * length r + 3 <= S n ->
    expr X (S n) um en enc brk b r <> None.
Proof.
  intros um en enc brk b r HS OP LE.
  change (expr X (S n)) with (expr_step X (expr X n) (callargs X n) (cvar X n) (transform X n)). unfold expr_step.
  assert (REC : forall b1 r1, rev b1 ++ r1 = src -> span X r r1 -> length r1 < length r ->
    expr X n um en enc brk b1 r1 <> None).
  { intros b1 r1 H1 S1 L1. apply (u_expr n IH); [exact H1|eapply opened_step; eassumption|lia]. }
  destruct r as [|c r]; [destruct enc as [|[o p] enc]; discriminate|].
  destruct (opener c) eqn:OC.
  { apply pre_some, (u_expr n IH); [srcs|apply opened_push; auto|cbn in *; lia]. }
  destruct (en && empty enc); [discriminate|].
  destruct (closer c) eqn:CL.
  { destruct enc as [|[o p] enc]; [apply fail_some|]. destruct (N.eqb_spec c (mate o)) as [Ec|]; [|discriminate].
    subst c. apply pre_some, (u_expr n IH); [srcs|eapply opened_pop; exact OP|cbn in *; lia]. }
  destruct (blank c) eqn:BL.
  { destruct (take_ws b (c :: r)) as [w [b1 r1]] eqn:W.
    destruct (take_ws_ok X _ _ _ _ _ W) as (A1 & S1 & E1 & _ & _). apply pre_some, REC; [srcs|exact S1|].
    rewrite E1, app_length. cbn in W. rewrite BL in W. destruct (take_ws (c :: b) r) as [w' p']. injection W as <- _. cbn. lia. }
  destruct (m_tok (t_dirend T) b (c :: r) && empty enc); [discriminate|].
  destruct ((c =? 92)%N && negb (empty r)) eqn:BS.
  { apply andb_true_iff in BS as [BS _]. apply N.eqb_eq in BS. subst c.
    destruct (eol_len r) as [|k] eqn:EL; [apply fail_some|].
    pose proof (eol_len_le r) as LR. destruct (go (S (S k)) b (92%N :: r)) as [b1 r1] eqn:G.
    pose proof (go_len _ _ _ _ _ G) as L1. apply REC; [srcs| |cbn in *; lia].
    rewrite go_eq in G by (cbn; lia). injection G as _ <-. apply (span_lex X (92%N :: r) (S (S k))). rewrite <- EL. apply lx_cont. rewrite EL. discriminate. }
  destruct (eolchar c) eqn:EO.
  { destruct enc as [|e enc]; [discriminate|]. apply REC; [srcs| |cbn; lia].
    eapply sp_item; [apply lx_blank; rewrite EO; apply orb_true_r|apply sp_nil]. }
  destruct (m_xvar T (c :: r)) eqn:MX.
  { eapply bnd_some; [apply (u_cvar n IH); [exact HS|exact MX|lia]|apply cvar_strict; [exact HS|exact MX]|].
    cbn beta. intros x b1 r1 (A1 & S1 & L1). apply pre_some, REC; [srcs|exact S1|exact L1]. }
  destruct (m_var T b (c :: r)); [apply var_error_some|].
  destruct (x_tok X (c :: r)) as [k|] eqn:K; [|apply fail_some].
  pose proof (tok_len X XO _ _ K) as KL.
  destruct (go k b (c :: r)) as [b1 r1] eqn:G.
  assert (NB : bracket c = false) by (apply nonbracket; assumption).
  pose proof (tok_span X XO _ _ _ _ _ _ NB K G) as S1. pose proof (go_len _ _ _ _ _ G) as L1.
  destruct (empty enc && existsb (str_eqb (firstn k (c :: r))) brk); [discriminate|].
  eapply bnd_some; [eapply (u_transform n IH); [exact HS|exact K|exact G|lia]|eapply (i_transform X src _ INV); eassumption|].
  cbn beta. intros [t|] b2 r2 (A2 & S2 & _); [|discriminate].
  pose proof (adv_len _ _ _ _ A2) as L2. cbn [length] in *.
  assert (HS2 : rev b2 ++ r2 = src) by srcs.
  assert (S12 : span X (c :: r) r2) by eauto using span_trans.
  destruct (at_ident t); [|apply pre_some, REC; [exact HS2|exact S12|cbn; lia]].
  destruct (str_eqb t (L "for")).
  { eapply bnd_some; [apply (u_expr n IH); [exact HS2|exact Logic.I|lia]|apply (i_expr X src _ INV); [exact HS2|exact Logic.I]|].
    cbn beta. intros x b3 r3 (A3 & [S3 _] & _). pose proof (adv_len _ _ _ _ A3) as L3.
    apply pre_some, REC; [srcs|eauto using span_trans|cbn; lia]. }
  destruct (take_ws b2 r2) as [w [b3 r3]] eqn:W.
  destruct (take_ws_ok X _ _ _ _ _ W) as (A3 & S3 & _ & _ & _). pose proof (adv_len _ _ _ _ A3) as L3.
  assert (HS3 : rev b3 ++ r3 = src) by srcs.
  destruct (at_char 40 r3) eqn:PA; [|apply pre_some, REC; [exact HS3|eauto using span_trans|cbn; lia]].
  assert (NE : r3 <> []) by (intro h; subst r3; discriminate PA).
  eapply bnd_some; [apply (u_callargs n IH); [exact HS3|exact Logic.I|auto|lia]|apply (i_callargs X src _ INV); [exact HS3|exact Logic.I|auto]|].
  cbn beta. intros a b4 r4 (A4 & x & _ & _ & r5 & Er & S4). pose proof (adv_len _ _ _ _ A4) as L4.
  apply pre_some, REC; [srcs| |cbn; lia].
  eapply span_trans; [eapply span_trans; eassumption|]. rewrite Er. eapply sp_group; [reflexivity|exact S4|apply sp_nil].
Qed.

Lemma placeholder_some : forall um cache b r, rev b ++ r = src -> 5 * length r + 4 <= S n ->
    placeholder X (S n) um cache b r <> None.
Proof.
  intros um cache b r HS LE.
  change (placeholder X (S n)) with (placeholder_step X (expr X n) (callargs X n) (chunks X n)). unfold placeholder_step.
  destruct (m_vartok T b r) eqn:MV; [|apply fail_some].
  destruct (vartok_len _ _ MV) as [LV1 LV2].
  destruct (ph_start X cache b r) as [b0 r0] eqn:PS.
  pose proof (ph_start_adv _ _ _ _ _ _ PS) as A0.
  assert (EQ : forall (A : Type) (k : pystr -> pystr -> A),
    (let '(b, r) := go (length (t_var T)) b r in
     let '(b, r) := skip_silent b r in
     let '(b, r) := if cache then skip_cache b r else (b, r) in k b r) = k b0 r0).
  { intros A k. unfold ph_start in PS. destruct (go (length (t_var T)) b r) as [b1 r1].
    destruct (skip_silent b1 r1) as [b2 r2]. rewrite PS. reflexivity. }
  rewrite EQ. clear EQ.
  assert (L0 : length r0 < length r).
  { unfold ph_start in PS. destruct (go (length (t_var T)) b r) as [b2 r2] eqn:G. apply go_len in G.
    destruct (skip_silent b2 r2) as [b3 r3] eqn:SK.
    assert (length r3 <= length r2).
    { unfold skip_silent in SK. destruct r2 as [|c r2]; [injection SK as _ <-; cbn; lia|].
      destruct (c =? 33)%N; injection SK as _ <-; cbn; lia. }
    destruct cache; [|injection PS as _ <-; lia].
    unfold skip_cache in PS. apply go_len in PS. lia. }
  assert (HS0 : rev b0 ++ r0 = src) by srcs.
  destruct r0 as [|o r1]; [discriminate|].
  destruct (opener o) eqn:OO.
  - cbv zeta.
    destruct (take_ws (o :: b0) r1) as [w0 [b2 r2]] eqn:W.
    destruct (take_ws_ok X _ _ _ _ _ W) as (A2 & S2 & _ & _ & _). pose proof (adv_len _ _ _ _ A2) as L2.
    assert (HS2 : rev b2 ++ r2 = src) by srcs. cbn in *.
    assert (OP1 : opened X src [(o, length b0)] r1) by (apply opened_push; auto; exact Logic.I).
    assert (OP2 : opened X src [(o, length b0)] r2) by (eapply opened_step; eassumption).
    destruct (at_ident r2) eqn:AI.
    + eapply bnd_some; [apply (u_chunks n IH); [exact HS2|lia]|apply (i_chunks X src _ INV); exact HS2|].
      cbn beta. intros cs b3 r3 (A3 & S3 & _). pose proof (adv_len _ _ _ _ A3) as L3.
      destruct (gen_var X um false cs) as [x|]; [|discriminate].
      destruct (take_ws b3 r3) as [w [b4 r4]] eqn:W4.
      destruct (take_ws_ok X _ _ _ _ _ W4) as (A4 & S4 & _ & _ & _). pose proof (adv_len _ _ _ _ A4) as L4.
      assert (HS4 : rev b4 ++ r4 = src) by srcs.
      assert (OP4 : opened X src [(o, length b0)] r4) by (eapply opened_step; [exact OP2|eauto using span_trans]).
      destruct r4 as [|c r4]; [discriminate|].
      destruct (x_filterargs X && (c =? 44)%N).
      { eapply bnd_some; [apply (u_callargs n IH); [exact HS4|exact OP4|discriminate|lia]
          |apply (i_callargs X src _ INV); [exact HS4|exact OP4|discriminate]|discriminate]. }
      destruct (c =? mate o)%N; [discriminate|].
      eapply bnd_some; [apply (u_expr n IH); [exact HS4|exact OP4|lia]|apply (i_expr X src _ INV); [exact HS4|exact OP4]|].
      intros y b5 r5 _. destruct (strip_close o y); discriminate.
    + eapply bnd_some; [apply (u_expr n IH); [exact HS2|exact OP2|lia]|apply (i_expr X src _ INV); [exact HS2|exact OP2]|].
      intros y b5 r5 _. destruct (strip_close o y); discriminate.
  - destruct (identchar o).
    + eapply bnd_some; [apply (u_chunks n IH); [exact HS0|lia]|apply (i_chunks X src _ INV); exact HS0|].
      intros cs b3 r3 _. destruct (gen_var X um false cs); discriminate.
    + eapply bnd_some; [apply (u_expr n IH); [exact HS0|exact Logic.I|lia]|apply (i_expr X src _ INV); [exact HS0|exact Logic.I]|].
      discriminate.
Qed.

End Step.

Theorem all_enough : forall n, enough n.
Proof.
  induction n as [|n IH].
  - constructor; intros; exfalso; lia.
  - constructor; [apply expr_some|apply callargs_some|apply cargs_some|apply cvar_some|apply chunks_some
      |apply transform_some|apply cstr_some|apply placeholder_some]; exact IH.
Qed.

End Fuel.
