(** Consequences of the invariants of the expression parser, in the form the properties need. *)
From Verif Require Import Base PyStr Lex_Model Expr_Model Expr_Spec Expr_Proofs ExprMain_Proofs ExprFuel_Proofs.

Section Use.
Variable X : lang.
Hypothesis XO : lang_ok X.

Lemma args_ok : forall n um b r code b' r', callargs X n um [] b r = ok code b' r' ->
  exists r1, r = 40%N :: r1 /\ span X r1 (41%N :: r') /\ rev b' ++ r' = rev b ++ r /\
  (no_cstr (rev b ++ r) -> bal X code).
Proof.
  intros n um b r code b' r' H. destruct r as [|c r].
  { destruct n as [|n]; [discriminate|]. discriminate H. }
  pose proof (i_callargs X (rev b ++ c :: r) _ (all_inv X XO (rev b ++ c :: r) n) um [] b (c :: r) eq_refl Logic.I ltac:(discriminate)) as P.
  change (f_callargs (fns_at X n)) with (callargs X n) in P. rewrite H in P. cbn in P.
  destruct P as (A & x & -> & B & r1 & E & S1). exists r1. split; [exact E|]. split; [exact S1|].
  split; [apply adv_src; exact A|]. intro h. apply (bal_paren X x). auto.
Qed.

Lemma enclosed_ok : forall n um brk b r code b' r', expr X n um true [] brk b r = ok code b' r' ->
  groups X r r' /\ at_open r' = false /\ rev b' ++ r' = rev b ++ r /\ (no_cstr (rev b ++ r) -> bal X code).
Proof.
  intros n um brk b r code b' r' H.
  pose proof (i_expr X (rev b ++ r) _ (all_inv X XO (rev b ++ r) n) um true [] brk b r eq_refl Logic.I) as P.
  change (f_expr (fns_at X n)) with (expr X n) in P. rewrite H in P. cbn in P. unfold base in P.
  destruct P as (A & [[G _] B] & N). split; [exact G|]. split; [auto|]. split; [apply adv_src; exact A|exact B].
Qed.

Lemma expression_ok : forall n um brk b r code b' r', expr X n um false [] brk b r = ok code b' r' ->
  span X r r' /\ rev b' ++ r' = rev b ++ r /\ (no_cstr (rev b ++ r) -> bal X code).
Proof.
  intros n um brk b r code b' r' H.
  pose proof (i_expr X (rev b ++ r) _ (all_inv X XO (rev b ++ r) n) um false [] brk b r eq_refl Logic.I) as P.
  change (f_expr (fns_at X n)) with (expr X n) in P. rewrite H in P. cbn in P. unfold base in P.
  destruct P as (A & [G B] & N). split; [exact G|]. split; [apply adv_src; exact A|exact B].
Qed.

Lemma errors_ok : forall n um en brk b r e,
  expr X n um en [] brk b r = err e \/ (r <> [] /\ callargs X n um [] b r = err e) ->
  located X (rev b ++ r) e /\ (no_cstr (rev b ++ r) -> exists p m, e = XParse p m).
Proof.
  intros n um en brk b r e [H|[NE H]].
  - pose proof (i_expr X (rev b ++ r) _ (all_inv X XO (rev b ++ r) n) um en [] brk b r eq_refl Logic.I) as P.
    change (f_expr (fns_at X n)) with (expr X n) in P. rewrite H in P. exact P.
  - pose proof (i_callargs X (rev b ++ r) _ (all_inv X XO (rev b ++ r) n) um [] b r eq_refl Logic.I ltac:(auto)) as P.
    change (f_callargs (fns_at X n)) with (callargs X n) in P. rewrite H in P. exact P.
Qed.

Lemma placeholder_errors_ok : forall n um cache b r e, placeholder X n um cache b r = err e -> located X (rev b ++ r) e.
Proof.
  intros n um cache b r e H.
  pose proof (i_placeholder X (rev b ++ r) _ (all_inv X XO (rev b ++ r) n) um cache b r eq_refl) as P.
  change (f_placeholder (fns_at X n)) with (placeholder X n) in P. rewrite H in P. exact P.
Qed.

(** ** Counting *)

Lemma after_close_skip : forall k r st, k <= length r -> forallb (fun c => negb (bracket c)) (firstn k r) = true ->
  after_close st r = after_close st (skipn k r).
Proof.
  induction k as [|k IH]; intros r st L F; [reflexivity|]. destruct r as [|c r]; [reflexivity|].
  cbn in F. apply andb_true_iff in F as [F1 F2]. cbn [skipn]. cbn in L.
  cbn [after_close]. unfold bracket in F1. destruct (opener c); [discriminate|]. destruct (closer c); [discriminate|].
  apply IH; [lia|exact F2].
Qed.

Lemma bare_app : forall a b, bare X (a ++ b) -> bare X b.
Proof. intros a b H p c r k E. apply (H (a ++ p)). rewrite E, <- app_assoc. reflexivity. Qed.

Lemma forallb_skip : forall k (p : N -> bool) r, forallb p r = true -> forallb p (firstn k r) = true.
Proof.
  induction k as [|k IH]; intros p r H; [reflexivity|]. destruct r as [|c r]; [reflexivity|]. cbn in *.
  apply andb_true_iff in H as [H1 H2]. rewrite H1. cbn. auto.
Qed.

Lemma name_nobracket : forall c, namechar c = true -> negb (bracket c) = true.
Proof. intros c H. unfold namechar, identchar, bracket, opener, closer in *. lia. Qed.

Lemma eol_nobracket : forall r, forallb (fun c => negb (bracket c)) (firstn (eol_len r) r) = true.
Proof.
  intros [|c r]; [reflexivity|]. cbn [eol_len]. destruct (N.eqb_spec c 13) as [->|].
  - destruct r as [|d r]; [reflexivity|]. destruct (N.eqb_spec d 10) as [->|]; reflexivity.
  - destruct (N.eqb_spec c 10) as [->|]; reflexivity.
Qed.

Lemma lexeme_nobracket : forall r k, bare X r -> lexeme X r k ->
  k <= length r /\ forallb (fun c => negb (bracket c)) (firstn k r) = true.
Proof.
  intros r k B H. destruct H as [c r k NB K|c r BL|r MX|r AI|r AI|r EL].
  - pose proof (tok_len X XO _ _ K). split; [lia|]. exact (B [] c r k eq_refl NB K).
  - split; [cbn; lia|]. cbn. unfold blank, eolchar, bracket, opener, closer in *. lia.
  - pose proof (xvar_len X XO r MX) as [L1 _]. split; [exact L1|]. unfold m_xvar in MX. apply andb_true_iff in MX as [MX _].
    apply starts_with_iff in MX as [s ->]. rewrite firstn_app, Nat.sub_diag, firstn_all, app_nil_r. apply XO.
  - clear B AI. induction r as [|c r IH]; [cbn; auto|]. cbn [ident_len]. destruct (namechar c) eqn:NC; [|cbn; split; [lia|reflexivity]].
    destruct IH as [I1 I2]. split; [cbn; lia|]. cbn. rewrite name_nobracket by exact NC. exact I2.
  - split; [cbn; lia|reflexivity].
  - split; [cbn; pose proof (eol_len_le r); lia|]. cbn. apply eol_nobracket.
Qed.

Lemma mate_facts : forall o, opener o = true -> opener (mate o) = false /\ closer (mate o) = true /\ (mate o =? mate o)%N = true.
Proof.
  intros o H. unfold opener, closer, mate in *. destruct (N.eqb_spec o 40), (N.eqb_spec o 91); subst; cbn; repeat split; reflexivity || apply N.eqb_refl.
Qed.

Lemma span_suffix : forall r r', span X r r' -> exists w, r = w ++ r'.
Proof.
  intros r r' H. induction H as [r|r k r' L S1 [w IH]|o r1 r2 r' O S1 [w1 IH1] S2 [w2 IH2]].
  - exists []. reflexivity.
  - exists (firstn k r ++ w). rewrite <- app_assoc, <- IH. symmetry. apply firstn_skipn.
  - exists (o :: w1 ++ mate o :: w2). cbn. rewrite <- app_assoc. cbn. rewrite <- IH2, <- IH1. reflexivity.
Qed.

Lemma span_after : forall r r', span X r r' -> bare X r -> forall o st, after_close (o :: st) r = after_close (o :: st) r'.
Proof.
  intros r r' H. induction H as [r|r k r' L S1 IH|o r1 r2 r' O S1 IH1 S2 IH2]; intros B q st; [reflexivity| |].
  - destruct (lexeme_nobracket r k B L) as [K F]. rewrite (after_close_skip k r _ K F). apply IH.
    apply (bare_app (firstn k r)). rewrite firstn_skipn. exact B.
  - cbn [after_close]. rewrite O.
    assert (B1 : bare X r1) by (apply (bare_app [o]); exact B).
    rewrite (IH1 B1 o (q :: st)). destruct (mate_facts o O) as (M1 & M2 & M3). cbn [after_close]. rewrite M1, M2, M3.
    apply IH2. destruct (span_suffix _ _ S1) as [w E]. apply (bare_app (w ++ [mate o])). rewrite <- app_assoc. cbn.
    rewrite <- E. exact B1.
Qed.

Lemma args_close : forall n um b r code b' r', bare X r -> callargs X n um [] b r = ok code b' r' ->
  after_close [] r = Some r'.
Proof.
  intros n um b r code b' r' B H. destruct (args_ok _ _ _ _ _ _ _ H) as (r1 & -> & S1 & _).
  cbn [after_close]. change (opener 40) with true. cbn iota.
  rewrite (span_after _ _ S1); [reflexivity|]. apply (bare_app [40%N]). exact B.
Qed.

(** ** Long placeholders *)

Lemma long_ok : forall n um cache b r o r1 code fa b' r', r = t_var (x_T X) ++ o :: r1 -> opener o = true ->
  placeholder X n um cache b r = ok (code, fa) b' r' ->
  exists r2, span X r1 (mate o :: r2) /\ groups X r2 r' /\
    (at_open r2 = false -> r' = r2 /\ (no_cstr (rev b ++ r) -> bal X code)).
Proof.
  intros n um cache b r o r1 code fa b' r' E O H.
  pose proof (i_placeholder X (rev b ++ r) _ (all_inv X XO (rev b ++ r) n) um cache b r eq_refl) as P.
  change (f_placeholder (fns_at X n)) with (placeholder X n) in P. rewrite H in P. destruct P as [A P].
  assert (PS : snd (ph_start X cache b r) = o :: r1).
  { unfold ph_start. rewrite E, go_eq by (rewrite app_length; lia).
    rewrite skipn_app, skipn_all, Nat.sub_diag. cbn [skipn app].
    assert (N33 : (o =? 33)%N = false) by (unfold opener in O; lia).
    assert (N42 : (o =? 42)%N = false) by (unfold opener in O; lia).
    unfold skip_silent. rewrite N33. destruct cache; [|reflexivity].
    unfold skip_cache, after_cache. rewrite N42. rewrite Nat.sub_diag. reflexivity. }
  rewrite PS in P. cbn [ph_post fst] in P. rewrite O in P. destruct P as (r2 & S1 & G & B).
  exists r2. split; [exact S1|]. split; [exact G|]. intro AO. split; [|auto].
  destruct G as [r2|o2 r3 r4 r' O2 _ _]; [reflexivity|]. cbn in AO. congruence.
Qed.

(** ** Fuel *)

Definition le {A} (x y : option A) : Prop := x = None \/ x = y.

Lemma bnd_le : forall A B (x y : out A) (f g : A -> pystr -> pystr -> out B), le x y ->
  (forall a b r, le (f a b r) (g a b r)) -> le (bnd x f) (bnd y g).
Proof. intros A B x y f g [->| ->] H; [left; reflexivity|]. destruct y as [[[a [b r]]|e]|]; cbn; [apply H|right; reflexivity|left; reflexivity]. Qed.

Lemma pre_le : forall t x y, le x y -> le (pre t x) (pre t y).
Proof. intros. apply bnd_le; [assumption|]. intros. right. reflexivity. Qed.

Lemma le_refl : forall A (x : option A), le x x.
Proof. intros. right. reflexivity. Qed.

Record grows (F G : fns) : Prop := {
  g_expr : forall um en enc brk b r, le (f_expr F um en enc brk b r) (f_expr G um en enc brk b r);
  g_callargs : forall um enc b r, le (f_callargs F um enc b r) (f_callargs G um enc b r);
  g_cargs : forall um enc b r, le (f_cargs F um enc b r) (f_cargs G um enc b r);
  g_cvar : forall um p b r, le (f_cvar F um p b r) (f_cvar G um p b r);
  g_chunks : forall um b r, le (f_chunks F um b r) (f_chunks G um b r);
  g_transform : forall um b0 r0 t b r, le (f_transform F um b0 r0 t b r) (f_transform G um b0 r0 t b r);
  g_cstr : forall um lim acc b r, le (f_cstr F um lim acc b r) (f_cstr G um lim acc b r);
  g_placeholder : forall um c b r, le (f_placeholder F um c b r) (f_placeholder G um c b r) }.

Ltac mono H := repeat first
  [ apply le_refl | apply pre_le | apply (g_expr _ _ H) | apply (g_callargs _ _ H) | apply (g_cargs _ _ H)
  | apply (g_cvar _ _ H) | apply (g_chunks _ _ H) | apply (g_transform _ _ H) | apply (g_cstr _ _ H) | apply (g_placeholder _ _ H)
  | apply bnd_le; [|intros]
  | match goal with |- le (match ?c with _ => _ end) _ => destruct c end ].

Definition stepf (F : fns) : fns :=
  mkFns (expr_step X (f_expr F) (f_callargs F) (f_cvar F) (f_transform F))
        (callargs_step (f_cargs F))
        (cargs_step X (f_expr F) (f_cargs F) (f_cvar F) (f_transform F))
        (cvar_step X (f_chunks F))
        (chunks_step (f_expr F) (f_callargs F) (f_chunks F))
        (transform_step X (f_cstr F))
        (cstr_step X (f_cstr F) (f_placeholder F))
        (placeholder_step X (f_expr F) (f_callargs F) (f_chunks F)).

Lemma stepf_grows : forall F G, grows F G -> grows (stepf F) (stepf G).
Proof.
  intros F G IH. unfold stepf.
  constructor; intros; cbn [f_expr f_callargs f_cargs f_cvar f_chunks f_transform f_cstr f_placeholder].
  - unfold expr_step. mono IH.
  - unfold callargs_step. mono IH.
  - unfold cargs_step. mono IH.
  - unfold cvar_step. mono IH.
  - unfold chunks_step. cbv zeta. mono IH.
  - unfold transform_step. mono IH.
  - unfold cstr_step. mono IH.
  - unfold placeholder_step. cbv zeta. mono IH.
Qed.

Lemma grows_step : forall n, grows (fns_at X n) (fns_at X (S n)).
Proof.
  induction n as [|n IH]; [constructor; intros; left; reflexivity|].
  exact (stepf_grows _ _ IH).
Qed.

Lemma expr_more : forall m n um en enc brk b r x, expr X n um en enc brk b r = Some x -> n <= m -> expr X m um en enc brk b r = Some x.
Proof.
  intros m n um en enc brk b r x H L. induction L as [|m L IH]; [exact H|].
  destruct (g_expr _ _ (grows_step m) um en enc brk b r) as [Q|Q]; unfold expr in *; congruence.
Qed.

Lemma callargs_more : forall m n um enc b r x, callargs X n um enc b r = Some x -> n <= m -> callargs X m um enc b r = Some x.
Proof.
  intros m n um enc b r x H L. induction L as [|m L IH]; [exact H|].
  destruct (g_callargs _ _ (grows_step m) um enc b r) as [Q|Q]; unfold callargs in *; congruence.
Qed.

Lemma placeholder_more : forall m n um c b r x, placeholder X n um c b r = Some x -> n <= m -> placeholder X m um c b r = Some x.
Proof.
  intros m n um c b r x H L. induction L as [|m L IH]; [exact H|].
  destruct (g_placeholder _ _ (grows_step m) um c b r) as [Q|Q]; unfold placeholder in *; congruence.
Qed.

(** ** Termination *)

Lemma expr_ends : forall n um en brk b r, 5 * length r + 3 <= n -> expr X n um en [] brk b r <> None.
Proof. intros. apply (u_expr X (rev b ++ r) n (all_enough X XO (rev b ++ r) n)); auto. exact Logic.I. Qed.

Lemma callargs_ends : forall n um b r, 5 * length r + 5 <= n -> callargs X n um [] b r <> None.
Proof.
  intros n um b r L. destruct r as [|c r]; [destruct n; [lia|discriminate]|].
  apply (u_callargs X (rev b ++ c :: r) n (all_enough X XO (rev b ++ c :: r) n)); auto; [exact Logic.I|discriminate].
Qed.

Lemma placeholder_ends : forall n um cache b r, 5 * length r + 4 <= n -> placeholder X n um cache b r <> None.
Proof. intros. apply (u_placeholder X (rev b ++ r) n (all_enough X XO (rev b ++ r) n)); auto. Qed.

(** One result, the same with any sufficient bound. *)
Lemma expr_total : forall um en brk b r, exists x, forall n, 5 * length r + 3 <= n -> expr X n um en [] brk b r = Some x.
Proof.
  intros um en brk b r. destruct (expr X (5 * length r + 3) um en [] brk b r) as [x|] eqn:H.
  - exists x. intros n L. eapply expr_more; [exact H|exact L].
  - exfalso. revert H. apply expr_ends. lia.
Qed.

Lemma callargs_total : forall um b r, exists x, forall n, 5 * length r + 5 <= n -> callargs X n um [] b r = Some x.
Proof.
  intros um b r. destruct (callargs X (5 * length r + 5) um [] b r) as [x|] eqn:H.
  - exists x. intros n L. eapply callargs_more; [exact H|exact L].
  - exfalso. revert H. apply callargs_ends. lia.
Qed.

Lemma placeholder_total : forall um c b r, exists x, forall n, 5 * length r + 4 <= n -> placeholder X n um c b r = Some x.
Proof.
  intros um c b r. destruct (placeholder X (5 * length r + 4) um c b r) as [x|] eqn:H.
  - exists x. intros n L. eapply placeholder_more; [exact H|exact L].
  - exfalso. revert H. apply placeholder_ends. lia.
Qed.

End Use.
