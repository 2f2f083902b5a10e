(** Expressions with nothing to translate are copied. *)
From Verif Require Import Base PyStr Lex_Model Expr_Model Expr_Spec Expr_Proofs ExprMain_Proofs VarCode_Proofs.

Section Verb.
Variable X : lang.
Hypothesis XO : lang_ok X.
Local Notation T := (x_T X).

Lemma untouched_app : forall a b, untouched X (a ++ b) -> untouched X b.
Proof. intros a b H p c r E. apply (H (a ++ p) c r). rewrite E, <- app_assoc. reflexivity. Qed.

Lemma untouched_cons : forall c r, untouched X (c :: r) -> untouched X r.
Proof. intros c r H. apply (untouched_app [c] r H). Qed.

Lemma pre_ok : forall t x code b' r', pre t x = ok code b' r' ->
  exists code1, x = ok code1 b' r' /\ code = t ++ code1.
Proof. intros t x code b' r' H. apply bnd_ok in H as (a & b & r & -> & H). injection H as <- <- <-. eauto. Qed.

Lemma go_firstn : forall k b r b' r', go k b r = (b', r') -> k <= length r -> r = firstn k r ++ r'.
Proof. intros k b r b' r' G L. rewrite go_eq in G by exact L. injection G as _ <-. symmetry. apply firstn_skipn. Qed.

Lemma transform_verb : forall n um b r k b1 r1 t b2 r2, untouched X r -> x_tok X r = Some k -> go k b r = (b1, r1) ->
  transform X n um b r (firstn k r) b1 r1 = ok t b2 r2 -> t = Some (firstn k r) /\ b2 = b1 /\ r2 = r1.
Proof.
  intros n um b r k b1 r1 t b2 r2 U K G H. destruct n as [|n]; [discriminate|].
  change (transform X (S n)) with (transform_step X (cstr X n)) in H. unfold transform_step in H.
  destruct (str_eqb (firstn k r) (L "c") && quote_at r1) eqn:C; [|injection H as <- <- <-; auto].
  exfalso. apply andb_true_iff in C as [C1 C2]. apply str_eqb_eq in C1.
  pose proof (tok_len X XO _ _ K) as KL. pose proof (go_firstn _ _ _ _ _ G ltac:(lia)) as E. rewrite C1 in E.
  destruct (U [] 99%N r1) as (_ & _ & _ & U4); [rewrite E; reflexivity|]. rewrite (U4 eq_refl) in C2. discriminate.
Qed.

Record verb (n : nat) : Prop := {
  v_expr : forall um en enc brk b r code b' r', untouched X r -> expr X n um en enc brk b r = ok code b' r' -> r = code ++ r';
  v_callargs : forall um b r code b' r', untouched X r -> callargs X n um [] b r = ok code b' r' -> r = code ++ r';
  v_cargs : forall um p b r code b' r', untouched X r -> cargs X n um [(40%N, p)] b r = ok code b' r' -> r = code ++ r' }.

Theorem all_verb : forall n, verb n.
Proof.
  induction n as [|n IH]; [constructor; intros; discriminate|]. constructor.
  - intros um en enc brk b r code b' r' U H.
    change (expr X (S n)) with (expr_step X (expr X n) (callargs X n) (cvar X n) (transform X n)) in H. unfold expr_step in H.
    destruct r as [|c r].
    { destruct enc as [|[o p] enc]; [injection H as <- <- <-; reflexivity|discriminate]. }
    assert (U1 : untouched X r) by (eapply untouched_cons; exact U).
    destruct (U [] c r eq_refl) as (UX & UE & UB & UC).
    assert (ONE : forall enc' b1 w, pre [c] (expr X n um en enc' brk b1 r) = ok w b' r' -> c :: r = w ++ r').
    { intros enc' b1 w P. apply pre_ok in P as (w1 & P & ->). cbn. f_equal. eapply (v_expr n IH); eassumption. }
    destruct (opener c); [eapply ONE; exact H|].
    destruct (en && empty enc); [injection H as <- <- <-; reflexivity|].
    destruct (closer c).
    { destruct enc as [|[o p] enc]; [discriminate|]. destruct (c =? mate o)%N; [eapply ONE; exact H|discriminate]. }
    destruct (blank c) eqn:BL.
    { destruct (take_ws b (c :: r)) as [w [b1 r1]] eqn:W.
      destruct (take_ws_ok X _ _ _ _ _ W) as (_ & _ & E1 & _ & _). apply pre_ok in H as (code1 & H & ->).
      rewrite E1, <- app_assoc. f_equal. eapply (v_expr n IH); [|exact H]. apply (untouched_app w). rewrite <- E1. exact U. }
    destruct (m_tok (t_dirend T) b (c :: r) && empty enc); [injection H as <- <- <-; reflexivity|].
    destruct (N.eqb_spec c 92); [congruence|]. cbn [andb] in H.
    rewrite UE, UX in H.
    destruct (m_var T b (c :: r)).
    { exfalso. revert H. unfold var_error, fail, err. clear. cbv zeta.
      repeat match goal with |- context [if ?c then _ else _] => destruct c | |- context [match ?c with _ => _ end] => destruct c end; discriminate. }
    destruct (x_tok X (c :: r)) as [k|] eqn:K; [|discriminate].
    pose proof (tok_len X XO _ _ K) as KL.
    destruct (go k b (c :: r)) as [b1 r1] eqn:G. pose proof (go_firstn _ _ _ _ _ G ltac:(lia)) as E.
    assert (U2 : untouched X r1) by (apply (untouched_app (firstn k (c :: r))); rewrite <- E; exact U).
    destruct (empty enc && existsb (str_eqb (firstn k (c :: r))) brk); [injection H as <- <- <-; reflexivity|].
    apply bnd_ok in H as (t & b2 & r2 & H & H2). apply (transform_verb n um b (c :: r) k b1 r1) in H as (-> & -> & ->); auto.
    remember (firstn k (c :: r)) as tok. rewrite E. clear E K G KL Heqtok.
    destruct (at_ident tok).
    2:{ apply pre_ok in H2 as (code1 & H2 & ->). rewrite <- app_assoc. f_equal. eapply (v_expr n IH); eassumption. }
    destruct (str_eqb tok (L "for")).
    { apply bnd_ok in H2 as (x & b3 & r3 & H3 & H2). apply (v_expr n IH) in H3; [|exact U2].
      apply pre_ok in H2 as (code1 & H2 & ->). rewrite <- !app_assoc. f_equal. rewrite H3 at 1. f_equal.
      eapply (v_expr n IH); [|exact H2]. apply (untouched_app x). rewrite <- H3. exact U2. }
    destruct (take_ws b1 r1) as [w [b3 r3]] eqn:W. destruct (take_ws_ok X _ _ _ _ _ W) as (_ & _ & E1 & _ & _).
    assert (U3 : untouched X r3) by (apply (untouched_app w); rewrite <- E1; exact U2).
    destruct (at_char 40 r3).
    + apply bnd_ok in H2 as (x & b4 & r4 & H3 & H2). apply (v_callargs n IH) in H3; [|exact U3].
      apply pre_ok in H2 as (code1 & H2 & ->). rewrite <- !app_assoc. f_equal. rewrite E1. f_equal. rewrite H3 at 1. f_equal.
      eapply (v_expr n IH); [|exact H2]. apply (untouched_app x). rewrite <- H3. exact U3.
    + apply pre_ok in H2 as (code1 & H2 & ->). rewrite <- !app_assoc. f_equal. rewrite E1. f_equal.
      eapply (v_expr n IH); eassumption.
  - intros um b r code b' r' U H. change (callargs X (S n)) with (callargs_step (cargs X n)) in H.
    unfold callargs_step in H. destruct r as [|c r]; [discriminate|].
    destruct (N.eqb_spec c 40) as [->|]; [|discriminate]. apply pre_ok in H as (code1 & H & ->). cbn. f_equal.
    eapply (v_cargs n IH); [eapply untouched_cons; exact U|exact H].
  - intros um p b r code b' r' U H.
    change (cargs X (S n)) with (cargs_step X (expr X n) (cargs X n) (cvar X n) (transform X n)) in H. unfold cargs_step in H.
    destruct r as [|c r]; [discriminate|].
    assert (U1 : untouched X r) by (eapply untouched_cons; exact U).
    destruct (U [] c r eq_refl) as (UX & UE & UB & UC).
    destruct (closer c).
    { destruct (N.eqb_spec c (mate 40)) as [->|]; [|discriminate]. injection H as <- <- <-. reflexivity. }
    destruct (blank c || eolchar c).
    { apply pre_ok in H as (code1 & H & ->). cbn. f_equal. eapply (v_cargs n IH); eassumption. }
    rewrite UX in H. destruct (m_var T b (c :: r)).
    { exfalso. revert H. unfold var_error, fail, err. clear. cbv zeta.
      repeat match goal with |- context [if ?c then _ else _] => destruct c | |- context [match ?c with _ => _ end] => destruct c end; discriminate. }
    destruct (x_tok X (c :: r)) as [k|] eqn:K; [|discriminate].
    pose proof (tok_len X XO _ _ K) as KL.
    destruct (go k b (c :: r)) as [b1 r1] eqn:G. pose proof (go_firstn _ _ _ _ _ G ltac:(lia)) as E.
    assert (U2 : untouched X r1) by (apply (untouched_app (firstn k (c :: r))); rewrite <- E; exact U).
    destruct (is_open_tok (firstn k (c :: r))).
    { apply bnd_ok in H as (x & b2 & r2 & H & H2). apply (v_expr n IH) in H; [|exact U].
      apply pre_ok in H2 as (code1 & H2 & ->). rewrite H at 1. rewrite <- app_assoc. f_equal.
      eapply (v_cargs n IH); [|exact H2]. apply (untouched_app x). rewrite <- H. exact U. }
    apply bnd_ok in H as (t & b2 & r2 & H & H2). apply (transform_verb n um b (c :: r) k b1 r1) in H as (-> & -> & ->); auto.
    apply pre_ok in H2 as (code1 & H2 & ->). rewrite E at 1. rewrite <- app_assoc. f_equal.
    eapply (v_cargs n IH); eassumption.
Qed.

End Verb.
