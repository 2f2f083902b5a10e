(** Proofs: the whole parser comes to an end on every source, reads it from the first to the last character
    and reports errors at positions inside it. *)
From Verif Require Import Base PyStr Lex_Model Lex_Spec Lex_Proofs LexLines_Proofs LexAdv_Proofs.
From Verif Require Import Expr_Model Expr_Spec Expr_Proofs ExprMain_Proofs ExprFuel_Proofs ExprUse_Proofs.
From Verif Require Import Front_Model FrontParts_Proofs FrontEnds_Spec.
From Verif Require Gen_Model.
Local Open Scope nat_scope.

(** ** Outcomes *)

(** The same outcome on both sides, not out of fuel, [P] of the value, errors below [h]. *)
Definition ends {A} (h : nat) (P : A -> Prop) (x y : fout A) : Prop :=
  x = y /\ match x with None => False | Some (Ok a) => P a | Some (Raise e) => within h e end.

Lemma ends_bind : forall A B h (P : A -> Prop) (Q : B -> Prop) x y f g,
  ends h P x y -> (forall a, P a -> ends h Q (f a) (g a)) -> ends h Q (fbind x f) (fbind y g).
Proof.
  intros A B h P Q x y f g [<- H] K. destruct x as [[a|e]|]; cbn in *; [auto|split; auto|contradiction].
Qed.

Lemma ends_ok : forall A h (P : A -> Prop) a, P a -> ends h P (fok a) (fok a).
Proof. intros A h P a H. split; [reflexivity|exact H]. Qed.

Lemma ends_err : forall A h (P : A -> Prop) e, within h e -> ends h P (ferror e) (ferror e).
Proof. intros A h P e H. split; [reflexivity|exact H]. Qed.

Lemma ends_parse : forall A h (P : A -> Prop) b r, length b + length r <= h -> ends h P (fparse b r) (fparse b r).
Proof. intros A h P b r H. apply ends_err. destruct r; cbn in *; lia. Qed.

Lemma ends_g : forall A h (x : res Gen_Model.gerr A), ends h (fun _ => True) (from_g x) (from_g x).
Proof. intros A h [a|e]; split; cbn; auto. Qed.

Lemma ends_weaken : forall A h (P Q : A -> Prop) x y, ends h P x y -> (forall a, P a -> Q a) -> ends h Q x y.
Proof. intros A h P Q x y [E H] K. split; [exact E|]. destruct x as [[a|e]|]; auto. Qed.

Lemma within_up : forall h k e, within h e -> h <= k -> within k e.
Proof. intros h k e H L. destruct e as [| [p m| | |] | |p| |]; cbn in *; auto; lia. Qed.

Lemma ends_up : forall A h k (P : A -> Prop) x y, ends h P x y -> h <= k -> ends k P x y.
Proof. intros A h k P x y [E H] K. split; [exact E|]. destruct x as [[a|e]|]; auto. eapply within_up; eassumption. Qed.

(** A value with a position behind [(b, r)] with at most [n] characters left. *)
Definition left {A} (b r : pystr) (n : nat) : A * (pystr * pystr) -> Prop :=
  fun v => adv b r (fst (snd v)) (snd (snd v)) /\ length (snd (snd v)) <= n.

Lemma located_within : forall X src e, located X src e -> within (length src) (FExpr e).
Proof.
  intros X src [p m| | |] H; try exact Logic.I. cbn in *.
  assert (K : forall o r, skipn p src = o :: r -> p <= pred (length src)).
  { intros o r Q. apply (f_equal (@length N)) in Q. rewrite skipn_length in Q. cbn in Q. lia. }
  destruct m; try exact H.
  - destruct H as (r & Q & _). eauto.
  - destruct H as (r & r' & Q & _). eauto.
Qed.

Lemma src_len : forall (b r : pystr), length (rev b ++ r) = length b + length r.
Proof. intros. rewrite app_length, rev_length. reflexivity. Qed.

Lemma ends_x : forall A X h b r n (x : out A), length b + length r <= h -> x <> None ->
  post (fun _ b' r' => adv b r b' r' /\ length r' <= n) (located X (rev b ++ r)) x ->
  ends h (left b r n) (from_x x) (from_x x).
Proof.
  intros A X h b r n [[[a [b' r']]|e]|] H NE P; [| |congruence]; (split; [reflexivity|]); cbn in P |- *.
  - exact P.
  - apply located_within in P. rewrite src_len in P. apply (within_up _ h) in P; [exact P|exact H].
Qed.

(** ** The expression parser *)

Lemma namerun_adv : forall r b w b' r', namerun b r = (w, (b', r')) -> adv b r b' r'.
Proof.
  induction r as [|c r IH]; intros b w b' r' H; cbn [namerun] in H; [injection H as _ <- <-; apply adv_refl|].
  destruct (namechar c); [|injection H as _ <- <-; apply adv_refl].
  destruct (namerun (c :: b) r) as [w1 [b1 r1]] eqn:Q. injection H as _ <- <-. apply adv_cons. eauto.
Qed.

Lemma namerun_strict : forall r b, at_ident r = true -> length (snd (snd (namerun b r))) < length r.
Proof.
  intros [|c r] b H; [discriminate H|]. cbn in H. cbn [namerun].
  assert (K : namechar c = true) by (unfold namechar; rewrite H; reflexivity). rewrite K.
  destruct (namerun (c :: b) r) as [w [b' r']] eqn:Q. apply namerun_adv, adv_len in Q. cbn in *. lia.
Qed.

Lemma silent_adv : forall b r b' r', skip_silent b r = (b', r') -> adv b r b' r'.
Proof.
  intros b [|c r] b' r' H; cbn in H; [injection H as <- <-; apply adv_refl|].
  destruct (c =? 33)%N; injection H as <- <-; [apply adv_one|apply adv_refl].
Qed.

Lemma cache_adv : forall b r b' r', skip_cache b r = (b', r') -> adv b r b' r'.
Proof. intros b r b' r' H. unfold skip_cache in H. eapply go_adv. exact H. Qed.

Section Lang.
Variable X : lang.
Hypothesis XO : lang_ok X.

Lemma expr_left : forall h n um en brk b r, 5 * length r + 3 <= n -> length b + length r <= h ->
  ends h (left b r (length r)) (from_x (expr X n um en [] brk b r)) (from_x (expr X n um en [] brk b r)).
Proof.
  intros h n um en brk b r H H2. apply (ends_x _ X); [exact H2|apply (expr_ends X XO); exact H|].
  eapply post_weaken; [apply (i_expr X (rev b ++ r) _ (all_inv X XO (rev b ++ r) n)); [reflexivity|exact Logic.I]| |].
  - intros a b' r' [A _]. split; [exact A|]. apply adv_len in A. exact A.
  - intros e [P _]. exact P.
Qed.

Lemma chunks_left : forall h n um b r, 5 * length r + 1 <= n -> length b + length r <= h ->
  ends h (left b r (length r)) (from_x (chunks X n um b r)) (from_x (chunks X n um b r)).
Proof.
  intros h n um b r H H2. apply (ends_x _ X); [exact H2| |].
  - apply (u_chunks X (rev b ++ r) n (all_enough X XO (rev b ++ r) n)); auto.
  - eapply post_weaken; [apply (i_chunks X (rev b ++ r) _ (all_inv X XO (rev b ++ r) n)); reflexivity| |].
    + intros a b' r' [A _]. split; [exact A|]. apply adv_len in A. exact A.
    + intros e [P _]. exact P.
Qed.

Lemma fail_left : forall A h b r b' r' n m, length b' + length r' <= h ->
  match m with MEof _ | MMismatch _ _ => False | _ => True end ->
  ends h (@left A b r n) (from_x (fail b' r' m)) (from_x (fail b' r' m)).
Proof.
  intros A h b r b' r' n m H M. split; [reflexivity|]. cbn. destruct r'; cbn in *; lia.
Qed.

Lemma cvar_left : forall h n um plain b r, 5 * length r + 2 <= n -> length b + length r <= h ->
  ends h (left b r (length r)) (from_x (cvar X n um plain b r)) (from_x (cvar X n um plain b r)).
Proof.
  intros h n um plain b r H H2. destruct n as [|n]; [lia|].
  change (cvar X (S n)) with (cvar_step X (chunks X n)). unfold cvar_step.
  destruct (m_vartok (x_T X) b r); [|apply fail_left; [exact H2|exact Logic.I]].
  destruct (go (length (t_var (x_T X))) b r) as [b1 r1] eqn:G1. apply go_adv in G1. pose proof (adv_tot _ _ _ _ G1). apply adv_len in G1 as K1.
  destruct (skip_silent b1 r1) as [b2 r2] eqn:G2. apply silent_adv in G2. pose proof (adv_tot _ _ _ _ G2). apply adv_len in G2 as K2.
  destruct (skip_cache b2 r2) as [b3 r3] eqn:G3. apply cache_adv in G3. pose proof (adv_tot _ _ _ _ G3). apply adv_len in G3 as K3.
  destruct (chunks_left h n um b3 r3 ltac:(lia) ltac:(lia)) as [_ C]. split; [reflexivity|].
  destruct (chunks X n um b3 r3) as [[[a [b' r']]|e]|]; cbn in C |- *; [|exact C|contradiction].
  destruct C as [A C]. cbn in A, C. destruct (gen_var X um plain a); [|exact Logic.I]. split; cbn; [advs|lia].
Qed.

Lemma cvar_less : forall h n um b r, m_xvar (x_T X) r = true -> 5 * length r + 2 <= n -> length b + length r <= h ->
  ends h (left b r (length r - 1)) (from_x (cvar X n um false b r)) (from_x (cvar X n um false b r)).
Proof.
  intros h n um b r M H H2. destruct (cvar_left h n um false b r H H2) as [_ C]. split; [reflexivity|].
  pose proof (cvar_strict X XO (rev b ++ r) n um false b r eq_refl M) as P.
  destruct (cvar X n um false b r) as [[[a [b' r']]|e]|]; cbn in *; auto. destruct C as [C _]. split; [exact C|].
  cbn. destruct P as (_ & _ & P). lia.
Qed.

Lemma placeholder_left : forall h n um cache b r, 5 * length r + 4 <= n -> length b + length r <= h ->
  ends h (left b r (length r - 1)) (from_x (placeholder X n um cache b r)) (from_x (placeholder X n um cache b r)).
Proof.
  intros h n um cache b r H H2. apply (ends_x _ X); [exact H2|apply (placeholder_ends X XO); exact H|].
  pose proof (i_placeholder X (rev b ++ r) _ (all_inv X XO (rev b ++ r) n) um cache b r eq_refl) as P.
  change (f_placeholder (fns_at X n)) with (placeholder X n) in P.
  destruct (placeholder X n um cache b r) as [[[a [b' r']]|e]|] eqn:Q; [|exact P|exact Logic.I].
  destruct P as [A P]. cbn. split; [exact A|].
  destruct n as [|n]; [lia|].
  change (placeholder X (S n)) with (placeholder_step X (expr X n) (callargs X n) (chunks X n)) in Q.
  unfold placeholder_step in Q. destruct (m_vartok (x_T X) b r) eqn:MV; [|discriminate]. clear Q.
  destruct (vartok_len X XO _ _ MV) as [L1 L2].
  destruct (ph_start X cache b r) as [b0 r0] eqn:PS. cbn [snd fst] in P.
  assert (S0 : length r0 < length r).
  { unfold ph_start in PS. destruct (go (length (t_var (x_T X))) b r) as [b2 r2] eqn:G. apply ExprFuel_Proofs.go_len in G.
    destruct (skip_silent b2 r2) as [b3 r3] eqn:G2. apply silent_adv, adv_len in G2.
    destruct cache; [apply cache_adv, adv_len in PS; lia|]. injection PS as _ <-. lia. }
  unfold ph_post in P. destruct r0 as [|o r0]; [contradiction|].
  destruct (opener o).
  - destruct P as (r3 & S3 & G3 & _). apply (span_len X) in S3. apply (groups_len X) in G3. cbn in *. lia.
  - destruct P as [S3 _]. apply (span_len X) in S3. cbn in *. lia.
Qed.

Lemma default_left : forall h um b r, length b + length r <= h ->
  ends h (left b r (length r - 1)) (get_default_token X um b r) (get_default_token X um b r).
Proof.
  intros h um b r H2. unfold get_default_token. destruct (x_tok X r) as [k|] eqn:K; [|apply ends_err; destruct r; cbn in *; lia].
  pose proof (tok_len X XO _ _ K) as KL.
  destruct (is_open_tok (firstn k r)) eqn:O.
  - destruct r as [|c r]; [destruct k; discriminate O|].
    assert (OC : opener c = true).
    { destruct k as [|k]; [discriminate O|]. cbn [firstn] in O. unfold is_open_tok in O.
      destruct (firstn k r); [exact O|discriminate O]. }
    destruct (expr_left h (enough (c :: r)) um true [] b (c :: r) ltac:(unfold enough; lia) H2) as [_ XL].
    eapply (ends_bind _ _ _ (fun v : pystr * (pystr * pystr) => (exists y, fst v = c :: y) /\ left b (c :: r) (length r) v)).
    + split; [reflexivity|].
      destruct (expr X (enough (c :: r)) um true [] [] b (c :: r)) as [[[x [b1 r1]]|e]|] eqn:Q; [|exact XL|contradiction].
      cbn. split.
      * unfold enough in Q. replace (5 * length (c :: r) + 10) with (S (5 * length (c :: r) + 9)) in Q by lia.
        set (m := 5 * length (c :: r) + 9) in Q. unfold expr in Q. cbn [fns_at f_expr] in Q. unfold expr_step in Q. rewrite OC in Q.
        unfold pre, bnd in Q.
        destruct (f_expr (fns_at X m) um true [(c, length b)] [] (c :: b) r) as [[[y [b2 r2]]|e]|]; try discriminate.
        injection Q as <- _ _. exists y. reflexivity.
      * pose proof (i_expr X (rev b ++ c :: r) _ (all_inv X XO (rev b ++ c :: r) (enough (c :: r))) um true [] [] b (c :: r) eq_refl Logic.I) as P.
        change (f_expr (fns_at X (enough (c :: r)))) with (expr X (enough (c :: r))) in P. rewrite Q in P.
        destruct P as (A & _ & B). split; [exact A|]. apply adv_strict in A; [cbn in *; lia|exact OC|apply B; reflexivity].
    + intros [x [b1 r1]] [[y Y] L1]. cbn in Y. subst x.
      replace (enough (c :: r)) with (S (enough (c :: r) - 1)) by (unfold enough; lia).
      change (transform X (S (enough (c :: r) - 1))) with (transform_step X (cstr X (enough (c :: r) - 1))).
      unfold transform_step.
      assert (NC : str_eqb (c :: y) (L "c") = false).
      { destruct (str_eqb_spec (c :: y) (L "c")) as [Ec|]; [|reflexivity]. injection Ec as -> _. discriminate OC. }
      rewrite NC. cbn. split; [reflexivity|]. destruct L1 as [L1 L2]. split; [exact L1|cbn in *; lia].
  - destruct (go k b r) as [b1 r1] eqn:G. apply (ends_x _ X); [exact H2| |].
    + apply (u_transform X (rev b ++ r) (enough r) (all_enough X XO (rev b ++ r) _)); auto. unfold enough. lia.
    + eapply post_weaken; [apply (i_transform X (rev b ++ r) _ (all_inv X XO (rev b ++ r) (enough r))); [reflexivity|exact K|exact G]| |].
      * intros a b' r' [A _]. split; [eapply adv_trans; [eapply go_adv; exact G|exact A]|].
        apply adv_len in A. apply ExprFuel_Proofs.go_len in G. lia.
      * intros e [P _]. exact P.
Qed.
End Lang.

Lemma var_error_left : forall A T h b r n, length b + length r <= h ->
  ends h (@left A b r n) (from_x (var_error T b r)) (from_x (var_error T b r)).
Proof.
  intros A T h b r n H. unfold var_error. cbv zeta.
  repeat match goal with |- context [if ?c then _ else _] => destruct c | |- context [match ?c with _ => _ end] => destruct c end;
    (apply fail_left; [exact H|exact Logic.I]).
Qed.

(** ** The loop of the argument lists *)

Section Loop.
Variable X : lang.
Hypothesis XO : lang_ok X.

Lemma def_loop_left : forall h fuel um exit a ondef b r, length r < fuel -> length b + length r <= h ->
  ends h (left b r (length r)) (def_loop fuel X um exit a ondef b r) (def_loop fuel X um exit a ondef b r).
Proof.
  intro h. induction fuel as [|n IH]; intros um exit a ondef b r H H2; [lia|].
  assert (REC : forall a o b' r', adv b r b' r' -> length r' < length r ->
            ends h (left b r (length r)) (def_loop n X um exit a o b' r') (def_loop n X um exit a o b' r')).
  { intros a' o b' r' A L1. pose proof (adv_tot _ _ _ _ A).
    eapply ends_weaken; [apply IH; lia|]. intros v [V1 V2]. split; [advs|lia]. }
  cbn [def_loop]. destruct r as [|c r1]; [apply ends_parse; cbn in *; lia|].
  assert (A1 : adv b (c :: r1) (c :: b) r1) by apply adv_one.
  assert (OK : ends h (left b (c :: r1) (length (c :: r1))) (fok (a, (b, c :: r1))) (fok (a, (b, c :: r1)))).
  { apply ends_ok. split; [apply adv_refl|cbn; lia]. }
  destruct (match exit with Some k => _ | None => false end); [exact OK|].
  destruct ((c =? 41)%N || m_tok (t_dirend (x_T X)) b (c :: r1)); [exact OK|].
  destruct (c =? 58)%N; [exact OK|].
  destruct (blank c || eolchar c).
  { destruct ondef; [destruct (add_default a [c]); [|apply ends_err; exact Logic.I]|]; (apply REC; [exact A1|cbn; lia]). }
  destruct (c =? 61)%N; [apply REC; [exact A1|cbn; lia]|].
  destruct (c =? 44)%N; [apply REC; [exact A1|cbn; lia]|].
  destruct (starts_with (t_var (x_T X)) (c :: r1) && negb ondef) eqn:SV.
  { destruct (go (length (t_var (x_T X))) b (c :: r1)) as [b2 r2] eqn:G.
    apply REC; [eapply go_adv; exact G|]. apply ExprFuel_Proofs.go_len in G.
    destruct XO as (_ & _ & NE & _). destruct (t_var (x_T X)); [congruence|]. cbn in *. lia. }
  destruct (at_ident (c :: r1) && negb ondef) eqn:AI.
  { apply andb_true_iff in AI as [AI _]. pose proof (namerun_strict (c :: r1) b AI) as NS.
    destruct (namerun b (c :: r1)) as [w [b2 r2]] eqn:Q. apply namerun_adv in Q. apply REC; [exact Q|exact NS]. }
  destruct ondef.
  { eapply (ends_bind _ _ _ (left b (c :: r1) (length (c :: r1) - 1))).
    - destruct (m_xvar (x_T X) (c :: r1)) eqn:MX.
      { eapply ends_bind; [apply (cvar_less X XO); [exact MX|unfold enough; lia|exact H2]|].
        intros [x [b2 r2]] V. apply ends_ok. exact V. }
      destruct (m_var (x_T X) b (c :: r1)); [apply var_error_left; exact H2|]. apply (default_left X XO). exact H2.
    - intros [t [b2 r2]] [V1 V2]. cbn in V1, V2. destruct t as [t|]; [|apply ends_err; exact Logic.I].
      destruct (add_default a t); [|apply ends_err; exact Logic.I]. apply REC; [exact V1|cbn; lia]. }
  destruct (c =? 42)%N; [|apply ends_parse; cbn in *; lia].
  destruct (if at_char 42 r1 then (L "**", go 2 b (c :: r1)) else (L "*", go 1 b (c :: r1))) as [st [b2 r2]] eqn:G.
  assert (G2 : adv b (c :: r1) b2 r2 /\ length r2 <= length r1).
  { pose proof (LexLines_Proofs.go_len 2 b (c :: r1)) as K1. pose proof (LexLines_Proofs.go_len 1 b (c :: r1)) as K2.
    destruct (at_char 42 r1); apply (f_equal snd) in G; cbn [snd] in G; (split; [eapply go_adv; exact G|]).
    - rewrite G in K1. cbn in K1. lia.
    - rewrite G in K2. cbn in K2. lia. }
  destruct G2 as [G2 G3]. pose proof (adv_tot _ _ _ _ G2) as TT.
  unfold get_ident. destruct (at_ident r2); [|apply ends_parse; cbn in *; lia].
  destruct (namerun b2 r2) as [w [b3 r3]] eqn:Q. apply namerun_adv in Q. apply adv_len in Q as NL. cbn [fbind fok].
  apply REC; [advs|cbn; lia].
Qed.
End Loop.

(** ** Eating *)

Lemma lang_with_ok : forall X a b, lang_ok X -> lang_ok (lang_with X a b).
Proof. intros X a b H. exact H. Qed.

Lemma skip_dir_less : forall T nm b r, t_dir T <> [] -> m_dirstart T b r <> None ->
  length (snd (skip_dir T nm b r)) < length r.
Proof.
  intros T nm b r NE M. unfold skip_dir. destruct (m_dirstart T b r) as [r1|] eqn:D; [|congruence].
  apply m_dirstart_iff in D. destruct D as (_ & (w & D & _) & _).
  rewrite LexLines_Proofs.go_len. apply (f_equal (@length N)) in D. rewrite !app_length in D.
  destruct (t_dir T); [congruence|]. cbn [length] in D. lia.
Qed.

Section Front.
Variable E : env.
Hypothesis EO : readable E.
Hypothesis MO : others_move E.
Local Notation T := (x_T (e_X E)).
Local Notation G := (e_G E).

(** A state behind [(b, r)] with at most [n] characters left. *)
Definition rests (b r : pystr) (n : nat) : fstate -> Prop :=
  fun s => adv b r (f_b s) (f_r s) /\ length (f_r s) <= n.

Section Sub.
(** [h]: the length of the text, [N]: what is left of it. *)
Variable h N : nat.

Lemma get_expr_left : forall c um brk b r, length b + length r <= h ->
  ends h (left b r (length r)) (get_expr E c um brk b r) (get_expr E c um brk b r).
Proof. intros. unfold get_expr. apply expr_left; [apply lang_with_ok, EO|unfold enough; lia|assumption]. Qed.

Lemma get_parts_left : forall c um brk b r, length b + length r <= h ->
  ends h (left b r (length r)) (get_parts E c um brk b r) (get_parts E c um brk b r).
Proof.
  intros c um brk b r H. destruct (get_expr_left c um brk b r H) as [_ K]. split; [reflexivity|]. unfold get_expr, get_parts in *.
  rewrite parts_join in K. unfold joined in K. destruct (parts (lang_at E c) (enough r) um [] brk b r) as [[[l [b1 r1]]|e]|]; exact K.
Qed.

Lemma ident_left : forall b r, length b + length r <= h ->
  ends h (left b r (length r)) (get_ident b r) (get_ident b r).
Proof.
  intros b r H. unfold get_ident. destruct (at_ident r); [|apply ends_parse; cbn in *; lia]. apply ends_ok.
  destruct (namerun b r) as [w [b1 r1]] eqn:Q. apply namerun_adv in Q. split; [exact Q|apply adv_len in Q; exact Q].
Qed.

Lemma def_args_left : forall c um b r, length b + length r <= h ->
  ends h (left b r (length r)) (def_args E c um b r) (def_args E c um b r).
Proof.
  intros c um b r H. unfold def_args. cbv zeta. destruct r as [|d r1]; [apply ends_err; exact Logic.I|].
  assert (A1 : adv b (d :: r1) (d :: b) r1) by apply adv_one.
  destruct (d =? 40)%N;
    (eapply ends_bind; [apply def_loop_left; [apply lang_with_ok, EO|lia|cbn in *; lia]|]; intros [a [b' r']] [V1 V2];
     apply ends_ok; split; cbn in *; [advs|lia]).
Qed.

Lemma other_less : forall name s, length (f_b s) + length (f_r s) <= h ->
  ends h (rests (f_b s) (f_r s) (length (f_r s) - 1)) (e_other E name s) (e_other E name s).
Proof.
  intros name s H. destruct (proj1 MO name s) as (x & Q & P). rewrite Q. split; [reflexivity|].
  destruct x as [s'|e]; [|eapply within_up; [exact P|exact H]].
  destruct P as (w & NE & R1 & R2). split; [exists w; auto|]. rewrite R1, app_length. destruct w; [congruence|]. cbn. lia.
Qed.

Lemma tag_left : forall clear fe s,
  ends h (rests (f_b s) (f_r s) (length (f_r s))) (rest_of_tag E clear fe s) (rest_of_tag E clear fe s).
Proof.
  intros clear fe s. unfold rest_of_tag, with_lex. split; [reflexivity|].
  pose proof (tag_adv T clear fe (mkP (f_b s) (f_r s) (top_buf (f_c s)))) as H. split; [exact H|].
  apply adv_len in H. exact H.
Qed.

Lemma colon_left : forall b r,
  ends h (fun v => adv b r (fst v) (snd v) /\ length (snd v) <= length r) (skip_colon b r) (skip_colon b r).
Proof.
  intros b [|c r]; [apply ends_err; exact Logic.I|]. cbn. apply ends_ok.
  destruct (c =? 58)%N; cbn; (split; [|lia]); [apply adv_one|apply adv_refl].
Qed.

(** The tokens not read by this part of the parser do not matter to a step of the lexical part. *)
Lemma step_less : forall s, f_r s <> [] ->
  (forall o, Lex_Model.step T (fun _ _ => None) (mkP (f_b s) (f_r s) (top_buf (f_c s)))
             = Lex_Model.step T o (mkP (f_b s) (f_r s) (top_buf (f_c s)))) ->
  ends h (rests (f_b s) (f_r s) (length (f_r s) - 1)) (with_lex E (Lex_Model.step T (fun _ _ => None)) s)
                                    (with_lex E (Lex_Model.step T (fun _ _ => None)) s).
Proof.
  intros s NE H. unfold with_lex. split; [reflexivity|].
  set (o := fun (_ : tclass) (_ : pst) => Some (@Raise perr pst PIndex)).
  destruct (step_ends T o (mkP (f_b s) (f_r s) (top_buf (f_c s)))) as (x & Qx & Q); [apply EO| |exact NE|].
  { intros k st. eexists. split; [reflexivity|discriminate]. }
  pose proof Qx as Qy. rewrite <- (H o) in Qx. rewrite Qx.
  destruct x as [p|e]; [|exact Logic.I]. specialize (Q p eq_refl). apply step_adv in Qx.
  split; [exact Qx|]. cbn in *. lia.
Qed.

Variable sub1 sub2 : fstate -> fout fstate.
Hypothesis SUB : forall s, length (f_r s) < N -> 
  ends (length (f_b s) + length (f_r s))
       (fun s' => adv (f_b s) (f_r s) (f_b s') (f_r s') /\ f_r s' = []) (sub1 s) (sub2 s).

Lemma cut_adv : forall n b r b', adv b (firstn n r) b' [] -> adv b r b' (skipn n r).
Proof.
  intros n b r b' [w [W ->]]. rewrite app_nil_r in W. exists w. split; [|reflexivity].
  rewrite <- W. symmetry. apply firstn_skipn.
Qed.

Lemma sub_cut : forall n b r c, length r < N -> length b + length r <= h ->
  ends h (fun s' => adv b r (f_b s') (skipn n r) /\ f_r s' = []) (sub1 (mkF b (firstn n r) c)) (sub2 (mkF b (firstn n r) c)).
Proof.
  intros n b r c H H2. eapply ends_up; [eapply ends_weaken; [apply SUB; cbn [f_r]; rewrite firstn_length; lia|]|].
  - intros s' [A R]. cbn [f_b f_r] in A. rewrite R in A. split; [apply cut_adv; exact A|exact R].
  - cbn [f_b f_r]. rewrite firstn_length. lia.
Qed.

Lemma sub_left : forall n b r c, length r < N -> length b + length r <= h ->
  ends h (rests b r (length r))
    (fbind (sub1 (mkF b (firstn n r) c)) (fun s' => fok (mkF (f_b s') (f_r s' ++ skipn n r) (f_c s'))))
    (fbind (sub2 (mkF b (firstn n r) c)) (fun s' => fok (mkF (f_b s') (f_r s' ++ skipn n r) (f_c s')))).
Proof.
  intros n b r c H H2. eapply ends_bind; [apply sub_cut; assumption|].
  intros s' [A R]. apply ends_ok. split; cbn [f_r f_b]; rewrite R; cbn [app]; [exact A|rewrite skipn_length; lia].
Qed.

Lemma line_left : forall gobble s, length (f_r s) < N -> length (f_b s) + length (f_r s) <= h ->
  ends h (rests (f_b s) (f_r s) (length (f_r s))) (parse_line sub1 gobble s) (parse_line sub2 gobble s).
Proof.
  intros gobble [b r c] H H2. unfold parse_line. cbn [f_r f_b f_c] in *.
  destruct r as [|d r]; [apply (sub_left _ b [] c); assumption|].
  destruct (blank d); [|apply (sub_left _ b (d :: r) c); assumption].
  eapply ends_weaken; [apply (sub_left _ (d :: b) r c); cbn in *; lia|]. intros s' [A R]. split; [apply adv_cons; exact A|cbn; lia].
Qed.

(** What is known about the lengths. *)
Ltac got A := let K := fresh "K" in let L1 := fresh "Ln" in
  pose proof (adv_tot _ _ _ _ A) as K; pose proof (adv_len _ _ _ _ A) as L1.
Ltac lens := unfold rests, left in *; cbn [fst snd f_r f_b f_c length within] in *; lia.
Ltac fin := split; cbn [fst snd f_r f_b f_c]; [advs|lens].
(** One binding of a position after the other. *)
Ltac pos := match goal with
  | |- context [match skip_dir ?t ?n ?b ?r with _ => _ end] =>
      let Q := fresh "Q" in let K := fresh "K" in let b1 := fresh "b" in let r1 := fresh "r" in
      pose proof (skip_dir_less t n b r) as K;
      destruct (skip_dir t n b r) as [b1 r1] eqn:Q; apply skip_dir_adv in Q; got Q; cbn [snd] in K
  | |- context [match skip_ws ?b ?r with _ => _ end] =>
      let Q := fresh "Q" in let b1 := fresh "b" in let r1 := fresh "r" in
      destruct (skip_ws b r) as [b1 r1] eqn:Q; apply skip_ws_adv in Q; got Q
  | |- context [match go ?n ?b ?r with _ => _ end] =>
      let Q := fresh "Q" in let b1 := fresh "b" in let r1 := fresh "r" in
      destruct (go n b r) as [b1 r1] eqn:Q; apply go_adv in Q; got Q
  end.
Ltac bindx := eapply ends_bind; [apply get_expr_left; lens|]; let A := fresh "A" in let R := fresh "R" in
  intros [? [? ?]] [A R]; cbn [snd fst] in A, R; got A.
Ltac bindp := eapply ends_bind; [apply get_parts_left; lens|]; let A := fresh "A" in let R := fresh "R" in
  intros [? [? ?]] [A R]; cbn [snd fst] in A, R; got A.
Ltac bindg := eapply ends_bind; [apply ends_g|]; intros ? _.
Ltac bindt := eapply ends_bind; [apply tag_left|]; let A := fresh "A" in let R := fresh "R" in
  intros ? [A R]; cbn [f_r f_b] in A, R; got A.
Ltac bindc := eapply ends_bind; [apply colon_left|]; let A := fresh "A" in let R := fresh "R" in
  intros [? ?] [A R]; cbn [snd fst] in A, R; got A.

Lemma short_left : forall o gobble clear fe start s b r n, adv b r (f_b s) (f_r s) ->
  length (f_r s) <= n -> n < N -> length b + length r <= h ->
  ends h (rests b r n) (short_or_long E sub1 o gobble clear fe start s) (short_or_long E sub2 o gobble clear fe start s).
Proof.
  intros o gobble clear fe start [b1 r1 c] b r n A0 H0 H1 H2. unfold short_or_long. cbn [f_r f_b f_c] in *. cbv zeta. got A0.
  destruct (short_form T r1).
  - pos. eapply ends_bind; [apply ends_g|]. intros [c1 mem] _.
    eapply ends_bind; [apply line_left; lens|]. intros s' [A R]. cbn [f_b f_r] in A, R.
    bindg. apply ends_ok. fin.
  - bindc. pos. bindt. bindg. apply ends_ok. fin.
Qed.

Lemma place_left : forall s, length (f_b s) + length (f_r s) <= h ->
  ends h (rests (f_b s) (f_r s) (length (f_r s) - 1)) (eat_placeholder E s) (eat_placeholder E s).
Proof.
  intros [b r c] H. unfold eat_placeholder. cbn [f_r f_b f_c] in *. cbv zeta.
  eapply ends_bind; [apply placeholder_left; [apply lang_with_ok, EO|unfold enough; lia|exact H]|].
  intros [[x fa] [b1 r1]] [A R]. cbn [fst snd] in A, R. bindg. apply ends_ok. fin.
Qed.

Lemma psp_end_adv : forall r b t b' r', psp_end E b r = (t, (b', r')) -> adv b r b' r'.
Proof.
  induction r as [|d r IH]; intros b t b' r' H; cbn [psp_end] in H; [injection H as _ <- <-; apply adv_refl|].
  destruct (m_tok (e_pspend E) b (d :: r)); [injection H as _ <- <-; apply adv_refl|].
  destruct (psp_end E (d :: b) r) as [t1 [b1 r1]] eqn:Q. injection H as _ <- <-. apply adv_cons. eauto.
Qed.

Lemma psp_left : forall s, f_r s <> [] -> length (f_b s) + length (f_r s) <= h ->
  ends h (rests (f_b s) (f_r s) (length (f_r s) - 1)) (eat_psp E s) (eat_psp E s).
Proof.
  intros [b r c] NE H. unfold eat_psp. cbn [f_r f_b f_c] in *. cbv zeta.
  destruct (go (length (t_psp T)) b r) as [b1 r1] eqn:Q. pose proof (ExprFuel_Proofs.go_len _ _ _ _ _ Q) as Q'.
  apply go_adv in Q. got Q.
  assert (P : t_psp T <> []) by (apply EO; right; right; right; right; left; reflexivity).
  assert (L1 : length r1 < length r) by (destruct r; [congruence|]; destruct (t_psp T); [congruence|]; cbn in *; lia).
  destruct (psp_end E b1 r1) as [t [b2 r2]] eqn:Q2. apply psp_end_adv in Q2. got Q2.
  bindg. destruct (m_tok (e_pspend E) b2 r2); [|apply ends_parse; lens].
  pos. apply ends_ok. fin.
Qed.

Section Dir.
Variable s : fstate.
Hypothesis SN : length (f_r s) <= N.
Hypothesis SH : length (f_b s) + length (f_r s) <= h.
Hypothesis DS : m_dirstart T (f_b s) (f_r s) <> None.
Local Notation fine := (rests (f_b s) (f_r s) (length (f_r s) - 1)).

Lemma tdir : t_dir T <> [].
Proof. apply EO. right; right; right; left; reflexivity. Qed.
Ltac start := pos; match goal with K : _ -> _ -> length _ < length _ |- _ => specialize (K tdir DS) end.

Lemma simple_less : forall name, ends h fine (eat_simple E name s) (eat_simple E name s).
Proof.
  intro name. unfold eat_simple. cbv zeta. start. bindx. destruct (split_ws (strip _)); [apply ends_err; exact Logic.I|].
  bindt. bindg. apply ends_ok. fin.
Qed.

Lemma indent_less : forall name, ends h fine (eat_indent E sub1 name s) (eat_indent E sub2 name s).
Proof.
  intro name. unfold eat_indent. cbv zeta. start. pos. bindx. destruct (is_mid name).
  - destruct (mid_of name _) as [m|]; [|apply ends_err; exact Logic.I]. destruct (short_form T _).
    + pos. bindg. eapply ends_bind; [apply line_left; lens|]. intros s' [A' R']. cbn [f_b f_r] in A', R'. bindg. apply ends_ok. fin.
    + bindc. pos. bindt. bindg. apply ends_ok. fin.
  - destruct (opener_of name _) as [o|]; [|apply ends_err; exact Logic.I]. apply short_left; cbn [f_b f_r]; [advs|lens|lens|lens].
Qed.

Lemma if_less : ends h fine (eat_if E sub1 s) (eat_if E sub2 s).
Proof.
  unfold eat_if. cbv zeta. start. bindp. destruct (Gen_Model.mem_str _ _ && Gen_Model.mem_str _ _).
  { destruct (split_then 0 _) as [[ci tt] ff]. bindt. destruct (arg_of _ ci); [|apply ends_err; exact Logic.I].
    bindg. apply ends_ok. fin. }
  destruct (opener_of _ _) as [o|]; [|apply ends_err; exact Logic.I]. apply short_left; cbn [f_b f_r]; [advs|lens|lens|lens].
Qed.

Lemma end_less : ends h fine (eat_end E s) (eat_end E s).
Proof.
  unfold eat_end. cbv zeta. start. pos. destruct (Gen_Model.end_name _); [|apply ends_parse; lens].
  bindx. bindt. bindg. apply ends_ok. fin.
Qed.

Lemma set_less : ends h fine (eat_set E s) (eat_set E s).
Proof.
  unfold eat_set. cbv zeta. start. pos. destruct (starts_with (L "module") _); [apply other_less; exact SH|].
  destruct (if existsb _ _ then _ else _) as [b1 r1] eqn:Q1.
  assert (L1 : adv b0 r0 b1 r1).
  { destruct (existsb _ _); [|injection Q1 as <- <-; apply adv_refl].
    destruct (namerun b0 r0) as [w [b2 r2]] eqn:Q2. apply namerun_adv in Q2. apply skip_ws_adv in Q1. advs. }
  got L1. bindx. destruct (x_tok (e_X E) _) as [k|]; [|apply ends_parse; lens].
  destruct (existsb _ assign_ops); [|apply ends_parse; lens].
  pos. bindx. bindt. bindg. apply ends_ok. fin.
Qed.

Lemma capture_less : ends h fine (eat_capture E sub1 s) (eat_capture E sub2 s).
Proof. unfold eat_capture. cbv zeta. start. pos. bindx. apply short_left; cbn [f_b f_r]; [advs|lens|lens|lens]. Qed.

Lemma filter_less : ends h fine (eat_filter E sub1 s) (eat_filter E sub2 s).
Proof.
  unfold eat_filter. cbv zeta. start. pos.
  eapply (ends_bind _ _ _ (left b0 r0 (length r0))).
  - destruct (m_var T b0 r0).
    + bindx. apply ends_ok. fin.
    + eapply ends_bind; [apply ident_left; lens|]. intros [x [b1 r1]] [A1 R1]. apply ends_ok. cbn [fst snd] in A1, R1.
      destruct (skip_ws b1 r1) as [b2 r2] eqn:Q2. apply skip_ws_adv in Q2. got Q2. fin.
  - intros [[k x] [b1 r1]] [A1 R1]. cbn [fst snd] in A1, R1. apply short_left; cbn [f_b f_r]; [advs|lens|lens|lens].
Qed.

Lemma call_less : ends h fine (eat_call E sub1 s) (eat_call E sub2 s).
Proof.
  unfold eat_call. cbv zeta. start. pos.
  eapply (ends_bind _ _ _ (left b0 r0 (length r0))).
  - destruct (m_var T b0 r0).
    + apply cvar_left; [apply lang_with_ok, EO|unfold enough; lia|lens].
    + eapply ends_bind; [apply chunks_left; [apply lang_with_ok, EO|unfold enough; lia|lens]|]. intros [l p] R.
      destruct (gen_var _ _ _ l); [|apply ends_err; exact Logic.I]. apply ends_ok. exact R.
  - intros [fn [b1 r1]] [A1 R1]. cbn [fst snd] in A1, R1. got A1. pos. bindx.
    apply short_left; cbn [f_b f_r]; [advs|lens|lens|lens].
Qed.

Lemma arg_less : ends h fine (eat_arg E s) (eat_arg E s).
Proof.
  unfold eat_arg. cbv zeta. start. pos. eapply ends_bind; [apply ident_left; lens|]. intros [n [b1 r1]] [A1 R1].
  cbn [fst snd] in A1, R1. got A1. pos. bindg.
  destruct r2 as [|d r2]; [apply ends_err; exact Logic.I|]. destruct (d =? 58)%N.
  - apply ends_ok. assert (adv b2 (d :: r2) (d :: b2) r2) by apply adv_one. fin.
  - eapply ends_weaken; [apply tag_left|]. intros s' [A' R']. cbn [f_b f_r] in A', R'. fin.
Qed.

Lemma dcache_less : ends h fine (eat_cache E sub1 s) (eat_cache E sub2 s).
Proof.
  unfold eat_cache. cbv zeta. start. eapply ends_bind; [apply def_args_left; lens|]. intros [l [b1 r1]] [A1 R1].
  cbn [fst snd] in A1, R1. got A1.
  eapply (ends_bind _ _ _ (fun _ => True)); [|intros ci _; apply short_left; cbn [f_b f_r]; [advs|lens|lens|lens]].
  split; [reflexivity|]. destruct (e_cargs E l) as [ci|e] eqn:Q1; [exact Logic.I|].
  apply (within_up 0); [apply (proj2 MO l e Q1)|lia].
Qed.

Lemma def_less : forall dir, ends h fine (eat_def E sub1 dir s) (eat_def E sub2 dir s).
Proof.
  intro dir. unfold eat_def. cbv zeta. start. pos.
  destruct (if m_var T b0 r0 then _ else _) as [b1 r1] eqn:Q1.
  assert (L1 : adv b0 r0 b1 r1).
  { destruct (m_var T b0 r0); [eapply go_adv; exact Q1|injection Q1 as <- <-; apply adv_refl]. }
  got L1.
  eapply ends_bind; [apply ident_left; lens|]. intros [name [b2 r2]] [A2 R2]. cbn [fst snd] in A2, R2. got A2. pos.
  eapply (ends_bind _ _ _ (left b3 r3 (length r3))).
  - destruct r3 as [|d r3]; [apply ends_err; exact Logic.I|].
    destruct (d =? 40)%N; [|apply ends_ok; fin].
    eapply ends_bind; [apply def_args_left; lens|]. intros [l [b4 r4]] [A4 R4]. cbn [fst snd] in A4, R4. apply ends_ok.
    destruct (go 1 b4 r4) as [b5 r5] eqn:Q5. apply go_adv in Q5. got Q5. fin.
  - intros [l [b4 r4]] [A4 R4]. cbn [fst snd] in A4, R4. got A4. destruct (short_form T r4).
    + pos. eapply ends_bind; [apply ends_g|]. intros [c mem] _.
      destruct (match r5 with [] => _ | _ => _ end) as [b6 r6] eqn:Q6.
      assert (L6 : adv b5 r5 b6 r6).
      { destruct r5 as [|d r5]; [injection Q6 as <- <-; apply adv_refl|].
        destruct (blank d); injection Q6 as <- <-; [apply adv_one|apply adv_refl]. }
      got L6.
      eapply ends_bind; [apply sub_cut; lens|]. intros s' [A' R']. got A'. bindg.
      eapply ends_weaken; [apply tag_left|]. intros s2 [A2' R2']. cbn [f_r f_b] in A2', R2'.
      rewrite R' in A2', R2'. cbn [app] in A2', R2'. fin.
    + bindc. bindx. bindt. bindg. apply ends_ok. fin.
Qed.
End Dir.

Lemma classify_dir : forall b r n, classify T b r = KDirective n -> m_dir T b r = Some n.
Proof.
  intros b r n K. unfold classify in K.
  destruct (m_tok (t_com T) b r); [discriminate|]. destruct (m_tok (t_ml T) b r); [discriminate|].
  destruct (m_var T b r); [discriminate|]. destruct (m_expr T b r); [discriminate|].
  destruct (m_dir T b r) as [m|]; [injection K as ->; reflexivity|].
  destruct (m_tok (t_psp T) b r); [discriminate|]. destruct (m_slurp T r); discriminate.
Qed.

Lemma eat_less : forall s, f_r s <> [] -> length (f_r s) <= N -> length (f_b s) + length (f_r s) <= h ->
  ends h (rests (f_b s) (f_r s) (length (f_r s) - 1)) (eat E sub1 s) (eat E sub2 s).
Proof.
  intros s NE SN SH. unfold eat. cbv zeta.
  destruct (classify T (f_b s) (f_r s)) as [| | | |n| | |] eqn:K;
    try (apply place_left; exact SH);
    try (apply step_less; [exact NE|]; intro o; unfold Lex_Model.step; cbn [before rest]; rewrite K; reflexivity).
  - pose proof (classify_dir _ _ _ K) as D.
    assert (DS : m_dirstart T (f_b s) (f_r s) <> None).
    { unfold m_dir in D. destruct (m_dirstart T (f_b s) (f_r s)); congruence. }
    unfold eat_directive. cbv zeta. destruct (forbidden T n) eqn:F; [apply ends_err; exact Logic.I|].
    destruct (existsb (str_eqb n) (map L ["slurp"; "raw"]%string)) eqn:SR.
    { apply step_less; [exact NE|]. intro o. unfold Lex_Model.step. cbn [before rest]. rewrite K, F.
      cbn [map existsb] in SR. destruct (str_eqb n (L "slurp")); [reflexivity|].
      destruct (str_eqb n (L "raw")); [reflexivity|discriminate SR]. }
    repeat match goal with |- ends _ _ (if existsb ?f ?l then _ else _) _ => destruct (existsb f l) end;
      solve [apply if_less; assumption | apply end_less; assumption | apply set_less; assumption
            | apply capture_less; assumption | apply filter_less; assumption | apply call_less; assumption
            | apply arg_less; assumption | apply dcache_less; assumption | apply def_less; assumption
            | apply indent_less; assumption | apply simple_less; assumption | apply other_less; assumption].
  - destruct (forbidden T (L "psp")); [apply ends_err; exact Logic.I|]. apply psp_left; assumption.
Qed.
End Sub.

(** ** The whole parser *)

Lemma parse_same : forall n m s, length (f_r s) < n -> length (f_r s) < m ->
  ends (length (f_b s) + length (f_r s)) (fun s' => adv (f_b s) (f_r s) (f_b s') (f_r s') /\ f_r s' = [])
       (parse_all E n s) (parse_all E m s).
Proof.
  induction n as [|n IH]; intros m s Hn Hm; [lia|]. destruct m as [|m]; [lia|]. cbn [parse_all].
  destruct (f_r s) as [|c r] eqn:R; [apply ends_ok; rewrite R; split; [apply adv_refl|reflexivity]|].
  rewrite <- R in *. 
  eapply ends_bind.
  - apply (eat_less _ (length (f_r s)) (parse_all E n) (parse_all E m)); [|congruence|lia|reflexivity].
    intros s' L1. apply IH; lia.
  - intros s' [A L1]. rewrite R in L1, Hn, Hm. cbn in L1, Hn, Hm.
    eapply ends_up; [eapply ends_weaken; [apply IH; lia|]|].
    + intros s2 [A2 R2]. split; [advs|exact R2].
    + apply adv_tot in A. lia.
Qed.

Lemma translate_ends : forall main src, exists x, (forall fuel, length src < fuel -> translate E fuel main src = Some x) /\
  forall e, x = Raise e -> within (length src) e.
Proof.
  intros main src.
  assert (S1 : forall fuel, length src < fuel -> translate E fuel main src = translate E (S (length src)) main src).
  { intros fuel F. unfold translate.
    destruct (parse_same fuel (S (length src)) (mkF [] src (Gen_Model.start G main))) as [P _]; cbn [f_r]; [lia|lia|].
    rewrite P. reflexivity. }
  destruct (parse_same (S (length src)) (S (length src)) (mkF [] src (Gen_Model.start G main))) as [_ P]; cbn [f_r]; [lia|lia|].
  cbn [f_b f_r length Nat.add] in P.
  destruct (translate E (S (length src)) main src) as [x|] eqn:Q.
  - exists x. split; [exact S1|]. intros e ->. unfold translate in Q.
    destruct (parse_all E (S (length src)) _) as [[s|e']|]; cbn [fbind] in Q; [|injection Q as <-; exact P|discriminate].
    destruct (Gen_Model.s_open (f_c s)); [|injection Q as <-; exact Logic.I].
    unfold from_g in Q. destruct (Gen_Model.bind _ _); [discriminate|]. injection Q as <-. exact Logic.I.
  - exfalso. unfold translate in Q.
    destruct (parse_all E (S (length src)) _) as [[s|e]|]; cbn [fbind] in Q; [|discriminate|contradiction].
    destruct (Gen_Model.s_open (f_c s)); [|discriminate].
    unfold from_g in Q. destruct (Gen_Model.bind _ _); discriminate.
Qed.

Lemma parse_reads_all : forall main src fuel s, length src < fuel ->
  parse_all E fuel (mkF [] src (Gen_Model.start G main)) = fok s -> f_b s = rev src /\ f_r s = [].
Proof.
  intros main src fuel s F Q.
  destruct (parse_same fuel fuel (mkF [] src (Gen_Model.start G main))) as [_ P]; cbn [f_r]; [lia|lia|].
  rewrite Q in P. destruct P as [A R]. cbn [f_b f_r] in A. rewrite R in A. destruct A as (w & W & ->).
  rewrite app_nil_r in W. subst w. rewrite app_nil_r. auto.
Qed.
End Front.
