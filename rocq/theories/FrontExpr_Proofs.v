(** Lemmas for the whole parser: the expressions of directives. *)
From Verif Require Import Base PyStr Lex_Model Expr_Model Front_Model Front_Spec FrontLex_Proofs.
From Verif Require Gen_Model Gen_Spec.

Section Exprs.
Variable E : env.
Hypothesis ET : x_T (e_X E) = dflt.
Hypothesis TW : tokenizes_words (e_X E).
Local Notation X := (X0 E).

Lemma XT : x_T X = dflt.
Proof. exact ET. Qed.

Lemma expr_S : forall n, expr X (S n) = expr_step X (expr X n) (callargs X n) (cvar X n) (transform X n).
Proof. reflexivity. Qed.

Lemma expr_stop : forall n um brk b r, stop b r -> expr X (S n) um false [] brk b r = ok [] b r.
Proof.
  intros n um brk b [|c r] H; [reflexivity|]. rewrite expr_S. unfold expr_step. rewrite XT.
  change (t_dirend dflt) with [35%N]. cbn [negb andb empty]. destruct H as [H|[-> H]].
  - apply eolchar_iff in H as [->| ->]; unfold m_tok; cbn; rewrite andb_false_r; reflexivity.
  - unfold m_tok. cbn. rewrite H. reflexivity.
Qed.

(** Also at the colon it is read up to. *)
Lemma expr_halt : forall n um brk b r, halt brk b r -> expr X (S n) um false [] brk b r = ok [] b r.
Proof.
  intros n um brk b r [H|[I H]]; [apply expr_stop; exact H|].
  destruct r as [|c1 [|c2 r]]; try discriminate H; [cbn in H; rewrite andb_false_r in H; discriminate H|].
  cbn [L map app starts_with] in H. apply andb_true_iff in H as [H1 H]. apply andb_true_iff in H as [H2 _].
  apply N.eqb_eq in H1, H2. assert (c1 = 58%N) as -> by (symmetry; exact H1). assert (c2 = 32%N) as -> by (symmetry; exact H2).
  clear H1 H2. rewrite expr_S. unfold expr_step. rewrite XT.
  change (t_dirend dflt) with [35%N]. cbn [negb andb empty].
  assert (TK : x_tok X (58%N :: 32%N :: r) = Some 1) by (apply (proj2 TW)).
  assert (M : forall d t b', (d =? 58)%N = false -> m_tok (d :: t) b' (58%N :: 32%N :: r) = false).
  { intros d t b' D. unfold m_tok. cbn [starts_with]. rewrite D, andb_false_r. reflexivity. }
  assert (MV : m_var dflt b (58%N :: 32%N :: r) = false).
  { unfold m_var. change (t_var dflt) with [36%N]. rewrite M by reflexivity. reflexivity. }
  change (opener 58) with false. change (closer 58) with false. change (blank 58) with false. cbv iota.
  rewrite M by reflexivity. change (58 =? 92)%N with false. change (eolchar 58) with false. cbn [andb]. cbv iota.
  change (m_xvar dflt (58%N :: 32%N :: r)) with false. cbv iota. rewrite MV, TK.
  assert (BR : existsb (str_eqb (L ":")) brk = true) by (apply existsb_exists; exists (L ":"); split; [exact I|reflexivity]).
  cbn [firstn]. change [58%N] with (L ":"). rewrite BR. reflexivity.
Qed.

Lemma word_quote : forall r, word_end r = true -> quote_at r = false.
Proof.
  intros [|c r] H; [reflexivity|]. unfold word_end in H. cbn in *. destruct (N.eqb_spec c 39) as [->|]; [discriminate H|].
  destruct (N.eqb_spec c 34) as [->|]; [discriminate H|reflexivity].
Qed.

Lemma transform_word : forall n um b0 r0 w b r, quote_at r = false -> transform X (S n) um b0 r0 w b r = ok (Some w) b r.
Proof.
  intros. change (transform X (S n)) with (transform_step X (cstr X n)). unfold transform_step.
  rewrite H, andb_false_r. reflexivity.
Qed.

Lemma firstn_over : forall (w r : pystr), firstn (length w) (w ++ r) = w.
Proof. intros. rewrite firstn_app, Nat.sub_diag, firstn_all, app_nil_r. reflexivity. Qed.

(** A word at the start of an expression. *)
Lemma expr_ident : forall n um brk b w r, ident w -> word_end r = true -> existsb (str_eqb w) brk = false ->
  expr X (S (S n)) um false [] brk b (w ++ r) =
  if str_eqb w (L "for") then
    bnd (expr X (S n) false false [] [L "in"] (rev w ++ b) r) (fun x b2 r2 =>
    pre (w ++ x) (expr X (S n) um false [] brk b2 r2))
  else
    let '(ws, (b2, r2)) := take_ws (rev w ++ b) r in
    if at_char 40 r2 then
      bnd (callargs X (S n) um [] b2 r2) (fun a b3 r3 => pre (w ++ ws ++ a) (expr X (S n) um false [] brk b3 r3))
    else pre (w ++ ws) (expr X (S n) um false [] brk b2 r2).
Proof.
  intros n um brk b w r ID WE BR. destruct w as [|c w]; [contradiction|]. destruct ID as [I1 I2].
  assert (TK : x_tok X ((c :: w) ++ r) = Some (length (c :: w))) by (apply (proj1 TW); [split; assumption|exact WE]).
  rewrite expr_S. unfold expr_step. cbn [app] in *. rewrite XT.
  assert (O : opener c = false) by (unfold opener; idc I1; reflexivity).
  assert (CL : closer c = false) by (unfold closer; idc I1; reflexivity).
  assert (BL : blank c = false) by (unfold blank; idc I1; reflexivity).
  assert (EL : eolchar c = false) by (unfold eolchar; idc I1; reflexivity).
  assert (M : forall d t b', identchar d = false -> m_tok (d :: t) b' (c :: w ++ r) = false).
  { intros d t b' D. unfold m_tok. cbn [starts_with]. rewrite (not_identchar c d I1 D), andb_false_r. reflexivity. }
  rewrite O, CL, BL, EL. cbn [andb]. change (t_dirend dflt) with [35%N]. rewrite M by reflexivity. cbn [andb].
  rewrite (identchar_not c 92 I1 eq_refl). cbn [andb].
  assert (XV : m_xvar dflt (c :: w ++ r) = false).
  { unfold m_xvar. change (t_var dflt) with [36%N]. cbn [starts_with]. rewrite (not_identchar c 36 I1 eq_refl). reflexivity. }
  assert (MV : m_var dflt b (c :: w ++ r) = false).
  { unfold m_var. change (t_var dflt) with [36%N]. rewrite M by reflexivity. reflexivity. }
  rewrite XV, MV, TK. change (c :: w ++ r) with ((c :: w) ++ r). rewrite firstn_over, go_over.
  cbn [empty andb]. rewrite BR. rewrite (transform_word n um b ((c :: w) ++ r) (c :: w) (rev (c :: w) ++ b) r (word_quote r WE)).
  cbn [bnd ok at_ident]. rewrite I1. reflexivity.
Qed.

Lemma pre_ok : forall t x b r, pre t (ok x b r) = ok (t ++ x) b r.
Proof. reflexivity. Qed.

Lemma stop_rev : forall w s b r, stop (rev (w ++ s) ++ b) r -> stop (rev s ++ rev w ++ b) r.
Proof. intros w s b r H. rewrite rev_app_distr, <- app_assoc in H. exact H. Qed.

Lemma reads_word : forall um brk w, ident w -> existsb (str_eqb w) brk = false ->
  str_eqb w (L "for") = false \/ brk = [] -> reads E um brk w w.
Proof.
  intros um brk w ID BR NF b r n EB ST LE. destruct n as [|[|[|n]]]; try lia.
  rewrite expr_ident; [|exact ID|apply (halt_word _ _ _ ST)|exact BR].
  destruct (str_eqb w (L "for")) eqn:EF.
  - destruct NF as [NF|NF]; [discriminate NF|]. subst brk. destruct ST as [ST|[[] _]].
    rewrite (expr_stop _ _ _ _ _ ST). cbn [bnd ok]. rewrite (expr_stop _ _ _ _ _ ST), pre_ok, !app_nil_r. reflexivity.
  - rewrite (halt_take _ _ _ _ ST). rewrite (halt_paren _ _ _ ST), (expr_halt _ _ _ _ _ ST), pre_ok, !app_nil_r. reflexivity.
Qed.

Lemma take_one : forall b s r, starts_plain s -> take_ws b (L " " ++ s ++ r) = (L " ", (32%N :: b, s ++ r)).
Proof.
  intros b [|c s] r H; [contradiction|]. destruct H as [H _]. cbn. rewrite H. reflexivity.
Qed.

Lemma paren_plain : forall s r, starts_plain s -> at_char 40 (s ++ r) = false.
Proof. intros [|c s] r H; [contradiction|]. destruct H as [_ H]. cbn. apply N.eqb_neq. exact H. Qed.

Lemma reads_kw : forall um brk w s code, ident w -> str_eqb w (L "for") = false -> existsb (str_eqb w) brk = false ->
  starts_plain s -> reads E um brk s code -> reads E um brk (w ++ L " " ++ s) (w ++ L " " ++ code).
Proof.
  intros um brk w s code ID NF BR SP RD b r n EB ST LE. rewrite !app_length in LE. change (length (L " ")) with 1 in LE.
  destruct n as [|[|[|n]]]; try lia. rewrite <- !app_assoc.
  rewrite expr_ident; [|exact ID|reflexivity|exact BR]. rewrite NF.
  rewrite take_one by exact SP. rewrite paren_plain by exact SP.
  replace (rev (w ++ L " " ++ s) ++ b) with (rev s ++ 32%N :: rev w ++ b) in *
    by (rewrite !rev_app_distr, <- !app_assoc; reflexivity).
  rewrite RD; [|reflexivity|exact ST|rewrite app_length; lia]. rewrite pre_ok, <- app_assoc. reflexivity.
Qed.

Lemma reads_blank : forall um brk s code, starts_plain s -> reads E um brk s code ->
  reads E um brk (L " " ++ s) (L " " ++ code).
Proof.
  intros um brk s code SP RD b r n EB ST LE. rewrite !app_length in LE. change (length (L " ")) with 1 in LE.
  destruct n as [|n]; try lia. rewrite expr_S, <- !app_assoc. unfold expr_step.
  change (L " " ++ s ++ r) with (32%N :: s ++ r). rewrite XT. cbn [opener closer blank]. cbn [negb andb empty].
  change (opener 32) with false. change (closer 32) with false. change (blank 32) with true. cbv iota.
  change (32%N :: s ++ r) with (L " " ++ s ++ r). rewrite take_one by exact SP.
  change (rev (L " " ++ s)) with (rev s ++ [32%N]) in *. rewrite <- app_assoc in *. cbn [app] in *.
  rewrite RD; [|reflexivity|exact ST|rewrite app_length; lia]. reflexivity.
Qed.

Lemma reads_for : forall um brk t e, target_ok E t -> reads E um brk (x_src e) (x_code e) -> starts_plain (x_src e) ->
  existsb (str_eqb (L "for")) brk = false -> existsb (str_eqb (L "in")) brk = false ->
  reads E um brk (L "for " ++ x_src t ++ L " in " ++ x_src e) (L "for " ++ x_code t ++ L " in " ++ x_code e).
Proof.
  intros um brk t e (TG & _) RE SP BF BI b r n EB ST LE. rewrite !app_length in LE. change (length (L " ")) with 1 in LE.
  destruct n as [|[|n]]; try lia.
  replace ((L "for " ++ x_src t ++ L " in " ++ x_src e) ++ r) with (L "for" ++ L " " ++ x_src t ++ L " in " ++ x_src e ++ r)
    by (rewrite <- !app_assoc; reflexivity).
  rewrite expr_ident; [|split; reflexivity|reflexivity|exact BF].
  change (str_eqb (L "for") (L "for")) with true. cbv iota.
  rewrite TG by (rewrite !app_length; cbn in *; lia). cbn [bnd ok].
  replace (L "in " ++ x_src e ++ r) with ((L "in" ++ L " " ++ x_src e) ++ r) by (rewrite <- !app_assoc; reflexivity).
  rewrite (reads_kw um brk (L "in") (x_src e) (x_code e)); [|split; reflexivity|reflexivity|exact BI|exact SP|exact RE|rewrite !rev_app_distr; reflexivity| |].
  - rewrite pre_ok.
    match goal with |- ok ?a ?b1 _ = ok ?a' ?b2 _ => replace a with a'; [replace b1 with b2; [reflexivity|]|] end.
    + change (L "for ") with (L "for" ++ L " "). change (L " in ") with (L " " ++ L "in" ++ L " ").
      rewrite !rev_app_distr, <- !app_assoc. reflexivity.
    + change (L "for ") with (L "for" ++ L " "). change (L " in ") with (L " " ++ L "in" ++ L " ").
      rewrite <- !app_assoc. reflexivity.
  - replace (rev (L "in" ++ L " " ++ x_src e) ++ rev (L " " ++ x_src t ++ L " ") ++ rev (L "for") ++ b)
      with (rev (L "for " ++ x_src t ++ L " in " ++ x_src e) ++ b); [exact ST|].
    change (L "for ") with (L "for" ++ L " ").  change (L " in ") with (L " " ++ L "in" ++ L " ").
    rewrite !rev_app_distr, <- !app_assoc. reflexivity.
  - rewrite !app_length. cbn in *. lia.
Qed.
End Exprs.
