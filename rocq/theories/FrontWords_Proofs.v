(** Proofs for simple expressions (FrontWords_Spec.v). *)
From Verif Require Import Base PyStr Lex_Model Expr_Model Front_Model Front_Spec FrontLex_Proofs FrontExpr_Proofs FrontEat_Proofs Front_Proofs FrontWords_Spec.
From Verif Require Gen_Model Gen_Spec.

(** ** Characters *)

Lemma namechar_cases : forall c, namechar c = true -> (48 <= c <= 57 \/ 65 <= c <= 90 \/ 97 <= c <= 122 \/ c = 95)%N.
Proof. intros c H. unfold namechar, identchar in H. lia. Qed.

Lemma namechar_space : forall c, namechar c = true -> is_space c = false.
Proof. intros c H. apply namechar_cases in H. unfold is_space. lia. Qed.

Lemma namechar_eol : forall c, namechar c = true -> eolchar c = false.
Proof. intros c H. apply namechar_cases in H. unfold eolchar. lia. Qed.

Lemma namechar_32 : forall c, namechar c = true -> (c =? 32)%N = false.
Proof. intros c H. apply namechar_cases in H. lia. Qed.

Lemma identchar_name : forall c, identchar c = true -> namechar c = true.
Proof. intros c H. unfold namechar. rewrite H. reflexivity. Qed.

Lemma forallb_impl : forall (p q : N -> bool) l, (forall x, p x = true -> q x = true) -> forallb p l = true -> forallb q l = true.
Proof. intros p q l H K. apply forallb_forall. intros x I. apply H. exact (proj1 (forallb_forall p l) K x I). Qed.

Lemma tok_start_cases : forall c, tok_start c = true ->
  opener c = false /\ closer c = false /\ blank c = false /\ eolchar c = false /\ identchar c = false /\
  is_space c = false /\ (c =? 35)%N = false /\ (c =? 36)%N = false /\ (c =? 92)%N = false.
Proof.
  intros c H. unfold tok_start in H. apply negb_true_iff in H.
  destruct (opener c), (closer c), (blank c), (eolchar c), (identchar c), (is_space c); try discriminate H.
  destruct (c =? 35)%N, (c =? 36)%N, (c =? 92)%N; try discriminate H. repeat split.
Qed.

(** ** Dotted names *)

Lemma dotted_all : forall n b r, dname n = true -> name_end r = true -> n <> [] ->
  dotted b (n ++ r) = (n, (rev n ++ b, r)).
Proof.
  induction n as [|c n IH]; intros b r D NE NN; [congruence|]. cbn [app dotted dname] in *.
  apply andb_prop in D as [D1 D2].
  assert (K : namechar c || (c =? 46)%N && at_ident (n ++ r) = true).
  { destruct (namechar c); [reflexivity|]. cbn [orb] in *. apply andb_prop in D1 as [D1 D3]. rewrite D1. cbn [andb].
    destruct n; [discriminate D3|]. exact D3. }
  rewrite K. destruct n as [|d n].
  - cbn [app]. assert (DR : dotted (c :: b) r = ([], (c :: b, r))).
    { destruct r as [|x r]; [reflexivity|]. cbn [dotted name_end] in *.
      destruct (namechar x) eqn:E1; [discriminate NE|]. destruct ((x =? 46)%N && at_ident r) eqn:E2; [discriminate NE|].
      reflexivity. }
    rewrite DR. reflexivity.
  - rewrite IH by (assumption || discriminate). cbn [rev]. rewrite <- !app_assoc. reflexivity.
Qed.

Lemma dotted_chars : forall n, dname n = true -> forallb (fun c => namechar c || (c =? 46)%N) n = true.
Proof.
  induction n as [|c n IH]; intro H; [reflexivity|]. cbn in *. apply andb_prop in H as [H1 H2]. rewrite IH by exact H2.
  rewrite andb_true_r. destruct (namechar c); [reflexivity|]. cbn in *. apply andb_prop in H1 as [H1 _]. exact H1.
Qed.

Lemma dname_last : forall n, dname n = true -> n <> [] -> namechar (last n 0%N) = true.
Proof.
  induction n as [|c [|d n] IH]; intros H NE; [congruence| |].
  - cbn in *. destruct (namechar c); [reflexivity|]. rewrite andb_false_r in H. discriminate H.
  - change (last (c :: d :: n) 0%N) with (last (d :: n) 0%N). apply IH; [|discriminate].
    cbn [dname] in *. apply andb_prop in H as [_ H]. exact H.
Qed.

Lemma ident_dotted : forall w, ident w -> dotted_name w = true.
Proof.
  intros [|c w] H; [contradiction|]. destruct H as [H1 H2]. unfold dotted_name. cbn. rewrite H1.
  rewrite (identchar_name c H1). cbn. induction w as [|d w IH]; [reflexivity|]. cbn in *.
  apply andb_prop in H2 as [H2 H3]. rewrite H2. cbn. apply IH. exact H3.
Qed.

Lemma dotted_cons : forall n, dotted_name n = true -> exists c r, n = c :: r /\ identchar c = true /\ dname n = true.
Proof. intros [|c n] H; [discriminate H|]. apply andb_prop in H as [H1 H2]. exists c, n. auto. Qed.

Lemma esc_last : forall s b, s <> [] -> last s 0%N <> 92%N -> esc_ok (rev s ++ b) = true.
Proof.
  intros s b NE H. destruct (exists_last NE) as (r & c & ->). rewrite last_last in H. rewrite rev_app_distr. cbn.
  destruct (N.eqb_spec c 92); [contradiction|reflexivity].
Qed.

Lemma dotted_esc : forall n b, dotted_name n = true -> esc_ok (rev n ++ b) = true.
Proof.
  intros n b H. destruct (dotted_cons n H) as (c & r & -> & _ & D). apply esc_last; [discriminate|].
  pose proof (dname_last _ D ltac:(discriminate)) as K. apply namechar_cases in K. lia.
Qed.

Lemma strip_single : forall s, match s with c :: _ => is_space c = false | [] => False end ->
  is_space (last s 0%N) = false -> strip s = s.
Proof.
  intros [|c s] H K; [contradiction|]. unfold strip. cbn [lstrip]. rewrite H. unfold rstrip.
  destruct (@exists_last _ (c :: s) ltac:(discriminate)) as (r & d & E). rewrite E in *. rewrite last_last in K.
  rewrite rev_unit. cbn [lstrip]. rewrite K. cbn [rev]. rewrite rev_involutive. reflexivity.
Qed.

Section Items.
Variable E : env.
Hypothesis ET : x_T (e_X E) = dflt.
Hypothesis TW : tokenizes_words (e_X E).
Local Notation X := (X0 E).
Local Notation var_code := (var_code E).

Lemma word_end_name : forall r, word_end r = true -> name_end r = true.
Proof.
  intros [|c r] H; [reflexivity|]. assert (C : blank c = true \/ eolchar c = true \/ c = 35%N \/ c = 58%N).
  { unfold word_end in H. apply orb_prop in H as [H|H].
    - apply orb_prop in H as [H|H]; [apply orb_prop in H as [H|H]; tauto|]. apply N.eqb_eq in H. tauto.
    - cbn [L map app starts_with] in H. apply andb_true_iff in H as [H _]. apply N.eqb_eq in H. subst c. tauto. }
  unfold blank, eolchar in C. cbn [name_end]. unfold namechar, identchar.
  destruct (N.eqb_spec c 46) as [->|]; [cbn in C; lia|]. cbn. lia.
Qed.

(** ** Names with the token *)

Lemma chunks_S : forall n, chunks X (S n) = chunks_step (expr X n) (callargs X n) (chunks X n).
Proof. reflexivity. Qed.

Lemma chunks_name : forall n um b nm r, dotted_name nm = true -> name_end r = true ->
  chunks X (S (S n)) um b (nm ++ r) = ok [(nm, true, [])] (rev nm ++ b) r.
Proof.
  intros n um b nm r D NE. destruct (dotted_cons nm D) as (c & s & -> & I & DN). rewrite chunks_S. unfold chunks_step.
  cbn [app]. rewrite I. change (c :: s ++ r) with ((c :: s) ++ r). rewrite dotted_all by (assumption || discriminate).
  assert (EC : forall b', chunks X (S n) um b' r = ok [] b' r).
  { intro b'. rewrite chunks_S. unfold chunks_step. destruct r as [|d r]; [reflexivity|]. cbn [name_end] in NE.
    destruct (identchar d) eqn:ID; [unfold namechar in NE; rewrite ID in NE; discriminate NE|].
    destruct ((d =? 46)%N && at_ident r) eqn:DD; [rewrite andb_false_r in NE; discriminate NE|]. reflexivity. }
  destruct r as [|d r]; [rewrite EC; reflexivity|]. cbn [name_end] in NE.
  destruct (d =? 40)%N; [rewrite andb_false_r in NE; discriminate NE|].
  destruct (d =? 91)%N; [rewrite andb_false_r in NE; discriminate NE|].
  rewrite EC. reflexivity.
Qed.

Lemma gen_var_code : forall um nm, gen_var X um false [(nm, true, [])] = Some (var_code um nm).
Proof.
  intros um nm. unfold gen_var, gen_mapper, gen_plain, FrontWords_Spec.var_code. cbn [negb]. rewrite andb_true_r.
  destruct um; [|cbn; rewrite app_nil_r; reflexivity].
  change (x_searchlist X) with true. change (x_frames X) with (x_frames (e_X E)).
  change (x_autocall X) with (x_autocall (e_X E)). cbn [negb mapper_more]. rewrite andb_true_r.
  destruct (x_frames (e_X E)); f_equal; rewrite ?app_nil_r; reflexivity.
Qed.

Lemma skip_none : forall (c : N) b r, identchar c = true -> skip_silent b (c :: r) = (b, c :: r) /\ skip_cache b (c :: r) = (b, c :: r).
Proof.
  intros c b r I. unfold skip_silent, skip_cache, after_cache. rewrite (identchar_not c 33 I eq_refl), (identchar_not c 42 I eq_refl).
  rewrite Nat.sub_diag. split; reflexivity.
Qed.

Lemma cvar_name : forall n um b nm r, dotted_name nm = true -> name_end r = true -> esc_ok b = true ->
  cvar X (S (S (S n))) um false b (L "$" ++ nm ++ r) = ok (var_code um nm) (rev (L "$" ++ nm) ++ b) r.
Proof.
  intros n um b nm r D NE EB. destruct (dotted_cons nm D) as (c & s & -> & I & DN).
  change (cvar X (S (S (S n)))) with (cvar_step X (chunks X (S (S n)))). unfold cvar_step. rewrite (XT E ET).
  assert (M : m_vartok dflt b (L "$" ++ (c :: s) ++ r) = true)
    by (unfold m_vartok, m_tok; rewrite EB; cbn; rewrite I; reflexivity).
  rewrite M. change (go (length (t_var dflt)) b (L "$" ++ (c :: s) ++ r)) with (36%N :: b, c :: s ++ r). cbv iota.
  destruct (skip_none c (36%N :: b) (s ++ r) I) as [-> ->].
  change (c :: s ++ r) with ((c :: s) ++ r). rewrite chunks_name by assumption. cbn [bnd ok]. rewrite gen_var_code.
  rewrite rev_app_distr, <- app_assoc. reflexivity.
Qed.

Lemma expr_name : forall n um brk b nm r, dotted_name nm = true -> name_end r = true -> esc_ok b = true ->
  expr X (S (S (S (S n)))) um false [] brk b (L "$" ++ nm ++ r) =
  pre (var_code um nm) (expr X (S (S (S n))) um false [] brk (rev (L "$" ++ nm) ++ b) r).
Proof.
  intros n um brk b nm r D NE EB. rewrite expr_S. unfold expr_step. rewrite (XT E ET).
  change (L "$" ++ nm ++ r) with (36%N :: nm ++ r).
  change (opener 36) with false. change (closer 36) with false. change (blank 36) with false. change (eolchar 36) with false.
  change (36 =? 92)%N with false. cbn [andb negb empty].
  assert (M : m_tok (t_dirend dflt) b (36%N :: nm ++ r) = false) by (unfold m_tok; cbn; rewrite andb_false_r; reflexivity).
  rewrite M. cbn [andb].
  assert (XV : m_xvar dflt (36%N :: nm ++ r) = true).
  { destruct (dotted_cons nm D) as (c & s & -> & I & DN). unfold m_xvar. cbn. exact I. }
  rewrite XV. change (36%N :: nm ++ r) with (L "$" ++ nm ++ r). rewrite cvar_name by assumption. reflexivity.
Qed.

(** ** Other tokens *)

Lemma expr_tok : forall n um brk b t r, other_tok E t -> word_end r = true -> existsb (str_eqb t) brk = false ->
  expr X (S (S n)) um false [] brk b (t ++ r) = pre t (expr X (S n) um false [] brk (rev t ++ b) r).
Proof.
  intros n um brk b t r (ST & OL & LS & TK) WE BR. destruct t as [|c t]; [contradiction|].
  destruct (tok_start_cases c ST) as (H1 & H2 & H3 & H4 & H5 & H6 & H7 & H8 & H9).
  specialize (TK r WE). change (x_tok (e_X E)) with (x_tok X) in TK.
  rewrite expr_S. unfold expr_step. cbn [app] in *. rewrite (XT E ET). rewrite H1, H2, H3.
  cbn [andb negb empty].
  assert (M : forall d l b', (c =? d)%N = false -> m_tok (d :: l) b' (c :: t ++ r) = false).
  { intros d l b' D. unfold m_tok. cbn [starts_with]. rewrite N.eqb_sym, D, andb_false_r. reflexivity. }
  change (t_dirend dflt) with [35%N]. rewrite M by assumption. cbn [andb]. rewrite H9. cbn [andb]. rewrite H4.
  assert (XV : m_xvar dflt (c :: t ++ r) = false).
  { unfold m_xvar. change (t_var dflt) with [36%N]. cbn [starts_with]. rewrite N.eqb_sym, H8. reflexivity. }
  assert (MV : m_var dflt b (c :: t ++ r) = false).
  { unfold m_var. change (t_var dflt) with [36%N]. rewrite M by assumption. reflexivity. }
  rewrite XV, MV, TK. change (c :: t ++ r) with ((c :: t) ++ r). rewrite firstn_over, go_over.
  rewrite BR. rewrite (transform_word E n um b ((c :: t) ++ r) (c :: t) (rev (c :: t) ++ b) r (word_quote r WE)).
  cbn [bnd ok at_ident]. rewrite H5. reflexivity.
Qed.

(** ** Lists of items *)

Lemma item_start : forall brk i, xi_ok E brk i -> starts_plain (xi_src i).
Proof.
  intros brk [w|n|t] H; cbn in *.
  - destruct H as (I & _ & _). destruct w as [|c w]; [contradiction|]. destruct I as [I _]. cbn. split.
    + unfold blank. idc I. reflexivity.
    + intros ->. discriminate I.
  - split; [reflexivity|discriminate].
  - destruct H as ((S1 & _) & _). destruct t as [|c t]; [contradiction|].
    destruct (tok_start_cases c S1) as (H1 & _ & H3 & _). split; [exact H3|]. intros ->. discriminate H1.
Qed.

Lemma item_last : forall um brk i, xi_ok E brk i -> reads E um brk (xi_src i) (xi_code E um i).
Proof.
  intros um brk [w|n|t] H; cbn [xi_src xi_code xi_ok] in *.
  - destruct H as (I & NF & B). apply reads_word; auto.
  - intros b r k EB ST LE. rewrite !app_length in LE. destruct k as [|[|[|[|k]]]]; try lia.
    pose proof (halt_word _ _ _ ST) as WE. rewrite <- app_assoc. rewrite expr_name by (try assumption; apply word_end_name; exact WE).
    rewrite (expr_halt E ET TW _ _ _ _ _ ST), pre_ok, app_nil_r. reflexivity.
  - destruct H as (O & B). intros b r k EB ST LE. destruct k as [|[|k]]; try lia.
    rewrite expr_tok by (try assumption; apply (halt_word _ _ _ ST)).
    rewrite (expr_halt E ET TW _ _ _ _ _ ST), pre_ok, app_nil_r. reflexivity.
Qed.

Lemma item_then : forall um brk i s code, xi_ok E brk i -> starts_plain s -> reads E um brk s code ->
  reads E um brk (xi_src i ++ L " " ++ s) (xi_code E um i ++ L " " ++ code).
Proof.
  intros um brk [w|n|t] s code H SP RD; cbn [xi_src xi_code xi_ok] in *.
  - destruct H as (I & NF & B). apply reads_kw; assumption.
  - intros b r k EB ST LE. rewrite !app_length in LE. change (length (L " ")) with 1 in LE. change (length (L "$")) with 1 in LE.
    destruct k as [|[|[|[|k]]]]; try lia.
    replace (((L "$" ++ n) ++ L " " ++ s) ++ r) with (L "$" ++ n ++ (L " " ++ s) ++ r) by (rewrite <- !app_assoc; reflexivity).
    rewrite expr_name by (try assumption; reflexivity).
    pose proof (reads_blank E ET um brk s code SP RD) as RB.
    assert (R2 : rev ((L "$" ++ n) ++ L " " ++ s) ++ b = rev (L " " ++ s) ++ rev (L "$" ++ n) ++ b)
      by (rewrite (rev_app_distr (L "$" ++ n)), <- app_assoc; reflexivity).
    rewrite R2 in *. rewrite RB; [rewrite pre_ok; reflexivity| |exact ST|rewrite !app_length; change (length (L " ")) with 1; lia].
    rewrite rev_app_distr, <- app_assoc. apply dotted_esc. exact H.
  - destruct H as (O & B). intros b r k EB ST LE. rewrite !app_length in LE. change (length (L " ")) with 1 in LE.
    destruct k as [|[|k]]; try lia.
    replace ((t ++ L " " ++ s) ++ r) with (t ++ (L " " ++ s) ++ r) by (rewrite <- !app_assoc; reflexivity).
    rewrite expr_tok by (try assumption; reflexivity).
    pose proof (reads_blank E ET um brk s code SP RD) as RB.
    assert (R2 : rev (t ++ L " " ++ s) ++ b = rev (L " " ++ s) ++ rev t ++ b)
      by (rewrite (rev_app_distr t), <- app_assoc; reflexivity).
    rewrite R2 in *. assert (length t <> 0) by (destruct O as (O & _); destruct t; [contradiction|discriminate]).
    rewrite RB; [rewrite pre_ok; reflexivity| |exact ST|rewrite !app_length; change (length (L " ")) with 1; lia].
    destruct O as (_ & OL & _). apply esc_tail; [|exact OL]. intros ->. cbn in *. lia.
Qed.

Lemma dotted_line : forall n, dotted_name n = true -> one_line n.
Proof.
  intros n H. split.
  - destruct (dotted_cons n H) as (c & r & _ & _ & D). apply dotted_chars in D. revert D.
    apply forallb_impl. intros x K. apply orb_prop in K as [K|K]; [rewrite (namechar_eol x K); reflexivity|].
    apply N.eqb_eq in K. subst x. reflexivity.
  - rewrite <- (app_nil_r (rev n)). apply dotted_esc. exact H.
Qed.

Lemma item_line : forall brk i, xi_ok E brk i -> one_line (xi_src i).
Proof.
  intros brk [w|n|t] H; cbn [xi_src xi_ok] in *.
  - apply dotted_line, ident_dotted. apply H.
  - destruct (dotted_line n H) as [L1 L2]. split; [exact L1|]. rewrite rev_app_distr. apply dotted_esc. exact H.
  - apply H.
Qed.

Lemma one_line_app : forall a b, forallb (fun c => negb (eolchar c)) a = true -> b <> [] -> one_line b -> one_line (a ++ b).
Proof.
  intros a b A NE B. split.
  - rewrite forallb_app, A. apply B.
  - rewrite rev_app_distr. apply esc_tail; assumption.
Qed.

Lemma dotted_strip : forall n, dotted_name n = true -> strip n = n /\ n <> [].
Proof.
  intros n H. destruct (dotted_cons n H) as (c & r & -> & I & D). split; [|discriminate]. apply strip_single.
  - apply namechar_space, identchar_name. exact I.
  - apply namechar_space. apply dname_last; [exact D|discriminate].
Qed.

Lemma item_strip : forall um brk i, xi_ok E brk i -> strip (xi_code E um i) = xi_code E um i /\ xi_code E um i <> [].
Proof.
  intros um brk [w|n|t] H; cbn [xi_code xi_ok] in *.
  - apply dotted_strip, ident_dotted. apply H.
  - unfold FrontWords_Spec.var_code. destruct um; [|apply dotted_strip; exact H].
    split; [|destruct (x_frames (e_X E)); discriminate]. apply strip_single.
    + destruct (x_frames (e_X E)); reflexivity.
    + rewrite !app_assoc. change (L ")") with [41%N]. rewrite last_last. reflexivity.
  - destruct H as ((S1 & _ & LS & _) & _). destruct t as [|c t]; [contradiction|]. split; [|discriminate].
    apply strip_single; [|exact LS]. apply (tok_start_cases c S1).
Qed.

Lemma item_head : forall um brk i, xi_ok E brk i -> match xi_code E um i with c :: _ => is_space c = false | [] => False end.
Proof.
  intros um brk i H. destruct (item_strip um brk i H) as [S1 S2]. destruct (xi_code E um i) as [|c r]; [congruence|].
  apply (strip_head (c :: r) c r S1).
Qed.

(** ** Expressions of items *)

Theorem items_reads : forall um brk l, l <> [] -> Forall (xi_ok E brk) l ->
  reads E um brk (x_src (items E um l)) (x_code (items E um l)) /\ one_line (x_src (items E um l)) /\
  starts_plain (x_src (items E um l)) /\
  strip (x_code (items E um l)) = x_code (items E um l) /\ x_code (items E um l) <> [].
Proof.
  intros um brk l. cbn [items x_src x_code]. induction l as [|i [|j l] IH]; intros NE F; [congruence| |].
  - inversion F as [|? ? H _]; subst. cbn [map join]. destruct (item_strip um brk i H) as [S1 S2].
    split; [apply item_last; exact H|]. split; [apply (item_line brk); exact H|]. split; [apply (item_start brk); exact H|].
    split; assumption.
  - inversion F as [|? ? H F']; subst. destruct (IH ltac:(discriminate) F') as (R & OL & SP & SC & NC).
    change (map xi_src (i :: j :: l)) with (xi_src i :: xi_src j :: map xi_src l).
    change (map (xi_code E um) (i :: j :: l)) with (xi_code E um i :: xi_code E um j :: map (xi_code E um) l).
    change (join (L " ") (xi_src i :: xi_src j :: map xi_src l))
      with (xi_src i ++ L " " ++ join (L " ") (map xi_src (j :: l))).
    change (join (L " ") (xi_code E um i :: xi_code E um j :: map (xi_code E um) l))
      with (xi_code E um i ++ L " " ++ join (L " ") (map (xi_code E um) (j :: l))).
    split; [apply item_then; assumption|]. split.
    { rewrite app_assoc. apply one_line_app; [|intros K; rewrite K in SP; contradiction|exact OL].
      rewrite forallb_app. rewrite (proj1 (item_line brk i H)). reflexivity. }
    split.
    { pose proof (item_start brk i H) as K. destruct (xi_src i) as [|c r]; [contradiction|]. exact K. }
    split.
    { rewrite app_assoc. apply strip_app; [exact NC|exact SC|]. pose proof (item_head um brk i H) as K.
      destruct (xi_code E um i); [contradiction|exact K]. }
    { pose proof (item_head um brk i H) as K. destruct (xi_code E um i); [contradiction|discriminate]. }
Qed.

Theorem items_xok : forall brk l, l <> [] -> Forall (xi_ok E brk) l -> xok E brk (items E (e_um E) l).
Proof. intros brk l NE F. exact (items_reads (e_um E) brk l NE F). Qed.

(** ** Targets *)

Definition single (i : xitem) : xp := mkXP (xi_src i) (xi_code E false i).

Lemma name_ok : forall brk i, name_item i -> existsb (str_eqb (xi_src i)) brk = false -> xi_ok E brk i.
Proof. intros brk [w|n|t] H B; cbn in *; [destruct H; auto|exact H|contradiction]. Qed.

(** A name, a blank and something the expression stops at. *)
Lemma name_break : forall brk i b op r n, name_item i -> existsb (str_eqb (xi_src i)) brk = false ->
  esc_ok b = true ->
  match op with c :: _ => opener c = false /\ closer c = false /\ blank c = false /\ eolchar c = false /\
      c <> 35%N /\ c <> 92%N /\ c <> 36%N | [] => False end ->
  x_tok (e_X E) (op ++ r) = Some (length op) -> existsb (str_eqb op) brk = true -> 5 <= n ->
  expr X n false false [] brk b (xi_src i ++ L " " ++ op ++ r)
  = ok (xi_code E false i ++ L " ") (rev (xi_src i ++ L " ") ++ b) (op ++ r).
Proof.
  intros brk i b op r n NI NB EB OP TK IB LE. destruct op as [|c op]; [contradiction|].
  destruct OP as (P1 & P2 & P3 & P4 & P5 & P6 & P7).
  assert (AT : forall k b', expr X (S k) false false [] brk b' ((c :: op) ++ r) = ok [] b' ((c :: op) ++ r)).
  { intros k b'. rewrite expr_S. unfold expr_step. rewrite (XT E ET). cbn [app] in *. rewrite P1, P2, P3, P4.
    cbn [andb negb empty]. apply N.eqb_neq in P6. rewrite P6. cbn [andb].
    assert (M : forall d l b', c <> d -> m_tok (d :: l) b' (c :: op ++ r) = false).
    { intros d l b2 D. unfold m_tok. cbn [starts_with]. apply not_eq_sym, N.eqb_neq in D. rewrite D, andb_false_r. reflexivity. }
    change (t_dirend dflt) with [35%N]. rewrite M by assumption. cbn [andb].
    assert (XV : m_xvar dflt (c :: op ++ r) = false).
    { unfold m_xvar. change (t_var dflt) with [36%N]. cbn [starts_with]. apply not_eq_sym, N.eqb_neq in P7. rewrite P7. reflexivity. }
    assert (MV : m_var dflt b' (c :: op ++ r) = false).
    { unfold m_var. change (t_var dflt) with [36%N]. rewrite M by assumption. reflexivity. }
    rewrite XV, MV. change (x_tok X) with (x_tok (e_X E)). rewrite TK.
    change (c :: op ++ r) with ((c :: op) ++ r). rewrite firstn_over, go_over. rewrite IB. reflexivity. }
  assert (SPL : starts_plain (c :: op)) by (split; [exact P3|intros ->; discriminate P1]).
  destruct n as [|[|[|[|[|n]]]]]; try lia.
  destruct i as [w|nm|t]; cbn [name_item xi_src xi_code] in *; [| |contradiction].
  - destruct NI as [ID NF]. rewrite expr_ident; [|exact ET|exact TW|exact ID|reflexivity|exact NB]. rewrite NF.
    rewrite take_one by exact SPL. rewrite paren_plain by exact SPL. rewrite AT, pre_ok, app_nil_r.
    rewrite rev_app_distr, <- app_assoc. reflexivity.
  - change ((L "$" ++ nm) ++ L " " ++ (c :: op) ++ r) with (L "$" ++ nm ++ L " " ++ (c :: op) ++ r).
    rewrite expr_name; [|exact NI|reflexivity|exact EB]. rewrite expr_S. unfold expr_step.
    change (L " " ++ (c :: op) ++ r) with (32%N :: (c :: op) ++ r).
    change (opener 32) with false. change (closer 32) with false. change (blank 32) with true. cbn [andb].
    change (32%N :: (c :: op) ++ r) with (L " " ++ (c :: op) ++ r). rewrite take_one by exact SPL.
    rewrite AT, !pre_ok, app_nil_r. rewrite (rev_app_distr (L "$" ++ nm)), <- app_assoc. reflexivity.
Qed.

Lemma name_start : forall i, name_item i -> starts_plain (xi_src i).
Proof. intros i H. apply (item_start []). apply name_ok; [exact H|reflexivity]. Qed.

Theorem target_name : forall i, name_item i -> xi_src i <> L "in" -> target_ok E (single i).
Proof.
  intros i NI NN. assert (NB : existsb (str_eqb (xi_src i)) [L "in"] = false).
  { cbn [existsb]. destruct (str_eqb_spec (xi_src i) (L "in")); [contradiction|reflexivity]. }
  split; [|split; [|split]].
  - intros b r n LE. cbn [single x_src x_code]. cbn [single x_src] in LE. destruct n as [|n]; [lia|].
    rewrite expr_S. unfold expr_step. change (L " " ++ xi_src i ++ L " in " ++ r) with (32%N :: xi_src i ++ L " in " ++ r).
    change (opener 32) with false. change (closer 32) with false. change (blank 32) with true. cbn [andb].
    change (32%N :: xi_src i ++ L " in " ++ r) with (L " " ++ xi_src i ++ L " in " ++ r).
    rewrite take_one by (apply name_start; exact NI).
    change (L " in " ++ r) with (L " " ++ L "in" ++ L " " ++ r).
    rewrite (name_break [L "in"] i (32%N :: b) (L "in") (L " " ++ r) n NI NB eq_refl).
    + rewrite pre_ok. rewrite !rev_app_distr, <- !app_assoc. reflexivity.
    + repeat split; discriminate.
    + apply TW; [split; reflexivity|reflexivity].
    + reflexivity.
    + lia.
  - apply (item_line []). apply name_ok; [exact NI|reflexivity].
  - cbn [single x_code].
    assert (K : forall s, dotted_name s = true -> forallb (fun c => negb (c =? 32)%N) s = true).
    { intros s D. destruct (dotted_cons s D) as (c & r & _ & _ & DN). apply dotted_chars in DN. revert DN.
      apply forallb_impl. intros x K. apply orb_prop in K as [K|K]; [rewrite (namechar_32 x K); reflexivity|].
      apply N.eqb_eq in K. subst x. reflexivity. }
    destruct i as [w|nm|t]; cbn [name_item xi_code] in *; [apply K, ident_dotted, NI|apply K, NI|contradiction].
  - apply name_start. exact NI.
Qed.

(** Assignment operators. *)
Lemma op_start : forall op, In op assign_ops ->
  match op with c :: _ => opener c = false /\ closer c = false /\ blank c = false /\ eolchar c = false /\
      c <> 35%N /\ c <> 92%N /\ c <> 36%N | [] => False end /\ existsb (str_eqb op) assign_ops = true /\ at_ident op = false.
Proof.
  intros op H. unfold assign_ops in H. cbn [map] in H. repeat (destruct H as [<-|H]; [repeat split; try discriminate|]). contradiction.
Qed.

Lemma ident_no_op : forall w, at_ident w = true -> existsb (str_eqb w) assign_ops = false.
Proof.
  intros w H. destruct (existsb (str_eqb w) assign_ops) eqn:K; [|reflexivity]. apply existsb_exists in K as (o & I & J).
  destruct (str_eqb_spec w o) as [e|]; [|discriminate J]. subst o. apply op_start in I as (_ & _ & I). congruence.
Qed.

Theorem lvalue_name : forall i op, name_item i -> In op assign_ops ->
  (forall r, x_tok (e_X E) (op ++ L " " ++ r) = Some (length op)) ->
  existsb (fun w => starts_with w (xi_src i)) (map L ["local"; "global"; "module"]%string) = false ->
  lvalue_ok E (single i) op.
Proof.
  intros i op NI IO TK NS. destruct (op_start op IO) as (OS & OI & _).
  assert (NB : existsb (str_eqb (xi_src i)) assign_ops = false).
  { destruct i as [w|nm|t]; cbn [name_item xi_src] in *; [|reflexivity|contradiction].
    apply ident_no_op. destruct w as [|c w]; [destruct NI; contradiction|]. apply NI. }
  assert (XO : xi_ok E assign_ops i) by (apply name_ok; assumption).
  split; [|split; [|split; [|split]]]; cbn [single x_src x_code].
  - intros b r n EB LE. cbn [single x_src] in LE. apply name_break; try assumption; [apply TK|lia].
  - apply (item_line assign_ops). exact XO.
  - destruct (item_strip false assign_ops i XO) as [S1 S2]. rewrite <- S1 at 2.
    pose proof (item_head false assign_ops i XO) as HD. destruct (xi_code E false i) as [|c s]; [contradiction|].
    unfold strip. cbn [app lstrip]. rewrite HD. unfold rstrip. change (c :: s ++ L " ") with ((c :: s) ++ [32%N]).
    rewrite rev_unit. reflexivity.
  - pose proof (item_start assign_ops i XO) as K. destruct (xi_src i); [contradiction|apply K].
  - intro r. assert (SW : forall w s t, forallb namechar w = true -> starts_with w s = false -> starts_with w (s ++ L " " ++ t) = false).
    { induction w as [|c w IH]; intros s t A B; [destruct s; discriminate B|]. cbn [forallb] in A. apply andb_prop in A as [A1 A2].
      destruct s as [|d s]; cbn [app starts_with] in *.
      - change (starts_with (c :: w) (32%N :: t) = false). cbn [starts_with]. rewrite (namechar_32 c A1). reflexivity.
      - destruct (c =? d)%N; [|reflexivity]. cbn [andb] in *. apply IH; assumption. }
    cbn [map existsb] in *. apply orb_false_iff in NS as [N1 NS]. apply orb_false_iff in NS as [N2 NS]. apply orb_false_iff in NS as [N3 _].
    rewrite !SW by (reflexivity || assumption). reflexivity.
Qed.

(** ** Placeholders *)

Theorem ph_name : forall p0 sil braces n rest, dotted_name n = true -> esc_ok (rev p0) = true ->
  (braces = false -> name_end rest = true) -> ph_ok E p0 (var_ph E sil braces n) rest.
Proof.
  intros p0 sil braces n rest D EB NE. destruct (dotted_cons n D) as (c & s & -> & I & DN).
  assert (SC : skip_silent (36%N :: rev p0) ((if sil then L "!" else []) ++ (if braces then L "{" ++ (c :: s) ++ L "}" else c :: s) ++ rest)
    = (rev (L "$" ++ (if sil then L "!" else [])) ++ rev p0, (if braces then L "{" ++ (c :: s) ++ L "}" else c :: s) ++ rest)).
  { destruct sil; [reflexivity|]. destruct braces; [reflexivity|]. cbn [app].
    destruct (skip_none c (36%N :: rev p0) (s ++ rest) I) as [-> _]. reflexivity. }
  assert (SK : forall b, skip_cache b ((if braces then L "{" ++ (c :: s) ++ L "}" else c :: s) ++ rest)
     = (b, (if braces then L "{" ++ (c :: s) ++ L "}" else c :: s) ++ rest)).
  { intro b. destruct braces; [unfold skip_cache; cbn [app after_cache]; rewrite Nat.sub_diag; reflexivity|].
    apply (skip_none c b (s ++ rest) I). }
  assert (C33 : (c =? 33)%N = false) by (idc I; reflexivity).
  assert (C42 : (c =? 42)%N = false) by (idc I; reflexivity).
  assert (CO : opener c = false) by (unfold opener; idc I; reflexivity).
  assert (CB : blank c = false) by (unfold blank; idc I; reflexivity).
  assert (SH : show_ph (var_ph E sil braces (c :: s)) ++ rest
    = L "$" ++ (if sil then L "!" else []) ++ (if braces then L "{" ++ (c :: s) ++ L "}" else c :: s) ++ rest)
    by (unfold show_ph, var_ph; cbn [ph_sil ph_src]; rewrite <- !app_assoc; reflexivity).
  split; [|split].
  - apply orb_true_iff. left. unfold m_var, m_tok. rewrite EB, SH.
    destruct sil, braces; cbn -[identchar opener blank N.eqb]; change (33 =? 33)%N with true; change (36 =? 36)%N with true;
      change (123 =? 33)%N with false; cbv iota; rewrite ?C33;
      cbn -[identchar opener blank N.eqb]; change (123 =? 42)%N with false; rewrite ?C42; cbv iota;
      change (opener 123) with true; rewrite ?CO; cbn -[identchar opener blank N.eqb]; rewrite ?CB; exact I.
  - cbn [var_ph ph_src]. destruct braces; cbn; [reflexivity|]. rewrite I. reflexivity.
  - intros n LE. rewrite SH. rewrite !app_length in LE. destruct n as [|[|[|n]]]; try lia.
    change (placeholder X (S (S (S n)))) with (placeholder_step X (expr X (S (S n))) (callargs X (S (S n))) (chunks X (S (S n)))).
    unfold placeholder_step. rewrite (XT E ET).
    assert (M : m_vartok dflt (rev p0) (L "$" ++ (if sil then L "!" else []) ++ (if braces then L "{" ++ (c :: s) ++ L "}" else c :: s) ++ rest) = true).
    { unfold m_vartok, m_tok. rewrite EB. destruct sil; [reflexivity|]. destruct braces; [reflexivity|]. cbn. rewrite I. reflexivity. }
    rewrite M. change (go (length (t_var dflt)) (rev p0) (L "$" ++ (if sil then L "!" else []) ++ (if braces then L "{" ++ (c :: s) ++ L "}" else c :: s) ++ rest))
      with (36%N :: rev p0, (if sil then L "!" else []) ++ (if braces then L "{" ++ (c :: s) ++ L "}" else c :: s) ++ rest).
    cbv iota. rewrite SC, SK.
    assert (SB : rev (show_ph (var_ph E sil braces (c :: s))) ++ rev p0
      = rev (if braces then L "{" ++ (c :: s) ++ L "}" else c :: s) ++ rev (L "$" ++ (if sil then L "!" else [])) ++ rev p0).
    { unfold show_ph. cbn [var_ph ph_sil ph_src]. rewrite app_assoc, (rev_app_distr (L "$" ++ _)), <- app_assoc. reflexivity. }
    rewrite SB. set (B := rev (L "$" ++ (if sil then L "!" else [])) ++ rev p0). cbn [var_ph ph_code ph_fa].
    destruct braces.
    + change ((L "{" ++ (c :: s) ++ L "}") ++ rest) with (123%N :: ((c :: s) ++ L "}") ++ rest).
      change (opener 123) with true. cbv iota.
      assert (TW1 : take_ws (123%N :: B) (((c :: s) ++ L "}") ++ rest) = ([], (123%N :: B, (c :: s) ++ L "}" ++ rest))).
      { rewrite <- app_assoc. cbn [app take_ws]. rewrite CB. reflexivity. }
      rewrite TW1. cbn [app at_ident]. rewrite I. change (c :: s ++ L "}" ++ rest) with ((c :: s) ++ L "}" ++ rest).
      rewrite chunks_name; [|exact D|reflexivity]. cbn [bnd ok]. rewrite gen_var_code.
      change (take_ws (rev (c :: s) ++ 123%N :: B) (L "}" ++ rest)) with (@nil N, (rev (c :: s) ++ 123%N :: B, 125%N :: rest)).
      cbv iota. change (125 =? 44)%N with false. rewrite andb_false_r. change (125 =? mate 123)%N with true. cbv iota.
      rewrite app_nil_r. change (opener 123) with true. cbv iota.
      match goal with |- ok _ ?a _ = ok _ ?b _ => replace b with a; [reflexivity|] end.
      change (c :: s ++ L "}") with ((c :: s) ++ L "}").
      rewrite (rev_app_distr (L "{")), (rev_app_distr (c :: s)), <- !app_assoc. reflexivity.
    + cbn [app]. rewrite CO, I. change (c :: s ++ rest) with ((c :: s) ++ rest).
      rewrite chunks_name; [|exact D|apply NE; reflexivity]. cbn [bnd ok]. rewrite gen_var_code. reflexivity.
Qed.

(** ** Text *)

(** Text without the characters the tokens start with. *)
Lemma plain_no_token : forall p s k, forallb (fun c => negb (mem_char c (L "#$<"))) s = true -> plain_text p s k.
Proof.
  intros p s k H u c v ->. rewrite forallb_app in H. apply andb_prop in H as [_ H]. cbn [forallb] in H.
  apply andb_prop in H as [H _]. apply negb_true_iff in H. unfold top_match.
  assert (K : mem_char c (first_chars dflt) = false).
  { unfold mem_char, first_chars in *. cbn in *. destruct (c =? 35)%N, (c =? 36)%N, (c =? 60)%N; try discriminate H; reflexivity. }
  rewrite K. reflexivity.
Qed.
End Items.
