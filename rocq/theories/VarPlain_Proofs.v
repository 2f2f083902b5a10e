(** Names written with a dollar sign where Python wants a plain name. *)
From Verif Require Import Base PyStr Lex_Model Expr_Model Expr_Spec Expr_Proofs ExprMain_Proofs ExprVerb_Proofs VarCode_Spec VarCode_Proofs.

Section Plain.
Variable X : lang.
Hypothesis XO : lang_ok X.
Hypothesis TV : t_var (x_T X) = [36%N].
Local Notation T := (x_T X).

Lemma ident_xvar : forall v r, ident v -> m_xvar T (36%N :: v ++ r) = true.
Proof. intros v r [I _]. unfold m_xvar. rewrite TV. destruct v as [|c v]; [discriminate|]. cbn. exact I. Qed.

Lemma cvar_bare : forall n um plain b v r1, ident v -> m_vartok T b (36%N :: v ++ r1) = true ->
  (forall c r, r1 = c :: r -> namechar c = false /\ ((c =? 46)%N && at_ident r = false)) ->
  at_char 40 r1 = false -> at_char 91 r1 = false ->
  cvar X (S (S (S n))) um plain b (36%N :: v ++ r1) =
    match gen_var X um plain [(v, true, [])] with
    | Some x => ok x (rev v ++ 36%N :: b) r1
    | None => err XIndex
    end.
Proof.
  intros n um plain b v r1 IV MV ST N1 N2.
  change (cvar X (S (S (S n)))) with (cvar_step X (chunks X (S (S n)))). unfold cvar_step. rewrite MV, TV. cbn [go length].
  assert (AI : at_ident (v ++ r1) = true) by (destruct IV as [I _]; destruct v; [discriminate|exact I]).
  rewrite skip_silent_ident, skip_cache_ident by exact AI.
  assert (D : dotted (36%N :: b) (v ++ r1) = (v, (rev v ++ 36%N :: b, r1))).
  { apply (dotted_ids [v] (36%N :: b) r1); [discriminate|constructor; [exact IV|constructor]|exact ST]. }
  rewrite (chunks_bare X n um (36%N :: b) (v ++ r1) v _ r1 AI D N1 N2). reflexivity.
Qed.

Lemma cvar_bare_ok : forall n um plain b v r1 x b2 r2, ident v ->
  (forall c r, r1 = c :: r -> namechar c = false /\ ((c =? 46)%N && at_ident r = false)) ->
  at_char 40 r1 = false -> at_char 91 r1 = false ->
  cvar X n um plain b (36%N :: v ++ r1) = ok x b2 r2 ->
  gen_var X um plain [(v, true, [])] = Some x /\ b2 = rev v ++ 36%N :: b /\ r2 = r1.
Proof.
  intros n um plain b v r1 x b2 r2 IV ST N1 N2 H.
  destruct n as [|[|[|n]]]; [discriminate| | |].
  1,2: exfalso; revert H; unfold cvar; cbn [fns_at f_cvar]; unfold cvar_step;
    destruct (m_vartok T b (36%N :: v ++ r1)); [|discriminate]; rewrite TV; cbn [go length];
    assert (AI : at_ident (v ++ r1) = true) by (destruct IV as [I _]; destruct v; [discriminate|exact I]);
    rewrite skip_silent_ident, skip_cache_ident by exact AI; try discriminate.
  - cbn [f_chunks]. unfold chunks_step. cbv zeta.
    assert (D : dotted (36%N :: b) (v ++ r1) = (v, (rev v ++ 36%N :: b, r1))).
    { apply (dotted_ids [v] (36%N :: b) r1); [discriminate|constructor; [exact IV|constructor]|exact ST]. }
    destruct (v ++ r1) as [|c q] eqn:E; [discriminate AI|]. cbn in AI. rewrite AI, D.
    destruct r1 as [|d r1]; [discriminate|]. cbn in N1, N2. rewrite N1, N2. discriminate.
  - assert (MV : m_vartok T b (36%N :: v ++ r1) = true).
    { destruct (m_vartok T b (36%N :: v ++ r1)) eqn:MV; [reflexivity|].
      change (cvar X (S (S (S n)))) with (cvar_step X (chunks X (S (S n)))) in H. unfold cvar_step in H. rewrite MV in H. discriminate. }
    rewrite (cvar_bare n um plain b v r1 IV MV ST N1 N2) in H.
    destruct (gen_var X um plain [(v, true, [])]) as [y|]; [|discriminate]. injection H as <- <- <-. auto.
Qed.

Lemma take_ws_none : forall c b r, blank c = false -> take_ws b (c :: r) = ([], (b, c :: r)).
Proof. intros c b r H. cbn. rewrite H. reflexivity. Qed.

(** A keyword argument. *)
Lemma keyword_plain : forall n um b v r2 code b' r', ident v -> x_tok X (61%N :: r2) = Some 1 ->
  callargs X n um [] b (40%N :: 36%N :: v ++ 61%N :: r2) = ok code b' r' ->
  exists code1, code = 40%N :: v ++ 61%N :: code1.
Proof.
  intros n um b v r2 code b' r' IV TK H. destruct n as [|n]; [discriminate|].
  change (callargs X (S n)) with (callargs_step (cargs X n)) in H. unfold callargs_step in H.
  change (40 =? 40)%N with true in H. cbv iota in H. apply pre_ok in H as (c1 & H & ->).
  destruct n as [|n]; [discriminate|].
  change (cargs X (S n)) with (cargs_step X (expr X n) (cargs X n) (cvar X n) (transform X n)) in H. unfold cargs_step in H.
  change (closer 36) with false in H. change (blank 36 || eolchar 36) with false in H. cbv iota in H.
  rewrite (ident_xvar v _ IV) in H. apply bnd_ok in H as (x & b1 & r1 & H1 & H).
  assert (ST : forall c r, 61%N :: r2 = c :: r -> namechar c = false /\ ((c =? 46)%N && at_ident r = false)).
  { intros c r E. injection E as <- _. split; reflexivity. }
  apply (cvar_bare_ok n um false (40%N :: b) v (61%N :: r2)) in H1 as (_ & -> & ->); auto.
  rewrite take_ws_none in H by reflexivity. change (at_char 61 (61%N :: r2)) with true in H. cbv iota in H.
  rewrite TK in H. cbn [go firstn] in H. change (str_eqb [61%N] (L "=")) with true in H. cbv iota in H.
  apply bnd_ok in H as (x2 & b3 & r3 & H2 & H).
  apply (cvar_bare_ok n um true (40%N :: b) v (61%N :: r2)) in H2 as (G & _ & _); auto.
  unfold gen_var in G. rewrite andb_false_r in G. cbn in G. injection G as <-. rewrite app_nil_r in H.
  apply pre_ok in H as (c2 & _ & ->). exists c2. cbn. rewrite <- app_assoc. reflexivity.
Qed.

(** The target of a comprehension in brackets, or of a for directive. *)
Lemma target_plain : forall n um en enc brk b v r2 code b' r', ident v ->
  m_tok (t_dirend T) b (L "for $" ++ v ++ L " in" ++ r2) = false \/ enc <> [] -> (en = true -> enc <> []) -> existsb (str_eqb (L "for")) brk = false ->
  m_var T b (L "for $" ++ v ++ L " in" ++ r2) = false ->
  x_tok X (L "for $" ++ v ++ L " in" ++ r2) = Some 3 -> x_tok X (L "in" ++ r2) = Some 2 ->
  (forall b, m_tok (t_dirend T) b (36%N :: v ++ L " in" ++ r2) = false) ->
  (forall b, m_tok (t_dirend T) b (L "in" ++ r2) = false) ->
  (forall b, m_var T b (L "in" ++ r2) = false) ->
  expr X n um en enc brk b (L "for $" ++ v ++ L " in" ++ r2) = ok code b' r' ->
  exists code1, code = L "for " ++ v ++ L " " ++ code1.
Proof.
  intros n um en enc brk b v r2 code b' r' IV DE EN BR MV TK1 TK2 DE2 DE3 MV3 H. destruct n as [|n]; [discriminate|].
  change (expr X (S n)) with (expr_step X (expr X n) (callargs X n) (cvar X n) (transform X n)) in H. unfold expr_step in H.
  change (L "for $" ++ v ++ L " in" ++ r2) with (102%N :: 111%N :: 114%N :: 32%N :: 36%N :: v ++ 32%N :: 105%N :: 110%N :: r2) in *.
  remember (111%N :: 114%N :: 32%N :: 36%N :: v ++ 32%N :: 105%N :: 110%N :: r2) as R.
  change (opener 102) with false in H. cbv iota in H.
  assert (E1 : en && empty enc = false).
  { destruct en; [|reflexivity]. destruct enc; [exfalso; apply EN; reflexivity|reflexivity]. }
  rewrite E1 in H. change (closer 102) with false in H. change (blank 102) with false in H. cbv iota in H.
  assert (E2 : m_tok (t_dirend T) b (102%N :: R) && empty enc = false).
  { destruct DE as [->|NE]; [reflexivity|]. destruct enc; [congruence|apply andb_false_r]. }
  rewrite E2 in H. change (102 =? 92)%N with false in H. change (eolchar 102) with false in H. cbn [andb] in H.
  assert (E3 : m_xvar T (102%N :: R) = false) by (unfold m_xvar; rewrite TV; reflexivity).
  rewrite E3, MV, TK1 in H.
  assert (F3 : firstn 3 (102%N :: R) = L "for") by (subst R; reflexivity).
  rewrite F3 in H.
  assert (G3 : go 3 b (102%N :: R) = (rev (L "for") ++ b, 32%N :: 36%N :: v ++ 32%N :: 105%N :: 110%N :: r2)) by (subst R; reflexivity).
  rewrite G3 in H. rewrite BR, andb_false_r in H.
  apply bnd_ok in H as (t & b1 & r1 & H1 & H).
  assert (TT : t = Some (L "for") /\ r1 = 32%N :: 36%N :: v ++ 32%N :: 105%N :: 110%N :: r2).
  { destruct n as [|n]; [discriminate|]. change (transform X (S n)) with (transform_step X (cstr X n)) in H1. unfold transform_step in H1.
    change (str_eqb (L "for") (L "c")) with false in H1. cbn [andb] in H1. injection H1 as <- _ <-. auto. }
  destruct TT as [-> ->]. change (at_ident (L "for")) with true in H. change (str_eqb (L "for") (L "for")) with true in H. cbv iota in H.
  apply bnd_ok in H as (x & b2 & r3 & H2 & H). apply pre_ok in H as (c1 & _ & ->).
  (* the target *)
  destruct n as [|n]; [discriminate|].
  change (expr X (S n)) with (expr_step X (expr X n) (callargs X n) (cvar X n) (transform X n)) in H2. unfold expr_step in H2.
  change (opener 32) with false in H2. change (closer 32) with false in H2. change (blank 32) with true in H2. cbn [andb] in H2.
  change (take_ws b1 (32%N :: 36%N :: v ++ 32%N :: 105%N :: 110%N :: r2))
    with ([32%N], (32%N :: b1, 36%N :: v ++ 32%N :: 105%N :: 110%N :: r2)) in H2. cbv iota in H2.
  apply pre_ok in H2 as (x1 & H2 & ->).
  destruct n as [|n]; [discriminate|].
  change (expr X (S n)) with (expr_step X (expr X n) (callargs X n) (cvar X n) (transform X n)) in H2. unfold expr_step in H2.
  change (opener 36) with false in H2. change (closer 36) with false in H2. change (blank 36) with false in H2.
  change (36 =? 92)%N with false in H2. change (eolchar 36) with false in H2. cbn [andb] in H2.
  change (v ++ L " in" ++ r2) with (v ++ 32%N :: 105%N :: 110%N :: r2) in DE2.
  rewrite DE2 in H2. cbn [andb] in H2. rewrite (ident_xvar v _ IV) in H2.
  apply bnd_ok in H2 as (y & b3 & r4 & H3 & H2).
  apply (cvar_bare_ok n false false (32%N :: b1) v (32%N :: 105%N :: 110%N :: r2)) in H3 as (G & -> & ->); auto.
  2:{ intros c r E. injection E as <- _. split; reflexivity. }
  cbn in G. injection G as <-. apply pre_ok in H2 as (x2 & H2 & ->).
  (* the blank before in *)
  destruct n as [|n]; [discriminate|].
  change (expr X (S n)) with (expr_step X (expr X n) (callargs X n) (cvar X n) (transform X n)) in H2. unfold expr_step in H2.
  change (opener 32) with false in H2. change (closer 32) with false in H2. change (blank 32) with true in H2. cbn [andb] in H2.
  change (take_ws (rev v ++ 36%N :: 32%N :: b1) (32%N :: 105%N :: 110%N :: r2))
    with ([32%N], (32%N :: rev v ++ 36%N :: 32%N :: b1, 105%N :: 110%N :: r2)) in H2. cbv iota in H2.
  apply pre_ok in H2 as (x3 & H2 & ->).
  (* the break at in *)
  destruct n as [|n]; [discriminate|].
  change (expr X (S n)) with (expr_step X (expr X n) (callargs X n) (cvar X n) (transform X n)) in H2. unfold expr_step in H2.
  change (opener 105) with false in H2. change (closer 105) with false in H2. change (blank 105) with false in H2.
  change (105 =? 92)%N with false in H2. change (eolchar 105) with false in H2. cbn [andb] in H2.
  change (L "in" ++ r2) with (105%N :: 110%N :: r2) in *. rewrite DE3 in H2. cbn [andb] in H2.
  assert (E4 : m_xvar T (105%N :: 110%N :: r2) = false) by (unfold m_xvar; rewrite TV; reflexivity).
  rewrite E4, MV3, TK2 in H2. cbn [go firstn] in H2. change (empty (@nil (N * nat))) with true in H2.
  change (existsb (str_eqb [105%N; 110%N]) [L "in"]) with true in H2. cbn [andb] in H2. injection H2 as <- _ _.
  eexists. rewrite app_nil_r. cbn. rewrite <- !app_assoc. reflexivity.
Qed.

End Plain.
