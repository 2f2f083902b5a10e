(** Blocks that are taken as source text: proofs. *)
From Verif Require Import Base PyStr Alist Reader_Model Reader_Spec Lex_Model Lex_Spec Expr_Model Front_Model Front_Spec.
From Verif Require Import FrontLex_Proofs FrontEat_Proofs FrontGen_Proofs Macro_Model Macro_Spec.
From Verif Require Gen_Model Gen_Proofs LexLines_Proofs Lex_Proofs.
Local Open Scope nat_scope. Local Open Scope list_scope.

(** ** The search for the ending directive *)

Lemma match_name_prefix : forall s P nm n, match_name P nm s = Some n -> n = [64%N] \/ exists u v, n = nm ++ u /\ s = u ++ v.
Proof.
  induction s as [|c s IH]; intros P nm n H; cbn [match_name] in H; [discriminate|].
  destruct (negb (dnchar c)); [discriminate|]. cbv zeta in H.
  destruct (str_eqb (nm ++ [c]) [64%N]).
  { destruct s as [|d s]; [discriminate|]. destruct (identchar d); [|discriminate]. left. congruence. }
  destruct (filter (starts_with (nm ++ [c])) P) as [|q Q]; [discriminate|].
  destruct (existsb (str_eqb (nm ++ [c])) (q :: Q) && match s with d :: _ => negb (dnchar d) | [] => true end).
  - right. exists [c], s. split; [congruence|reflexivity].
  - destruct (IH _ _ _ H) as [E|(u & v & E1 & E2)]; [left; exact E|]. right. exists (c :: u), v.
    rewrite E1, E2, <- app_assoc. split; reflexivity.
Qed.

Section Names.
Variable ns : list pystr.
Hypothesis END : In (L "end") ns.

Lemma dirstart_hash : forall b r, m_dirstart (named ns) b (35%N :: r)
  = if esc_ok b then match r with c :: _ => if identchar c || (c =? 64)%N then Some r else None | [] => None end else None.
Proof.
  intros b r. unfold m_dirstart, m_tok. change (t_dir (named ns)) with [35%N]. cbn [starts_with]. change (35 =? 35)%N with true.
  cbn [andb]. rewrite andb_true_r. destruct (esc_ok b); reflexivity.
Qed.

Lemma dirstart_other : forall c b r, c <> 35%N -> m_dirstart (named ns) b (c :: r) = None.
Proof.
  intros c b r H. unfold m_dirstart, m_tok. change (t_dir (named ns)) with [35%N]. cbn [starts_with].
  destruct (N.eqb_spec 35 c) as [e|_]; [congruence|]. cbn [andb]. rewrite andb_false_r. reflexivity.
Qed.

(** A place that is no ending directive: one character on. *)
Lemma step_quiet : forall n name b c r, starts_with (L "#end") (c :: r) = false ->
  find_end (S n) (named ns) name b (c :: r) = find_end n (named ns) name (c :: b) r.
Proof.
  intros n name b c r H. cbn [find_end]. destruct (N.eqb_spec c 35) as [->|NE]; [|rewrite dirstart_other by exact NE; reflexivity].
  rewrite dirstart_hash. destruct (esc_ok b); [|reflexivity]. destruct r as [|d r]; [reflexivity|].
  destruct (identchar d || (d =? 64)%N); [|reflexivity].
  change (t_names (named ns)) with ns.
  destruct (match_name ns [] (d :: r)) as [m|] eqn:M; [|rewrite andb_false_r; reflexivity].
  destruct (str_eqb_spec m (L "end")) as [EQ|_]; [|rewrite andb_false_r; reflexivity]. exfalso.
  destruct (match_name_prefix _ _ _ _ M) as [E1|(u & v & E1 & E2)]; [rewrite E1 in EQ; discriminate EQ|].
  cbn [app] in E1. rewrite E2, <- E1, EQ in H. discriminate H.
Qed.

Lemma step_escaped : forall n name b r,
  find_end (S n) (named ns) name (92%N :: b) (35%N :: r) = find_end n (named ns) name (35%N :: 92%N :: b) r.
Proof. intros n name b r. cbn [find_end]. rewrite dirstart_hash. reflexivity. Qed.

Lemma steps_quiet : forall u n name b r, ~ In 35%N u ->
  find_end (length u + n) (named ns) name b (u ++ r) = find_end n (named ns) name (rev u ++ b) r.
Proof.
  induction u as [|c u IH]; intros n name b r H; [reflexivity|]. cbn [length app Nat.add].
  rewrite step_quiet.
  - rewrite IH by (intro I; apply H; right; exact I). cbn [rev]. rewrite <- app_assoc. reflexivity.
  - cbn [starts_with L map list_ascii_of_string]. destruct (N.eqb_spec (N_of_ascii "#"%char) c) as [e|_]; [|reflexivity].
    exfalso. apply H. left. symmetry. exact e.
Qed.

Lemma skip_blanks : forall w b c r, forallb blank w = true -> blank c = false ->
  skip_ws b (w ++ c :: r) = (rev w ++ b, c :: r).
Proof.
  induction w as [|d w IH]; intros b c r H K; cbn [app skip_ws].
  - rewrite K. reflexivity.
  - cbn [forallb] in H. apply andb_true_iff in H as [H1 H2]. rewrite H1, IH by assumption. cbn [rev]. rewrite <- app_assoc. reflexivity.
Qed.

Lemma prefix_more : forall p s K c, ~ In c p -> starts_with p s = false -> starts_with p (s ++ c :: K) = false.
Proof.
  induction p as [|x p IH]; intros [|y s] K c NI H; cbn [starts_with app] in *; try discriminate.
  - destruct (N.eqb_spec x c) as [e|_]; [|reflexivity]. exfalso. apply NI. left. exact e.
  - destruct (N.eqb_spec x y) as [e|_]; [|reflexivity]. cbn [andb] in *. apply IH; [|exact H]. intro I. apply NI. right. exact I.
Qed.

Lemma end_more : forall c t K, starts_with (L "#end") (c :: t) = false -> starts_with (L "#end") (c :: t ++ 35%N :: K) = false.
Proof.
  intros c t K H. change (L "#end") with (35%N :: L "end") in *. cbn [starts_with] in *.
  destruct (35 =? c)%N; [|reflexivity]. cbn [andb] in *. apply prefix_more; [|exact H]. vm_compute. intuition discriminate.
Qed.

(** Over a whole text. *)
Lemma find_over : forall name t, ~ In 35%N name -> quiet name t -> forall n b K, length (t ++ 35%N :: K) < n ->
  exists n', length (35%N :: K) < n' /\
    find_end n (named ns) name b (t ++ 35%N :: K) = find_end n' (named ns) name (rev t ++ b) (35%N :: K).
Proof.
  intros name t NN Q. induction Q as [|c t H Q IH|t Q IH|w c t HW HC HN HS Q IH]; intros n b K LT.
  - exists n. split; [exact LT|reflexivity].
  - destruct n as [|n]; [lia|]. cbn [app length] in LT. destruct (IH n (c :: b) K) as (n' & L1 & E); [lia|].
    exists n'. split; [exact L1|]. cbn [app]. rewrite step_quiet by (apply end_more; exact H). rewrite E. cbn [rev].
    rewrite <- app_assoc. reflexivity.
  - destruct n as [|[|n]]; cbn [app length] in LT; [lia|lia|]. destruct (IH n (35%N :: 92%N :: b) K) as (n' & L1 & E); [lia|].
    exists n'. split; [exact L1|]. cbn [app]. rewrite step_quiet by reflexivity. rewrite step_escaped. rewrite E. cbn [rev].
    rewrite <- !app_assoc. reflexivity.
  - rewrite !app_length in LT. cbn [length] in LT.
    change (length (L "#end")) with 4 in LT.
    assert (NI : ~ In 35%N (L "end" ++ w ++ [c])).
    { intro I. apply in_app_iff in I as [I|I]; [revert I; vm_compute; intuition discriminate|].
      apply in_app_iff in I as [I|[e|[]]]; [|congruence]. rewrite forallb_forall in HW. specialize (HW _ I). discriminate HW. }
    assert (SH : (L "#end" ++ w ++ c :: t) ++ 35%N :: K = 35%N :: (L "end" ++ w ++ [c]) ++ t ++ 35%N :: K).
    { rewrite <- !app_assoc. cbn. reflexivity. }
    assert (RV : rev (L "#end" ++ w ++ c :: t) ++ b = rev t ++ rev (L "end" ++ w ++ [c]) ++ 35%N :: b).
    { change (L "#end" ++ w ++ c :: t) with (35%N :: L "end" ++ w ++ [c] ++ t). rewrite !app_assoc. cbn [rev]. rewrite !rev_app_distr. rewrite <- !app_assoc. reflexivity. }
    rewrite SH, RV.
    set (u := L "end" ++ w ++ [c]) in *. assert (LU : length u = S (S (S (length w + 1)))).
    { unfold u. rewrite !app_length. reflexivity. }
    destruct n as [|n]; [lia|].
    assert (STEP : exists n1, length (t ++ 35%N :: K) < n1 /\
      (find_end n (named ns) name (35%N :: b) (u ++ t ++ 35%N :: K) = find_end n1 (named ns) name (rev u ++ 35%N :: b) (t ++ 35%N :: K))).
    { exists (n - length u). split; [rewrite app_length; cbn [length]; lia|].
      replace n with (length u + (n - length u)) at 1 by lia. apply steps_quiet. exact NI. }
    destruct STEP as (n1 & L1 & E1).
    assert (CH : exists n2, length (t ++ 35%N :: K) < n2 /\
      find_end (S n) (named ns) name b (35%N :: u ++ t ++ 35%N :: K) = find_end n2 (named ns) name (rev u ++ 35%N :: b) (t ++ 35%N :: K)).
    { assert (UE : u ++ t ++ 35%N :: K = L "end" ++ w ++ c :: t ++ 35%N :: K).
      { unfold u. rewrite <- !app_assoc. reflexivity. }
      rewrite UE in E1 |- *. change (L "end" ++ w ++ c :: t ++ 35%N :: K) with (101%N :: 110%N :: 100%N :: w ++ c :: t ++ 35%N :: K) in E1 |- *.
      cbn [find_end]. rewrite dirstart_hash. destruct (esc_ok b); [|exists n1; split; [exact L1|exact E1]].
      change (identchar 101 || (101 =? 64)%N) with true. cbv iota beta.
      change (firstn 1 (t_dir (named ns))) with [35%N]. cbn [starts_with]. change (35 =? 35)%N with true. cbn [andb].
      destruct (match match_name (t_names (named ns)) [] _ with Some d => str_eqb d (L "end") | None => false end);
        [|exists n1; split; [exact L1|exact E1]].
      match goal with |- context [go ?k _ _] => replace k with 4 by (cbn [length]; lia) end.
      change (35%N :: 101%N :: 110%N :: 100%N :: w ++ c :: t ++ 35%N :: K) with (L "#end" ++ w ++ c :: t ++ 35%N :: K).
      change 4 with (length (L "#end")). rewrite go_over. rewrite skip_blanks by assumption.
      change (c :: t ++ 35%N :: K) with ((c :: t) ++ 35%N :: K). rewrite prefix_more by assumption. cbn [app].
      exists n. split; [rewrite app_length; cbn [length]; lia|]. f_equal. unfold u. rewrite !rev_app_distr. cbn [rev app].
      rewrite <- ?app_assoc. reflexivity. }
    destruct CH as (n2 & L2 & E2). rewrite E2. destruct (IH n2 (rev u ++ 35%N :: b) K L2) as (n' & L3 & E3). exists n'. split; [exact L3|].
    rewrite E3. reflexivity.
Qed.

Lemma match_end : forall r, match_name ns [] (L "end" ++ 32%N :: r) = Some (L "end").
Proof.
  intro r. apply (match_name_word (L "end") [] ns (32%N :: r)); try reflexivity; try discriminate. exact END.
Qed.

Lemma ident_head : forall w, ident w -> exists c r, w = c :: r /\ blank c = false.
Proof.
  intros [|c w] H; [contradiction|]. destruct H as [H _]. exists c, w. split; [reflexivity|].
  destruct (blank c) eqn:B; [|reflexivity]. unfold blank in B. unfold identchar in H. exfalso. lia.
Qed.

Lemma starts_self : forall p s, starts_with p (p ++ s) = true.
Proof. intros p s. apply starts_with_iff. exists s. reflexivity. Qed.

Lemma find_at : forall n name b K, ident name -> esc_ok b = true -> stop (rev name ++ b) K ->
  find_end (S n) (named ns) name b (L "#end " ++ name ++ K)
  = Some (Ok (if line_clear b then length b - eol_off b else length b, line_clear b, (rev (L "#end " ++ name) ++ b, K))).
Proof.
  intros n name b K ID EO ST. destruct (ident_head name ID) as (c & nm & EN & BL).
  change (L "#end " ++ name ++ K) with (35%N :: 101%N :: 110%N :: 100%N :: 32%N :: name ++ K). cbn [find_end]. rewrite dirstart_hash, EO.
  change (identchar 101 || (101 =? 64)%N) with true. cbv iota beta.
  change (firstn 1 (t_dir (named ns))) with [35%N]. cbn [starts_with]. change (35 =? 35)%N with true. cbn [andb].
  change (t_names (named ns)) with ns.
  change (101%N :: 110%N :: 100%N :: 32%N :: name ++ K) with (L "end" ++ 32%N :: name ++ K). rewrite match_end.
  change (str_eqb (L "end") (L "end")) with true. cbv iota beta.
  match goal with |- context [go ?k _ _] => replace k with 4 by (cbn [length]; lia) end.
  change (35%N :: L "end" ++ 32%N :: name ++ K) with (L "#end" ++ 32%N :: name ++ K).
  change 4 with (length (L "#end")). rewrite go_over. rewrite EN at 1. 
  change (32%N :: (c :: nm) ++ K) with ([32%N] ++ c :: nm ++ K). rewrite (skip_blanks [32%N]) by (try reflexivity; exact BL).
  change (c :: nm ++ K) with ((c :: nm) ++ K). rewrite <- EN. rewrite starts_self. cbv zeta. rewrite go_over.
  rewrite (stop_ws (rev name ++ b)) by exact ST. do 4 f_equal. rewrite rev_app_distr, <- app_assoc. reflexivity.
Qed.

(** ** The position of the text *)

Lemma eol_rev_line : forall w a, indent w -> after_break a -> eol_off (rev w ++ rev a) = length w.
Proof.
  intros w a W A. rewrite eol_off_app.
  - rewrite rev_length. destruct A as [->|(x & c & -> & C)]; [change (eol_off (rev [])) with 0; lia|].
    rewrite rev_unit. rewrite eol_cons; [lia|]. destruct C as [->| ->]; reflexivity.
  - unfold no_eol. apply forallb_forall. intros c I. apply in_rev in I. destruct (W c I) as (_ & H1 & H2).
    unfold eolchar. destruct (N.eqb_spec c 10); [congruence|]. destruct (N.eqb_spec c 13); [congruence|reflexivity].
Qed.

Lemma clear_line : forall w a, indent w -> after_break a -> line_clear (rev w ++ rev a) = true.
Proof.
  intros w a W A. apply LexLines_Proofs.line_clear_iff. exists w. split; [exact W|]. exists (rev a). split; [reflexivity|].
  destruct A as [->|(x & c & -> & C)]; [left; reflexivity|]. right. rewrite rev_unit. eexists _, _. split; [reflexivity|exact C].
Qed.

Lemma ends_close : forall p0 k rest, ends_tag p0 k rest -> close_ok false p0 k rest.
Proof.
  intros p0 [|nl|] rest H; cbn in *; [congruence|exact H|]. destruct rest; [reflexivity|exact H].
Qed.

Lemma ends_stop : forall p0 k rest b, ends_tag p0 k rest -> esc_ok b = true -> stop b (show_close k ++ rest).
Proof. intros p0 k rest b H EO. apply (close_stop false p0 k rest b); [apply ends_close; exact H|exact EO]. Qed.

Lemma handle_idem : forall b, handle_ws (handle_ws b) = handle_ws b.
Proof.
  intros [p d]. destruct p as [|s p]; [reflexivity|].
  assert (H : forall s p d, handle_ws (mkB (s :: p) d) = mkB (Gen_Spec.cut_line s :: p) d).
  { clear. intros s p d. pose proof (Gen_Proofs.handle_ws_cut s p) as H. unfold handle_ws in *. cbn [pend done] in *.
    destruct (findBOL s (slen s) <? slen s)%Z; cbn [pend] in H; congruence. }
  rewrite !H. rewrite cut_line_idem. reflexivity.
Qed.

(** The block read as source. *)
Lemma to_end : forall name p body w ke rest o, ident name -> block_ok name p body w ke rest ->
  eat_to_end (named ns) name (mkP (rev p) (block name body w ke ++ rest) o)
  = Some (Ok (body, mkP (rev (p ++ block name body w ke)) rest (if own_line ke then handle_ws o else o))).
Proof.
  intros name p body w ke rest o ID (Q & LA & EO & ET).
  destruct (ident_no_eol name ID) as [NE ES].
  assert (NH : ~ In 35%N name).
  { destruct name as [|c nm]; [intros []|]. destruct ID as [I1 I2]. intros [e|I]; [subst c; discriminate I1|].
    rewrite forallb_forall in I2. specialize (I2 _ I). discriminate I2. }
  unfold eat_to_end. cbn [before Lex_Model.rest Lex_Model.out].
  assert (SH : block name body w ke ++ rest = (body ++ w) ++ L "#end " ++ name ++ show_close ke ++ rest).
  { unfold block. rewrite <- !app_assoc. reflexivity. }
  rewrite SH. change (L "#end " ++ name ++ show_close ke ++ rest) with (35%N :: L "end " ++ name ++ show_close ke ++ rest) at 1 2.
  destruct (find_over name (body ++ w) NH Q (S (length ((body ++ w) ++ 35%N :: L "end " ++ name ++ show_close ke ++ rest))) (rev p)
              (L "end " ++ name ++ show_close ke ++ rest)) as (n & LN & F); [lia|].
  unfold pystr in *. rewrite F. destruct n as [|n]; [lia|].
  change (35%N :: L "end " ++ name ++ show_close ke ++ rest) with (L "#end " ++ name ++ show_close ke ++ rest).
  rewrite <- rev_app_distr. rewrite find_at; [|exact ID|exact EO|].
  2:{ apply (ends_stop (p ++ body ++ w)); [exact ET|apply ES]. }
  assert (RE : (if line_clear (rev (p ++ body ++ w)) then length (rev (p ++ body ++ w)) - eol_off (rev (p ++ body ++ w)) else length (rev (p ++ body ++ w)))
               - length (rev p) = length body).
  { rewrite !rev_length. destruct LA as [[-> C]|[A W]].
    - rewrite app_nil_r. rewrite C, app_length. lia.
    - rewrite !app_assoc, rev_app_distr. rewrite clear_line, eol_rev_line by assumption. rewrite !app_length. lia. }
  rewrite RE. rewrite <- app_assoc, firstn_app, firstn_all, Nat.sub_diag. cbn [firstn]. rewrite app_nil_r.
  set (b0 := rev (L "#end " ++ name) ++ rev (p ++ body ++ w)).
  assert (EB : esc_ok b0 = true) by (unfold b0; rewrite rev_app_distr, <- app_assoc; apply ES).
  assert (RV : forall x, rev x ++ b0 = rev (p ++ body ++ w ++ L "#end " ++ name ++ x)).
  { intro x. unfold b0. rewrite !rev_cat. f_equal. rewrite <- !app_assoc. reflexivity. }
  change (t_dirend (named ns)) with [35%N].
  unfold block. destruct ke as [|nl|]; cbn [show_close own_line app] in *.
  - assert (M : m_tok [35%N] b0 (L "#" ++ rest) = true) by (unfold m_tok; rewrite EB; reflexivity).
    rewrite M. change (length [35%N]) with (length (L "#")). rewrite go_over, RV.
    match goal with |- context [?x <? ?y] => replace (x <? y) with false end; [rewrite andb_false_r; reflexivity|].
    symmetry. apply Nat.ltb_ge. rewrite <- RV, app_length. rewrite (eol_off_app (L "#") rest eq_refl). cbn. lia.
  - destruct ET as [CL NL]. rewrite CL. assert (Z := eol_nl nl rest NL).
    assert (HD : exists c nl', nl = c :: nl' /\ eolchar c = true).
    { destruct NL as [->|[->|[-> _]]]; eexists _, _; split; reflexivity. }
    destruct HD as (c & nl' & -> & EC). cbn [app andb] in *.
    assert (M : m_tok [35%N] b0 (c :: nl' ++ rest) = false).
    { unfold m_tok. cbn [starts_with]. assert (C35 : (35 =? c)%N = false) by (apply eolchar_iff in EC as [->| ->]; reflexivity).
      rewrite C35, andb_false_r. reflexivity. }
    rewrite M, EC. unfold read_eol, eol_end. rewrite Z. cbn [snd]. change (c :: nl' ++ rest) with ((c :: nl') ++ rest). rewrite go_over, RV.
    match goal with |- context [?x <? ?y] => replace (x <? y) with true end; [reflexivity|].
    symmetry. apply Nat.ltb_lt. rewrite <- RV, app_length, rev_length. unfold eol_off. cbn [app]. rewrite Z. cbn [fst length]. lia.
  - assert (M : m_tok [35%N] b0 rest = false).
    { unfold m_tok. destruct rest as [|c rest]; [cbn; apply andb_false_r|]. cbn [starts_with]. destruct ET as [EC _].
      assert (C35 : (35 =? c)%N = false) by (apply eolchar_iff in EC as [->| ->]; reflexivity).
      rewrite C35, andb_false_r. reflexivity. }
    rewrite M. assert (FE : length b0 + eol_off rest <? length b0 = false) by (apply Nat.ltb_ge; lia).
    destruct rest as [|c rest].
    + rewrite !andb_false_r, FE, andb_false_r. rewrite <- (RV []). reflexivity.
    + destruct ET as [EC CL]. rewrite CL. cbn [andb]. rewrite <- (RV []). reflexivity.
Qed.

(** ** The end of the opening directive *)

Lemma tag_named : forall p0 d k rest o fe, no_eol d -> esc_ok (rev (p0 ++ d)) = true -> ends_tag p0 k rest ->
  fe = length p0 + length d + eol_off (show_close k ++ rest) ->
  eat_rest_of_tag (named ns) (line_clear (rev p0)) fe (mkP (rev (p0 ++ d)) (show_close k ++ rest) o)
  = mkP (rev (p0 ++ d ++ show_close k)) rest (if cut p0 k rest then handle_ws o else o).
Proof.
  intros p0 d k rest o fe ND EO ET FE.
  rewrite <- (rest_of_tag_lex p0 d k false rest o fe ND EO (ends_close _ _ _ ET) FE).
  unfold eat_rest_of_tag. cbn [before Lex_Model.rest Lex_Model.out].
  change (t_com (named ns)) with [35%N; 35%N]. change (t_com dflt) with [35%N; 35%N].
  change (t_dirend (named ns)) with [35%N]. change (t_dirend dflt) with [35%N].
  assert (M : m_tok [35%N; 35%N] (rev (p0 ++ d)) (show_close k ++ rest) = false).
  { unfold m_tok. destruct k as [|nl|]; cbn [show_close ends_tag] in *.
    - change (L "#" ++ rest) with (35%N :: rest). cbn [starts_with]. destruct rest as [|c rest]; [apply andb_false_r|].
      cbn in ET. rewrite (N.eqb_sym 35 c), ET. apply andb_false_r.
    - destruct ET as [_ [->|[->|[-> _]]]]; apply andb_false_r.
    - cbn [app]. destruct rest as [|c rest]; [apply andb_false_r|]. destruct ET as [EC _]. cbn [starts_with].
      assert (C35 : (35 =? c)%N = false) by (apply eolchar_iff in EC as [->| ->]; reflexivity). rewrite C35. apply andb_false_r. }
  rewrite M. reflexivity.
Qed.

Lemma cut_block : forall p0 k name body w ke rest, ends_tag p0 k (block name body w ke ++ rest) ->
  cut p0 k (block name body w ke ++ rest) = own_line k.
Proof.
  intros p0 k name body w ke rest H. unfold cut. assert (NE : block name body w ke ++ rest <> []).
  { unfold block. intro E. apply (f_equal (@length N)) in E. rewrite !app_length in E. change (length (L "#end ")) with 5 in E. cbn [length] in E. lia. }
  destruct k as [|nl|]; cbn [own_line].
  - destruct (block name body w ke ++ rest); [congruence|apply andb_false_r].
  - destruct H as [-> _]. reflexivity.
  - destruct (block name body w ke ++ rest); [congruence|apply andb_false_r].
Qed.

(** ** #raw *)

Lemma skip_name : forall name x b tail, ident name -> esc_ok b = true -> x = [] \/ x = name ->
  skip_dir (named ns) x b (35%N :: name ++ tail) = (rev x ++ 35%N :: b, skipn (length x) (name ++ tail)).
Proof.
  intros name x b tail ID EO HX. unfold skip_dir. rewrite dirstart_hash, EO.
  destruct name as [|c nm]; [contradiction|]. destruct ID as [I1 I2]. cbn [app]. rewrite I1. cbn [orb].
  replace (length (35%N :: c :: nm ++ tail) - length (c :: nm ++ tail)) with 1 by (cbn [length]; lia).
  destruct HX as [->| ->].
  - reflexivity.
  - change (1 + length (c :: nm)) with (length (35%N :: c :: nm)).
    change (35%N :: c :: nm ++ tail) with ((35%N :: c :: nm) ++ tail). rewrite go_over.
    change (c :: nm ++ tail) with ((c :: nm) ++ tail).
    rewrite skipn_app, skipn_all, Nat.sub_diag. cbn [skipn app]. cbn [rev]. rewrite <- !app_assoc. reflexivity.
Qed.

Lemma raw_long : forall p0 k body w ke rest o, esc_ok (rev p0) = true ->
  ends_tag p0 k (block (L "raw") body w ke ++ rest) -> block_ok (L "raw") (p0 ++ L "#raw" ++ show_close k) body w ke rest ->
  eat_raw (named ns) (mkP (rev p0) (L "#raw" ++ show_close k ++ block (L "raw") body w ke ++ rest) o)
  = Some (Ok (mkP (rev (p0 ++ L "#raw" ++ show_close k ++ block (L "raw") body w ke)) rest
                  (add_text body (if own_line k || own_line ke then handle_ws o else o)))).
Proof.
  intros p0 k body w ke rest o EO ET BO. unfold eat_raw. cbn [before Lex_Model.rest Lex_Model.out]. cbv zeta.
  assert (ID : ident (L "raw")) by (split; reflexivity).
  change (skip_dir (named ns) (L "raw") (rev p0) (L "#raw" ++ show_close k ++ block (L "raw") body w ke ++ rest))
    with (skip_dir (named ns) (L "raw") (rev p0) (35%N :: L "raw" ++ show_close k ++ block (L "raw") body w ke ++ rest)).
  rewrite (skip_name (L "raw") (L "raw") (rev p0) _ ID EO (or_intror eq_refl)). rewrite skipn_len.
  assert (RP : rev (L "raw") ++ 35%N :: rev p0 = rev (p0 ++ L "#raw")) by (rewrite rev_app_distr; reflexivity).
  rewrite RP.
  assert (EB : esc_ok (rev (p0 ++ L "#raw")) = true) by (rewrite rev_app_distr; reflexivity).
  pose proof (ends_stop _ _ _ (rev (p0 ++ L "#raw")) ET EB) as ST.
  rewrite (stop_ws _ _ _ ST). change (short_form (named ns)) with (short_form dflt). rewrite (stop_short _ _ ST).
  set (B := block (L "raw") body w ke) in *.
  destruct (show_close k ++ B ++ rest) as [|c r] eqn:SH.
  { exfalso. apply (f_equal (@length N)) in SH. unfold B, block in SH. rewrite !app_length in SH. change (length (L "#end ")) with 5 in SH. cbn [length] in SH. lia. }
  assert (C58 : (c =? 58)%N = false).
  { destruct ST as [ST|[-> _]]; [apply eolchar_iff in ST as [->| ->]; reflexivity|reflexivity]. }
  rewrite C58. rewrite (stop_ws _ _ _ ST). rewrite <- SH.
  rewrite (tag_named p0 (L "#raw") k (B ++ rest) o _ eq_refl EB ET).
  2:{ rewrite rev_length. rewrite (eol_off_app (L "#raw") _ eq_refl). lia. }
  unfold B. rewrite (cut_block _ _ _ _ _ _ _ ET).
  rewrite (to_end _ _ _ _ _ _ _ ID BO). cbn [before Lex_Model.rest Lex_Model.out]. do 3 f_equal.
  - rewrite <- !app_assoc. reflexivity.
  - f_equal. destruct (own_line k), (own_line ke); try reflexivity. apply handle_idem.
Qed.

Lemma raw_short : forall p0 u rest o, esc_ok (rev p0) = true -> shown u ->
  match rest with [] => True | c :: _ => eolchar c = true end ->
  eat_raw (named ns) (mkP (rev p0) (L "#raw: " ++ u ++ rest) o) = Some (Ok (mkP (rev (p0 ++ L "#raw: " ++ u)) rest (add_text u o))).
Proof.
  intros p0 u rest o EO SH R. unfold eat_raw. cbn [before Lex_Model.rest Lex_Model.out]. cbv zeta.
  assert (ID : ident (L "raw")) by (split; reflexivity).
  change (skip_dir (named ns) (L "raw") (rev p0) (L "#raw: " ++ u ++ rest))
    with (skip_dir (named ns) (L "raw") (rev p0) (35%N :: L "raw" ++ L ": " ++ u ++ rest)).
  rewrite (skip_name (L "raw") (L "raw") (rev p0) _ ID EO (or_intror eq_refl)). rewrite skipn_len.
  change (skip_ws (rev (L "raw") ++ 35%N :: rev p0) (L ": " ++ u ++ rest)) with (rev (L "raw") ++ 35%N :: rev p0, L ": " ++ u ++ rest).
  cbv iota beta.
  change (short_form (named ns)) with (short_form dflt). rewrite (shown_blank u rest SH R).
  change (go 1 (rev (L "raw") ++ 35%N :: rev p0) (L ": " ++ u ++ rest)) with (58%N :: rev (L "raw") ++ 35%N :: rev p0, 32%N :: u ++ rest).
  cbv iota beta. change (blank 32) with true. cbv iota beta. unfold read_eol.
  assert (EO2 : eol_off (u ++ rest) = length u).
  { rewrite eol_off_app by apply SH. destruct rest as [|c r]; [change (eol_off []) with 0; lia|]. rewrite (eol_cons c r R). lia. }
  rewrite EO2, firstn_len, go_over. do 3 f_equal. rewrite !rev_app_distr, <- app_assoc. reflexivity.
Qed.
End Names.
