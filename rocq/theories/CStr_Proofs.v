(** Proofs for c-strings (CStr_Spec.v). *)
From Verif Require Import Base PyStr Lex_Model Expr_Model Front_Model Front_Spec FrontLex_Proofs FrontExpr_Proofs FrontWords_Spec
  FrontWords_Proofs CStr_Spec.
From Verif Require PyLiteral_Spec StrConst_Proofs.

Section CStr.
Variable E : env.
Hypothesis ET : x_T (e_X E) = dflt.
Hypothesis TW : tokenizes_words (e_X E).
Local Notation X := (X0 E).

Lemma cstr_S : forall n, cstr X (S n) = cstr_step X (cstr X n) (placeholder X n).
Proof. reflexivity. Qed.

Lemma plain_match : forall c b r, (c =? 36)%N = false -> m_var dflt b (c :: r) || m_expr dflt b (c :: r) = false.
Proof.
  intros c b r H. unfold m_var, m_expr, m_tok. change (t_var dflt) with [36%N]. cbn [starts_with].
  rewrite N.eqb_sym, H. cbn [andb]. rewrite andb_false_r. reflexivity.
Qed.

Lemma cstr_text : forall s n um lim acc b r, forallb (fun c => negb (c =? 36)%N && negb (c =? 92)%N) s = true ->
  length b + length s <= lim ->
  cstr X (length s + n) um lim acc b (s ++ r) = cstr X n um lim (acc ++ s) (rev s ++ b) r.
Proof.
  induction s as [|c s IH]; intros n um lim acc b r H LE; [rewrite app_nil_r; reflexivity|].
  cbn [forallb] in H. apply andb_prop in H as [H1 H2]. apply andb_prop in H1 as [H1 _]. apply negb_true_iff in H1.
  change (length (c :: s) + n) with (S (length s + n)). rewrite cstr_S. unfold cstr_step. rewrite (XT E ET).
  cbn [length] in LE. assert (Nat.ltb (length b) lim = true) as -> by (apply Nat.ltb_lt; lia).
  cbn [app]. rewrite plain_match by exact H1. rewrite IH by (cbn [length]; auto; lia).
  rewrite <- app_assoc. cbn [rev]. rewrite <- app_assoc. reflexivity.
Qed.

Lemma name_src : forall br n p0 rest, dotted_name n = true -> esc_ok (rev p0) = true -> (br = false -> name_end rest = true) ->
  m_var dflt (rev p0) (cp_src (CName br n) ++ rest) || m_expr dflt (rev p0) (cp_src (CName br n) ++ rest) = true.
Proof.
  intros br n p0 rest D EB NE. destruct (ph_name E ET p0 false br n rest D EB NE) as (H & _). exact H.
Qed.

Lemma cstr_name : forall br nm n um b r, dotted_name nm = true -> esc_ok b = true -> (br = false -> name_end r = true) ->
  placeholder X (S (S (S n))) um false b (cp_src (CName br nm) ++ r)
  = ok (var_code E um nm, None) (rev (cp_src (CName br nm)) ++ b) r.
Proof.
  intros br nm n um b r D EB NE. destruct (dotted_cons nm D) as (c & s & -> & I & DN).
  change (placeholder X (S (S (S n)))) with (placeholder_step X (expr X (S (S n))) (callargs X (S (S n))) (chunks X (S (S n)))).
  unfold placeholder_step. rewrite (XT E ET).
  assert (CO : opener c = false) by (unfold opener; idc I; reflexivity).
  assert (CB : blank c = false) by (unfold blank; idc I; reflexivity).
  assert (C33 : (c =? 33)%N = false) by (idc I; reflexivity).
  assert (M : m_vartok dflt b (cp_src (CName br (c :: s)) ++ r) = true).
  { unfold m_vartok, m_tok. rewrite EB. destruct br; [reflexivity|]. cbn. rewrite I. reflexivity. }
  rewrite M. destruct br; cbn [cp_src].
  - change (go (length (t_var dflt)) b ((L "$" ++ L "{" ++ (c :: s) ++ L "}") ++ r)) with (36%N :: b, 123%N :: ((c :: s) ++ L "}") ++ r).
    cbv iota. change (skip_silent (36%N :: b) (123%N :: ((c :: s) ++ L "}") ++ r)) with (36%N :: b, 123%N :: ((c :: s) ++ L "}") ++ r).
    cbv iota. change (opener 123) with true. cbv iota. rewrite <- app_assoc.
    assert (TW1 : take_ws (123%N :: 36%N :: b) ((c :: s) ++ L "}" ++ r) = ([], (123%N :: 36%N :: b, (c :: s) ++ L "}" ++ r))).
    { cbn [app take_ws]. rewrite CB. reflexivity. }
    rewrite TW1. cbn [app at_ident]. rewrite I. change (c :: s ++ L "}" ++ r) with ((c :: s) ++ L "}" ++ r).
    rewrite (chunks_name E) by (exact D || reflexivity). cbn [bnd ok]. rewrite (gen_var_code E).
    change (take_ws (rev (c :: s) ++ 123%N :: 36%N :: b) (L "}" ++ r)) with (@nil N, (rev (c :: s) ++ 123%N :: 36%N :: b, 125%N :: r)).
    cbv iota. change (125 =? 44)%N with false. rewrite andb_false_r. change (125 =? mate 123)%N with true. cbv iota.
    rewrite app_nil_r. match goal with |- ok _ ?a _ = ok _ ?b _ => replace b with a; [reflexivity|] end.
    change (c :: s ++ L "}") with ((c :: s) ++ L "}").
    rewrite (rev_app_distr (L "$")), (rev_app_distr (L "{")), (rev_app_distr (c :: s)), <- !app_assoc. reflexivity.
  - change (go (length (t_var dflt)) b ((L "$" ++ c :: s) ++ r)) with (36%N :: b, c :: s ++ r). cbv iota.
    destruct (skip_none c (36%N :: b) (s ++ r) I) as [-> _]. rewrite CO, I. change (c :: s ++ r) with ((c :: s) ++ r).
    rewrite (chunks_name E) by (exact D || (apply NE; reflexivity)). cbn [bnd ok]. rewrite (gen_var_code E).
    rewrite (rev_app_distr (L "$")), <- app_assoc. reflexivity.
Qed.

Lemma quote_first : forall q, In q quotes -> exists c q', q = c :: q' /\ identchar c = false /\ (c =? 46)%N = false /\ (c =? 40)%N = false
  /\ (c =? 91)%N = false /\ namechar c = false /\ (c = 39%N \/ c = 34%N).
Proof. intros q [<-|[<-|[<-|[<-|[]]]]]; do 2 eexists; (split; [reflexivity|]); repeat split; auto. Qed.

Lemma name_end_more : forall x q z, In q quotes -> name_end (x ++ q) = true -> name_end (x ++ q ++ z) = true.
Proof.
  intros x q z IQ H. destruct (quote_first q IQ) as (c & q' & -> & I & C1 & C2 & C3 & C4 & _).
  destruct x as [|a [|d x]]; cbn [app name_end at_ident] in *; [|exact H|exact H].
  rewrite C1, C2, C3, C4. reflexivity.
Qed.

Lemma esc_text : forall s b, s <> [] -> forallb (fun c => negb (c =? 36)%N && negb (c =? 92)%N) s = true -> esc_ok (rev s ++ b) = true.
Proof.
  intros s b NE H. apply esc_last; [exact NE|]. destruct (exists_last NE) as (u & d & ->). rewrite last_last.
  rewrite forallb_app in H. apply andb_prop in H as [_ H]. cbn in H. rewrite andb_true_r in H. apply andb_prop in H as [_ H].
  apply negb_true_iff, N.eqb_neq in H. exact H.
Qed.

Lemma esc_name : forall br n b, dotted_name n = true -> esc_ok (rev (cp_src (CName br n)) ++ b) = true.
Proof.
  intros [|] n b D; cbn [cp_src].
  - rewrite !rev_app_distr, <- !app_assoc. reflexivity.
  - rewrite rev_app_distr, <- app_assoc. apply dotted_esc. exact D.
Qed.

Lemma cps_cons : forall p l, cps_src (p :: l) = cp_src p ++ cps_src l.
Proof. reflexivity. Qed.

Lemma cstr_pieces : forall q, In q quotes -> forall l n um acc b z, cps_ok l q -> esc_ok b = true ->
  acc = [] \/ match l with CText _ :: _ => False | _ => True end ->
  length (cps_src l) + 4 <= n ->
  cstr X n um (length b + length (cps_src l)) acc b (cps_src l ++ q ++ z)
  = ok (flush X acc ++ map (cp_code E um) l) (rev (cps_src l) ++ b) (q ++ z).
Proof.
  intros q IQ. induction l as [|p l IH]; intros n um acc b z OK EB AC LE.
  - cbn [cps_src map concat length app rev]. destruct n as [|n]; [lia|]. rewrite cstr_S. unfold cstr_step.
    rewrite Nat.add_0_r, Nat.ltb_irrefl, app_nil_r. reflexivity.
  - rewrite cps_cons in *. rewrite app_length in *. destruct p as [s|br nm]; cbn [cps_ok] in OK.
    + destruct OK as (NE & TX & NT & OK). destruct AC as [->|[]]. cbn [cp_src] in *.
      rewrite <- app_assoc. replace n with (length s + (n - length s)) by lia.
      rewrite cstr_text; [|exact TX|lia].
      assert (LN : length b + (length s + length (cps_src l)) = length (rev s ++ b) + length (cps_src l))
        by (rewrite app_length, rev_length; lia).
      rewrite LN. rewrite IH; [|exact OK|apply esc_text; assumption|right; exact NT|lia].
      rewrite rev_app_distr, <- app_assoc. cbn [app map cp_code flush]. destruct s as [|c s]; [congruence|reflexivity].
    + destruct OK as (D & NE & OK). assert (PL : 2 <= length (cp_src (CName br nm))).
      { destruct (dotted_cons nm D) as (c & s & -> & _). cbn [cp_src]. destruct br; rewrite ?app_length; cbn [L length map String.list_ascii_of_string app]; cbn; lia. }
      assert (NE' : br = false -> name_end (cps_src l ++ q ++ z) = true) by (intro B; apply name_end_more; [exact IQ|apply NE; exact B]).
      destruct n as [|n]; [lia|]. rewrite cstr_S. unfold cstr_step. rewrite (XT E ET).
      assert (Nat.ltb (length b) (length b + (length (cp_src (CName br nm)) + length (cps_src l))) = true) as -> by (apply Nat.ltb_lt; lia).
      rewrite <- (rev_involutive b) at 1 2. rewrite <- app_assoc.
      rewrite name_src; [|exact D|rewrite rev_involutive; exact EB|exact NE'].
      destruct n as [|[|[|n]]]; try lia. rewrite cstr_name by assumption. cbn [bnd ok].
      assert (LN : length b + (length (cp_src (CName br nm)) + length (cps_src l)) = length (rev (cp_src (CName br nm)) ++ b) + length (cps_src l))
        by (rewrite (app_length (rev _)), rev_length; lia).
      rewrite LN. rewrite IH; [|exact OK|apply esc_name; exact D|left; reflexivity|lia].
      cbn [bnd ok fst flush app map cp_code]. rewrite (rev_app_distr (cp_src _)), <- app_assoc. reflexivity.
Qed.

Lemma cps_nonempty : forall q l, l <> [] -> cps_ok l q -> cps_src l <> [].
Proof.
  intros q [|[s|br n] l] NE OK; [congruence| |]; rewrite cps_cons; cbn [cp_src].
  - destruct OK as (H & _). destruct s; [congruence|discriminate].
  - discriminate.
Qed.

Lemma quote_len_ok : forall q body, In q quotes -> body <> [] ->
  match body with c :: _ => c <> 39%N /\ c <> 34%N | [] => True end -> quote_len (q ++ body ++ q) = length q.
Proof.
  intros q [|c body] IQ NE H; [congruence|]. destruct H as [H1 H2]. apply N.eqb_neq in H1, H2. rewrite N.eqb_sym in H1, H2.
  unfold quote_len. destruct IQ as [<-|[<-|[<-|[<-|[]]]]]; cbn [app starts_with length]; rewrite ?H1, ?H2; reflexivity.
Qed.

Theorem cstring_reads : forall um brk q l, cstring_ok E q l -> existsb (str_eqb (L "c")) brk = false ->
  reads E um brk (cstring q l) (cstring_code E um l).
Proof.
  intros um brk q l (IQ & NE & OK & (T1 & T2 & CE) & FC) BR b r n EB ST LE.
  unfold cstring in *. set (body := cps_src l) in *. rewrite !app_length in LE. change (length (L "c")) with 1 in LE.
  pose proof (cps_nonempty q l NE OK) as NB. fold body in NB.
  pose proof (halt_word _ _ _ ST) as WE.
  destruct n as [|[|n]]; try lia. rewrite expr_S. unfold expr_step. rewrite (XT E ET).
  replace ((L "c" ++ q ++ body ++ q) ++ r) with (99%N :: q ++ body ++ q ++ r) by (rewrite <- !app_assoc; reflexivity).
  change (opener 99) with false. change (closer 99) with false. change (blank 99) with false. change (eolchar 99) with false.
  change (99 =? 92)%N with false. cbn [andb negb empty].
  assert (M : m_tok (t_dirend dflt) b (99%N :: q ++ body ++ q ++ r) = false) by (unfold m_tok; cbn; apply andb_false_r).
  rewrite M. cbn [andb].
  assert (XV : m_xvar dflt (99%N :: q ++ body ++ q ++ r) = false) by reflexivity. rewrite XV.
  assert (MV : m_var dflt b (99%N :: q ++ body ++ q ++ r) = false) by (unfold m_var, m_tok; cbn; rewrite andb_false_r; reflexivity).
  rewrite MV. change (x_tok X (99%N :: q ++ body ++ q ++ r)) with (x_tok (e_X E) (L "c" ++ q ++ body ++ q ++ r)).
  rewrite T1. cbn [firstn]. change [99%N] with (L "c"). rewrite BR.
  change (go 1 b (99%N :: q ++ body ++ q ++ r)) with (99%N :: b, q ++ body ++ q ++ r). cbv iota.
  assert (TR : transform X (S n) um b (99%N :: q ++ body ++ q ++ r) (L "c") (99%N :: b) (q ++ body ++ q ++ r)
    = ok (Some (cstring_code E um l)) (rev (L "c" ++ q ++ body ++ q) ++ b) r).
  { change (transform X (S n)) with (transform_step X (cstr X n)). unfold transform_step.
    assert (QA : quote_at (q ++ body ++ q ++ r) = true) by (destruct IQ as [<-|[<-|[<-|[<-|[]]]]]; reflexivity).
    rewrite QA. change (str_eqb (L "c") (L "c")) with true. cbn [andb].
    change (x_tok X) with (x_tok (e_X E)). change (x_ceval X) with (x_ceval (e_X E)). rewrite T2 by exact WE.
    assert (RA : q ++ body ++ q ++ r = (q ++ body ++ q) ++ r) by (rewrite <- !app_assoc; reflexivity).
    rewrite RA. rewrite firstn_over, go_over, CE. rewrite quote_len_ok by assumption.
    change (99%N :: (q ++ body ++ q) ++ r) with (L "c" ++ (q ++ body ++ q) ++ r).
    assert (GO : go (S (length q)) b (L "c" ++ (q ++ body ++ q) ++ r) = (rev (L "c" ++ q) ++ b, body ++ q ++ r)).
    { replace (L "c" ++ (q ++ body ++ q) ++ r) with ((L "c" ++ q) ++ body ++ q ++ r) by (rewrite <- !app_assoc; reflexivity).
      change (S (length q)) with (length (L "c" ++ q)). apply go_over. }
    rewrite GO.
    assert (LL : length (rev (q ++ body ++ q) ++ 99%N :: b) - length q = length (rev (L "c" ++ q) ++ b) + length body).
    { rewrite !app_length, !rev_length, !app_length. cbn [length]. change (length (L "c")) with 1. lia. }
    rewrite LL. rewrite (cstr_pieces q IQ l); [|exact OK| |left; reflexivity|fold body; lia].
    - cbn [bnd ok flush app]. unfold cstring_code. fold body.
      match goal with |- ok _ ?a _ = ok _ ?b _ => replace b with a; [reflexivity|] end.
      rewrite (rev_app_distr (L "c")), <- app_assoc. reflexivity.
    - destruct IQ as [<-|[<-|[<-|[<-|[]]]]]; reflexivity. }
  rewrite TR. cbn [bnd ok]. change (at_ident (cstring_code E um l)) with false. cbv iota.
  rewrite (expr_halt E ET TW _ _ _ _ _ ST), pre_ok, app_nil_r. reflexivity.
Qed.
End CStr.

Theorem cstring_value : forall E, x_T (e_X E) = dflt -> tokenizes_words (e_X E) ->
  forall um brk q l, cstring_ok E q l -> existsb (str_eqb (L "c")) brk = false ->
  reads E um brk (cstring q l) (cstring_code E um l) /\
  (forall s, In (CText s) l -> StrConst_Proofs.valid_str s -> PyLiteral_Spec.eval_literal (cp_code E um (CText s)) = Some s) /\
  (one_line (cstring q l) -> xok E brk (mkXP (cstring q l) (cstring_code E (e_um E) l))).
Proof.
  intros E ET TW um brk q l H BR. split; [apply cstring_reads; assumption|]. split.
  - intros s _ V. apply StrConst_Proofs.repr_roundtrip. exact V.
  - intro OL. split; [apply cstring_reads; assumption|]. split; [exact OL|]. split; [split; [reflexivity|discriminate]|].
    split; [|discriminate]. cbn [x_code]. apply strip_single; [reflexivity|]. unfold cstring_code. rewrite !app_assoc.
    change (L "])") with ([93] ++ [41])%N. rewrite !app_assoc, last_last. reflexivity.
Qed.
