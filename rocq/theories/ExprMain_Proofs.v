(** The main invariant of the expression parser: brackets of the source, of the code, and of the errors. *)
From Verif Require Import Base PyStr Lex_Model Expr_Model Expr_Spec Expr_Proofs.

Section Main.
Variable X : lang.
Hypothesis XO : lang_ok X.
Variable src : pystr.
Local Notation nc := (no_cstr src).
Local Notation T := (x_T X).

Lemma tok_len : forall r k, x_tok X r = Some k -> 1 <= k <= length r.
Proof. apply XO. Qed.

(** ** Open brackets *)

Fixpoint opened (enc : encl) (r : pystr) : Prop :=
  match enc with
  | [] => True
  | (o, p) :: enc => exists r1, skipn p src = o :: r1 /\ opener o = true /\ span X r1 r /\ opened enc (o :: r1)
  end.

Lemma opened_step : forall enc r r', opened enc r -> span X r r' -> opened enc r'.
Proof.
  intros [|[o p] enc] r r' H S; [exact Logic.I|]. destruct H as (r1 & A & B & C & D).
  exists r1. eauto using span_trans.
Qed.

Lemma opened_push : forall enc o b r, rev b ++ o :: r = src -> opener o = true -> opened enc (o :: r) ->
  opened ((o, length b) :: enc) r.
Proof.
  intros enc o b r E O H. exists r. split; [|auto using sp_nil].
  rewrite <- E, <- (rev_length b), skipn_app, Nat.sub_diag, skipn_all. reflexivity.
Qed.

Lemma opened_pop : forall enc o p r, opened ((o, p) :: enc) (mate o :: r) -> opened enc r.
Proof.
  intros enc o p r (r1 & A & B & C & D). eapply opened_step; [exact D|].
  eapply sp_group; [exact B|exact C|apply sp_nil].
Qed.

(** ** What an expression closes *)

Definition base (encl : bool) (r code r' : pystr) : Prop :=
  (if encl then groups X r r' /\ (r = r' -> code = []) else span X r r') /\ (nc -> bal X code).

Fixpoint close (encl : bool) (enc : Expr_Model.encl) (r code r' : pystr) : Prop :=
  match enc with
  | [] => base encl r code r'
  | (o, p) :: enc => exists x y r1, code = x ++ mate o :: y /\ span X r (mate o :: r1) /\ (nc -> bal X x) /\
      close encl enc r1 y r'
  end.

Lemma close_item : forall encl enc r w r1 y r', span X r r1 -> (nc -> bal X w) ->
  encl && empty enc = false -> close encl enc r1 y r' -> close encl enc r (w ++ y) r'.
Proof.
  intros encl [|[o p] enc] r w r1 y r' S B E C.
  - cbn in *. destruct encl; [discriminate|]. destruct C as [C1 C2]. split; [eauto using span_trans|].
    intro h. apply bal_app; auto.
  - destruct C as (x & y1 & r2 & C1 & C2 & C3 & C4). exists (w ++ x), y1, r2. subst y.
    rewrite <- app_assoc. split; [reflexivity|]. split; [eauto using span_trans|].
    split; [intro h; apply bal_app; auto|exact C4].
Qed.

Lemma span_len : forall r r', span X r r' -> length r' <= length r.
Proof.
  intros r r' H. induction H; cbn in *; try lia. rewrite skipn_length in IHspan. lia.
Qed.

Lemma groups_len : forall r r', groups X r r' -> length r' <= length r.
Proof. intros. apply span_len, groups_span. assumption. Qed.

Lemma close_open : forall encl enc o p r y r', opener o = true ->
  close encl ((o, p) :: enc) r y r' -> close encl enc (o :: r) (o :: y) r'.
Proof.
  intros encl enc o p r y r' O (x & y1 & r1 & E & S & B & C). subst y.
  assert (BG : nc -> bal X (o :: x ++ [mate o])) by (intro h; apply (bal_group X o x); auto).
  replace (o :: x ++ mate o :: y1) with ((o :: x ++ [mate o]) ++ y1) by (cbn; rewrite <- app_assoc; reflexivity).
  destruct enc as [|[o2 p2] enc].
  - cbn [close] in C |- *. unfold base in C |- *. destruct C as [C1 C2]. split; [|intro h; apply bal_app; auto].
    destruct encl.
    + destruct C1 as [C1 _]. split; [eapply gr_cons; eauto|]. intro E. exfalso.
      apply span_len in S. apply groups_len in C1. cbn in S. subst r'. cbn in C1. lia.
    + eapply sp_group; eauto.
  - destruct C as (x2 & y2 & r2 & C1 & C2 & C3 & C4). subst y1.
    exists ((o :: x ++ [mate o]) ++ x2), y2, r2. split; [rewrite <- !app_assoc; reflexivity|].
    split; [eapply sp_group; eauto|]. split; [intro h; apply bal_app; auto|exact C4].
Qed.

Lemma close_close : forall encl enc o p r y r', close encl enc r y r' ->
  close encl ((o, p) :: enc) (mate o :: r) (mate o :: y) r'.
Proof. intros. exists [], y, r. split; [reflexivity|]. split; [apply sp_nil|]. split; [intro; apply bal_nil|assumption]. Qed.

(** ** Errors *)

Definition E (e : xerr) : Prop := located X src e /\ (nc -> exists p m, e = XParse p m).
Definition E0 (e : xerr) : Prop := located X src e.

Lemma E_E0 : forall e, E e -> E0 e.
Proof. intros e [H _]. exact H. Qed.

Lemma fail_post : forall A (P : A -> pystr -> pystr -> Prop) b r m, rev b ++ r = src ->
  match m with MEof _ | MMismatch _ _ => False | _ => True end -> post P E (fail b r m).
Proof.
  intros A P b r m H M. unfold fail, err. cbn. split; [|eauto].
  assert (LE : length src = length b + length r) by (rewrite <- H, app_length, rev_length; lia).
  destruct m; try contradiction; cbn; destruct r; cbn in LE; lia.
Qed.

Lemma eof_E : forall o p enc, opened ((o, p) :: enc) [] -> E (XParse p (MEof o)).
Proof. intros o p enc (r1 & A & B & C & D). split; [exists r1; auto|eauto]. Qed.

Lemma mismatch_E : forall o p enc c r, opened ((o, p) :: enc) (c :: r) -> closer c = true -> (c =? mate o)%N = false ->
  E (XParse p (MMismatch c o)).
Proof.
  intros o p enc c r (r1 & A & B & C & D) K M. split; [|eauto].
  exists r1, r. repeat split; auto. apply N.eqb_neq. exact M.
Qed.

Lemma var_error_post : forall A (P : A -> pystr -> pystr -> Prop) b r, rev b ++ r = src -> post P E (var_error T b r).
Proof.
  intros. unfold var_error. cbv zeta.
  repeat match goal with |- context [if ?c then _ else _] => destruct c | |- context [match ?c with _ => _ end] => destruct c end;
    apply fail_post; auto; exact Logic.I.
Qed.

(** ** Statements *)

Definition Pexpr (f : bool -> bool -> encl -> list pystr -> pystr -> pystr -> out pystr) : Prop :=
  forall um encl enc brk b r, rev b ++ r = src -> opened enc r ->
  post (fun code b' r' => adv b r b' r' /\ close encl enc r code r' /\ (encl = true -> at_open r' = false))
       E (f um encl enc brk b r).

Definition Pcallargs (f : bool -> encl -> pystr -> pystr -> out pystr) : Prop :=
  forall um enc b r, rev b ++ r = src -> opened enc r -> (enc = [] -> r <> []) ->
  post (fun code b' r' => adv b r b' r' /\ exists x, code = 40%N :: x ++ [41%N] /\ (nc -> bal X x) /\
          match enc with
          | [] => exists r1, r = 40%N :: r1 /\ span X r1 (41%N :: r')
          | (o, _) :: _ => span X r (mate o :: r')
          end)
       E (f um enc b r).

Definition Pcargs (f : bool -> encl -> pystr -> pystr -> out pystr) : Prop :=
  forall um o p enc b r, rev b ++ r = src -> opened ((o, p) :: enc) r ->
  post (fun code b' r' => adv b r b' r' /\ exists x, code = x ++ [41%N] /\ (nc -> bal X x) /\ span X r (mate o :: r'))
       E (f um ((o, p) :: enc) b r).

Definition Pcvar (f : bool -> bool -> pystr -> pystr -> out pystr) : Prop :=
  forall um plain b r, rev b ++ r = src -> m_xvar T r = true ->
  post (fun code b' r' => adv b r b' r' /\ span X r r' /\ (nc -> bal X code)) E (f um plain b r).

Definition Pchunks (f : bool -> pystr -> pystr -> out (list chunk)) : Prop :=
  forall um b r, rev b ++ r = src ->
  post (fun cs b' r' => adv b r b' r' /\ span X r r' /\ Forall (chunk_ok X nc) cs /\ (at_ident r = true -> cs <> []))
       E (f um b r).

Definition Ptransform (f : bool -> pystr -> pystr -> pystr -> pystr -> pystr -> out (option pystr)) : Prop :=
  forall um b0 r0 k b r, rev b0 ++ r0 = src -> x_tok X r0 = Some k -> go k b0 r0 = (b, r) ->
  post (fun t b' r' => adv b r b' r' /\ span X r r' /\
          match t with None => ~ nc | Some t => nc -> t = firstn k r0 end)
       E (f um b0 r0 (firstn k r0) b r).

Definition Pcstr (f : bool -> nat -> pystr -> pystr -> pystr -> out (list pystr)) : Prop :=
  forall um lim acc b r, rev b ++ r = src -> post (fun _ _ _ => True) E0 (f um lim acc b r).

(** Where the name or the bracket of a placeholder starts. *)
Definition ph_start (cache : bool) (b r : pystr) : pystr * pystr :=
  let '(b, r) := go (length (t_var T)) b r in
  let '(b, r) := skip_silent b r in
  if cache then skip_cache b r else (b, r).

Definition ph_post (r0 code r' : pystr) : Prop :=
  match r0 with
  | [] => False
  | o :: r1 =>
      if opener o
      then exists r2, span X r1 (mate o :: r2) /\ groups X r2 r' /\ (at_open r2 = false -> nc -> bal X code)
      else span X r0 r' /\ (nc -> bal X code)
  end.

Definition Pplaceholder (f : bool -> bool -> pystr -> pystr -> out (pystr * option pystr)) : Prop :=
  forall um cache b r, rev b ++ r = src ->
  post (fun x b' r' => adv b r b' r' /\ ph_post (snd (ph_start cache b r)) (fst x) r') E0 (f um cache b r).

Record inv (F : fns) : Prop := {
  i_expr : Pexpr (f_expr F); i_callargs : Pcallargs (f_callargs F); i_cargs : Pcargs (f_cargs F);
  i_cvar : Pcvar (f_cvar F); i_chunks : Pchunks (f_chunks F); i_transform : Ptransform (f_transform F);
  i_cstr : Pcstr (f_cstr F); i_placeholder : Pplaceholder (f_placeholder F) }.

Lemma adv_src' : forall b r b' r', rev b ++ r = src -> adv b r b' r' -> rev b' ++ r' = src.
Proof. intros b r b' r' H A. rewrite <- H. apply adv_src. exact A. Qed.

Ltac srcs := solve [assumption |
  match goal with A : adv ?b ?r ?b' ?r' |- rev ?b' ++ ?r' = src => apply (adv_src' b r b' r'); [srcs|exact A] end].

Lemma cons_src : forall b c r, rev b ++ c :: r = src -> rev (c :: b) ++ r = src.
Proof. intros b c r H. cbn. rewrite <- app_assoc. exact H. Qed.

Lemma opener_closer : forall c, opener c = true -> closer c = false.
Proof. intros c H. unfold opener, closer in *. lia. Qed.

Lemma nonbracket : forall c, opener c = false -> closer c = false -> bracket c = false.
Proof. intros c H1 H2. unfold bracket. rewrite H1, H2. reflexivity. Qed.

Lemma tok_span : forall c r k b b' r', bracket c = false -> x_tok X (c :: r) = Some k -> go k b (c :: r) = (b', r') ->
  span X (c :: r) r'.
Proof.
  intros c r k b b' r' B K G. pose proof (tok_len _ _ K) as KL. rewrite go_eq in G by lia. injection G as _ <-.
  apply span_lex. apply lx_tok; assumption.
Qed.

Lemma tok_bal : forall c r k, bracket c = false -> x_tok X (c :: r) = Some k -> bal X (firstn k (c :: r)).
Proof. intros. apply bal_atom, at_tok; assumption. Qed.

Section Step.
Variable F : fns.
Hypothesis IH : inv F.

Lemma transform_inv : Ptransform (transform_step X (f_cstr F)).
Proof.
  intros um b0 r0 k b r HS K G. unfold transform_step.
  pose proof (tok_len _ _ K) as KL.
  pose proof (go_adv _ _ _ _ _ G) as A0.
  destruct (str_eqb (firstn k r0) (L "c") && quote_at r) eqn:C.
  2:{ cbn. split; [apply adv_refl|]. split; [apply sp_nil|]. reflexivity. }
  apply andb_true_iff in C as [C1 C2]. apply str_eqb_eq in C1.
  assert (NC : ~ nc).
  { intro h. rewrite go_eq in G by lia. injection G as _ Gr.
    pose proof (firstn_skipn k r0) as FS. rewrite C1, Gr in FS. cbn in FS.
    specialize (h (rev b0) r). rewrite FS in h. rewrite h in C2; [discriminate|]. symmetry. exact HS. }
  assert (HS1 : rev b ++ r = src) by (srcs).
  destruct (x_tok X r) as [k2|] eqn:K2; [|apply fail_post; auto].
  destruct (go k2 b r) as [be re] eqn:G2.
  pose proof (go_adv _ _ _ _ _ G2) as A2.
  assert (SP : span X r re).
  { destruct r as [|q r]; [discriminate C2|]. cbn in C2. eapply tok_span; [|exact K2|exact G2].
    unfold bracket, opener, closer. lia. }
  destruct (x_ceval X (firstn k2 r)) as [[|]|].
  - destruct (go (S (quote_len (firstn k2 r))) b0 r0) as [b1 r1] eqn:G3.
    eapply post_bnd with (P := fun _ _ _ => True).
    + eapply post_weaken; [apply (i_cstr F IH)|auto|].
      * eapply adv_src'; [exact HS|eapply go_adv; exact G3].
      * intros e L0. split; [exact L0|]. intro h. contradiction.
    + intros l b2 r2 _. cbn. split; [exact A2|]. split; [exact SP|]. intro h. contradiction.
  - cbn. auto.
  - cbn. split; [exact Logic.I|]. intro h. contradiction.
Qed.

Lemma cstr_inv : Pcstr (cstr_step X (f_cstr F) (f_placeholder F)).
Proof.
  intros um lim acc b r HS. unfold cstr_step. destruct (length b <? lim); [|exact Logic.I].
  destruct (m_var T b r || m_expr T b r).
  - eapply post_bnd; [apply (i_placeholder F IH); exact HS|].
    intros x b1 r1 [A _]. eapply post_bnd; [apply (i_cstr F IH); srcs|].
    intros l b2 r2 _. exact Logic.I.
  - destruct r as [|c r]; [exact Logic.I|]. apply (i_cstr F IH). apply cons_src. exact HS.
Qed.

Lemma chunks_inv : Pchunks (chunks_step (f_expr F) (f_callargs F) (f_chunks F)).
Proof.
  intros um b r HS. unfold chunks_step. cbv zeta.
  assert (NAME : forall b r, rev b ++ r = src -> at_ident r = true ->
    post (fun cs b' r' => adv b r b' r' /\ span X r r' /\ Forall (chunk_ok X nc) cs /\ cs <> []) E
      (let '(dn, (b, r)) := dotted b r in
       match r with
       | [] => bnd (f_chunks F um b r) (fun cs b r => ok (add_chunks dn [] ++ cs) b r)
       | c :: _ =>
           if (c =? 40)%N
           then bnd (f_callargs F um [] b r) (fun rest b r => bnd (f_chunks F um b r) (fun cs b r => ok (add_chunks dn rest ++ cs) b r))
           else if (c =? 91)%N
           then bnd (f_expr F um true [] [] b r) (fun rest b r => bnd (f_chunks F um b r) (fun cs b r => ok (add_chunks dn rest ++ cs) b r))
           else bnd (f_chunks F um b r) (fun cs b r => ok (add_chunks dn [] ++ cs) b r)
       end)).
  { clear b r HS. intros b r HS AI. destruct (dotted b r) as [dn [b1 r1]] eqn:D.
    destruct (dotted_ok X _ _ _ _ _ D) as (A1 & _ & _ & N1).
    pose proof (dotted_span X _ _ _ _ _ D AI) as S1.
    assert (HS1 : rev b1 ++ r1 = src) by (srcs).
    assert (MORE : forall rest b2 r2, adv b r b2 r2 -> span X r r2 -> (nc -> bal X rest) ->
      post (fun cs b' r' => adv b r b' r' /\ span X r r' /\ Forall (chunk_ok X nc) cs /\ cs <> []) E
        (bnd (f_chunks F um b2 r2) (fun cs b r => ok (add_chunks dn rest ++ cs) b r))).
    { intros rest b2 r2 A2 S2 B2. eapply post_bnd; [apply (i_chunks F IH); srcs|].
      intros cs b3 r3 (A3 & S3 & C3 & _). cbn.
      destruct (add_chunks_ok X nc dn rest N1 B2) as [O1 O2].
      split; [eauto using adv_trans|]. split; [eauto using span_trans|].
      split; [apply Forall_app; auto|]. destruct (add_chunks dn rest); [congruence|discriminate]. }
    destruct r1 as [|c r1']; [apply MORE; auto using bal_nil|].
    destruct (c =? 40)%N eqn:C1; [|destruct (c =? 91)%N eqn:C2; [|apply MORE; auto using bal_nil]].
    - eapply post_bnd; [apply (i_callargs F IH); [exact HS1|exact Logic.I|discriminate]|].
      intros rest b2 r2 (A2 & x & Ex & Bx & r3 & Er & S2). apply MORE; [eauto using adv_trans| |].
      + eapply span_trans; [exact S1|]. rewrite Er. eapply sp_group; [reflexivity|exact S2|apply sp_nil].
      + intro h. subst rest. apply bal_paren. auto.
    - eapply post_bnd; [apply (i_expr F IH); [exact HS1|exact Logic.I]|].
      intros rest b2 r2 (A2 & [[S2 _] B2] & _). apply MORE; [eauto using adv_trans| |exact B2].
      eapply span_trans; [exact S1|]. apply groups_span. exact S2. }
  destruct r as [|c r]; [cbn; split; [apply adv_refl|]; split; [apply sp_nil|]; split; [constructor|discriminate]|].
  destruct (identchar c) eqn:I1.
  - eapply post_weaken; [apply NAME; [exact HS|cbn; exact I1]| |auto].
    cbn beta. intros cs b' r' (A & B & C & D). auto.
  - destruct ((c =? 46)%N && at_ident r) eqn:I2.
    + apply andb_true_iff in I2 as [I2 I3]. apply N.eqb_eq in I2. subst c.
      eapply post_weaken; [apply NAME; [apply cons_src; exact HS|exact I3]| |auto].
      cbn beta. intros cs b' r' (A & B & C & D). split; [apply adv_cons; exact A|]. split; [|auto].
      eapply sp_item; [apply lx_dot; exact I3|exact B].
    + cbn. split; [apply adv_refl|]. split; [apply sp_nil|]. split; [constructor|]. intro h. congruence.
Qed.

Lemma skip_silent_ident : forall b r, at_ident r = true -> skip_silent b r = (b, r).
Proof. intros b [|c r] H; [reflexivity|]. cbn in *. unfold identchar in H. destruct (c =? 33)%N eqn:E1; [lia|reflexivity]. Qed.

Lemma skip_cache_ident : forall b r, at_ident r = true -> skip_cache b r = (b, r).
Proof.
  intros b [|c r] H; [reflexivity|]. unfold skip_cache, after_cache. cbn in H. unfold identchar in H.
  destruct (c =? 42)%N eqn:E1; [lia|]. rewrite Nat.sub_diag. reflexivity.
Qed.

Lemma cvar_inv : Pcvar (cvar_step X (f_chunks F)).
Proof.
  intros um plain b r HS MX. unfold cvar_step. destruct (m_vartok T b r); [|apply fail_post; auto].
  pose proof MX as MX'. unfold m_xvar in MX. apply andb_true_iff in MX as [M1 M2].
  assert (LE : length (t_var T) <= length r).
  { apply starts_with_iff in M1 as [r2 ->]. rewrite app_length. lia. }
  rewrite go_eq by exact LE.
  rewrite skip_silent_ident, skip_cache_ident by exact M2.
  assert (A1 : adv b r (rev (firstn (length (t_var T)) r) ++ b) (skipn (length (t_var T)) r)).
  { exists (firstn (length (t_var T)) r). rewrite firstn_skipn. auto. }
  eapply post_bnd; [apply (i_chunks F IH); srcs|].
  intros cs b2 r2 (A2 & S2 & C2 & D2).
  destruct (gen_var_some X um plain cs (D2 M2)) as [code G]. rewrite G. cbn.
  split; [eauto using adv_trans|]. split; [eapply sp_item; [apply lx_start; exact MX'|exact S2]|].
  intro h. eapply gen_var_bal; eauto.
Qed.

Lemma callargs_inv : Pcallargs (callargs_step (f_cargs F)).
Proof.
  intros um enc b r HS OP NE. unfold callargs_step. destruct enc as [|[o p] enc].
  - destruct r as [|c r]; [exfalso; apply NE; reflexivity|]. clear NE. destruct (N.eqb_spec c 40) as [E1|E1]; [subst c|apply fail_post; auto].
    eapply post_pre; [apply (i_cargs F IH); [apply cons_src; exact HS|]|].
    + apply opened_push; auto.
    + cbn beta. intros code b' r' (A & x & Ex & B & S). split; [apply adv_cons; exact A|].
      exists x. subst code. split; [reflexivity|]. split; [exact B|]. exists r. split; [reflexivity|exact S].
  - eapply post_pre; [apply (i_cargs F IH); eassumption|].
    cbn beta. intros code b' r' (A & x & Ex & B & S). split; [exact A|]. exists x. subst code. auto.
Qed.

Lemma cargs_inv : Pcargs (cargs_step X (f_expr F) (f_cargs F) (f_cvar F) (f_transform F)).
Proof.
  intros um o p enc b r HS OP. unfold cargs_step.
  assert (REC : forall b1 r1 w, adv b r b1 r1 -> span X r r1 -> (nc -> bal X w) ->
    post (fun code b' r' => adv b r b' r' /\ exists x, code = x ++ [41%N] /\ (nc -> bal X x) /\ span X r (mate o :: r'))
      E (pre w (f_cargs F um ((o, p) :: enc) b1 r1))).
  { intros b1 r1 w A1 S1 B1. eapply post_pre.
    - apply (i_cargs F IH); [srcs|eapply opened_step; eassumption].
    - cbn beta. intros code b' r' (A & x & Ex & B & S). split; [eauto using adv_trans|].
      exists (w ++ x). subst code. rewrite app_assoc. split; [reflexivity|].
      split; [intro h; apply bal_app; auto|eauto using span_trans]. }
  destruct r as [|c r]; [eapply eof_E; exact OP|].
  destruct (closer c) eqn:CL.
  { destruct (N.eqb_spec c (mate o)) as [E1|E1]; [|apply fail_post; [apply cons_src; exact HS|exact Logic.I]].
    cbn. split; [apply adv_one|]. exists []. split; [reflexivity|]. split; [intro; apply bal_nil|].
    subst c. apply sp_nil. }
  destruct (blank c || eolchar c) eqn:BL.
  { apply (REC (c :: b) r [c]); [apply adv_one| |].
    - eapply sp_item; [apply lx_blank; exact BL|apply sp_nil].
    - intros _. apply bal_quiet. cbn. rewrite blank_quiet; auto. }
  destruct (m_xvar T (c :: r)) eqn:MX.
  { eapply post_bnd; [apply (i_cvar F IH); eassumption|]. cbn beta.
    intros x b1 r1 (A1 & S1 & B1). destruct (take_ws b1 r1) as [w [b2 r2]] eqn:W.
    destruct (take_ws_ok X _ _ _ _ _ W) as (A2 & S2 & _ & W2 & _).
    destruct (at_char 61 r2) eqn:EQ.
    - destruct (x_tok X r2) as [k|] eqn:K.
      2:{ apply fail_post; auto. eapply adv_src'; [|exact A2]. srcs. }
      destruct (go k b2 r2) as [b3 r3] eqn:G. pose proof (go_adv _ _ _ _ _ G) as A3.
      assert (S3 : span X r2 r3 /\ bal X (firstn k r2)).
      { destruct r2 as [|q r2]; [discriminate EQ|]. cbn in EQ.
        assert (bracket q = false) by (unfold bracket, opener, closer; lia).
        split; [eapply tok_span; eassumption|apply tok_bal; assumption]. }
      destruct S3 as [S3 B3].
      destruct (str_eqb (firstn k r2) (L "=")).
      + eapply post_bnd; [apply (i_cvar F IH um true b (c :: r)); eassumption|]. cbn beta.
        intros x' b4 r4 (_ & _ & B4). apply REC; [eauto using adv_trans|eauto using span_trans|].
        intro h. apply bal_app; [auto|]. apply bal_app; [apply bal_blanks; exact W2|exact B3].
      + apply REC; [eauto using adv_trans|eauto using span_trans|].
        intro h. apply bal_app; [auto|]. apply bal_app; [apply bal_blanks; exact W2|exact B3].
    - apply REC; [eauto using adv_trans|eauto using span_trans|].
      intro h. apply bal_app; [auto|]. apply bal_blanks; exact W2. }
  destruct (m_var T b (c :: r)); [apply var_error_post; exact HS|].
  destruct (x_tok X (c :: r)) as [k|] eqn:K; [|apply fail_post; auto].
  pose proof (tok_len _ _ K) as KL.
  destruct (go k b (c :: r)) as [b1 r1] eqn:G. pose proof (go_adv _ _ _ _ _ G) as A1.
  destruct (is_open_tok (firstn k (c :: r))) eqn:OT.
  { eapply post_bnd; [apply (i_expr F IH); [exact HS|exact Logic.I]|]. cbn beta.
    intros x b2 r2 (A2 & [[S2 _] B2] & _). apply REC; auto. apply groups_span. exact S2. }
  assert (NB : bracket c = false).
  { apply nonbracket; [|exact CL]. destruct (opener c) eqn:OC; [|reflexivity].
    destruct XO as (_ & XO2 & _). rewrite (XO2 c r OC) in K. injection K as <-. cbn in OT. congruence. }
  eapply post_bnd; [eapply (i_transform F IH); eassumption|]. cbn beta.
  intros [t|] b2 r2 (A2 & S2 & T2).
  - apply REC; [eauto using adv_trans| |].
    + eapply span_trans; [eapply tok_span; eassumption|exact S2].
    + intro h. rewrite T2 by exact h. apply tok_bal; assumption.
  - eapply post_bnd.
    + apply (i_cargs F IH um o p enc b2 r2).
      * eapply adv_src'; [|exact A2]. srcs.
      * eapply opened_step; [exact OP|]. eapply span_trans; [eapply tok_span; eassumption|exact S2].
    + intros. cbn. split; [exact Logic.I|]. intro h. contradiction.
Qed.

Lemma eol_len_le : forall r, eol_len r <= length r.
Proof.
  intros [|c [|d r]]; cbn; [lia| |].
  - destruct (c =? 13)%N; [lia|]. destruct (c =? 10)%N; lia.
  - destruct (c =? 13)%N; [destruct (d =? 10)%N; lia|]. destruct (c =? 10)%N; lia.
Qed.

Lemma expr_inv : Pexpr (expr_step X (f_expr F) (f_callargs F) (f_cvar F) (f_transform F)).
Proof.
  intros um encl enc brk b r HS OP. unfold expr_step.
  set (Q := fun code b' r' => adv b r b' r' /\ close encl enc r code r' /\ (encl = true -> at_open r' = false)).
  assert (STOP : (encl = true -> enc = [] /\ at_open r = false) -> enc = [] -> post Q E (ok [] b r)).
  { intros H0 H1. subst enc. cbn. split; [apply adv_refl|]. split.
    - split; [|intro; apply bal_nil]. destruct encl; [split; [apply gr_nil|reflexivity]|apply sp_nil].
    - intro h. apply H0. exact h. }
  assert (REC : forall b1 r1 w, encl && empty enc = false -> adv b r b1 r1 -> span X r r1 -> (nc -> bal X w) ->
    post Q E (pre w (f_expr F um encl enc brk b1 r1))).
  { intros b1 r1 w EE A1 S1 B1. eapply post_pre.
    - apply (i_expr F IH); [srcs|eapply opened_step; eassumption].
    - cbn beta. intros code b' r' (A & C & D). split; [eauto using adv_trans|].
      split; [eapply close_item; eassumption|exact D]. }
  assert (REC0 : forall b1 r1, encl && empty enc = false -> adv b r b1 r1 -> span X r r1 ->
    post Q E (f_expr F um encl enc brk b1 r1)).
  { intros b1 r1 EE A1 S1. eapply post_weaken.
    - apply (i_expr F IH); [srcs|eapply opened_step; eassumption].
    - cbn beta. intros code b' r' (A & C & D). split; [eauto using adv_trans|].
      split; [|exact D]. change code with ([] ++ code). eapply close_item; eauto. intro; apply bal_nil.
    - auto. }
  destruct r as [|c r].
  { destruct enc as [|[o p] enc]; [apply STOP; auto|eapply eof_E; exact OP]. }
  destruct (opener c) eqn:OC.
  { eapply post_pre.
    - apply (i_expr F IH um encl ((c, length b) :: enc) brk (c :: b) r); [apply cons_src; exact HS|].
      apply opened_push; auto.
    - cbn beta. intros code b' r' (A & C & D). split; [apply adv_cons; exact A|].
      split; [|exact D]. apply (close_open encl enc c (length b)); assumption. }
  destruct (encl && empty enc) eqn:EE.
  { destruct encl; [|discriminate]. destruct enc; [|discriminate]. apply STOP; auto. }
  destruct (closer c) eqn:CL.
  { destruct enc as [|[o p] enc]; [apply fail_post; auto|].
    destruct (c =? mate o)%N eqn:MT.
    - pose proof MT as MT'. apply N.eqb_eq in MT'. subst c. eapply post_pre.
      + apply (i_expr F IH um encl enc brk (mate o :: b) r); [apply cons_src; exact HS|].
        eapply opened_pop; exact OP.
      + cbn beta. intros code b' r' (A & C & D). split; [apply adv_cons; exact A|].
        split; [|exact D]. apply close_close. exact C.
    - eapply mismatch_E; eassumption. }
  destruct (blank c) eqn:BL.
  { destruct (take_ws b (c :: r)) as [w [b1 r1]] eqn:W.
    destruct (take_ws_ok X _ _ _ _ _ W) as (A1 & S1 & _ & W1 & _).
    apply REC; auto. intros _. apply bal_blanks. exact W1. }
  assert (ENC0 : empty enc = true -> enc = [] /\ (encl = true -> enc = [] /\ at_open (c :: r) = false)).
  { intros H0. destruct enc; [|discriminate]. split; [reflexivity|]. intro h. subst encl. discriminate EE. }
  destruct (m_tok (t_dirend T) b (c :: r) && empty enc) eqn:DE.
  { apply andb_true_iff in DE as [_ DE]. destruct (ENC0 DE). apply STOP; auto. }
  destruct ((c =? 92)%N && negb (empty r)) eqn:BS.
  { apply andb_true_iff in BS as [BS _]. apply N.eqb_eq in BS. subst c.
    destruct (eol_len r) as [|k] eqn:EL; [apply fail_post; [apply cons_src; exact HS|exact Logic.I]|].
    pose proof (eol_len_le r) as LE. rewrite go_eq by (cbn; lia).
    apply REC0; auto.
    - exists (firstn (S (S k)) (92%N :: r)). rewrite firstn_skipn. auto.
    - apply span_lex. rewrite <- EL. apply lx_cont. rewrite EL. discriminate. }
  destruct (eolchar c) eqn:EO.
  { destruct enc as [|e enc]; [destruct (ENC0 eq_refl); apply STOP; auto|].
    apply REC0; auto; [apply adv_one|]. eapply sp_item; [apply lx_blank; rewrite EO; apply orb_true_r|apply sp_nil]. }
  destruct (m_xvar T (c :: r)) eqn:MX.
  { eapply post_bnd; [apply (i_cvar F IH); eassumption|]. cbn beta.
    intros x b1 r1 (A1 & S1 & B1). apply REC; auto. }
  destruct (m_var T b (c :: r)); [apply var_error_post; exact HS|].
  destruct (x_tok X (c :: r)) as [k|] eqn:K; [|apply fail_post; auto].
  pose proof (tok_len _ _ K) as KL.
  destruct (go k b (c :: r)) as [b1 r1] eqn:G. pose proof (go_adv _ _ _ _ _ G) as A1.
  assert (NB : bracket c = false) by (apply nonbracket; assumption).
  pose proof (tok_span _ _ _ _ _ _ NB K G) as S1.
  destruct (empty enc && existsb (str_eqb (firstn k (c :: r))) brk) eqn:BK.
  { apply andb_true_iff in BK as [BK _]. destruct (ENC0 BK). apply STOP; auto. }
  eapply post_bnd; [eapply (i_transform F IH); eassumption|]. cbn beta.
  intros [t|] b2 r2 (A2 & S2 & T2).
  2:{ cbn. split; [exact Logic.I|]. intro h. contradiction. }
  assert (BT : nc -> bal X t) by (intro h; rewrite T2 by exact h; apply tok_bal; assumption).
  assert (A12 : adv b (c :: r) b2 r2) by eauto using adv_trans.
  assert (S12 : span X (c :: r) r2) by eauto using span_trans.
  destruct (at_ident t); [|apply REC; auto].
  destruct (str_eqb t (L "for")).
  { eapply post_bnd; [apply (i_expr F IH); [srcs|exact Logic.I]|]. cbn beta.
    intros x b3 r3 (A3 & [S3 B3] & _). apply REC; [reflexivity|eauto using adv_trans|eauto using span_trans|].
    intro h. apply bal_app; auto. }
  destruct (take_ws b2 r2) as [w [b3 r3]] eqn:W.
  destruct (take_ws_ok X _ _ _ _ _ W) as (A3 & S3 & _ & W3 & _).
  destruct (at_char 40 r3) eqn:PA.
  - eapply post_bnd.
    + apply (i_callargs F IH um [] b3 r3); [|exact Logic.I|].
      * eapply adv_src'; [|exact A3]. srcs.
      * intros _ h. subst r3. discriminate PA.
    + cbn beta. intros a b4 r4 (A4 & x & Ex & Bx & r5 & Er & S4).
      apply REC; [reflexivity|eauto using adv_trans| |].
      * eapply span_trans; [eapply span_trans; eassumption|]. rewrite Er.
        eapply sp_group; [reflexivity|exact S4|apply sp_nil].
      * intro h. apply bal_app; auto. apply bal_app; [apply bal_blanks; exact W3|].
        subst a. apply bal_paren. auto.
  - apply REC; [reflexivity|eauto using adv_trans|eauto using span_trans|].
    intro h. apply bal_app; auto. apply bal_blanks. exact W3.
Qed.

Lemma strip_close_eq : forall o x, strip_close o (x ++ [mate o]) = Some x.
Proof. intros. unfold strip_close. rewrite rev_app_distr. cbn. rewrite N.eqb_refl, rev_involutive. reflexivity. Qed.

Lemma groups_stop : forall r r', groups X r r' -> at_open r = false -> r = r'.
Proof. intros r r' H. destruct H; [reflexivity|]. cbn. intro; congruence. Qed.

Lemma ph_start_adv : forall cache b r b' r', ph_start cache b r = (b', r') -> adv b r b' r'.
Proof.
  intros cache b r b' r' H. unfold ph_start in H.
  destruct (go (length (t_var T)) b r) as [b1 r1] eqn:G. apply go_adv in G.
  destruct (skip_silent b1 r1) as [b2 r2] eqn:SK.
  assert (A2 : adv b1 r1 b2 r2).
  { unfold skip_silent in SK. destruct r1 as [|c r1]; [injection SK as <- <-; apply adv_refl|].
    destruct (c =? 33)%N; injection SK as <- <-; [apply adv_one|apply adv_refl]. }
  destruct cache.
  - unfold skip_cache in H. apply go_adv in H. eauto using adv_trans.
  - injection H as <- <-. eauto using adv_trans.
Qed.

Lemma placeholder_inv : Pplaceholder (placeholder_step X (f_expr F) (f_callargs F) (f_chunks F)).
Proof.
  intros um cache b r HS. unfold placeholder_step.
  destruct (m_vartok T b r).
  2:{ exact (E_E0 _ (fail_post (pystr * option pystr) (fun _ _ _ => False) b r MStart HS Logic.I)). }
  destruct (ph_start cache b r) as [b0 r0] eqn:PS.
  pose proof (ph_start_adv _ _ _ _ _ PS) as A0.
  assert (EQ : forall (A : Type) (k : pystr -> pystr -> A),
    (let '(b, r) := go (length (t_var T)) b r in
     let '(b, r) := skip_silent b r in
     let '(b, r) := if cache then skip_cache b r else (b, r) in k b r) = k b0 r0).
  { intros A k. unfold ph_start in PS. destruct (go (length (t_var T)) b r) as [b1 r1].
    destruct (skip_silent b1 r1) as [b2 r2]. rewrite PS. reflexivity. }
  rewrite EQ. clear EQ PS. cbn [snd].
  assert (HS0 : rev b0 ++ r0 = src) by srcs.
  destruct r0 as [|o r1]; [exact Logic.I|].
  destruct (opener o) eqn:OO.
  - cbv zeta.
    destruct (take_ws (o :: b0) r1) as [w0 [b2 r2]] eqn:W.
    destruct (take_ws_ok X _ _ _ _ _ W) as (A2 & S2 & _ & _ & _).
    pose proof (cons_src _ _ _ HS0) as HS1.
    assert (A02 : adv b r b2 r2) by (eapply adv_trans; [exact A0|apply adv_cons; exact A2]).
    assert (OP1 : opened [(o, length b0)] r1) by (apply opened_push; auto; exact Logic.I).
    assert (OP2 : opened [(o, length b0)] r2) by (eapply opened_step; eassumption).
    assert (REST : forall pfx b3 r3 (K : pystr -> pystr), adv b r b3 r3 -> span X r1 r3 -> (nc -> bal X pfx) ->
      (forall y, K y = pfx ++ y) ->
      post (fun x b' r' => adv b r b' r' /\ ph_post (o :: r1) (fst x) r') E0
        (bnd (f_expr F um true [(o, length b0)] [] b3 r3) (fun y b r =>
           match strip_close o y with Some y => ok (K y, None (A := pystr)) b r | None => err XIndex end))).
    { intros pfx b3 r3 K A3 S3 BP HK. eapply post_bnd.
      - eapply post_weaken; [apply (i_expr F IH); [srcs|eapply opened_step; [exact OP1|eassumption]]|intros a b' r' H; exact H|exact E_E0].
      - cbn beta. intros y b4 r4 (A4 & C4 & D4). destruct (strip_close o y) as [y1|] eqn:SC; [|exact Logic.I].
        cbn [post ok fst]. split; [eauto using adv_trans|]. unfold ph_post. rewrite OO.
        destruct C4 as (x & y2 & r5 & Ey & S5 & B5 & [[G5 Z5] B6]). exists r5.
        split; [eauto using span_trans|]. split; [exact G5|]. intros AO h.
        specialize (Z5 (groups_stop _ _ G5 AO)). subst y2. subst y. rewrite strip_close_eq in SC.
        injection SC as <-. rewrite HK. apply bal_app; auto. }
    destruct (at_ident r2) eqn:AI.
    + eapply post_bnd.
      * eapply post_weaken; [apply (i_chunks F IH); srcs|intros a b' r' H; exact H|exact E_E0].
      * cbn beta. intros cs b3 r3 (A3 & S3 & C3 & D3).
        destruct (gen_var_some X um false cs (D3 AI)) as [x Gx]. rewrite Gx.
        assert (Bx : nc -> bal X x) by (intro h; eapply gen_var_bal; eauto).
        destruct (take_ws b3 r3) as [w [b4 r4]] eqn:W4.
        destruct (take_ws_ok X _ _ _ _ _ W4) as (A4 & S4 & _ & WB & _).
        assert (A04 : adv b r b4 r4) by eauto using adv_trans.
        assert (S14 : span X r1 r4) by eauto using span_trans.
        assert (BW : nc -> bal X (x ++ w)) by (intro h; apply bal_app; auto using bal_blanks).
        destruct r4 as [|c r4]; [exact Logic.I|].
        destruct (x_filterargs X && (c =? 44)%N) eqn:FA.
        { eapply post_bnd.
          - eapply post_weaken; [apply (i_callargs F IH um [(o, length b0)] b4 (c :: r4)); [srcs| |discriminate]|intros a b' r' H; exact H|exact E_E0].
            eapply opened_step; [exact OP1|eassumption].
          - cbn beta. intros a b5 r5 (A5 & xx & _ & _ & S5). cbn [post ok fst].
            split; [eauto using adv_trans|]. unfold ph_post. rewrite OO. exists r5.
            split; [eauto using span_trans|]. split; [apply gr_nil|auto]. }
        destruct (N.eqb_spec c (mate o)) as [Ec|Ec].
        { cbn [post ok fst]. split; [eapply adv_trans; [exact A04|apply adv_one]|].
          unfold ph_post. rewrite OO. exists r4. subst c. split; [exact S14|]. split; [apply gr_nil|auto]. }
        apply (REST (x ++ w) b4 (c :: r4) (fun y => x ++ w ++ y)); auto.
        intro y. rewrite <- app_assoc. reflexivity.
    + apply (REST [] b2 r2 (fun y => y)); auto using bal_nil.
  - destruct (identchar o) eqn:IO.
    + eapply post_bnd.
      * eapply post_weaken; [apply (i_chunks F IH); exact HS0|intros a b' r' H; exact H|exact E_E0].
      * cbn beta. intros cs b3 r3 (A3 & S3 & C3 & D3).
        destruct (gen_var_some X um false cs (D3 IO)) as [x Gx]. rewrite Gx.
        cbn [post ok fst]. split; [eauto using adv_trans|]. unfold ph_post. rewrite OO.
        split; [exact S3|]. intro h. eapply gen_var_bal; eauto.
    + eapply post_bnd.
      * eapply post_weaken; [apply (i_expr F IH); [exact HS0|exact Logic.I]|intros a b' r' H; exact H|exact E_E0].
      * intros. exact Logic.I.
Qed.

End Step.

Theorem all_inv : forall n, inv (fns_at X n).
Proof.
  induction n as [|n IH].
  - constructor; repeat intro; exact Logic.I.
  - constructor; cbn [fns_at f_expr f_callargs f_cargs f_cvar f_chunks f_transform f_cstr f_placeholder].
    + apply expr_inv. exact IH.
    + apply callargs_inv. exact IH.
    + apply cargs_inv. exact IH.
    + apply cvar_inv. exact IH.
    + apply chunks_inv. exact IH.
    + apply transform_inv. exact IH.
    + apply cstr_inv. exact IH.
    + apply placeholder_inv. exact IH.
Qed.

End Main.
