(** Proofs for argument lists (DefArgs_Spec.v). *)
From Verif Require Import Base PyStr Lex_Model Expr_Model Front_Model Front_Spec FrontLex_Proofs FrontExpr_Proofs
  FrontEat_Proofs FrontWords_Spec FrontWords_Proofs DefArgs_Spec.
From Verif Require Gen_Model.
Local Open Scope nat_scope.

Lemma esc_rev : forall s b, s <> [] -> esc_ok (rev s) = true -> esc_ok (rev s ++ b) = true.
Proof.
  intros s b NE H. destruct (exists_last NE) as (r & c & ->). rewrite rev_app_distr in *. exact H.
Qed.

Lemma special_cases : forall c, special c = false ->
  blank c = false /\ eolchar c = false /\ opener c = false /\ closer c = false /\
  c <> 35%N /\ c <> 36%N /\ c <> 44%N /\ c <> 58%N /\ c <> 61%N.
Proof.
  intros c H. unfold special in H. destruct (blank c), (eolchar c), (opener c), (closer c); try discriminate H.
  cbn in H. repeat split; intros ->; discriminate H.
Qed.

Lemma opener_cases : forall c, opener c = true -> c = 40%N \/ c = 91%N \/ c = 123%N.
Proof. intros c H. unfold opener in H. lia. Qed.

Section Args.
Variable E : env.
Hypothesis ET : x_T (e_X E) = dflt.
Local Notation X := (X0 E).
Variable um : bool.
Variable exit : option nat.

(** The loop gets from one state to another. *)
Definition reach (a : arglist) (o : bool) (b r : pystr) (a' : arglist) (o' : bool) (b' r' : pystr) : Prop :=
  forall f, length r < f -> exists f', length r' < f' /\
    def_loop f X um exit a o b r = def_loop f' X um exit a' o' b' r'.

Lemma reach_refl : forall a o b r, reach a o b r a o b r.
Proof. intros a o b r f H. exists f. auto. Qed.

Lemma reach_trans : forall a o b r a1 o1 b1 r1 a2 o2 b2 r2,
  reach a o b r a1 o1 b1 r1 -> reach a1 o1 b1 r1 a2 o2 b2 r2 -> reach a o b r a2 o2 b2 r2.
Proof.
  intros a o b r a1 o1 b1 r1 a2 o2 b2 r2 H K f F. destruct (H f F) as (f1 & F1 & ->).
  destruct (K f1 F1) as (f2 & F2 & ->). exists f2. auto.
Qed.

(** The exit position is not before [r]. *)
Definition later (r : pystr) : Prop := match exit with Some k => k <= length r | None => True end.

Lemma later_app : forall s r, later r -> later (s ++ r).
Proof. intros s r H. unfold later in *. destruct exit; [|exact H]. rewrite app_length. lia. Qed.

Lemma not_exit : forall c s r, later r ->
  match exit with Some k => (length (c :: s ++ r) =? k)%nat | None => false end = false.
Proof.
  intros c s r H. unfold later in H. destruct exit; [|reflexivity]. cbn [length]. rewrite app_length.
  apply Nat.eqb_neq. lia.
Qed.

Lemma no_end : forall b c r, c <> 35%N -> m_tok (t_dirend (x_T X)) b (c :: r) = false.
Proof.
  intros b c r H. rewrite (XT E ET). unfold m_tok. change (t_dirend dflt) with [35%N]. cbn [starts_with].
  destruct (N.eqb_spec 35 c); [congruence|]. cbn [andb]. rewrite ?andb_false_r. reflexivity.
Qed.

Lemma sp_not : forall c, blank c || eolchar c = true -> c <> 35%N /\ (c =? 41)%N = false /\ (c =? 58)%N = false.
Proof. intros c H. unfold blank, eolchar in H. lia. Qed.

Lemma reach_space : forall ws a b r, spaces ws = true -> later r ->
  reach a false b (ws ++ r) a false (rev ws ++ b) r.
Proof.
  induction ws as [|c ws IH]; intros a b r H R; [apply reach_refl|].
  cbn [spaces forallb] in H. apply andb_true_iff in H as [H1 H2]. destruct (sp_not c H1) as (C1 & C2 & C3).
  eapply reach_trans; [|cbn [rev]; rewrite <- app_assoc; apply (IH a (c :: b) r H2 R)].
  intros f F. destruct f as [|f]; [cbn in F; lia|]. exists f. split; [cbn in F; lia|].
  cbn [def_loop app]. rewrite not_exit by exact R. rewrite (no_end b c _ C1), C2, C3, H1. reflexivity.
Qed.

Lemma reach_dollar : forall a b r, later r -> reach a false b (36%N :: r) a false (36%N :: b) r.
Proof.
  intros a b r R f F. destruct f as [|f]; [cbn in F; lia|]. exists f. split; [cbn in F; lia|].
  cbn [def_loop]. rewrite (not_exit _ [] r R), (no_end b) by discriminate. rewrite (XT E ET). reflexivity.
Qed.

Definition nc (r : pystr) : Prop := match r with c :: _ => namechar c = false | [] => True end.

Lemma ident_all : forall w, ident w -> forallb namechar w = true /\ exists c s, w = c :: s /\ identchar c = true.
Proof.
  intros [|c w] H; [contradiction|]. destruct H as [H1 H2]. split; [|eauto]. cbn. rewrite (identchar_name c H1). exact H2.
Qed.

Lemma id_not : forall c, identchar c = true -> c <> 35%N /\ (c =? 41)%N = false /\ (c =? 58)%N = false /\
  blank c || eolchar c = false /\ (c =? 61)%N = false /\ (c =? 44)%N = false /\ (36 =? c)%N = false /\ (c =? 42)%N = false.
Proof.
  intros c H. apply identchar_name, namechar_cases in H. unfold blank, eolchar. repeat split; lia.
Qed.

Lemma reach_name : forall w a b r, ident w -> nc r -> later r ->
  reach a false b (w ++ r) (add_argument a w) false (rev w ++ b) r.
Proof.
  intros w a b r I NC R. destruct (ident_all w I) as (W & c & s & -> & C). destruct (id_not c C) as (C1 & C2 & C3 & C4 & C5 & C6 & C7 & C8).
  intros f F. destruct f as [|f]; [cbn in F; lia|]. exists f. split; [cbn in F; rewrite app_length in F; lia|].
  cbn [def_loop app]. rewrite not_exit by exact R. rewrite (no_end b c _ C1), C2, C3, C4, C5, C6. rewrite (XT E ET).
  change (t_var dflt) with [36%N]. cbn [starts_with]. rewrite C7. cbn [orb andb at_ident negb]. rewrite C. cbn [andb].
  change (c :: s ++ r) with ((c :: s) ++ r). rewrite namerun_word by assumption. reflexivity.
Qed.

Lemma reach_stars : forall k w a b r, k <= 2 -> ident w -> nc r -> later r ->
  reach a false b (repeat 42%N k ++ w ++ r) (add_argument a (repeat 42%N k ++ w)) false (rev (repeat 42%N k ++ w) ++ b) r.
Proof.
  intros k w a b r K I NC R. destruct k as [|k]; [apply (reach_name w); assumption|].
  destruct (ident_all w I) as (W & c & s & QW & C). destruct (id_not c C) as (C1 & C2 & C3 & C4 & C5 & C6 & C7 & C8).
  intros f F. destruct f as [|f]; [cbn in F; lia|]. exists f.
  split; [cbn in F; rewrite !app_length in F; lia|]. cbn [repeat app].
  cbn [def_loop]. rewrite not_exit by (apply later_app; exact R). rewrite (no_end b 42) by discriminate. rewrite (XT E ET).
  cbn -[def_loop go get_ident]. destruct k as [|[|k]]; [| |lia].
  - cbn [repeat app]. subst w. cbn [app at_char]. rewrite C8. unfold get_ident. cbn [go at_ident].
    rewrite C. change (c :: s ++ r) with ((c :: s) ++ r). rewrite namerun_word by assumption. cbn [fbind fok].
    rewrite <- (app_assoc (rev (c :: s)) [42%N] b). reflexivity.
  - cbn [repeat app]. subst w. cbn [app at_char]. unfold get_ident. cbn [N.eqb Pos.eqb go at_ident].
    rewrite C. change (c :: s ++ r) with ((c :: s) ++ r). rewrite namerun_word by assumption. cbn [fbind fok].
    cbn [rev]. rewrite <- !app_assoc. reflexivity.
Qed.

Lemma reach_eq : forall a o b r, later r -> reach a o b (61%N :: r) a true (61%N :: b) r.
Proof.
  intros a o b r R f F. destruct f as [|f]; [cbn in F; lia|]. exists f. split; [cbn in F; lia|].
  cbn [def_loop]. rewrite (not_exit _ [] r R), (no_end b) by discriminate. reflexivity.
Qed.

Lemma reach_comma : forall a o b r, later r -> reach a o b (44%N :: r) (next_arg a) false (44%N :: b) r.
Proof.
  intros a o b r R f F. destruct f as [|f]; [cbn in F; lia|]. exists f. split; [cbn in F; lia|].
  cbn [def_loop]. rewrite (not_exit _ [] r R), (no_end b) by discriminate. reflexivity.
Qed.

(** ** Default values *)

Lemma from_x_ok : forall A (a : A) b r, from_x (ok a b r) = fok (a, (b, r)).
Proof. reflexivity. Qed.

Lemma transform_same : forall n b0 r0 t b r, str_eqb t (L "c") && quote_at r = false ->
  transform X (S n) um b0 r0 t b r = ok (Some t) b r.
Proof.
  intros. change (transform X (S n)) with (transform_step X (cstr X n)). unfold transform_step. rewrite H. reflexivity.
Qed.

Lemma enough_S : forall r, exists n, enough r = S (S (S n)).
Proof. intro r. exists (5 * length r + 7). unfold enough. lia. Qed.

Lemma no_var : forall c r b, c <> 36%N -> m_xvar (x_T X) (c :: r) = false /\ m_var (x_T X) b (c :: r) = false.
Proof.
  intros c r b H. rewrite (XT E ET). unfold m_xvar, m_var, m_tok. change (t_var dflt) with [36%N]. cbn [starts_with].
  destruct (N.eqb_spec 36 c); [congruence|]. cbn [andb]. rewrite andb_false_r. auto.
Qed.

Lemma reach_piece : forall p a a' b r, dp_ok E um p r -> esc_ok b = true -> later r ->
  add_default a (dp_code E um p) = Some a' ->
  reach a true b (dp_src p ++ r) a' true (rev (dp_src p) ++ b) r.
Proof.
  intros p a a' b r H EB R AD. destruct p as [c|n|t|[src code]]; cbn [dp_ok dp_src dp_code x_src x_code] in *.
  - destruct (sp_not c H) as (C1 & C2 & C3). intros f F. destruct f as [|f]; [cbn in F; lia|]. exists f. split; [cbn in F; lia|].
    cbn [def_loop app rev]. rewrite (not_exit _ [] r R), (no_end b c _ C1), C2, C3, H, AD. reflexivity.
  - destruct H as [D NE]. destruct (dotted_cons n D) as (c & s & -> & I & DN).
    intros f F. destruct f as [|f]; [cbn in F; lia|]. exists f.
    split; [cbn in F; rewrite app_length in F; lia|]. change ((L "$" ++ c :: s) ++ r) with (36%N :: (c :: s) ++ r).
    cbn [def_loop]. rewrite not_exit by exact R. rewrite (no_end b) by discriminate.
    cbn [N.eqb Pos.eqb orb]. change (blank 36 || eolchar 36) with false. cbn [orb negb]. rewrite !andb_false_r.
    assert (M : m_xvar (x_T X) (36%N :: (c :: s) ++ r) = true).
    { rewrite (XT E ET). unfold m_xvar. cbn. rewrite I. reflexivity. }
    rewrite M. destruct (enough_S (36%N :: (c :: s) ++ r)) as [m ->].
    change (36%N :: (c :: s) ++ r) with (L "$" ++ (c :: s) ++ r). rewrite (cvar_name E ET) by assumption.
    rewrite from_x_ok. cbn [fbind fok]. rewrite AD. reflexivity.
  - destruct t as [|c t]; [destruct H as [[] _]|]. destruct H as (SP & EO & TK & Q).
    destruct (special_cases c SP) as (C1 & C2 & C3 & C4 & C5 & C6 & C7 & C8 & C9).
    intros f F. destruct f as [|f]; [cbn in F; lia|]. exists f. split; [cbn in F; rewrite app_length in F; lia|].
    cbn [app def_loop]. rewrite not_exit by exact R. rewrite (no_end b c _ C5).
    rewrite (proj2 (N.eqb_neq c 58) C8), (proj2 (N.eqb_neq c 61) C9), (proj2 (N.eqb_neq c 44) C7), C1, C2.
    assert (C41 : (c =? 41)%N = false) by (unfold closer in C4; lia). rewrite C41. cbn [orb negb]. rewrite !andb_false_r.
    destruct (no_var c (t ++ r) b C6) as [-> ->]. unfold get_default_token. change (x_tok X) with (x_tok (e_X E)).
    change (c :: t ++ r) with ((c :: t) ++ r). rewrite TK, firstn_over, go_over.
    assert (OP : is_open_tok (c :: t) = false) by (cbn; destruct t; [exact C3|reflexivity]). rewrite OP.
    destruct (enough_S ((c :: t) ++ r)) as [m ->]. rewrite transform_same by exact Q. rewrite from_x_ok.
    cbn [fbind fok]. rewrite AD. reflexivity.
  - destruct src as [|c t]; [destruct H as [[] _]|]. destruct H as (OP & EO & TK & Q & EX).
    intros f F. destruct f as [|f]; [cbn in F; lia|]. exists f. split; [cbn in F; rewrite app_length in F; lia|].
    assert (NC : c <> 35%N /\ c <> 36%N) by (destruct (opener_cases c OP) as [-> |[-> | ->]]; split; discriminate).
    destruct NC as [N1 N2].
    cbn [app def_loop]. rewrite not_exit by exact R. rewrite (no_end b c _ N1).
    assert (CC : (c =? 41)%N = false /\ (c =? 58)%N = false /\ blank c || eolchar c = false /\ (c =? 61)%N = false /\ (c =? 44)%N = false)
      by (destruct (opener_cases c OP) as [-> |[-> | ->]]; repeat split). destruct CC as (-> & -> & -> & -> & ->).
    cbn [orb negb]. rewrite !andb_false_r.
    destruct (no_var c (t ++ r) b N2) as [-> ->]. unfold get_default_token. change (x_tok X) with (x_tok (e_X E)).
    change (c :: t ++ r) with ((c :: t) ++ r). rewrite TK. change (firstn 1 ((c :: t) ++ r)) with [c].
    cbn [is_open_tok]. rewrite OP, EX, from_x_ok. cbn [fbind fok].
    destruct (enough_S ((c :: t) ++ r)) as [m ->]. rewrite transform_same by exact Q. rewrite from_x_ok.
    cbn [fbind fok]. rewrite AD. reflexivity.
Qed.

Lemma piece_esc : forall p b r, dp_ok E um p r -> esc_ok (rev (dp_src p) ++ b) = true.
Proof.
  intros p b r H. destruct p as [c|n|t|[src code]]; cbn [dp_ok dp_src x_src] in *.
  - unfold blank, eolchar in H. cbn. destruct (N.eqb_spec c 92); [subst c; discriminate H|reflexivity].
  - change (L "$" ++ n) with (36%N :: n). cbn [rev]. rewrite <- app_assoc. apply dotted_esc. apply H.
  - apply esc_rev; [destruct t; [destruct H as [[] _]|discriminate]|apply H].
  - apply esc_rev; [destruct src; [destruct H as [[] _]|discriminate]|apply H].
Qed.

(** What the list of defaults holds while a value is read. *)
Definition more (d : option pystr) (ps : list dpiece) : option pystr :=
  match ps with
  | [] => d
  | _ => Some (match d with None => [] | Some x => x end ++ concat (map (dp_code E um) ps))
  end.

Lemma add_last : forall A D d t,
  add_default (mkAL A (D ++ [d]) (length D)) t
  = Some (mkAL A (D ++ [Some (match d with None => [] | Some x => x end ++ t)]) (length D)).
Proof.
  intros A D d t. unfold add_default. cbn [al_defs al_count al_args].
  rewrite nth_error_app2, Nat.sub_diag by lia. cbn [nth_error].
  rewrite firstn_app, Nat.sub_diag, firstn_all. cbn [firstn]. rewrite app_nil_r.
  rewrite skipn_all2 by (rewrite app_length; cbn; lia). reflexivity.
Qed.

Lemma reach_pieces : forall ps A D d b r, dps_ok E um ps r -> esc_ok b = true -> later r ->
  reach (mkAL A (D ++ [d]) (length D)) true b (concat (map dp_src ps) ++ r)
        (mkAL A (D ++ [more d ps]) (length D)) true (rev (concat (map dp_src ps)) ++ b) r.
Proof.
  induction ps as [|p ps IH]; intros A D d b r H EB R; [apply reach_refl|]. destruct H as [H1 H2].
  cbn [map concat]. rewrite rev_app_distr, <- !app_assoc.
  eapply reach_trans; [apply reach_piece; [exact H1|exact EB|apply later_app; exact R|apply add_last]|].
  replace (more d (p :: ps)) with (more (Some (match d with None => [] | Some x => x end ++ dp_code E um p)) ps).
  { apply IH; [exact H2|eapply piece_esc; exact H1|exact R]. }
  unfold more. destruct ps as [|q ps]; cbn [map concat]; rewrite ?app_nil_r, <- ?app_assoc; reflexivity.
Qed.

(** ** Arguments *)

Definition raw_def (a : darg) : option pystr := match da_def a with None => None | Some ps => more None ps end.
Definition nm (a : darg) : pystr := repeat 42%N (da_stars a) ++ da_name a.
Definition tail_def (a : darg) : pystr := match da_def a with None => [] | Some ps => L "=" ++ concat (map dp_src ps) end.

Lemma spaces_nc : forall s r, spaces s = true -> nc r -> nc (s ++ r).
Proof.
  intros [|c s] r H K; [exact K|]. cbn in *. apply andb_true_iff in H as [H _].
  destruct (namechar c) eqn:Q; [|reflexivity]. apply namechar_cases in Q. unfold blank, eolchar in H. lia.
Qed.

Lemma spaces_esc : forall s b, spaces s = true -> esc_ok b = true -> esc_ok (rev s ++ b) = true.
Proof.
  intros s b H K. destruct s as [|c s]; [exact K|]. apply esc_last; [discriminate|].
  unfold spaces in H. rewrite forallb_forall in H. specialize (H (last (c :: s) 0%N)).
  assert (I : In (last (c :: s) 0%N) (c :: s)).
  { destruct (@exists_last _ (c :: s) ltac:(discriminate)) as (x & y & Q). rewrite Q, last_last. apply in_or_app. right. left. reflexivity. }
  specialize (H I). unfold blank, eolchar in H. intro Q. rewrite Q in H. discriminate H.
Qed.

Lemma pieces_esc : forall ps b r, dps_ok E um ps r -> esc_ok b = true -> esc_ok (rev (concat (map dp_src ps)) ++ b) = true.
Proof.
  induction ps as [|p ps IH]; intros b r H K; [exact K|]. destruct H as [H1 H2]. cbn [map concat].
  rewrite rev_app_distr, <- app_assoc. eapply IH; [exact H2|]. eapply piece_esc. exact H1.
Qed.

Lemma arg_esc : forall a b r, da_ok E um a r -> esc_ok (rev (da_src a) ++ b) = true.
Proof.
  intros a b r (W & K & I & P & D). unfold da_src. rewrite !rev_app_distr, <- !app_assoc.
  assert (Q : forall b, esc_ok (rev (da_pad a) ++ rev (da_name a) ++ b) = true).
  { intro b'. apply spaces_esc; [exact P|]. apply dotted_esc, ident_dotted, I. }
  destruct (da_def a) as [ps|]; [|apply Q]. rewrite rev_app_distr, <- app_assoc. eapply pieces_esc; [exact D|reflexivity].
Qed.

Lemma reach_arg : forall a l b r, da_ok E um a r -> nc r -> later r ->
  exists o, reach (mkAL (map nm l) (map raw_def l) (length l)) false b (da_src a ++ r)
        (mkAL (map nm (l ++ [a])) (map raw_def (l ++ [a])) (length l)) o (rev (da_src a) ++ b) r.
Proof.
  intros a l b r (W & K & I & P & D) NC R.
  assert (DT : later (tail_def a ++ r)) by (apply later_app; exact R).
  assert (DN : nc (tail_def a ++ r)) by (unfold tail_def; destruct (da_def a); [reflexivity|exact NC]).
  unfold da_src. rewrite !rev_app_distr, <- !app_assoc.
  set (b1 := rev (da_ws a) ++ b). set (b2 := rev (if da_var a then L "$" else []) ++ b1).
  fold (tail_def a).
  assert (S1 : reach (mkAL (map nm l) (map raw_def l) (length l)) false b
     (da_ws a ++ (if da_var a then L "$" else []) ++ repeat 42%N (da_stars a) ++ da_name a ++ da_pad a ++ tail_def a ++ r)
     (mkAL (map nm (l ++ [a])) (map raw_def l ++ [None]) (length l)) false
     (rev (da_pad a) ++ rev (da_name a) ++ rev (repeat 42%N (da_stars a)) ++ b2) (tail_def a ++ r)).
  { eapply reach_trans; [apply reach_space; [exact W|do 4 apply later_app; exact DT]|]. fold b1.
    eapply reach_trans with (b1 := b2).
    { unfold b2. destruct (da_var a); [apply reach_dollar; do 3 apply later_app; exact DT|apply reach_refl]. }
    eapply reach_trans; [apply reach_stars; [exact K|exact I|apply spaces_nc; [exact P|exact DN]|apply later_app; exact DT]|].
    unfold add_argument. cbn [al_args al_defs al_count]. rewrite map_app. cbn [map]. fold (nm a).
    replace (rev (nm a) ++ b2) with (rev (da_name a) ++ rev (repeat 42%N (da_stars a)) ++ b2)
      by (unfold nm; rewrite rev_app_distr, <- app_assoc; reflexivity). apply reach_space; [exact P|exact DT]. }
  rewrite (map_app raw_def). cbn [map]. 
  assert (RD : raw_def a = match da_def a with None => None | Some ps => more None ps end) by reflexivity.
  rewrite RD. unfold tail_def in *. destruct (da_def a) as [ps|].
  - exists true. eapply reach_trans; [exact S1|]. rewrite <- app_assoc. 
    eapply reach_trans; [apply (reach_eq _ false); apply later_app; exact R|].
    rewrite rev_app_distr, <- app_assoc. rewrite <- (map_length raw_def l). apply reach_pieces; [exact D|reflexivity|exact R].
  - exists false. exact S1.
Qed.

Lemma reach_args : forall l k b r, l <> [] -> das_ok E um l r -> nc r -> later r ->
  exists o, reach (mkAL (map nm k) (map raw_def k) (length k)) false b (das_src l ++ r)
        (mkAL (map nm (k ++ l)) (map raw_def (k ++ l)) (length (k ++ l) - 1)) o (rev (das_src l) ++ b) r.
Proof.
  induction l as [|a l IH]; intros k b r NE H NC R; [congruence|].
  destruct l as [|a2 l].
  - change (das_src [a]) with (da_src a). destruct (reach_arg a k b r H NC R) as [o P]. exists o.
    rewrite app_length. cbn [length]. rewrite Nat.add_sub. exact P.
  - destruct H as [H1 H2]. change (das_src (a :: a2 :: l)) with (da_src a ++ L "," ++ das_src (a2 :: l)).
    rewrite <- !app_assoc.
    destruct (reach_arg a k b (L "," ++ das_src (a2 :: l) ++ r) H1) as [o P]; [reflexivity|do 2 apply later_app; exact R|].
    destruct (IH (k ++ [a]) (rev (da_src a ++ L ",") ++ b) r) as [o2 P2]; [discriminate|exact H2|exact NC|exact R|].
    exists o2. eapply reach_trans; [exact P|]. eapply reach_trans; [apply reach_comma; apply later_app; exact R|].
    unfold next_arg. cbn [al_args al_defs al_count]. rewrite <- app_assoc in P2. cbn [app] in P2.
    rewrite (app_length k [a]) in P2. cbn [length] in P2. rewrite Nat.add_1_r in P2.
    rewrite rev_app_distr in P2. rewrite !rev_app_distr, <- !app_assoc. exact P2.
Qed.

Lemma args_esc : forall l b r, l <> [] -> das_ok E um l r -> esc_ok (rev (das_src l) ++ b) = true.
Proof.
  induction l as [|a l IH]; intros b r NE H; [congruence|]. destruct l as [|a2 l].
  - eapply arg_esc. exact H.
  - destruct H as [H1 H2]. change (das_src (a :: a2 :: l)) with (da_src a ++ L "," ++ das_src (a2 :: l)).
    rewrite !rev_app_distr, <- !app_assoc. eapply IH; [discriminate|exact H2].
Qed.

Lemma merge_vals : forall l r k, das_ok E um l r -> merge (mkAL (map nm l) (map raw_def l) k) = map (da_val E um) l.
Proof.
  intros l r k H. unfold merge. cbn [al_args al_defs]. induction l as [|a l IH]; [reflexivity|].
  assert (HA : exists r', da_ok E um a r') by (destruct l; [exists r; exact H|eexists; apply H]).
  assert (HL : das_ok E um l r) by (destruct l; [exact Logic.I|apply H]).
  cbn [map combine]. rewrite (IH HL). f_equal. unfold da_val. f_equal.
  - fold (nm a). destruct HA as (r' & W & K & I & P & D). apply strip_single.
    + unfold nm. destruct (da_stars a) as [|n]; [|reflexivity]. cbn [repeat app].
      destruct (ident_all _ I) as (_ & c & s & -> & C). apply namechar_space, identchar_name, C.
    + unfold nm. destruct (ident_all _ I) as (AL & c & s & Q & C).
      destruct (@exists_last _ (da_name a)) as (x & y & Q2); [rewrite Q; discriminate|].
      rewrite Q2, app_assoc, last_last. rewrite Q2, forallb_app in AL. apply andb_true_iff in AL as [_ AL]. cbn in AL.
      rewrite andb_true_r in AL. apply namechar_space, AL.
  - unfold raw_def. destruct (da_def a) as [[|p ps]|]; reflexivity.
Qed.

(** What ends a list. *)
Definition ender (r : pystr) : Prop :=
  match r with c :: _ => c = 41%N \/ c = 58%N \/ c = 35%N \/ exit = Some (length r) | [] => False end.

Lemma loop_ends : forall f a o b r, ender r -> esc_ok b = true -> def_loop (S f) X um exit a o b r = fok (a, (b, r)).
Proof.
  intros f a o b [|c r] H EB; [contradiction|]. cbn [def_loop].
  destruct (match exit with Some k => _ | None => false end) eqn:Q; [reflexivity|]. cbn [ender] in H.
  destruct H as [->|[->|[->|H]]]; [reflexivity| | |].
  - rewrite (no_end b) by discriminate. reflexivity.
  - rewrite (XT E ET). unfold m_tok. rewrite EB. reflexivity.
  - rewrite H, Nat.eqb_refl in Q. discriminate Q.
Qed.

Lemma loop_args : forall l b r f, das_ok E um l r -> nc r -> later r -> ender r -> esc_ok b = true -> 
  length (das_src l ++ r) < f ->
  exists a, def_loop f X um exit (mkAL [] [] 0) false b (das_src l ++ r) = fok (a, (rev (das_src l) ++ b, r)) /\
    merge a = map (da_val E um) l.
Proof.
  intros l b r f H NC R EN EB F. destruct l as [|a l].
  - exists (mkAL [] [] 0). split; [|reflexivity]. destruct f; [cbn in F; lia|]. apply loop_ends; assumption.
  - destruct (reach_args (a :: l) [] b r) as [o P]; [discriminate|assumption..|].
    destruct (P f F) as (f' & F' & Q). cbn [map length app] in Q. eexists. split.
    + rewrite Q. destruct f'; [lia|]. apply loop_ends; [exact EN|].
      destruct l; eapply args_esc; (discriminate || exact H).
    + eapply (merge_vals (a :: l) r). exact H.
Qed.
End Args.

Section Whole.
Variable E : env.
Hypothesis ET : x_T (e_X E) = dflt.

(** In brackets. *)
Lemma args_paren : forall c um l b r, Gen_Model.s_sl c = true -> das_ok E um l (L ")" ++ r) ->
  def_args E c um b (L "(" ++ das_src l ++ L ")" ++ r)
  = fok (map (da_val E um) l, (rev (L "(" ++ das_src l) ++ b, L ")" ++ r)).
Proof.
  intros c um l b r SL H. unfold def_args. rewrite (lang_X0 E c SL). cbv zeta.
  change (L "(" ++ das_src l ++ L ")" ++ r) with (40%N :: das_src l ++ L ")" ++ r). cbv iota. change (40 =? 40)%N with true.
  cbv iota. destruct (loop_args E ET um None l (40%N :: b) (L ")" ++ r) (S (length (das_src l ++ L ")" ++ r))) H) as (a & Q & M);
    [reflexivity|exact Logic.I|left; reflexivity|reflexivity|lia|].
  rewrite Q. cbn [fbind fok]. rewrite M. cbn [rev app]. change (L "(" ++ das_src l) with (40%N :: das_src l). cbn [rev].
  rewrite <- app_assoc. reflexivity.
Qed.

(** Such lists are arguments of a definition. *)
Lemma args_of_ok : forall l, (forall r, das_ok E false l (L ")" ++ r)) -> one_line (das_src l) ->
  match l with a :: _ => da_stars a = 0 /\ str_eqb (da_name a) (L "self") = false \/ 0 < da_stars a | [] => True end ->
  args_ok E (Some (args_of E l)).
Proof.
  intros l H OL NS. split; [|split].
  - intros c b r SL. cbn [args_of sa_src sa_val]. apply args_paren; [exact SL|apply H].
  - exact OL.
  - cbn [args_of sa_val]. destruct l as [|a l]; [exact Logic.I|]. cbn [map da_val fst].
    destruct NS as [[-> NS]|NS]; [exact NS|]. destruct (da_stars a) as [|n]; [lia|]. reflexivity.
Qed.

(** To the end of the line. *)
Lemma args_line : forall c um l b r, Gen_Model.s_sl c = true -> l <> [] -> das_ok E um l r -> no_eol (das_src l) ->
  at_char 40 (das_src l) = false -> esc_ok b = true ->
  match r with d :: _ => eolchar d = true \/ d = 35%N \/ d = 58%N | [] => False end ->
  def_args E c um b (das_src l ++ r) = fok (map (da_val E um) l, (rev (das_src l) ++ b, r)).
Proof.
  intros c um l b r SL NE H NL OP EB RE. unfold def_args. rewrite (lang_X0 E c SL). cbv zeta.
  assert (NN : das_src l <> []).
  { destruct l as [|a l]; [congruence|]. assert (HA : exists r', da_ok E um a r') by (destruct l; [exists r; exact H|eexists; apply H]).
    destruct HA as (r' & _ & _ & I & _). assert (QL : 0 < length (da_src a)).
    { unfold da_src. rewrite !app_length. destruct (da_name a); [contradiction|]. cbn. lia. }
    destruct l; [change (das_src [a]) with (da_src a)|change (das_src (a :: d :: l)) with (da_src a ++ L "," ++ das_src (d :: l))];
      destruct (da_src a); cbn in *; (lia || discriminate). }
  set (src := das_src l ++ r). assert (LL : length src - eol_off src = length r - eol_off r).
  { unfold src. rewrite eol_off_app by exact NL. rewrite app_length. lia. }
  destruct (das_src l) as [|d s] eqn:DS; [congruence|]. unfold src at 1. cbn [app]. cbn [at_char] in OP. rewrite OP.
  fold src. rewrite LL. rewrite <- DS.
  destruct (loop_args E ET um (Some (length r - eol_off r)) l b r (S (length src)) H) as (a & Q & M).
  - destruct r as [|x r]; [exact Logic.I|]. cbn in *. destruct (namechar x) eqn:Q; [|reflexivity].
    apply namechar_cases in Q. unfold eolchar in RE. lia.
  - cbn. lia.
  - destruct r as [|x r]; [contradiction|]. cbn [ender]. destruct RE as [RE|[RE|RE]]; auto.
    right. right. right. replace (eol_off (x :: r)) with 0; [f_equal; lia|]. symmetry. apply eol_cons, RE.
  - exact EB.
  - unfold src. rewrite DS. lia.
  - unfold src in *. rewrite DS in Q |- *. rewrite Q. cbn [fbind fok]. rewrite M. reflexivity.
Qed.

(** Nothing behind the list. *)
Lemma loop_open : forall um exit l b f, das_ok E um l [] -> later exit [] -> length (das_src l ++ []) < f ->
  def_loop f (X0 E) um exit (mkAL [] [] 0) false b (das_src l ++ []) = fparse (rev (das_src l) ++ b) [].
Proof.
  intros um exit l b f H R F. destruct l as [|a l].
  - destruct f; [cbn in F; lia|]. reflexivity.
  - destruct (reach_args E ET um exit (a :: l) [] b []) as [o P]; [discriminate|assumption|exact Logic.I|assumption|].
    destruct (P f F) as (f' & F' & Q). cbn [map length app] in Q. rewrite Q. destruct f'; [cbn in F'; lia|].
    reflexivity.
Qed.

Lemma args_open : forall c um l b, Gen_Model.s_sl c = true -> das_ok E um l [] ->
  def_args E c um b (L "(" ++ das_src l) = fparse (rev (L "(" ++ das_src l) ++ b) [].
Proof.
  intros c um l b SL H. unfold def_args. rewrite (lang_X0 E c SL). cbv zeta.
  change (L "(" ++ das_src l) with (40%N :: das_src l). cbv iota. change (40 =? 40)%N with true. cbv iota.
  pose proof (loop_open um None l (40%N :: b) (S (length (das_src l))) H Logic.I) as Q. rewrite app_nil_r in Q.
  rewrite Q by lia. cbn [rev]. rewrite <- app_assoc. reflexivity.
Qed.

Lemma args_open_line : forall c um l b, Gen_Model.s_sl c = true -> das_ok E um l [] -> no_eol (das_src l) ->
  das_src l <> [] -> at_char 40 (das_src l) = false ->
  def_args E c um b (das_src l) = fparse (rev (das_src l) ++ b) [].
Proof.
  intros c um l b SL H NL NN OP. unfold def_args. rewrite (lang_X0 E c SL). cbv zeta.
  assert (LL : length (das_src l) - eol_off (das_src l) = 0).
  { rewrite <- (app_nil_r (das_src l)) at 2. rewrite eol_off_app by exact NL. lia. }
  pose proof (loop_open um (Some 0) l b (S (length (das_src l))) H (le_n 0)) as Q. rewrite app_nil_r in Q.
  destruct (das_src l) as [|d s] eqn:DS; [congruence|]. cbn [at_char] in OP. rewrite OP, LL. rewrite Q by lia. reflexivity.
Qed.
End Whole.

Lemma args_open_both : forall E c um l b, x_T (e_X E) = dflt -> Gen_Model.s_sl c = true -> das_ok E um l [] ->
  def_args E c um b (L "(" ++ das_src l) = ferror (FParse (length b + length (das_src l))) /\
  (no_eol (das_src l) -> das_src l <> [] -> at_char 40 (das_src l) = false ->
   def_args E c um b (das_src l) = ferror (FParse (pred (length b + length (das_src l))))).
Proof.
  intros E c um l b ET SL H. split; [|intros NL NN OP].
  - rewrite (args_open E ET c um l b SL H). unfold fparse. rewrite app_length, rev_length. cbn. rewrite Nat.add_comm. reflexivity.
  - rewrite (args_open_line E ET c um l b SL H NL NN OP). unfold fparse. rewrite app_length, rev_length, Nat.add_comm. reflexivity.
Qed.
