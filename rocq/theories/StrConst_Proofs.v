(** Proofs about the emission of static text. *)
From Verif Require Import Base StrConst_Model PyLiteral_Spec.
Open Scope N_scope.

(** A list of code points is a possible Python string when every element is at most 0x10FFFF. *)
Definition valid_str (s : pystr) : Prop := Forall (fun c => c <= 1114111) s.

Ltac neq_tac := repeat match goal with
  | H : (_ =? _) = true |- _ => apply N.eqb_eq in H
  | H : (_ =? _) = false |- _ => apply N.eqb_neq in H
  | H : (_ <? _) = true |- _ => apply N.ltb_lt in H
  | H : (_ <? _) = false |- _ => apply N.ltb_ge in H
  | H : (_ <=? _) = true |- _ => apply N.leb_le in H
  | H : (_ <=? _) = false |- _ => apply N.leb_gt in H
  | H : (_ || _) = false |- _ => apply orb_false_iff in H; destruct H
  end.

Lemma hexval_digit : forall d, d < 16 -> hexval (hexdigit d) = Some d.
Proof.
  intros d H. unfold hexval, hexdigit.
  destruct (d <? 10) eqn:E; neq_tac.
  - replace ((48 <=? 48 + d) && (48 + d <=? 57)) with true by lia. f_equal; lia.
  - replace ((48 <=? 87 + d) && (87 + d <=? 57)) with false by lia.
    replace ((97 <=? 87 + d) && (87 + d <=? 102)) with true by lia. f_equal; lia.
Qed.

Lemma hexdigit_range : forall d, d < 16 ->
  hexdigit d <> BS /\ hexdigit d <> CR /\ hexdigit d <> NL /\ hexdigit d <> 0.
Proof.
  intros d H. unfold hexdigit, BS, CR, NL. destruct (d <? 10) eqn:E; neq_tac; lia.
Qed.

Lemma hexn_length : forall n c, length (hexn n c) = n.
Proof.
  induction n; intros; simpl; auto. rewrite app_length, IHn. simpl. lia.
Qed.

Lemma hexnum_app : forall a b acc,
  hexnum acc (a ++ b) = match hexnum acc a with Some v => hexnum v b | None => None end.
Proof.
  induction a as [|d a IH]; intros; simpl; auto.
  destruct (hexval d); auto.
Qed.

Lemma hexnum_hexn : forall n c acc, c < 16 ^ N.of_nat n ->
  hexnum acc (hexn n c) = Some (acc * 16 ^ N.of_nat n + c).
Proof.
  induction n as [|n IH]; intros c acc H.
  - simpl in *. change (16 ^ 0) with 1 in *. f_equal. lia.
  - assert (HP : 16 ^ N.of_nat (S n) = 16 * 16 ^ N.of_nat n).
    { rewrite Nat2N.inj_succ, N.pow_succ_r'. reflexivity. }
    cbn [hexn]. rewrite hexnum_app, IH.
    + cbn [hexnum]. rewrite hexval_digit by (apply N.mod_lt; lia).
      f_equal. rewrite HP. pose proof (N.div_mod c 16). lia.
    + apply N.div_lt_upper_bound; lia.
Qed.

Lemma hexn_no : forall n c x, In x (hexn n c) -> x <> BS /\ x <> CR /\ x <> NL /\ x <> 0.
Proof.
  induction n; intros c x H; simpl in H; [contradiction|].
  apply in_app_iff in H as [H|[H|[]]].
  - eapply IHn; eauto.
  - subst. apply hexdigit_range. apply N.mod_lt; lia.
Qed.

Section WithPrintable.
Variable printable : N -> bool.
Variable q : N.
Hypothesis Hq : q = SQ \/ q = DQ.

Notation tok := (repr_char printable q).
Definition tok' (c : N) : pystr := if c =? NL then [NL] else tok c.

(** The shapes a representation of a character can have. *)
Inductive shape (c : N) : pystr -> Prop :=
| sh_bs : c = BS -> shape c [BS; BS]
| sh_nl : c = NL -> shape c [BS; 110]
| sh_plain : c <> BS -> c <> NL -> c <> CR -> c <> q -> 32 <= c -> shape c [c]
| sh_esc : forall x r, c <> BS -> c <> NL -> x <> BS -> x <> 110 -> x <> 48 ->
    (forall y, In y r -> y <> BS) -> shape c (BS :: x :: r).

Lemma tok_shape : forall c, shape c (tok c).
Proof.
  intros c. unfold repr_char.
  destruct ((c =? q) || (c =? BS)) eqn:E1.
  - apply orb_true_iff in E1 as [E|E]; apply N.eqb_eq in E; subst c.
    + destruct Hq as [-> | ->]; apply sh_esc; unfold SQ, DQ, BS, NL; try lia; intros y [].
    + apply sh_bs; reflexivity.
  - neq_tac. destruct (c =? TAB) eqn:E2; neq_tac.
    { subst. apply sh_esc; unfold TAB, BS, NL; try lia; intros y []. }
    destruct (c =? NL) eqn:E3; neq_tac.
    { subst. apply sh_nl; reflexivity. }
    destruct (c =? CR) eqn:E4; neq_tac.
    { subst. apply sh_esc; unfold CR, BS, NL; try lia; intros y []. }
    destruct ((c <? 32) || (c =? 127)) eqn:E5.
    { apply sh_esc; auto; unfold BS; try lia; intros y Hy; apply hexn_no in Hy; tauto. }
    neq_tac. destruct (c <? 127) eqn:E6; neq_tac.
    { apply sh_plain; auto. }
    destruct (printable c) eqn:E7.
    { apply sh_plain; auto; lia. }
    destruct (c <=? 255) eqn:E8; neq_tac.
    { apply sh_esc; auto; unfold BS; try lia; intros y Hy; apply hexn_no in Hy; tauto. }
    destruct (c <=? 65535) eqn:E9; neq_tac;
      apply sh_esc; auto; unfold BS; try lia; intros y Hy; apply hexn_no in Hy; tauto.
Qed.

Definition T (s : pystr) : pystr := concat (map tok s).
Definition T' (s : pystr) : pystr := concat (map tok' s).

(** Number of backslashes before a newline, if the text is a backslash run and a newline. *)
Fixpoint run (s : pystr) : option nat :=
  match s with
  | [] => None
  | c :: r => if c =? BS then option_map S (run r) else if c =? NL then Some O else None
  end.

Lemma rx_match_T : forall s,
  rx_match (T s) = match run s with Some m => Some (m, 2%nat) | None => None end.
Proof.
  induction s as [|c s IH]; [reflexivity|].
  unfold T in *. cbn [map concat run].
  destruct (tok_shape c) as [-> | -> |H1 H2 _ _ _|x r H1 H2 H3 H4 H5 H6].
  - cbn [app rx_match]. rewrite N.eqb_refl. cbn [andb]. rewrite IH.
    destruct (run s); cbn [option_map]; [reflexivity|].
    cbn [rx_tail]. rewrite N.eqb_refl. change (BS =? 110) with false. cbn. reflexivity.
  - reflexivity.
  - apply N.eqb_neq in H1, H2. rewrite H1, H2.
    cbn [app rx_match]. destruct (concat (map tok s)) as [|b2 r]; [reflexivity|].
    rewrite H1. cbn [andb rx_tail]. rewrite H1. reflexivity.
  - apply N.eqb_neq in H1, H2. rewrite H1, H2.
    cbn [app rx_match]. apply N.eqb_neq in H3. rewrite H3, N.eqb_refl. cbn [andb rx_tail].
    rewrite N.eqb_refl. apply N.eqb_neq in H4. rewrite H4.
    change (starts_with (L "012") (x :: r ++ concat (map tok s)))
      with ((48 =? x) && starts_with (L "12") (r ++ concat (map tok s))).
    apply N.eqb_neq in H5. rewrite N.eqb_sym, H5. reflexivity.
Qed.

Lemma rx_match_nonbs : forall c r, c <> BS -> rx_match (c :: r) = None.
Proof.
  intros c r H. apply N.eqb_neq in H. cbn [rx_match].
  destruct r; [reflexivity|]. rewrite H. cbn [andb rx_tail]. rewrite H. reflexivity.
Qed.

Lemma rx_sub_nobs : forall r u, (forall y, In y r -> y <> BS) ->
  rx_sub false 0 (r ++ u) = r ++ rx_sub false 0 u.
Proof.
  induction r as [|c r IH]; intros u H; [reflexivity|].
  cbn [app rx_sub]. rewrite rx_match_nonbs by (apply H; left; reflexivity).
  assert (E : c =? BS = false) by (apply N.eqb_neq, H; left; reflexivity).
  rewrite E, IH; [reflexivity|]. intros y Hy; apply H; right; assumption.
Qed.

Lemma rx_sub_skip : forall u x v p,
  rx_sub p (length (u ++ [x])) ((u ++ [x]) ++ v) = rx_sub (x =? BS) 0 v.
Proof.
  induction u as [|c u IH]; intros x v p; [reflexivity|].
  cbn [app length rx_sub]. apply IH.
Qed.

Lemma run_some : forall s m, run s = Some m -> exists r, s = repeat BS m ++ NL :: r.
Proof.
  induction s as [|c s IH]; intros m H; cbn [run] in H; [discriminate|].
  destruct (c =? BS) eqn:E.
  - apply N.eqb_eq in E. subst c. destruct (run s) as [k|]; [|discriminate].
    inversion H; subst. destruct (IH k eq_refl) as [r ->]. exists r. reflexivity.
  - destruct (c =? NL) eqn:E2; [|discriminate]. apply N.eqb_eq in E2.
    inversion H; subst. exists s. reflexivity.
Qed.

Lemma tok_BS : tok BS = [BS; BS].
Proof. unfold repr_char. rewrite N.eqb_refl, orb_true_r. reflexivity. Qed.

Lemma tok_NL : tok NL = [BS; 110].
Proof. destruct Hq as [-> | ->]; reflexivity. Qed.

Lemma T_run : forall m r, T (repeat BS m ++ NL :: r) = repeat BS (2 * m) ++ [BS; 110] ++ T r.
Proof.
  induction m as [|m IH]; intros r; unfold T in *.
  - cbn [repeat app map concat Nat.mul]. rewrite tok_NL. reflexivity.
  - cbn [repeat app map concat]. rewrite tok_BS, IH.
    replace (2 * S m)%nat with (S (S (2 * m))) by lia. reflexivity.
Qed.

Lemma T'_run : forall m r, T' (repeat BS m ++ NL :: r) = repeat BS (2 * m) ++ [NL] ++ T' r.
Proof.
  induction m as [|m IH]; intros r; unfold T' in *.
  - reflexivity.
  - cbn [repeat app map concat]. rewrite IH. unfold tok' at 1.
    change (BS =? NL) with false. cbv iota. rewrite tok_BS.
    replace (2 * S m)%nat with (S (S (2 * m))) by lia. reflexivity.
Qed.

Lemma run_sub : forall m r,
  rx_sub false 0 (T (repeat BS m ++ NL :: r)) = repeat BS (2 * m) ++ [NL] ++ rx_sub false 0 (T r).
Proof.
  intros m r.
  assert (HM : rx_match (T (repeat BS m ++ NL :: r)) = Some (m, 2%nat)).
  { rewrite rx_match_T.
    assert (HR : run (repeat BS m ++ NL :: r) = Some m).
    { induction m; cbn [repeat app run]; [reflexivity|].
      rewrite N.eqb_refl, IHm. reflexivity. }
    rewrite HR. reflexivity. }
  rewrite T_run in *.
  assert (HD : exists c u, repeat BS (2 * m) ++ [BS; 110] ++ T r = c :: (u ++ [110]) ++ T r
                        /\ length (u ++ [110]) = (2 * m + 2 - 1)%nat).
  { destruct m.
    - exists BS, []. split; reflexivity.
    - exists BS, (repeat BS (S (2 * m)) ++ [BS]). split.
      + replace (2 * S m)%nat with (S (S (2 * m))) by lia.
        cbn [repeat app]. rewrite <- !app_assoc. reflexivity.
      + rewrite !app_length, repeat_length. simpl. lia. }
  destruct HD as [c [u [HD HL]]]. rewrite HD in *.
  cbn [rx_sub]. rewrite HM. rewrite <- HL, rx_sub_skip.
  reflexivity.
Qed.

Lemma rx_sub_T : forall n s, (length s <= n)%nat ->
  rx_sub false 0 (T s) = T' s /\ (run s = None -> rx_sub true 0 (T s) = T' s).
Proof.
  induction n as [|n IH]; intros s Hn.
  { destruct s; [split; reflexivity | simpl in Hn; lia]. }
  destruct s as [|c s]; [split; reflexivity|].
  assert (Hs : (length s <= n)%nat) by (simpl in Hn; lia).
  destruct (run (c :: s)) as [m|] eqn:ER.
  - split; [|discriminate].
    destruct (run_some _ _ ER) as [r HE]. rewrite HE, run_sub, T'_run.
    assert (Hr : (length r <= n)%nat).
    { assert (HL : length (c :: s) = length (repeat BS m ++ NL :: r)) by (rewrite HE; reflexivity).
      rewrite app_length in HL. cbn [length] in HL. simpl in Hn. lia. }
    rewrite (proj1 (IH r Hr)). reflexivity.
  - assert (HM : rx_match (T (c :: s)) = None) by (rewrite rx_match_T, ER; reflexivity).
    pose proof (IH s Hs) as [IH1 IH2].
    unfold T, T' in *. cbn [map concat] in *. unfold tok' at 1 3.
    cbn [run] in ER.
    pose proof (tok_shape c) as HS. destruct HS as [Hc|Hc|H1 H2 _ _ _|x r H1 H2 H3 H4 H5 H6].
    + subst c. change (BS =? NL) with false. cbv iota.
      rewrite N.eqb_refl in ER. destruct (run s); [discriminate|]. specialize (IH2 eq_refl).
      cbn [app] in *.
      split; [|intros _]; cbn [rx_sub]; [rewrite HM|]; rewrite N.eqb_refl; rewrite IH2; reflexivity.
    + subst c. discriminate.
    + pose proof H1 as H1'. pose proof H2 as H2'. apply N.eqb_neq in H1', H2'. rewrite H2'.
      cbn [app rx_sub]. rewrite rx_match_nonbs by assumption.
      rewrite H1', IH1. split; reflexivity.
    + pose proof H2 as H2'. apply N.eqb_neq in H2'. rewrite H2'.
      assert (HX : rx_sub true 0 (x :: r ++ concat (map tok s)) =
                   x :: r ++ concat (map tok' s)).
      { cbn [rx_sub]. apply N.eqb_neq in H3. rewrite H3, rx_sub_nobs by assumption.
        rewrite IH1. reflexivity. }
      cbn [app] in *.
      split; [|intros _]; cbn [rx_sub]; [rewrite HM|]; rewrite N.eqb_refl;
        cbn [rx_sub] in HX; rewrite HX; reflexivity.
Qed.

(** ** Decoding *)
Lemma list2 : forall (l : pystr), length l = 2%nat -> exists a b, l = [a; b].
Proof. intros [|a [|b [|]]] H; try discriminate; eauto. Qed.
Lemma list4 : forall (l : pystr), length l = 4%nat -> exists a b c d, l = [a; b; c; d].
Proof. intros [|a [|b [|c [|d [|]]]]] H; try discriminate; eauto. Qed.
Lemma list8 : forall (l : pystr), length l = 8%nat ->
  exists a b c d e f g h, l = [a; b; c; d; e; f; g; h].
Proof.
  intros [|a [|b [|c [|d [|e [|f [|g [|h [|]]]]]]]]] H; try discriminate.
  repeat eexists.
Qed.

Lemma lit_x : forall tr v r, v < 256 ->
  lit_body tr q (BS :: 120 :: hexn 2 v ++ r) = ocons v (lit_body tr q r).
Proof.
  intros tr v r H. destruct (list2 _ (hexn_length 2 v)) as [a [b HE]].
  pose proof (hexnum_hexn 2 v 0) as HN. rewrite HE in *. cbn [app].
  destruct Hq as [-> | ->]; cbn -[hexnum]; rewrite HN by (simpl; lia); reflexivity.
Qed.
Lemma lit_u : forall tr v r, v < 65536 ->
  lit_body tr q (BS :: 117 :: hexn 4 v ++ r) = ocons v (lit_body tr q r).
Proof.
  intros tr v r H. destruct (list4 _ (hexn_length 4 v)) as [a [b [c [d HE]]]].
  pose proof (hexnum_hexn 4 v 0) as HN. rewrite HE in *. cbn [app].
  destruct Hq as [-> | ->]; cbn -[hexnum]; rewrite HN by (simpl; lia); reflexivity.
Qed.
Lemma lit_U : forall tr v r, v <= 1114111 ->
  lit_body tr q (BS :: 85 :: hexn 8 v ++ r) = ocons v (lit_body tr q r).
Proof.
  intros tr v r H. destruct (list8 _ (hexn_length 8 v)) as [a [b [c [d [e [f [g [h HE]]]]]]]].
  pose proof (hexnum_hexn 8 v 0) as HN. rewrite HE in *. cbn [app].
  assert (HL : (v <=? 1114111) = true) by (apply N.leb_le; assumption).
  destruct Hq as [-> | ->]; cbn -[hexnum N.leb]; rewrite HN by (simpl; lia);
    cbn [N.mul N.add]; rewrite HL; reflexivity.
Qed.

Lemma lit_plain : forall c tr r, c <> BS -> c <> NL -> c <> q -> 32 <= c ->
  lit_body tr q (c :: r) = ocons c (lit_body tr q r).
Proof.
  intros c tr r H1 H2 H3 H4. cbn [lit_body].
  apply N.eqb_neq in H3. rewrite H3. unfold BS, NL in *.
  apply N.eqb_neq in H1. rewrite H1. apply N.eqb_neq in H2. rewrite H2. cbn [andb].
  replace (c =? 0) with false by lia. reflexivity.
Qed.

(** One represented character, read back. *)
Lemma lit_tok : forall c tr r, c <= 1114111 ->
  lit_body tr q (tok c ++ r) = ocons c (lit_body tr q r).
Proof.
  intros c tr r HV. unfold repr_char.
  destruct ((c =? q) || (c =? BS)) eqn:E1.
  { apply orb_true_iff in E1 as [E|E]; apply N.eqb_eq in E; subst c;
      destruct Hq as [-> | ->]; reflexivity. }
  neq_tac. destruct (c =? TAB) eqn:E2; neq_tac.
  { subst. destruct Hq as [-> | ->]; reflexivity. }
  destruct (c =? NL) eqn:E3; neq_tac.
  { subst. destruct Hq as [-> | ->]; reflexivity. }
  destruct (c =? CR) eqn:E4; neq_tac.
  { subst. destruct Hq as [-> | ->]; reflexivity. }
  destruct ((c <? 32) || (c =? 127)) eqn:E5.
  { apply lit_x. lia. }
  neq_tac. destruct (c <? 127) eqn:E6; neq_tac.
  { apply lit_plain; auto. }
  destruct (printable c) eqn:E7.
  { apply lit_plain; auto; lia. }
  destruct (c <=? 255) eqn:E8; neq_tac.
  { apply lit_x. lia. }
  destruct (c <=? 65535) eqn:E9; neq_tac.
  { apply lit_u. lia. }
  apply lit_U. assumption.
Qed.

Lemma lit_tok' : forall c r, c <= 1114111 ->
  lit_body true q (tok' c ++ r) = ocons c (lit_body true q r).
Proof.
  intros c r HV. unfold tok'. destruct (c =? NL) eqn:E.
  - apply N.eqb_eq in E. subst. destruct Hq as [-> | ->]; reflexivity.
  - apply lit_tok. assumption.
Qed.

Lemma lit_T' : forall s, valid_str s -> lit_body true q (T' s ++ [q; q; q]) = Some s.
Proof.
  induction s as [|c s IH]; intros H; unfold T' in *; cbn [map concat app].
  - cbn [lit_body]. rewrite N.eqb_refl. reflexivity.
  - inversion H; subst. rewrite <- app_assoc, lit_tok' by assumption.
    rewrite IH by assumption. reflexivity.
Qed.

Lemma lit_T : forall s, valid_str s -> lit_body false q (T s ++ [q]) = Some s.
Proof.
  induction s as [|c s IH]; intros H; unfold T in *; cbn [map concat app].
  - cbn [lit_body]. rewrite N.eqb_refl. reflexivity.
  - inversion H; subst. rewrite <- app_assoc, lit_tok by assumption.
    rewrite IH by assumption. reflexivity.
Qed.

Lemma tok_noline : forall c x, In x (tok c) -> x <> CR /\ x <> NL.
Proof.
  intros c x. unfold repr_char.
  assert (HqCR : q <> CR /\ q <> NL) by (destruct Hq as [-> | ->]; unfold SQ, DQ, CR, NL; lia).
  assert (HH : forall n v y, In y (hexn n v) -> y <> CR /\ y <> NL)
    by (intros n v y Hy; apply hexn_no in Hy; tauto).
  destruct ((c =? q) || (c =? BS)) eqn:E1.
  { apply orb_true_iff in E1 as [E|E]; apply N.eqb_eq in E; subst c;
    intros [<-|[<-|[]]]; auto; unfold BS, CR, NL; lia. }
  neq_tac.
  destruct (c =? TAB); [intros [<-|[<-|[]]]; unfold BS, CR, NL; lia|].
  destruct (c =? NL) eqn:E3; [intros [<-|[<-|[]]]; unfold BS, CR, NL; lia|].
  destruct (c =? CR) eqn:E4; [intros [<-|[<-|[]]]; unfold BS, CR, NL; lia|].
  neq_tac.
  destruct ((c <? 32) || (c =? 127));
    [intros [<-|[<-|H']]; [unfold BS, CR, NL; lia|unfold BS, CR, NL; lia|eapply HH; eassumption]|].
  destruct (c <? 127); [intros [<-|[]]; auto|].
  destruct (printable c); [intros [<-|[]]; auto|].
  destruct (c <=? 255);
    [intros [<-|[<-|H']]; [unfold BS, CR, NL; lia|unfold BS, CR, NL; lia|eapply HH; eassumption]|].
  destruct (c <=? 65535);
    intros [<-|[<-|H']]; try (unfold BS, CR, NL; lia); eapply HH; eassumption.
Qed.

Lemma tok'_nocr : forall c x, In x (tok' c) -> x <> CR.
Proof.
  intros c x. unfold tok'. destruct (c =? NL).
  - intros [<-|[]]; unfold NL, CR; lia.
  - intros H. apply tok_noline in H. tauto.
Qed.

End WithPrintable.

Lemma universal_newlines_id : forall s, ~ In CR s -> universal_newlines s = s.
Proof.
  induction s as [|c s IH]; intros H; [reflexivity|].
  cbn [universal_newlines]. destruct (c =? 13) eqn:E.
  - apply N.eqb_eq in E. subst. exfalso. apply H. left; reflexivity.
  - rewrite IH; [reflexivity|]. intro; apply H; right; assumption.
Qed.

Lemma repr_quote_cases : forall s, repr_quote s = SQ \/ repr_quote s = DQ.
Proof. intros s. unfold repr_quote. destruct (_ && _); auto. Qed.

Lemma in_concat_map : forall (f : N -> pystr) x s,
  In x (concat (map f s)) -> exists c, In x (f c).
Proof.
  intros f x s H. apply in_concat in H as [l [Hl Hx]]. apply in_map_iff in Hl as [c [<- _]]. eauto.
Qed.

Lemma removelast_snoc : forall (l : pystr) x, removelast (l ++ [x]) = l.
Proof. intros. rewrite removelast_app by discriminate. simpl. apply app_nil_r. Qed.

(** C01: the emitted literal denotes the text. *)
Lemma str_const_literal_roundtrip : forall printable s lit,
  valid_str s -> str_const_literal printable s = Some lit -> eval_literal lit = Some s.
Proof.
  intros printable s lit HV H. unfold str_const_literal in H.
  destruct s as [|c0 s0]; [discriminate|]. remember (c0 :: s0) as s eqn:HS. clear HS c0 s0.
  pose proof (repr_quote_cases s) as HQ. set (q := repr_quote s) in *.
  assert (HR : repr printable s = q :: T printable q s ++ [q]) by reflexivity.
  rewrite HR in H.
  assert (HU : starts_with (L "u") (q :: T printable q s ++ [q]) = false).
  { destruct HQ as [-> | ->]; reflexivity. }
  rewrite HU in H. cbn [Nat.add nth] in H.
  assert (HB : slice_to_last 1 (q :: T printable q s ++ [q]) = T printable q s).
  { unfold slice_to_last. cbn [skipn]. apply removelast_snoc. }
  rewrite HB in H.
  destruct (rx_sub_T printable q HQ (length s) s (le_n _)) as [HX _]. rewrite HX in H.
  assert (HL : lit = [q; q; q] ++ T' printable q s ++ [q; q; q]).
  { destruct HQ as [E|E]; rewrite E in *; cbn [N.eqb] in H; inversion H; reflexivity. }
  subst lit. unfold eval_literal.
  rewrite universal_newlines_id.
  - cbn [app]. replace ((q =? 39) || (q =? 34)) with true by (destruct HQ as [-> | ->]; reflexivity).
    rewrite !N.eqb_refl. cbn [andb]. apply lit_T'; assumption.
  - intro HI. apply in_app_iff in HI as [HI|HI].
    + simpl in HI. destruct HQ as [E|E]; rewrite E in HI; unfold SQ, DQ, CR in HI;
        repeat destruct HI as [HI|HI]; try discriminate HI; contradiction.
    + apply in_app_iff in HI as [HI|HI].
      * apply in_concat_map in HI as [c Hc]. apply tok'_nocr in Hc; auto.
      * simpl in HI. destruct HQ as [E|E]; rewrite E in HI; unfold SQ, DQ, CR in HI;
        repeat destruct HI as [HI|HI]; try discriminate HI; contradiction.
Qed.

Lemma str_const_literal_some : forall printable s,
  s <> [] -> exists lit, str_const_literal printable s = Some lit.
Proof.
  intros printable s H. unfold str_const_literal. destruct s as [|c r]; [congruence|].
  destruct (_ =? SQ); eauto.
Qed.

(** [repr] itself: reads back as the text, on one line. *)
Lemma repr_roundtrip : forall printable s, valid_str s -> eval_literal (repr printable s) = Some s.
Proof.
  intros printable s HV. unfold eval_literal, repr.
  pose proof (repr_quote_cases s) as HQ. set (q := repr_quote s) in *.
  rewrite universal_newlines_id.
  - replace ((q =? 39) || (q =? 34)) with true by (destruct HQ as [-> | ->]; reflexivity).
    pose proof (lit_T printable q HQ s HV) as HL. unfold T in HL.
    destruct s as [|c s]; [reflexivity|].
    assert (HN : forall q1 q2 r, concat (map (repr_char printable q) (c :: s)) ++ [q] = q1 :: q2 :: r ->
                 (q1 =? q) && (q2 =? q) = false).
    { intros q1 q2 r HE. cbn [map concat] in HE.
      destruct (tok_shape printable q HQ c) as [Hc|Hc|H1 H2 H2' H3 H4|x r' H1 H2 H3 H4 H5 H6];
        cbn [app] in HE; inversion HE; subst;
        try (destruct HQ as [E|E]; rewrite E; reflexivity).
      apply N.eqb_neq in H3. rewrite H3. reflexivity. }
    destruct (concat (map (repr_char printable q) (c :: s)) ++ [q]) as [|q1 [|q2 r]]; auto.
    rewrite (HN q1 q2 r eq_refl). exact HL.
  - intros [HI|HI].
    + destruct HQ as [E|E]; rewrite E in HI; discriminate HI.
    + apply in_app_iff in HI as [HI|HI].
      * apply in_concat_map in HI as [c Hc]. apply tok_noline in Hc; tauto.
      * destruct HI as [HI|[]]. destruct HQ as [E|E]; rewrite E in HI; discriminate HI.
Qed.

Lemma repr_one_line : forall printable s c, In c (repr printable s) -> c <> NL /\ c <> CR.
Proof.
  intros printable s c. unfold repr.
  pose proof (repr_quote_cases s) as HQ. set (q := repr_quote s) in *.
  assert (HqCR : q <> NL /\ q <> CR) by (destruct HQ as [-> | ->]; unfold SQ, DQ, CR, NL; lia).
  intros [<-|HI]; auto.
  apply in_app_iff in HI as [HI|[<-|[]]]; auto.
  apply in_concat_map in HI as [d Hd]. apply tok_noline in Hd; tauto.
Qed.
