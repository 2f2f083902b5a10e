(** The whole parser: the text of a structured template is translated to the code of its structure. *)
From Verif Require Import Base PyStr Lex_Model Expr_Model Front_Model Front_Spec FrontLex_Proofs FrontExpr_Proofs.
From Verif Require Gen_Model Gen_Spec.
From Verif Require Import FrontGen_Proofs FrontEat_Proofs FrontSane_Proofs.
From Verif Require Reader_Spec Macro_Spec MacroUse_Proofs Gen_Proofs.
From Verif Require Import FrontMore_Proofs.

Local Notation cs := Gen_Model.cs.

Lemma one_no_eol : forall s, one_line s -> no_eol s.
Proof. intros s [H _]. exact H. Qed.

Lemma esc_tail : forall s b, s <> [] -> one_line s -> esc_ok (rev s ++ b) = true.
Proof.
  intros s b NE [_ H]. destruct (exists_last NE) as (r & d & ->). rewrite rev_unit in *. exact H.
Qed.

Lemma plain_nonempty : forall s, starts_plain s -> s <> [].
Proof. intros [|c s] H; [contradiction|discriminate]. Qed.

Lemma no_eol_app : forall a b, no_eol a -> no_eol b -> no_eol (a ++ b).
Proof. intros a b A B. unfold no_eol in *. rewrite forallb_app, A, B. reflexivity. Qed.

Lemma esc_app : forall (a p0 : pystr) s, s <> [] -> one_line s -> esc_ok (rev (p0 ++ a ++ s)) = true.
Proof. intros a p0 s NE OL. rewrite app_assoc, rev_app_distr. apply esc_tail; assumption. Qed.

Lemma esc_app2 : forall (x : N) (w p0 : pystr) s, s <> [] -> one_line s -> esc_ok (rev (p0 ++ x :: w ++ L " " ++ s)) = true.
Proof.
  intros x w p0 s NE OL. replace (x :: w ++ L " " ++ s) with ((x :: w ++ L " ") ++ s) by (cbn [app]; rewrite <- app_assoc; reflexivity).
  apply esc_app; assumption.
Qed.

Section Main.
Variable E : env.
Hypothesis ET : x_T (e_X E) = dflt.
Hypothesis TW : tokenizes_words (e_X E).
Local Notation G := (e_G E).

(** ** The directives *)

Lemma dispatch_simple : forall sub w s, In w (map L ["silent"; "echo"; "stop"; "pass"; "break"; "continue"; "return"; "raise"; "del"; "assert"]%string) ->
  eat_directive E sub w s = eat_simple E w s.
Proof.
  intros sub w s I. unfold eat_directive. rewrite ET. cbn [map In] in I.
  repeat (destruct I as [<-|I]; [reflexivity|]). destruct I.
Qed.

Definition dir_ev (lc : N * N) (d : sdir) : Gen_Model.ev :=
  match d with
  | ISilent e => Gen_Model.EExpr Gen_Model.KSilent (x_code e)
  | IEcho e => Gen_Model.EExpr Gen_Model.KEcho (x_code e)
  | IWord w => Gen_Model.EExpr (word_kind w) w
  | IKey w e => Gen_Model.EExpr (word_kind w) (w ++ L " " ++ x_code e)
  | ISet g lv op e => Gen_Model.ESet g (x_code lv) op (x_code e)
  | IThen c t f => Gen_Model.ETern (x_code c ++ L " ") (L " " ++ x_code t ++ L " ") (L " " ++ x_code f) lc
  end.
Lemma dir_events : forall lc d r k, Gen_Spec.events (dir_tm lc d r) k = Gen_Model.Ev (dir_ev lc d) (Gen_Spec.events r k).
Proof. intros lc [] r k; reflexivity. Qed.

Lemma words_known : forall w, In w words -> known w /\ ident w /\ one_line w /\ strip w = w /\ split_ws w = [w] /\
  kind_of w = word_kind w /\ Gen_Model.mem_str w Gen_Model.closeable = false /\
  str_eqb w (L "silent") || str_eqb w (L "echo") = false /\
  In w (map L ["silent"; "echo"; "stop"; "pass"; "break"; "continue"; "return"; "raise"; "del"; "assert"]%string).
Proof.
  intros w I. split; [apply known_words; unfold words in I; cbn [map In] in *; tauto|].
  unfold words in I. cbn [map In] in I.
  repeat (destruct I as [<-|I]; [repeat split; try reflexivity; cbn [map In]; tauto|]). destruct I.
Qed.

Lemma keys_known : forall w, In w keywords -> known w /\ ident w /\ no_eol w /\ kind_of w = word_kind w /\
  str_eqb w (L "for") = false /\ str_eqb w (L "silent") || str_eqb w (L "echo") = false /\
  In w (map L ["silent"; "echo"; "stop"; "pass"; "break"; "continue"; "return"; "raise"; "del"; "assert"]%string).
Proof.
  intros w I. split; [apply known_words; unfold keywords in I; cbn [map In] in *; tauto|].
  unfold keywords in I. cbn [map In] in I.
  repeat (destruct I as [<-|I]; [repeat split; try reflexivity; cbn [map In]; tauto|]). destruct I.
Qed.

Lemma block_split : forall x, no_block x -> strip x = x -> split_ws x <> [].
Proof. intros x H K F. unfold no_block in H. rewrite K, F in H. exact H. Qed.

Lemma cons_show : forall name args K, (L "#" ++ name ++ args) ++ K = 35%N :: name ++ args ++ K.
Proof. intros. rewrite <- !app_assoc. reflexivity. Qed.

Lemma dir_eat : forall sub d p0 k rest c, dir_ok E d -> esc_ok (rev p0) = true -> close_ok false p0 k rest ->
  Gen_Model.s_act c <> [] -> Gen_Model.s_sl c = true ->
  eat E sub (mkF (rev p0) (show_dir d ++ show_close k ++ rest) c)
  = lift (Gen_Model.bind (cutting G (cut p0 k rest) c) (Gen_Model.step G (dir_ev (e_lc E (length p0)) d)))
         (rev (p0 ++ show_dir d ++ show_close k)) rest.
Proof.
  intros sub d p0 k rest c OK EO CO A SL. unfold show_dir. rewrite (cons_show (dir_name d) (dir_args d) (show_close k ++ rest)).
  assert (SE : forall w e K, (w = L "silent" \/ w = L "echo") -> xok E [] e -> no_block (x_code e) -> kind_of w = K ->
    eat E sub (mkF (rev p0) (35%N :: w ++ (L " " ++ x_src e) ++ show_close k ++ rest) c)
    = lift (Gen_Model.bind (cutting G (cut p0 k rest) c) (Gen_Model.step G (Gen_Model.EExpr K (x_code e))))
           (rev (p0 ++ (35%N :: w ++ L " " ++ x_src e) ++ show_close k)) rest).
  { intros w e K W (RD & OL & SP & SC & NC) NB KO.
    assert (KW : known w) by (apply known_words; destruct W as [->| ->]; cbn; auto 30).
    rewrite (eat_word E ET sub w _ _ _ KW EO) by reflexivity.
    rewrite dispatch_simple by (destruct W as [->| ->]; cbn; auto).
    rewrite (simple_ok E ET w w (L " " ++ x_src e) (L " " ++ x_src e) (L " " ++ x_code e) (x_code e) p0 k rest c);
      [rewrite KO; reflexivity|apply KW|exact EO|destruct W as [->| ->]; reflexivity|reflexivity|
       apply (reads_blank E ET); assumption|exact SC|apply block_split; assumption|
       |apply esc_app2|exact CO|exact A|exact SL].
    - change (35%N :: w ++ L " " ++ x_src e) with ([35%N] ++ w ++ L " " ++ x_src e).
      repeat apply no_eol_app; try reflexivity; [destruct W as [->| ->]; reflexivity|apply one_no_eol; exact OL].
    - apply plain_nonempty. exact SP.
    - exact OL. }
  destruct d as [e|e|w|w e|g lv op e|ci tt ff]; cbn [dir_name dir_args dir_ev dir_ok] in *.
  - destruct OK as [X NB]. apply (SE (L "silent") e); auto.
  - destruct OK as [X NB]. apply (SE (L "echo") e); auto.
  - destruct (words_known w OK) as (KW & ID & OL & SW & SP & KO & _ & NS & IN). rewrite app_nil_r.
    change ([] ++ show_close k ++ rest) with (show_close k ++ rest).
    assert (NE : w <> []) by (destruct w; [contradiction|discriminate]).
    assert (ST : stop (rev (p0 ++ 35%N :: w)) (show_close k ++ rest)).
    { apply (close_stop false p0); [exact CO|]. apply (esc_app [35%N] p0 w NE OL). }
    rewrite (eat_word E ET sub w _ _ _ KW EO) by (apply (stop_dn _ _ ST)).
    rewrite dispatch_simple by exact IN.
    pose proof (simple_ok E ET w [] w [] w w p0 k rest c (proj1 KW) EO) as Q. cbn [app] in Q. rewrite app_nil_r in Q.
    rewrite Q; [rewrite KO; reflexivity|rewrite NS; reflexivity|reflexivity|apply (reads_word E ET TW); [exact ID|reflexivity|right; reflexivity]
      |exact SW|rewrite SP; discriminate|apply (no_eol_app [35%N]); [reflexivity|apply one_no_eol; exact OL]
      |apply (esc_app [35%N] p0 w NE OL)|exact CO|exact A|exact SL].
  - destruct OK as (IN & (RD & OL & SP & SC & NC) & NB).
    destruct (keys_known w IN) as (KW & ID & NW & KO & NF & NS & IN2).
    assert (SX : strip (w ++ L " " ++ x_code e) = w ++ L " " ++ x_code e).
    { rewrite app_assoc. apply strip_app; [exact NC|exact SC|].
      unfold keywords in IN. cbn [map In] in IN. destruct IN as [<-|[<-|[<-|[<-|[]]]]]; reflexivity. }
    rewrite (eat_word E ET sub w _ _ _ KW EO) by reflexivity. rewrite dispatch_simple by exact IN2.
    rewrite (simple_ok E ET w [] (w ++ L " " ++ x_src e) (L " " ++ x_src e) (w ++ L " " ++ x_code e) (w ++ L " " ++ x_code e) p0 k rest c);
      [rewrite KO; reflexivity|apply KW|exact EO|rewrite NS; reflexivity|reflexivity
      |apply (reads_kw E ET TW); [exact ID|exact NF|reflexivity|exact SP|exact RD]|exact SX|apply block_split; [exact NB|exact SX]
      | |apply esc_app2|exact CO|exact A|exact SL].
    + change (35%N :: w ++ L " " ++ x_src e) with ([35%N] ++ w ++ L " " ++ x_src e).
      repeat apply no_eol_app; try reflexivity; [exact NW|apply one_no_eol; exact OL].
    + apply plain_nonempty. exact SP.
    + exact OL.
  - destruct OK as (LV & IOP & X & TOK). destruct X as (RD & OL & SP & SC & NC).
    assert (KW : known (L "set")) by (apply known_words; cbn; auto 30).
    rewrite (eat_word E ET sub (L "set") _ _ _ KW EO) by (destruct g; reflexivity).
    assert (DI : forall s, eat_directive E sub (L "set") s = eat_set E s) by (intro s; unfold eat_directive; rewrite ET; reflexivity).
    rewrite DI.
    apply (set_ok E ET g lv op e p0 k rest c LV IOP (conj RD (conj OL (conj SP (conj SC NC)))) TOK EO); try assumption.
    + change (35%N :: L "set" ++ dir_args (ISet g lv op e)) with (L "#set" ++ dir_args (ISet g lv op e)). cbn [dir_args].
      assert (NO : no_eol op).
      { unfold assign_ops in IOP. cbn [map In] in IOP. repeat (destruct IOP as [<-|IOP]; [reflexivity|]). destruct IOP. }
      destruct LV as (_ & OLV & _).
      repeat apply no_eol_app; try reflexivity; try (apply one_no_eol; assumption); try exact NO. destruct g; reflexivity.
    + cbn [dir_args].
      replace (35%N :: L "set" ++ (if g then L " global " else L " ") ++ x_src lv ++ L " " ++ op ++ L " " ++ x_src e)
        with ((35%N :: L "set" ++ (if g then L " global " else L " ") ++ x_src lv ++ L " " ++ op ++ L " ") ++ x_src e)
        by (cbn [app]; rewrite <- !app_assoc; reflexivity).
      apply esc_app; [apply plain_nonempty; exact SP|exact OL].
  - assert (KW : known (L "if")) by (apply known_words; cbn; auto 30).
    rewrite (eat_word E ET sub (L "if") _ _ _ KW EO) by reflexivity.
    assert (DI : forall s, eat_directive E sub (L "if") s = eat_if E sub s) by (intro s; unfold eat_directive; rewrite ET; reflexivity).
    rewrite DI. pose proof OK as (_ & OL1 & OL2 & OL3 & NF).
    assert (ND : no_eol (35%N :: L "if" ++ dir_args (IThen ci tt ff))).
    { change (35%N :: L "if" ++ dir_args (IThen ci tt ff)) with (L "#if " ++ x_src ci ++ L " then " ++ x_src tt ++ L " else " ++ x_src ff).
      repeat apply no_eol_app; try reflexivity; apply one_no_eol; assumption. }
    assert (EO2 : esc_ok (rev (p0 ++ 35%N :: L "if" ++ dir_args (IThen ci tt ff))) = true).
    { replace (35%N :: L "if" ++ dir_args (IThen ci tt ff)) with ((L "#if " ++ x_src ci ++ L " then " ++ x_src tt ++ L " else ") ++ x_src ff)
        by (cbn [dir_args L app]; rewrite <- !app_assoc; reflexivity).
      apply esc_app; assumption. }
    apply (then_ok_eat E ET sub ci tt ff p0 k rest c OK EO ND EO2 CO A SL).
Qed.

(** ** Directives with a body *)

Lemma dispatch_indent : forall sub w s, In w (map L ["unless"; "while"; "repeat"; "for"; "try"; "else"; "elif"; "except"; "finally"]%string) ->
  eat_directive E sub w s = eat_indent E sub w s.
Proof.
  intros sub w s I. unfold eat_directive. rewrite ET. cbn [map In] in I.
  repeat (destruct I as [<-|I]; [reflexivity|]). destruct I.
Qed.

Lemma split_in_code : forall t e, forallb (fun c => negb (c =? 32)%N) t = true -> split_in (t ++ L " in " ++ e) = Some (t, e).
Proof.
  induction t as [|c t IH]; intros e H; [reflexivity|].
  cbn [forallb] in H. apply andb_true_iff in H as [H1 H2]. apply negb_true_iff in H1.
  cbn [app split_in]. change (L " in ") with (32%N :: L "in "). cbn [starts_with]. rewrite N.eqb_sym, H1. cbn [andb].
  change (32%N :: L "in ") with (L " in "). rewrite IH by exact H2. reflexivity.
Qed.

(** What such a directive takes of its line. *)
Lemma blk_line : forall o p0, blk_ok E o -> no_eol (show_blk o) /\ esc_ok (rev (p0 ++ show_blk o)) = true.
Proof.
  intros o p0 OK.
  assert (XE : forall (w a : pystr) e, no_eol w -> no_eol a -> xok E [L ":"] e ->
     no_eol (35%N :: w ++ a ++ x_src e) /\ esc_ok (rev (p0 ++ 35%N :: w ++ a ++ x_src e)) = true).
  { intros w a e NW NA (RD & OL & SP & SC & NC). split.
    - apply (no_eol_app [35%N]); [reflexivity|]. repeat apply no_eol_app; try assumption. apply one_no_eol; exact OL.
    - replace (35%N :: w ++ a ++ x_src e) with ((35%N :: w ++ a) ++ x_src e) by (cbn [app]; rewrite <- app_assoc; reflexivity).
      apply esc_app; [apply plain_nonempty; exact SP|exact OL]. }
  destruct o as [e|e|e|e|t e|]; cbn [blk_ok] in OK.
  - apply (XE (L "if") (L " ") e eq_refl eq_refl). apply OK.
  - apply (XE (L "unless") (L " ") e eq_refl eq_refl OK).
  - apply (XE (L "while") (L " ") e eq_refl eq_refl OK).
  - apply (XE (L "repeat") (L " ") e eq_refl eq_refl OK).
  - destruct OK as [TG X].
    assert (NT : no_eol (L " " ++ x_src t ++ L " in ")).
    { destruct TG as (_ & OT & _). repeat apply no_eol_app; try reflexivity. apply one_no_eol; exact OT. }
    pose proof (XE (L "for") (L " " ++ x_src t ++ L " in ") e eq_refl NT X) as Q. rewrite <- !app_assoc in Q. exact Q.
  - split; [reflexivity|]. change (show_blk ITry) with ([35%N] ++ L "try"). rewrite app_assoc, rev_app_distr. reflexivity.
Qed.

Lemma blk_to : forall sub o p0 K c, blk_ok E o -> esc_ok (rev p0) = true -> halt [L ":"] (rev (p0 ++ show_blk o)) K ->
  Gen_Model.s_sl c = true ->
  eat E sub (mkF (rev p0) (show_blk o ++ K) c)
  = short_or_long E sub (Gen_Spec.bop_open (blk_bop o)) true (line_clear (rev p0))
      (length p0 + length (show_blk o) + eol_off K) (length p0) (mkF (rev (p0 ++ show_blk o)) K c).
Proof.
  intros sub o p0 K c OK EO HA SL. destruct (blk_line o p0 OK) as [ND _]. unfold show_blk in *.
  rewrite (cons_show (blk_name o) (blk_args o) K).
  assert (GO : forall w args code ob src, known w -> In w (map L ["unless"; "while"; "repeat"; "for"; "try"]%string) -> dn_end (args ++ K) = true ->
     w ++ args = (if keeps_name w then [] else w) ++ (if keeps_name w then [] else L " ") ++ src -> starts_plain src ->
     reads E (e_um E) [L ":"] src code -> no_eol (35%N :: w ++ args) -> halt [L ":"] (rev (p0 ++ 35%N :: w ++ args)) K ->
     opener_of w code = Some ob ->
     eat E sub (mkF (rev p0) (35%N :: w ++ args ++ K) c)
     = short_or_long E sub ob true (line_clear (rev p0)) (length p0 + length (35%N :: w ++ args) + eol_off K) (length p0)
         (mkF (rev (p0 ++ 35%N :: w ++ args)) K c)).
  { intros w args code ob src KW IN DN HS SP RD ND2 HA2 OP.
    rewrite (eat_word E ET sub w _ _ _ KW EO DN). rewrite dispatch_indent by (cbn [map In] in *; tauto).
    apply (indent_to E ET sub w _ src args code ob p0 K c (proj1 KW) EO eq_refl HS SP RD ND2 HA2 SL); [|exact OP].
    cbn [map In] in IN. destruct IN as [<-|[<-|[<-|[<-|[<-|[]]]]]]; reflexivity. }
  destruct o as [e|e|e|e|t e|]; cbn [blk_name blk_args blk_bop blk_ok Gen_Spec.bop_open] in *.
  - destruct OK as (X & TE).
    assert (KW : known (L "if")) by (apply known_words; cbn; auto 30).
    rewrite (eat_word E ET sub (L "if") _ _ _ KW EO) by reflexivity.
    assert (DI : forall s, eat_directive E sub (L "if") s = eat_if E sub s) by (intro s; unfold eat_directive; rewrite ET; reflexivity).
    rewrite DI. apply (if_to E ET TW); assumption.
  - destruct OK as (RD & OL & SP & SC & NC).
    apply (GO (L "unless") (L " " ++ x_src e) (x_code e) (Gen_Model.OUnless (x_code e)) (x_src e)); try assumption; try reflexivity.
    + apply known_words; cbn; auto 30.
    + cbn; auto 10.
  - destruct OK as (RD & OL & SP & SC & NC).
    apply (GO (L "while") (L " " ++ x_src e) (L "while" ++ L " " ++ x_code e) (Gen_Model.OWhile (x_code e)) (L "while" ++ L " " ++ x_src e)); try assumption; try reflexivity.
    + apply known_words; cbn; auto 30.
    + cbn; auto 10.
    + split; [reflexivity|discriminate].
    + apply (reads_kw E ET TW); [split; reflexivity|reflexivity|reflexivity|exact SP|exact RD].
  - destruct OK as (RD & OL & SP & SC & NC).
    apply (GO (L "repeat") (L " " ++ x_src e) (x_code e) (Gen_Model.ORepeat (x_code e)) (x_src e)); try assumption; try reflexivity.
    + apply known_words; cbn; auto 30.
    + cbn; auto 10.
  - destruct OK as [TG X]. destruct X as (RD & OL & SP & SC & NC).
    apply (GO (L "for") (L " " ++ x_src t ++ L " in " ++ x_src e) (L "for " ++ x_code t ++ L " in " ++ x_code e)
             (Gen_Model.OFor (x_code t) (x_code e)) (L "for " ++ x_src t ++ L " in " ++ x_src e)); try assumption; try reflexivity.
    + apply known_words; cbn; auto 30.
    + cbn; auto 10.
    + split; [reflexivity|discriminate].
    + apply (reads_for E ET TW); [exact TG|exact RD|exact SP|reflexivity|reflexivity].
    + destruct TG as (_ & _ & NB & _).
      change (opener_of (L "for") (L "for " ++ x_code t ++ L " in " ++ x_code e))
        with (match split_in (x_code t ++ L " in " ++ x_code e) with Some (t, e) => Some (Gen_Model.OFor t e) | None => None end).
      rewrite (split_in_code _ _ NB). reflexivity.
  - assert (KW : known (L "try")) by (apply known_words; cbn; auto 30).
    apply (GO (L "try") [] (L "try") Gen_Model.OTry (L "try")); try reflexivity.
    + exact KW.
    + cbn; auto 10.
    + apply (halt_dn _ _ _ HA).
    + split; [reflexivity|discriminate].
    + apply (reads_word E ET TW); [split; reflexivity|reflexivity|left; reflexivity].
    + exact HA.
Qed.

Lemma blk_eat : forall sub o p0 k rest c, blk_ok E o -> esc_ok (rev p0) = true -> close_ok true p0 k rest ->
  Gen_Model.s_act c <> [] -> Gen_Model.s_sl c = true ->
  eat E sub (mkF (rev p0) (show_blk o ++ show_close k ++ rest) c)
  = lift (Gen_Model.bind (cutting G (cut p0 k rest) c)
            (Gen_Model.open_long G (Gen_Spec.bop_open (blk_bop o)) (e_id E (length p0)) (e_lc E (length p0))))
         (rev (p0 ++ show_blk o ++ show_close k)) rest.
Proof.
  intros sub o p0 k rest c OK EO CO A SL. destruct (blk_line o p0 OK) as [ND EO2].
  rewrite (blk_to sub o p0 _ c OK EO (close_halt _ true p0 k rest _ CO EO2) SL).
  apply (long_ok E ET sub _ _ _ _ p0 (show_blk o) k rest c ND EO2 CO eq_refl A).
Qed.

Lemma mid_line : forall m p0, mid_ok E m -> no_eol (show_mid m) /\ esc_ok (rev (p0 ++ show_mid m)) = true.
Proof.
  intros m p0 OK.
  assert (XE : forall (w a : pystr) e, no_eol w -> no_eol a -> xok E [L ":"] e ->
     no_eol (35%N :: w ++ a ++ x_src e) /\ esc_ok (rev (p0 ++ 35%N :: w ++ a ++ x_src e)) = true).
  { intros w a e NW NA (RD & OL & SP & SC & NC). split.
    - apply (no_eol_app [35%N]); [reflexivity|]. repeat apply no_eol_app; try assumption. apply one_no_eol; exact OL.
    - replace (35%N :: w ++ a ++ x_src e) with ((35%N :: w ++ a) ++ x_src e) by (cbn [app]; rewrite <- app_assoc; reflexivity).
      apply esc_app; [apply plain_nonempty; exact SP|exact OL]. }
  assert (W : forall w, one_line w -> w <> [] -> no_eol (35%N :: w ++ []) /\ esc_ok (rev (p0 ++ 35%N :: w ++ [])) = true).
  { intros w OL NE. rewrite app_nil_r. split; [apply (no_eol_app [35%N]); [reflexivity|apply one_no_eol; exact OL]|].
    apply (esc_app [35%N] p0 w NE OL). }
  destruct m as [|e|e|e| |]; cbn [mid_ok] in OK.
  - apply (W (L "else")); [split; reflexivity|discriminate].
  - apply (XE (L "elif") (L " ") e eq_refl eq_refl). apply OK.
  - apply (XE (L "else") (L " if ") e eq_refl eq_refl). apply OK.
  - apply (XE (L "except") (L " ") e eq_refl eq_refl OK).
  - apply (W (L "except")); [split; reflexivity|discriminate].
  - apply (W (L "finally")); [split; reflexivity|discriminate].
Qed.

Lemma mid_read : forall sub m p0 K c, mid_ok E m -> esc_ok (rev p0) = true -> halt [L ":"] (rev (p0 ++ show_mid m)) K ->
  Gen_Model.s_sl c = true ->
  eat E sub (mkF (rev p0) (show_mid m ++ K) c)
  = mid_rest E sub (mid_tm m) (line_clear (rev p0)) (length p0 + length (show_mid m) + eol_off K) (e_lc E (length p0))
      (mkF (rev (p0 ++ show_mid m)) K c).
Proof.
  intros sub m p0 K c OK EO HA SL. destruct (mid_line m p0 OK) as [ND _]. unfold show_mid in *.
  rewrite (cons_show (mid_name m) (mid_args m) K).
  assert (GO : forall w args code md, In w (map L ["else"; "elif"; "except"; "finally"]%string) -> dn_end (args ++ K) = true ->
     reads E (e_um E) [L ":"] (w ++ args) code -> no_eol (35%N :: w ++ args) -> halt [L ":"] (rev (p0 ++ 35%N :: w ++ args)) K ->
     mid_of w code = Some md ->
     eat E sub (mkF (rev p0) (35%N :: w ++ args ++ K) c)
     = mid_rest E sub md (line_clear (rev p0)) (length p0 + length (35%N :: w ++ args) + eol_off K) (e_lc E (length p0))
         (mkF (rev (p0 ++ 35%N :: w ++ args)) K c)).
  { intros w args code md IN DN RD ND2 HA2 OP.
    assert (KW : known w) by (apply known_words; cbn [map In] in *; tauto).
    rewrite (eat_word E ET sub w _ _ _ KW EO DN). rewrite dispatch_indent by (cbn [map In] in *; tauto).
    assert (KN : keeps_name w = true /\ is_mid w = true /\ ident w).
    { cbn [map In] in IN. destruct IN as [<-|[<-|[<-|[<-|[]]]]]; repeat split; reflexivity. }
    destruct KN as (KN & IM & ID).
    apply (mid_to E ET sub w [] (w ++ args) args code md p0 K c (proj1 KW) EO); try assumption.
    - rewrite KN. reflexivity.
    - rewrite KN. reflexivity.
    - apply ident_plain. exact ID. }
  assert (W : forall w md, In w (map L ["else"; "except"; "finally"]%string) -> mid_of w w = Some md ->
     no_eol (35%N :: w ++ []) -> halt [L ":"] (rev (p0 ++ 35%N :: w ++ [])) K ->
     eat E sub (mkF (rev p0) (35%N :: w ++ [] ++ K) c)
     = mid_rest E sub md (line_clear (rev p0)) (length p0 + length (35%N :: w ++ []) + eol_off K) (e_lc E (length p0))
         (mkF (rev (p0 ++ 35%N :: w ++ [])) K c)).
  { intros w md IN MO ND2 HA2. assert (ID : ident w).
    { cbn [map In] in IN. destruct IN as [<-|[<-|[<-|[]]]]; split; reflexivity. }
    apply (GO w [] w md).
    - cbn [map In] in *; tauto.
    - apply (halt_dn _ _ _ HA2).
    - rewrite app_nil_r. apply (reads_word E ET TW); [exact ID| |left];
      cbn [map In] in IN; destruct IN as [<-|[<-|[<-|[]]]]; reflexivity.
    - exact ND2.
    - exact HA2.
    - exact MO. }
  destruct m as [|e|e|e| |]; cbn [mid_name mid_args mid_tm mid_ok] in *.
  - apply (W (L "else")); [cbn; auto|reflexivity|exact ND|exact HA].
  - destruct OK as [X SUB]. destruct X as (RD & OL & SP & SC & NC).
    apply (GO (L "elif") (L " " ++ x_src e) (L "elif" ++ L " " ++ x_code e)); try assumption; try reflexivity.
    + cbn; auto 10.
    + apply (reads_kw E ET TW); [split; reflexivity|reflexivity|reflexivity|exact SP|exact RD].
    + unfold mid_of. change (str_eqb (L "elif") (L "else") || str_eqb (L "elif") (L "elif")) with true. cbv iota.
      assert (SU : Gen_Model.else_sub 0 (L "elif" ++ L " " ++ x_code e) = L "elif " ++ x_code e).
      { change (Gen_Model.else_sub 0 (L "elif" ++ L " " ++ x_code e)) with (L "elif " ++ Gen_Model.else_sub 0 (x_code e)).
        rewrite SUB. reflexivity. }
      rewrite SU. assert (SI : strip (L "elif " ++ x_code e) = L "elif " ++ x_code e) by (apply strip_app; [exact NC|exact SC|reflexivity]).
      rewrite SI. reflexivity.
  - destruct OK as [X SUB]. destruct X as (RD & OL & SP & SC & NC).
    apply (GO (L "else") (L " if " ++ x_src e) (L "else" ++ L " " ++ L "if" ++ L " " ++ x_code e)); try assumption; try reflexivity.
    + cbn; auto 10.
    + change (L "else" ++ L " if " ++ x_src e) with (L "else" ++ L " " ++ (L "if" ++ L " " ++ x_src e)).
      apply (reads_kw E ET TW); [split; reflexivity|reflexivity|reflexivity|split; [reflexivity|discriminate]|].
      apply (reads_kw E ET TW); [split; reflexivity|reflexivity|reflexivity|exact SP|exact RD].
    + unfold mid_of. change (str_eqb (L "else") (L "else") || str_eqb (L "else") (L "elif")) with true. cbv iota.
      assert (SU : Gen_Model.else_sub 0 (L "else" ++ L " " ++ L "if" ++ L " " ++ x_code e) = L "elif " ++ x_code e).
      { change (Gen_Model.else_sub 0 (L "else" ++ L " " ++ L "if" ++ L " " ++ x_code e)) with (L "elif " ++ Gen_Model.else_sub 0 (x_code e)).
        rewrite SUB. reflexivity. }
      rewrite SU. assert (SI : strip (L "elif " ++ x_code e) = L "elif " ++ x_code e) by (apply strip_app; [exact NC|exact SC|reflexivity]).
      rewrite SI. reflexivity.
  - destruct OK as (RD & OL & SP & SC & NC).
    apply (GO (L "except") (L " " ++ x_src e) (L "except" ++ L " " ++ x_code e)); try assumption; try reflexivity.
    + cbn; auto 10.
    + apply (reads_kw E ET TW); [split; reflexivity|reflexivity|reflexivity|exact SP|exact RD].
  - apply (W (L "except")); [cbn; auto|reflexivity|exact ND|exact HA].
  - apply (W (L "finally")); [cbn; auto|reflexivity|exact ND|exact HA].
Qed.

Lemma mid_eat : forall sub m p0 k rest c, mid_ok E m -> esc_ok (rev p0) = true -> close_ok true p0 k rest ->
  Gen_Model.s_act c <> [] -> Gen_Model.s_sl c = true ->
  eat E sub (mkF (rev p0) (show_mid m ++ show_close k ++ rest) c)
  = lift (Gen_Model.bind (cutting G (cut p0 k rest) c)
            (Gen_Model.step G (Gen_Model.EMid (mid_tm m) (e_lc E (length p0)))))
         (rev (p0 ++ show_mid m ++ show_close k)) rest.
Proof.
  intros sub m p0 k rest c OK EO CO A SL. destruct (mid_line m p0 OK) as [ND EO2].
  rewrite (mid_read sub m p0 _ c OK EO (close_halt _ true p0 k rest _ CO EO2) SL).
  apply (mid_long E ET sub _ p0 (show_mid m) k rest c ND EO2 CO A).
Qed.

Lemma reg_line : forall o p0, reg_ok E o -> no_eol (show_reg o) /\ esc_ok (rev (p0 ++ show_reg o)) = true.
Proof.
  intros [v|f|v|f a|a ci] p0 OK; cbn [reg_ok] in OK.
  - split; [apply (no_eol_app (L "#capture ")); [reflexivity|]; apply one_no_eol; apply OK|].
    change (show_reg (ICapture v)) with (L "#capture " ++ x_src v). apply esc_app; [|apply OK]. apply plain_nonempty. apply OK.
  - destruct (ident_no_eol f OK) as [NF EF]. split; [apply (no_eol_app (L "#filter ")); [reflexivity|exact NF]|].
    change (show_reg (IFilter f)) with (L "#filter " ++ f). rewrite app_assoc, rev_app_distr. apply EF.
  - destruct OK as [OK _]. split; [apply (no_eol_app (L "#filter ")); [reflexivity|]; apply one_no_eol; apply OK|].
    change (show_reg (IFilterIs v)) with (L "#filter " ++ x_src v). apply esc_app; [|apply OK]. apply plain_nonempty. apply OK.
  - destruct OK as [FO AO]. pose proof (plain_nonempty _ (fn_plain E f FO)) as NE. destruct FO as (_ & OL & _).
    destruct a as [x|].
    + change (show_reg (ICall f (Some x))) with (L "#call " ++ x_src f ++ L " " ++ x_src x). split.
      * apply (no_eol_app (L "#call ")); [reflexivity|]. apply no_eol_app; [apply one_no_eol; exact OL|].
        apply (no_eol_app (L " ")); [reflexivity|]. apply one_no_eol. apply AO.
      * replace (L "#call " ++ x_src f ++ L " " ++ x_src x) with ((L "#call " ++ x_src f ++ L " ") ++ x_src x) by (rewrite <- !app_assoc; reflexivity).
        apply esc_app; [|apply AO]. apply plain_nonempty. apply AO.
    + assert (SR : show_reg (ICall f None) = L "#call " ++ x_src f) by (unfold show_reg; cbn [reg_name reg_args]; rewrite app_nil_r; reflexivity).
      rewrite SR. split; [apply (no_eol_app (L "#call ")); [reflexivity|]; apply one_no_eol; exact OL|]. apply esc_app; [exact NE|exact OL].
  - destruct OK as (_ & _ & OL & _). change (show_reg (ICache a ci)) with (L "#cache" ++ sa_src a). split.
    + apply (no_eol_app (L "#cache")); [reflexivity|]. apply one_no_eol. exact OL.
    + destruct (sa_src a) as [|d t] eqn:SA; [rewrite app_nil_r, rev_app_distr; reflexivity|]. apply esc_app; [discriminate|exact OL].
Qed.

Lemma reg_to : forall sub o p0 K c, reg_ok E o -> esc_ok (rev p0) = true -> halt [L ":"] (rev (p0 ++ show_reg o)) K -> K <> [] ->
  Gen_Model.s_sl c = true ->
  eat E sub (mkF (rev p0) (show_reg o ++ K) c)
  = short_or_long E sub (Gen_Spec.rop_open (reg_rop o)) (reg_gobble o) (line_clear (rev p0))
      (length p0 + length (show_reg o) + eol_off K) (length p0) (mkF (rev (p0 ++ show_reg o)) K c).
Proof.
  intros sub o p0 K c OK EO HA NK SL. destruct (reg_line o p0 OK) as [ND _]. unfold show_reg in *.
  rewrite (cons_show (reg_name o) (reg_args o) K).
  destruct o as [v|f|v|f a|a ci].
  - cbn [reg_name reg_args reg_rop reg_ok reg_gobble Gen_Spec.rop_open] in *. assert (KW : known (L "capture")) by (apply known_words; cbn; auto 30).
    rewrite (eat_word E ET sub (L "capture") _ _ _ KW EO) by reflexivity.
    assert (DI : forall s, eat_directive E sub (L "capture") s = eat_capture E sub s) by (intro s; unfold eat_directive; rewrite ET; reflexivity).
    rewrite DI. apply (capture_to E ET); assumption.
  - cbn [reg_name reg_args reg_rop reg_ok reg_gobble Gen_Spec.rop_open] in *. assert (KW : known (L "filter")) by (apply known_words; cbn; auto 30).
    rewrite (eat_word E ET sub (L "filter") _ _ _ KW EO) by reflexivity.
    assert (DI : forall s, eat_directive E sub (L "filter") s = eat_filter E sub s) by (intro s; unfold eat_directive; rewrite ET; reflexivity).
    rewrite DI. apply (filter_to E ET); assumption.
  - cbn [reg_name reg_args reg_rop reg_ok reg_gobble Gen_Spec.rop_open] in *. destruct OK as [OK SV]. assert (KW : known (L "filter")) by (apply known_words; cbn; auto 30).
    rewrite (eat_word E ET sub (L "filter") _ _ _ KW EO) by reflexivity.
    assert (DI : forall s, eat_directive E sub (L "filter") s = eat_filter E sub s) by (intro s; unfold eat_directive; rewrite ET; reflexivity).
    rewrite DI. apply (filter_is_to E ET); assumption.
  - cbn [reg_name reg_rop reg_ok reg_gobble Gen_Spec.rop_open] in *. destruct OK as [FO AO]. assert (KW : known (L "call")) by (apply known_words; cbn; auto 30).
    rewrite (eat_word E ET sub (L "call") _ _ _ KW EO) by reflexivity.
    assert (DI : forall s, eat_directive E sub (L "call") s = eat_call E sub s) by (intro s; unfold eat_directive; rewrite ET; reflexivity).
    rewrite DI. apply (call_to E ET TW); assumption.
  - cbn [reg_name reg_args reg_rop reg_ok reg_gobble Gen_Spec.rop_open] in *. assert (KW : known (L "cache")) by (apply known_words; cbn; auto 30).
    assert (DN : dn_end (sa_src a ++ K) = true).
    { destruct OK as (_ & _ & _ & B). destruct (sa_src a) as [|d t]; [apply (halt_dn _ _ _ HA)|subst d; reflexivity]. }
    rewrite (eat_word E ET sub (L "cache") _ _ _ KW EO DN).
    assert (DI : forall s, eat_directive E sub (L "cache") s = eat_cache E sub s) by (intro s; unfold eat_directive; rewrite ET; reflexivity).
    rewrite DI. apply (cache_to E ET); assumption.
Qed.

Lemma reg_eat : forall sub o p0 k rest c, reg_ok E o -> esc_ok (rev p0) = true -> close_ok true p0 k rest ->
  Gen_Model.s_act c <> [] -> Gen_Model.s_sl c = true ->
  eat E sub (mkF (rev p0) (show_reg o ++ show_close k ++ rest) c)
  = lift (Gen_Model.bind (cutting G (cut p0 k rest) c)
            (Gen_Model.open_long G (Gen_Spec.rop_open (reg_rop o)) (e_id E (length p0)) (e_lc E (length p0))))
         (rev (p0 ++ show_reg o ++ show_close k)) rest.
Proof.
  intros sub o p0 k rest c OK EO CO A SL. destruct (reg_line o p0 OK) as [ND EO2].
  rewrite (reg_to sub o p0 _ c OK EO (close_halt _ true p0 k rest _ CO EO2) (close_nonempty p0 k rest CO) SL).
  apply (long_ok E ET sub _ _ _ _ p0 (show_reg o) k rest c ND EO2 CO eq_refl A).
Qed.

Lemma arg_eat : forall sub n p0 k rest c, ident n -> esc_ok (rev p0) = true -> close_ok true p0 k rest ->
  eat E sub (mkF (rev p0) (show_part n ++ show_close k ++ rest) c)
  = lift (Gen_Model.bind (Gen_Model.step G (Gen_Model.EArg n) c) (cutting G (cut p0 k rest)))
         (rev (p0 ++ show_part n ++ show_close k)) rest.
Proof.
  intros sub n p0 k rest c ID EO CO.
  change (show_part n ++ show_close k ++ rest) with (35%N :: L "arg" ++ (L " " ++ n) ++ show_close k ++ rest).
  assert (KW : known (L "arg")) by (apply known_words; cbn; auto 40).
  rewrite (eat_word E ET sub (L "arg") _ _ _ KW EO) by reflexivity.
  assert (DI : forall s, eat_directive E sub (L "arg") s = eat_arg E s) by (intro s; unfold eat_directive; rewrite ET; reflexivity).
  rewrite DI. apply (arg_ok E ET); assumption.
Qed.

Lemma def_eat : forall sub o n a p0 k rest c, ident n -> args_ok E a -> esc_ok (rev p0) = true -> close_ok true p0 k rest ->
  Gen_Model.s_act c <> [] -> Gen_Model.s_sl c = true ->
  exists rem, eat E sub (mkF (rev p0) (show_def o n a ++ show_close k ++ rest) c)
  = lift (Gen_Model.bind (cutting G (cut p0 k rest) c)
            (Gen_Model.open_long G (Gen_Spec.dop_open (def_dop o) n (args_val a) rem) [] (e_lc E (length p0))))
         (rev (p0 ++ show_def o n a ++ show_close k)) rest.
Proof.
  intros sub o n a p0 k rest c ID AO EO CO A SL.
  destruct (def_ok E ET sub o n a p0 k rest c ID AO EO CO A SL) as (rem & Q). exists rem. rewrite <- Q. clear Q.
  unfold show_def at 1. rewrite (cons_show (def_name o) (L " " ++ n ++ show_args a) (show_close k ++ rest)).
  assert (KW : known (def_name o)) by (apply known_words; destruct o; cbn; auto 30).
  rewrite (eat_word E ET sub (def_name o) _ _ _ KW EO) by reflexivity.
  unfold eat_directive. rewrite ET. destruct o; reflexivity.
Qed.

Lemma end_eat : forall sub name p0 k rest c, In name (map L ["def"; "block"; "capture"; "filter"; "cache"; "call"; "while"; "for"; "if"; "try"; "repeat"; "unless"]%string) ->
  esc_ok (rev p0) = true -> close_ok false p0 k rest -> Gen_Model.s_act c <> [] -> Gen_Model.s_sl c = true ->
  eat E sub (mkF (rev p0) (show_end name ++ show_close k ++ rest) c)
  = lift (Gen_Model.bind (cutting G (cut p0 k rest) c) (Gen_Model.step G (Gen_Model.EEnd name)))
         (rev (p0 ++ show_end name ++ show_close k)) rest.
Proof.
  intros sub name p0 k rest c I EO CO A SL.
  change (show_end name) with (L "#" ++ L "end" ++ L " " ++ name) at 1.
  rewrite (cons_show (L "end") (L " " ++ name) (show_close k ++ rest)).
  assert (KW : known (L "end")) by (apply known_words; cbn; auto 30).
  rewrite (eat_word E ET sub (L "end") _ _ _ KW EO) by reflexivity.
  assert (DI : forall s, eat_directive E sub (L "end") s = eat_end E s) by (intro s; unfold eat_directive; rewrite ET; reflexivity).
  rewrite DI. apply (end_ok E ET TW); assumption.
Qed.

(** ** Where directives start *)

Lemma top_word : forall w args p0 k rest body, known w -> one_line w -> esc_ok (rev p0) = true -> close_ok body p0 k rest ->
  match args with [] => True | d :: _ => d = 32%N end ->
  top_match dflt (rev p0) ((L "#" ++ w ++ args) ++ show_close k ++ rest) = true.
Proof.
  intros w args p0 k rest body KW OL EO CO AR. rewrite cons_show. apply top_match_dir; [apply KW|exact EO|].
  destruct args as [|d args]; [|subst d; reflexivity]. cbn [app].
  assert (NE : w <> []) by (destruct KW as [(_ & _ & NE) _]; exact NE).
  apply (stop_dn (rev (p0 ++ 35%N :: w))). apply (close_stop body p0); [exact CO|]. apply (esc_app [35%N] p0 w NE OL).
Qed.

Lemma top_dir : forall d p0 k rest, dir_ok E d -> esc_ok (rev p0) = true -> close_ok false p0 k rest ->
  top_match dflt (rev p0) (show_dir d ++ show_close k ++ rest) = true.
Proof.
  intros d p0 k rest OK EO CO. unfold show_dir. apply (top_word (dir_name d) (dir_args d) p0 k rest false); try assumption.
  - destruct d; cbn [dir_name dir_ok] in *;
      [apply known_words; cbn; auto 30|apply known_words; cbn; auto 30|apply words_known; exact OK|apply keys_known; apply OK
      |apply known_words; cbn; auto 30|apply known_words; cbn; auto 30].
  - destruct d; cbn [dir_name dir_ok] in *; try (split; reflexivity).
    + apply words_known. exact OK.
    + destruct OK as [IN _]. unfold keywords in IN. cbn [map In] in IN.
      destruct IN as [<-|[<-|[<-|[<-|[]]]]]; split; reflexivity.
  - destruct d; cbn [dir_args app]; try reflexivity; try exact I. destruct glob; reflexivity.
Qed.

Lemma top_blk : forall o p0 k rest, esc_ok (rev p0) = true -> close_ok true p0 k rest ->
  top_match dflt (rev p0) (show_blk o ++ show_close k ++ rest) = true.
Proof.
  intros o p0 k rest EO CO. unfold show_blk. apply (top_word (blk_name o) (blk_args o) p0 k rest true); try assumption.
  - apply known_words. destruct o; cbn; auto 30.
  - destruct o; split; reflexivity.
  - destruct o; cbn [blk_args app]; try reflexivity; exact I.
Qed.

Lemma top_mid : forall m p0 k rest, esc_ok (rev p0) = true -> close_ok true p0 k rest ->
  top_match dflt (rev p0) (show_mid m ++ show_close k ++ rest) = true.
Proof.
  intros o p0 k rest EO CO. unfold show_mid. apply (top_word (mid_name o) (mid_args o) p0 k rest true); try assumption.
  - apply known_words. destruct o; cbn; auto 30.
  - destruct o; split; reflexivity.
  - destruct o; cbn [mid_args app]; try reflexivity; exact I.
Qed.

Lemma reg_blank : forall o, reg_ok E o -> match reg_args o with [] => True | d :: _ => d = 32%N end.
Proof. intros [v|f|v|f a|a ci] OK; try reflexivity. apply OK. Qed.

Lemma top_reg : forall o p0 k rest, reg_ok E o -> esc_ok (rev p0) = true -> close_ok true p0 k rest ->
  top_match dflt (rev p0) (show_reg o ++ show_close k ++ rest) = true.
Proof.
  intros o p0 k rest OK EO CO. unfold show_reg. apply (top_word (reg_name o) (reg_args o) p0 k rest true); try assumption.
  - apply known_words. destruct o; cbn; auto 30.
  - destruct o; split; reflexivity.
  - apply reg_blank. exact OK.
Qed.

Lemma top_arg : forall n p0 k rest, esc_ok (rev p0) = true -> close_ok true p0 k rest ->
  top_match dflt (rev p0) (show_part n ++ show_close k ++ rest) = true.
Proof.
  intros n p0 k rest EO CO. change (show_part n) with (L "#" ++ L "arg" ++ L " " ++ n).
  apply (top_word (L "arg") (L " " ++ n) p0 k rest true); try assumption.
  - apply known_words. cbn; auto 40.
  - split; reflexivity.
  - reflexivity.
Qed.

Lemma top_def : forall o n a p0 k rest, esc_ok (rev p0) = true -> close_ok true p0 k rest ->
  top_match dflt (rev p0) (show_def o n a ++ show_close k ++ rest) = true.
Proof.
  intros o n a p0 k rest EO CO. unfold show_def. apply (top_word (def_name o) (L " " ++ n ++ show_args a) p0 k rest true); try assumption.
  - apply known_words. destruct o; cbn; auto 30.
  - destruct o; split; reflexivity.
  - reflexivity.
Qed.

Lemma top_end : forall n p0 k rest, esc_ok (rev p0) = true -> close_ok false p0 k rest ->
  top_match dflt (rev p0) (show_end n ++ show_close k ++ rest) = true.
Proof.
  intros n p0 k rest EO CO. change (show_end n) with (L "#" ++ L "end" ++ L " " ++ n).
  apply (top_word (L "end") (L " " ++ n) p0 k rest false); try assumption.
  - apply known_words. cbn; auto 30.
  - split; reflexivity.
  - reflexivity.
Qed.

Lemma top_colon : forall w args p0 K, known w -> esc_ok (rev p0) = true -> match args with [] => True | d :: _ => d = 32%N end ->
  top_match dflt (rev p0) ((L "#" ++ w ++ args) ++ L ": " ++ K) = true.
Proof.
  intros w args p0 K KW EO AR. rewrite cons_show. apply top_match_dir; [apply KW|exact EO|].
  destruct args as [|d args]; [reflexivity|subst d; reflexivity].
Qed.

Lemma top_blk1 : forall o p0 K, esc_ok (rev p0) = true -> top_match dflt (rev p0) (show_blk o ++ L ": " ++ K) = true.
Proof.
  intros o p0 K EO. apply (top_colon (blk_name o) (blk_args o)); [apply known_words; destruct o; cbn; auto 30|exact EO|].
  destruct o; cbn [blk_args app]; try reflexivity; exact I.
Qed.
Lemma top_mid1 : forall m p0 K, esc_ok (rev p0) = true -> top_match dflt (rev p0) (show_mid m ++ L ": " ++ K) = true.
Proof.
  intros m p0 K EO. apply (top_colon (mid_name m) (mid_args m)); [apply known_words; destruct m; cbn; auto 30|exact EO|].
  destruct m; cbn [mid_args app]; try reflexivity; exact I.
Qed.
Lemma top_reg1 : forall o p0 K, reg_ok E o -> esc_ok (rev p0) = true -> top_match dflt (rev p0) (show_reg o ++ L ": " ++ K) = true.
Proof.
  intros o p0 K OK EO. apply (top_colon (reg_name o) (reg_args o)); [apply known_words; destruct o; cbn; auto 30|exact EO|apply reg_blank; exact OK].
Qed.
Lemma top_def1 : forall o n a p0 K, esc_ok (rev p0) = true -> top_match dflt (rev p0) (show_def o n a ++ L ": " ++ K) = true.
Proof.
  intros o n a p0 K EO. apply (top_colon (def_name o) (L " " ++ n ++ show_args a)); [apply known_words; destruct o; cbn; auto 30|exact EO|reflexivity].
Qed.

Lemma top_rem : forall p0 r, esc_ok (rev p0) = true -> top_match dflt (rev p0) (L "##" ++ r) = true.
Proof. intros p0 r EO. unfold top_match, classify, m_tok. cbn [app L]. rewrite EO. reflexivity. Qed.

Lemma top_ph : forall p0 h rest, ph_ok E p0 h rest -> top_match dflt (rev p0) (show_ph h ++ rest) = true.
Proof.
  intros p0 h rest (MV & _ & _).
  assert (CL : classify dflt (rev p0) (show_ph h ++ rest) = KVar \/ classify dflt (rev p0) (show_ph h ++ rest) = KExpr).
  { unfold classify. replace (m_tok (t_com dflt) (rev p0) (show_ph h ++ rest)) with false
      by (unfold m_tok; cbn; rewrite andb_false_r; reflexivity).
    replace (m_tok (t_ml dflt) (rev p0) (show_ph h ++ rest)) with false by (unfold m_tok; cbn; rewrite andb_false_r; reflexivity).
    destruct (m_var dflt (rev p0) (show_ph h ++ rest)); [left; reflexivity|]. cbn [orb] in MV. rewrite MV. right. reflexivity. }
  unfold top_match. change (show_ph h ++ rest) with (36%N :: (if ph_sil h then L "!" else []) ++ ph_src h ++ rest) at 1 || idtac.
  destruct (show_ph h ++ rest) as [|d r] eqn:EQ; [discriminate EQ|].
  assert (D : d = 36%N) by (unfold show_ph in EQ; cbn in EQ; congruence). subst d.
  destruct CL as [-> | ->]; reflexivity.
Qed.

(** ** Many rounds *)

(** Some of the fuel is enough; what is left is at least what was there beyond that. *)
Definition goes (st : fstate) (x : res Gen_Model.gerr cs) (b r : pystr) : Prop :=
  match x with
  | Ok c => exists n, forall f, exists f', f <= f' /\ parse_all E (n + f) st = parse_all E f' (mkF b r c)
  | Raise e => exists n, forall f, parse_all E (n + f) st = ferror (FGen e)
  end.

Lemma goes_refl : forall b r c, goes (mkF b r c) (Ok c) b r.
Proof. intros b r c. exists 0. intro f. exists f. split; [lia|reflexivity]. Qed.

Lemma goes_one : forall st x b r, f_r st <> [] -> (forall sub, eat E sub st = lift x b r) -> goes st x b r.
Proof.
  intros st x b r NE H.
  assert (K : forall f, parse_all E (1 + f) st = fbind (lift x b r) (parse_all E f)).
  { intro f. change (1 + f) with (S f). cbn [parse_all]. rewrite H. destruct (f_r st); [congruence|reflexivity]. }
  destruct x as [c|e]; exists 1; intro f; [exists f; split; [lia|]|]; rewrite K; reflexivity.
Qed.

Lemma goes_seq : forall st x b1 r1 F b r, goes st x b1 r1 ->
  (forall c, x = Ok c -> goes (mkF b1 r1 c) (F c) b r) -> goes st (Gen_Model.bind x F) b r.
Proof.
  intros st [c|e] b1 r1 F b r H K; [|exact H]. destruct H as [n H]. specialize (K c eq_refl). cbn [Gen_Model.bind].
  unfold goes in K. destruct (F c) as [c1|e1]; destruct K as [n1 K]; exists (n + n1); intro f; rewrite <- Nat.add_assoc.
  - destruct (H (n1 + f)) as (f1 & G1 & H1). rewrite H1. destruct (K (f1 - n1)) as (f2 & G2 & H2).
    exists f2. split; [lia|]. rewrite <- H2. f_equal. lia.
  - destruct (H (n1 + f)) as (f1 & G1 & H1). rewrite H1. rewrite <- (K (f1 - n1)). f_equal. lia.
Qed.

(** A short form: one round, with a loop over its line in it. *)
Lemma goes_line : forall M st (op : res Gen_Model.gerr (cs * M)) b1 w b2 B (cl : M -> cs -> res Gen_Model.gerr cs) fin Fin b3 r3,
  f_r st <> [] ->
  (forall sub, eat E sub st
    = fbind (from_g op) (fun '(c1, mem) => fbind (sub (mkF b1 w c1)) (fun s' =>
      fbind (from_g (cl mem (f_c s'))) (fun c2 => fin (f_b s') (f_r s') c2)))) ->
  (forall c1 mem, op = Ok (c1, mem) -> goes (mkF b1 w c1) (B c1) b2 []) ->
  (forall c1 mem c2 c3, op = Ok (c1, mem) -> B c1 = Ok c2 -> cl mem c2 = Ok c3 -> fin b2 [] c3 = lift (Fin c3) b3 r3) ->
  goes st (Gen_Model.bind op (fun p => Gen_Model.bind (B (fst p)) (fun c2 => Gen_Model.bind (cl (snd p) c2) Fin))) b3 r3.
Proof.
  intros M st op b1 w b2 B cl fin Fin b3 r3 NE EAT BG FG.
  assert (K : forall f, parse_all E (1 + f) st = fbind (eat E (parse_all E f) st) (parse_all E f)).
  { intro f. change (1 + f) with (S f). cbn [parse_all]. destruct (f_r st); [congruence|reflexivity]. }
  destruct op as [[c1 mem]|e]; cbn [Gen_Model.bind fst snd].
  2:{ exists 1. intro f. rewrite K, EAT. reflexivity. }
  pose proof (BG c1 mem eq_refl) as GB. unfold goes in GB. destruct (B c1) as [c2|e] eqn:HB; cbn [Gen_Model.bind].
  2:{ destruct GB as [n GB]. exists (1 + n). intro f. change (1 + n + f) with (1 + (n + f)). rewrite K, EAT. cbn [from_g fbind]. rewrite GB. reflexivity. }
  destruct GB as [n GB].
  assert (Q : forall f, parse_all E (1 + n + 1 + f) st
                        = fbind (fbind (from_g (cl mem c2)) (fun c3 => fin b2 [] c3)) (parse_all E (n + 1 + f))).
  { intro f. replace (1 + n + 1 + f) with (1 + (n + 1 + f)) by lia. rewrite K, EAT. cbn [from_g fbind].
    replace (n + 1 + f) with (n + (1 + f)) at 1 by lia. destruct (GB (1 + f)) as (f' & G' & H'). rewrite H'.
    destruct f' as [|f']; [lia|]. cbn [parse_all f_r fbind fok f_b f_c]. reflexivity. }
  destruct (cl mem c2) as [c3|e] eqn:HC; cbn [Gen_Model.bind].
  2:{ exists (1 + n + 1). intro f. rewrite Q. reflexivity. }
  cbn [from_g fbind] in Q. rewrite (FG c1 mem c2 c3 eq_refl HB HC) in Q.
  destruct (Fin c3) as [c4|e]; exists (1 + n + 1); intro f; [exists (n + 1 + f); split; [lia|]|]; rewrite Q; reflexivity.
Qed.

(** ** The text before a directive *)

(** The text before the position is finished, as far as a directive at the start of a line could cut it. *)
Definition calm (p : pystr) (c : cs) : Prop :=
  exists m r, Gen_Model.s_act c = m :: r /\ (line_clear (rev p) = true -> Gen_Model.strip_ws m = m).

Lemma flat_calm : forall p c, flat c -> calm p c.
Proof. intros p c (m & r & A & P). exists m, r. split; [exact A|]. intros _. apply strip_ws_nil. exact P. Qed.

Lemma calm_act : forall p c, calm p c -> Gen_Model.s_act c <> [].
Proof. intros p c (m & r & A & _). rewrite A. discriminate. Qed.

Lemma calm_strip : forall p c, calm p c -> line_clear (rev p) = true -> Gen_Model.step G Gen_Model.EStrip c = Ok c.
Proof.
  intros p c (m & r & A & H) LC. cbn [Gen_Model.step]. unfold Gen_Model.on_top. rewrite A. cbn [Gen_Model.bind].
  rewrite (H LC). unfold Gen_Model.set_act. rewrite <- A. destruct c; reflexivity.
Qed.

Definition front (s : pystr) (cb : bool) (c : cs) : res Gen_Model.gerr cs :=
  Gen_Model.bind (match s with [] => Ok c | _ => Gen_Model.step G (Gen_Model.EText (unescape dflt s)) c end) (cutting G cb).

Lemma text_like : forall s c, Gen_Model.s_act c <> [] ->
  exists c1, match s with [] => Ok c | _ => Gen_Model.step G (Gen_Model.EText (unescape dflt s)) c end = Ok c1 /\ like c c1.
Proof.
  intros s c A. destruct s as [|d s].
  - exists c. split; [reflexivity|apply like_refl; exact A].
  - destruct (Gen_Model.s_act c) as [|m r] eqn:EA; [congruence|]. eexists. split.
    + cbn [Gen_Model.step]. unfold Gen_Model.on_top. rewrite EA. reflexivity.
    + unfold like. cbn. rewrite EA. eauto 6.
Qed.

Lemma front_like : forall s cb c, Gen_Model.s_act c <> [] -> exists c1, front s cb c = Ok c1 /\ like c c1.
Proof.
  intros s cb c A. destruct (text_like s c A) as (c1 & H1 & L1). unfold front. rewrite H1. cbn [Gen_Model.bind].
  destruct (cutting_ok G cb c1 (like_act _ _ L1)) as (c2 & H2 & L2). exists c2. split; [exact H2|].
  apply (like_trans _ _ _ L1 L2).
Qed.

Lemma cutting_cut : forall c c1, cutting G true c = Ok c1 ->
  exists m r, Gen_Model.s_act c1 = m :: r /\ Gen_Model.strip_ws m = m.
Proof.
  intros c c1 H. cbn [cutting Gen_Model.step] in H. apply on_top_inv in H as (m & m' & r & A & H & ->).
  injection H as <-. exists (Gen_Model.strip_ws m), r. split; [reflexivity|apply strip_ws_idem].
Qed.

Lemma front_cut : forall s c c1, front s true c = Ok c1 ->
  exists m r, Gen_Model.s_act c1 = m :: r /\ Gen_Model.strip_ws m = m.
Proof. intros s c c1 H. unfold front in H. apply bind_inv in H as (c0 & _ & H). apply (cutting_cut c0 c1 H). Qed.

Lemma front_run : forall p s cb t c, calm p c -> (cb = true -> line_clear (rev (p ++ s)) = true) ->
  Gen_Model.run G (Gen_Spec.events (text s cb t) Gen_Model.Done) c
  = Gen_Model.bind (front s cb c) (Gen_Model.run G (Gen_Spec.events t Gen_Model.Done)).
Proof.
  intros p s cb t c CA CB. unfold front, text. destruct s as [|d s].
  - cbn [Gen_Model.bind]. destruct cb; cbn [cutting]; [|reflexivity]. rewrite app_nil_r in CB.
    rewrite (calm_strip p c CA (CB eq_refl)). reflexivity.
  - cbn [Gen_Spec.events]. rewrite bind_assoc. destruct cb; cbn [Gen_Model.run]; apply bind_ext; intros; reflexivity.
Qed.

(** Text and then something that takes one round. *)
Lemma goes_front : forall p s d rest0 cb X c b r, calm p c -> plain_text p s (d ++ rest0) -> d <> [] ->
  top_match dflt (rev (p ++ s)) (d ++ rest0) = true ->
  (forall sub c1, like c c1 -> eat E sub (mkF (rev (p ++ s)) (d ++ rest0) c1)
                               = lift (Gen_Model.bind (cutting G cb c1) X) b r) ->
  goes (mkF (rev p) (s ++ d ++ rest0) c) (Gen_Model.bind (front s cb c) X) b r.
Proof.
  intros p s d rest0 cb X c b r CA PT ND TM EAT. unfold front. rewrite bind_assoc.
  pose proof (calm_act p c CA) as A.
  apply (goes_seq _ _ (rev (p ++ s)) (d ++ rest0)).
  - destruct s as [|x s].
    + rewrite app_nil_r. apply goes_refl.
    + apply goes_one; [discriminate|]. intro sub. apply (eat_text E ET); try assumption; [right; exact TM|discriminate].
  - intros c1 H. destruct (text_like s c A) as (c1' & H1 & L1). rewrite H1 in H. injection H as <-.
    apply goes_one; [destruct d; [congruence|discriminate]|]. intro sub. apply EAT. exact L1.
Qed.

(** Text and then something else. *)
Lemma goes_text : forall p s K X c b r, calm p c -> plain_text p s K -> top_match dflt (rev (p ++ s)) K = true ->
  (forall c1, like c c1 -> goes (mkF (rev (p ++ s)) K c1) (X c1) b r) ->
  goes (mkF (rev p) (s ++ K) c) (Gen_Model.bind (front s false c) X) b r.
Proof.
  intros p s K X c b r CA PT TM NX. unfold front. rewrite bind_assoc.
  pose proof (calm_act p c CA) as A.
  apply (goes_seq _ _ (rev (p ++ s)) K).
  - destruct s as [|x s].
    + rewrite app_nil_r. apply goes_refl.
    + apply goes_one; [discriminate|]. intro sub. apply (eat_text E ET); try assumption; [right; exact TM|discriminate].
  - intros c1 H. destruct (text_like s c A) as (c1' & H1 & L1). rewrite H1 in H. injection H as <-.
    cbn [cutting Gen_Model.bind]. apply NX. exact L1.
Qed.

(** ** A part of the source *)

(** The loop reads [q] between [p] and [k]; [R false] is what the generator makes of it, and [R true] what
    it makes of it if the last line is cut off in the end. *)
Definition part (p q k : pystr) (c : cs) (R : bool -> res Gen_Model.gerr cs) : Prop :=
  goes (mkF (rev p) (q ++ k) c) (R false) (rev (p ++ q)) k /\
  (forall c1, R false = Ok c1 -> like c c1) /\
  (line_clear (rev (p ++ q)) = true -> R true = Gen_Model.bind (R false) (Gen_Model.step G Gen_Model.EStrip)).

Lemma part_last : forall p q k c R l, part p q k c R -> (l = true -> line_clear (rev (p ++ q)) = true) ->
  R l = Gen_Model.bind (R false) (cutting G l).
Proof.
  intros p q k c R l (_ & _ & H) LC. destruct l; [apply H; apply LC; reflexivity|]. cbn [cutting]. symmetry. apply bind_ok.
Qed.

Lemma part_ext : forall p q k c R R', (forall l, R' l = R l) -> part p q k c R -> part p q k c R'.
Proof. intros p q k c R R' H (P1 & P2 & P3). unfold part. rewrite !H. auto. Qed.

Lemma part_seq : forall p q1 q2 k c x R2, goes (mkF (rev p) (q1 ++ q2 ++ k) c) x (rev (p ++ q1)) (q2 ++ k) ->
  (forall c1, x = Ok c1 -> like c c1 /\ part (p ++ q1) q2 k c1 (R2 c1)) ->
  part p (q1 ++ q2) k c (fun l => Gen_Model.bind x (fun c1 => R2 c1 l)).
Proof.
  intros p q1 q2 k c x R2 GO NX. unfold part. split; [|split].
  - rewrite <- app_assoc. apply (goes_seq _ x (rev (p ++ q1)) (q2 ++ k)); [exact GO|].
    intros c1 H. destruct (NX c1 H) as [_ (P1 & _ & _)]. rewrite app_assoc. exact P1.
  - intros c1 H. apply bind_inv in H as (c0 & H0 & H1). destruct (NX c0 H0) as [L0 (_ & P2 & _)].
    apply (like_trans _ _ _ L0 (P2 c1 H1)).
  - intro LC. rewrite bind_assoc. apply bind_ext. intros c0 H0. destruct (NX c0 H0) as [_ (_ & _ & P3)]. apply P3.
    rewrite app_assoc in LC. exact LC.
Qed.

(** ** Single steps *)

Lemma dir_step : forall lc d c c1, dir_ok E d -> Gen_Model.step G (dir_ev lc d) c = Ok c1 -> like c c1 /\ flat c1.
Proof.
  assert (EX : forall K x c c1, no_block x -> Gen_Model.step G (Gen_Model.EExpr K x) c = Ok c1 -> like c c1 /\ flat c1).
  { intros K x c c1 NB H. cbn [Gen_Model.step] in H. apply bind_inv in H as (c0 & H0 & H).
    unfold Gen_Model.expr_push in H0. unfold no_block in NB. destruct (split_ws (strip x)) as [|w ws]; [contradiction|].
    rewrite NB in H0. injection H0 as <-. split; [apply (on_top_like _ _ _ H)|apply (on_top_flat _ _ _) in H; [exact H|]].
    intros m m' HM. injection HM as <-. destruct K; try apply add_pend; apply filtered_pend. }
  intros lc d c c1 OK H. destruct d as [e|e|w|w e|g lv op e|ci tt ff]; cbn [dir_ev dir_ok] in *.
  - apply (EX _ _ _ _ (proj2 OK) H).
  - apply (EX _ _ _ _ (proj2 OK) H).
  - destruct (words_known w OK) as (_ & _ & _ & SW & SP & _ & MC & _). apply (EX _ _ c c1) in H; [exact H|].
    unfold no_block. rewrite SW, SP. exact MC.
  - destruct OK as (_ & _ & NB). apply (EX _ _ _ _ NB H).
  - cbn [Gen_Model.step] in H. split; [apply (on_top_like _ _ _ H)|apply (on_top_flat _ _ _) in H; [exact H|]].
    intros m m' HM. injection HM as <-. apply add_pend.
  - cbn [Gen_Model.step] in H. split; [apply (on_top_like _ _ _ H)|apply (on_top_flat _ _ _) in H; [exact H|]].
    intros m m' HM. unfold Gen_Model.add_ternary in HM. apply bind_inv in HM as (m1 & _ & HM). rewrite (dedent_pend _ _ HM).
    apply filtered_pend.
Qed.

Lemma rem_step : forall s c c1, Gen_Model.step G (Gen_Model.EComment s) c = Ok c1 -> like c c1 /\ flat c1.
Proof.
  intros s c c1 H. cbn [Gen_Model.step] in H. split; [apply (on_top_like _ _ _ H)|apply (on_top_flat _ _ _) in H; [exact H|]].
  intros m m' HM. injection HM as <-. apply add_pend.
Qed.

Lemma place_step : forall x fa raw lc sil c c1, Gen_Model.step G (Gen_Model.EPlace x fa raw lc sil) c = Ok c1 -> like c c1 /\ flat c1.
Proof.
  intros x fa raw lc sil c c1 H. cbn [Gen_Model.step] in H.
  split; [apply (on_top_like _ _ _ H)|apply (on_top_flat _ _ _) in H; [exact H|]]. apply place_clears.
Qed.

Lemma mid_step : forall m lc c c1, Gen_Model.step G (Gen_Model.EMid m lc) c = Ok c1 -> like c c1 /\ flat c1.
Proof.
  intros m lc c c1 H. cbn [Gen_Model.step] in H.
  split; [apply (on_top_like _ _ _ H)|apply (on_top_flat _ _ _) in H; [exact H|]]. apply reindenting_clears.
Qed.

(** ** Definitions and blocks *)

Hypothesis NM : Gen_Model.g_markers G = None.

(** A #def that is not inside of another one, a #block. *)
Lemma def_open : forall o n a rem lc lc' id c, (o = IDef -> Gen_Model.open_defs c = 0) ->
  Gen_Model.open_long G (Gen_Spec.dop_open (def_dop o) n a rem) id lc c
  = Gen_Model.open_long G (Gen_Spec.dop_open (def_dop o) n a []) [] lc' c /\
  Gen_Model.open_long G (Gen_Spec.dop_open (def_dop o) n a rem) id lc c
  = Ok (Gen_Model.start_method G (n, a) (Gen_Model.set_open (def_name o :: Gen_Model.s_open c) c)).
Proof.
  intros o n a rem lc lc' id c H. destruct o; cbn [def_dop Gen_Spec.dop_open Gen_Model.open_long def_name Gen_Model.oname].
  - specialize (H eq_refl). unfold Gen_Model.nested_long.
    assert (Q : (1 <? Gen_Model.open_defs (Gen_Model.set_open (L "def" :: Gen_Model.s_open c) c)) = false).
    { unfold Gen_Model.open_defs in *. cbn [Gen_Model.set_open Gen_Model.s_open]. cbn [filter].
      change (str_eqb (L "def") (L "def")) with true. cbv iota. cbn [length]. rewrite H. reflexivity. }
    rewrite Q, andb_false_r. split; reflexivity.
  - unfold Gen_Model.start_marker. rewrite NM. split; reflexivity.
Qed.

Lemma def_close : forall o c c1 m r st, (o = IDef -> length (filter (str_eqb (L "def")) st) = 0) ->
  Gen_Model.s_open c = def_name o :: st -> Gen_Model.s_act c = m :: r -> r <> [] ->
  Gen_Model.step G (Gen_Model.EEnd (def_name o)) c = Ok c1 ->
  Gen_Model.s_open c1 = st /\ Gen_Model.s_sl c1 = Gen_Model.s_sl c /\ Gen_Model.s_sl0 c1 = Gen_Model.s_sl0 c /\
  match o with IDef => Gen_Model.s_act c1 = r | IBlock => exists m', Gen_Model.s_act c1 = m' :: tl r /\ Gen_Model.m_pend m' = [] end.
Proof.
  intros o c c1 m r st ND SO SA NR H. cbn [Gen_Model.step] in H. unfold Gen_Model.end_long in H.
  assert (MC : Gen_Model.mem_str (def_name o) Gen_Model.closeable = true) by (destruct o; reflexivity).
  rewrite MC in H. unfold Gen_Model.pop_open in H. rewrite SO, str_eqb_refl in H. cbn [Gen_Model.bind] in H.
  destruct o; cbn [def_name] in *.
  - change (str_eqb (L "def") (L "def")) with true in H. cbv iota in H.
    assert (Q : Gen_Model.nested_short G (Gen_Model.set_open st c) = false).
    { unfold Gen_Model.nested_short, Gen_Model.open_defs. cbn [Gen_Model.set_open Gen_Model.s_open]. rewrite ND by reflexivity.
      apply andb_false_r. }
    rewrite Q in H. unfold Gen_Model.close_def in H. cbn [Gen_Model.set_open Gen_Model.s_act] in H. rewrite SA in H.
    unfold Gen_Model.swallow in H. apply bind_inv in H as (m1 & _ & H). injection H as <-. cbn. auto.
  - change (str_eqb (L "block") (L "def")) with false in H. change (str_eqb (L "block") (L "block")) with true in H. cbv iota in H.
    unfold Gen_Model.close_block in H. cbn [Gen_Model.set_open Gen_Model.s_act] in H. rewrite SA in H. cbv zeta in H. rewrite NM in H.
    apply bind_inv in H as (c2 & H1 & H2). unfold Gen_Model.swallow in H1. apply bind_inv in H1 as (m1 & _ & H1). injection H1 as <-.
    apply on_top_inv in H2 as (m2 & m3 & r2 & A2 & F2 & ->). injection F2 as <-. cbn in A2. cbn.
    split; [reflexivity|]. split; [reflexivity|]. split; [reflexivity|].
    eexists. split; [subst r; reflexivity|apply add_pend].
Qed.

(** ** The whole template *)

Definition inv (ind : bool) (p : pystr) (c : cs) : Prop :=
  calm p c /\ Gen_Model.s_sl c = true /\ (ind = false -> Gen_Model.open_defs c = 0).

Lemma inv_like : forall ind p p1 c c1, inv ind p c -> like c c1 -> calm p1 c1 -> inv ind p1 c1.
Proof.
  intros ind p p1 c c1 (_ & S1 & D1) LK CA. split; [exact CA|]. pose proof (like_defs _ _ LK) as LD.
  destruct LK as (_ & S2 & _). split; [congruence|]. intro H. rewrite LD. apply D1. exact H.
Qed.

Lemma like_sl : forall c c1, like c c1 -> Gen_Model.s_sl c = true -> Gen_Model.s_sl c1 = true.
Proof. intros c c1 (_ & H & _) K. congruence. Qed.

Lemma like_set_open : forall o o' c c1, like (Gen_Model.set_open o c) c1 -> like (Gen_Model.set_open o' c) (Gen_Model.set_open o' c1).
Proof. intros o o' c c1 (_ & H2 & H3 & m & H4). split; [reflexivity|]. split; [exact H2|]. split; [exact H3|]. exists m. exact H4. Qed.

Lemma like_back : forall c c1, Gen_Model.s_open c1 = Gen_Model.s_open c -> forall o, like (Gen_Model.set_open o c) (Gen_Model.set_open o c1) -> like c c1.
Proof. intros c c1 H o (_ & H2 & H3 & m & H4). split; [exact H|]. split; [exact H2|]. split; [exact H3|]. exists m. exact H4. Qed.

Definition Rt (p : pystr) (t : stm) (k : pystr) (c : cs) (l : bool) : res Gen_Model.gerr cs :=
  Gen_Model.run G (Gen_Spec.events (elab E p t k l) Gen_Model.Done) c.
Definition Rm (p : pystr) (ms : smids) (k : pystr) (c : cs) (l : bool) : res Gen_Model.gerr cs :=
  Gen_Model.bind (cutting G (cut_next p ms k l) c)
    (Gen_Model.run G (Gen_Spec.events_m false (elab_m E p ms k l) Gen_Model.Done)).

Definition ends (p k : pystr) : Prop := k = [] \/ top_match dflt (rev p) k = true.

Definition Pt (t : stm) : Prop := forall ind p k c, wf E ind p t k -> ends (p ++ print t) k -> inv ind p c ->
  part p (print t) k c (Rt p t k c).
Definition Pm (ms : smids) : Prop := forall ind p k c, wf_m E ind p ms k -> ends (p ++ print_m ms) k -> esc_ok (rev p) = true ->
  Gen_Model.s_act c <> [] -> Gen_Model.s_sl c = true -> (ind = false -> Gen_Model.open_defs c = 0) ->
  part p (print_m ms) k c (Rm p ms k c).

Definition Pn (ms : sones) : Prop := forall ind p k c, wf_n E ind p ms k -> flat c -> Gen_Model.s_sl c = true ->
  (ind = false -> Gen_Model.open_defs c = 0) ->
  goes (mkF (rev p) (print_n ms ++ k) c) (Gen_Model.run G (Gen_Spec.events_m true (elab_n E p ms) Gen_Model.Done) c)
       (rev (p ++ print_n ms)) k /\
  (forall c1, Gen_Model.run G (Gen_Spec.events_m true (elab_n E p ms) Gen_Model.Done) c = Ok c1 -> like c c1 /\ flat c1).

Definition Rp (p : pystr) (ps : sparts) (k : pystr) (c : cs) (l : bool) : res Gen_Model.gerr cs :=
  Gen_Model.bind (cutting G (cut_arg ps l) c)
    (Gen_Model.run G (Gen_Spec.events_p (elab_p E p ps k l) Gen_Model.Done)).
Definition Pp (ps : sparts) : Prop := forall ind p k c, wf_p E ind p ps k -> ends (p ++ print_p ps) k -> esc_ok (rev p) = true ->
  Gen_Model.s_act c <> [] -> Gen_Model.s_sl c = true -> (ind = false -> Gen_Model.open_defs c = 0) ->
  part p (print_p ps) k c (Rp p ps k c).

Lemma cut_clear : forall p k rest, cut p k rest = true -> line_clear (rev p) = true.
Proof. intros p k rest H. unfold cut in H. apply andb_true_iff in H. apply H. Qed.

Lemma next_ends : forall p ms k, wf_m E false p ms k \/ wf_m E true p ms k -> esc_ok (rev p) = true -> ends (p ++ print_m ms) k ->
  ends p (print_m ms ++ k).
Proof.
  intros p ms k W EO EN. destruct ms as [|m kc b r]; cbn [print_m].
  - cbn [print_m] in EN. rewrite app_nil_r in EN. exact EN.
  - right. rewrite <- !app_assoc. apply top_mid; [exact EO|]. destruct W as [(_ & W & _)|(_ & W & _)]; exact W.
Qed.

Lemma next_clear : forall p ms k l, (l = true -> line_clear (rev (p ++ print_m ms)) = true) ->
  cut_next p ms k l = true -> line_clear (rev p) = true.
Proof.
  intros p ms k l H K. destruct ms as [|m kc b r]; cbn [cut_next print_m] in *.
  - rewrite app_nil_r in H. apply H. exact K.
  - apply (cut_clear p kc _ K).
Qed.

Lemma main_end : forall s, Pt (SEnd s).
Proof.
  intros s ind p k c W EN (CA & SL & _). cbn [wf print] in *. pose proof (calm_act p c CA) as A. unfold part, Rt. cbn [elab].
  destruct s as [|x s].
  - cbn [text Gen_Spec.events Gen_Model.run Gen_Model.bind]. rewrite app_nil_r. split; [apply goes_refl|]. split.
    + intros c1 H. injection H as <-. apply like_refl. exact A.
    + intro LC. symmetry. apply (calm_strip p c CA LC).
  - cbn [text Gen_Spec.events Gen_Model.run]. rewrite bind_ok.
    split; [apply goes_one; [discriminate|]; intro sub; apply (eat_text E ET); try assumption; discriminate|]. split.
    + intros c1 H. destruct (text_like (x :: s) c A) as (c2 & H2 & L2). rewrite H2 in H. injection H as <-. exact L2.
    + intros _. apply bind_ext. intros c1 _. apply bind_ok.
Qed.

Lemma main_place : forall s h r, Pt r -> Pt (SPlace s h r).
Proof.
  intros s h r IH ind p k c W EN IV. cbn [wf print] in *. cbv zeta in W. destruct W as (W1 & W2 & W3).
  pose proof (proj1 IV) as CA. pose proof (calm_act p c CA) as A.
  rewrite (app_assoc s). rewrite (app_assoc s) in EN.
  set (X := Gen_Model.step G (Gen_Model.EPlace (ph_code h) (match ph_fa h with Some a => a | None => [] end) (show_ph h)
                              (e_lc E (length (p ++ s))) (ph_sil h))).
  apply (part_ext _ _ _ _ (fun l => Gen_Model.bind (Gen_Model.bind (front s false c) X) (fun c1 => Rt ((p ++ s) ++ show_ph h) r k c1 l))).
  { intro l. unfold Rt. cbn [elab]. cbv zeta. rewrite (front_run p s false _ c CA) by discriminate.
    rewrite bind_assoc. apply bind_ext. intros; reflexivity. }
  apply part_seq.
  - rewrite <- app_assoc. apply goes_front; try assumption.
    + discriminate.
    + apply top_ph. exact W2.
    + intros sub c1 L1. rewrite (app_assoc p). apply (place_ok E ET); [exact W2|]. apply (like_sl _ _ L1). apply IV.
  - intros c1 H. apply bind_inv in H as (c0 & H0 & H1). destruct (front_like s false c A) as (c0' & F0 & L0).
    rewrite F0 in H0. injection H0 as <-. destruct (place_step _ _ _ _ _ _ _ H1) as [L1 F1].
    pose proof (like_trans _ _ _ L0 L1) as L01. split; [exact L01|]. rewrite (app_assoc p).
    apply (IH ind); [exact W3|rewrite <- !app_assoc in *; exact EN|]. apply (inv_like ind p _ c c1 IV L01). apply flat_calm. exact F1.
Qed.

Lemma main_rem : forall s x kc r, Pt r -> Pt (SRem s x kc r).
Proof.
  intros s x kc r IH ind p k c W EN IV. cbn [wf print] in *. cbv zeta in W. destruct W as (W1 & W2 & W3 & W4).
  pose proof (proj1 IV) as CA. pose proof (calm_act p c CA) as A.
  replace (s ++ L "##" ++ x ++ show_close kc ++ print r) with ((s ++ L "##" ++ x ++ show_close kc) ++ print r) in *
    by (rewrite <- !app_assoc; reflexivity).
  set (cb := cut (p ++ s) kc (print r ++ k)).
  apply (part_ext _ _ _ _ (fun l => Gen_Model.bind (Gen_Model.bind (front s cb c) (Gen_Model.step G (Gen_Model.EComment x)))
          (fun c1 => Rt ((p ++ s) ++ L "##" ++ x ++ show_close kc) r k c1 l))).
  { intro l. unfold Rt. cbn [elab]. cbv zeta. rewrite (front_run p s _ _ c CA) by apply cut_clear.
    rewrite bind_assoc. apply bind_ext. intros; reflexivity. }
  apply part_seq.
  - replace ((s ++ L "##" ++ x ++ show_close kc) ++ print r ++ k) with (s ++ (L "##" ++ x ++ show_close kc) ++ print r ++ k)
      by (rewrite <- !app_assoc; reflexivity).
    apply goes_front; try assumption.
    + rewrite <- !app_assoc. exact W1.
    + discriminate.
    + rewrite <- !app_assoc. apply top_rem. exact W2.
    + intros sub c1 L1. rewrite (app_assoc p), <- (app_assoc (L "##")), <- (app_assoc x).
      apply (rem_eat E ET); [exact W3|exact W2|apply (like_act _ _ L1)].
  - intros c1 H. apply bind_inv in H as (c0 & H0 & H1). destruct (front_like s cb c A) as (c0' & F0 & L0).
    rewrite F0 in H0. injection H0 as <-. destruct (rem_step _ _ _ H1) as [L1 F1].
    pose proof (like_trans _ _ _ L0 L1) as L01. split; [exact L01|]. rewrite (app_assoc p).
    apply (IH ind); [exact W4|rewrite <- !app_assoc in *; exact EN|]. apply (inv_like ind p _ c c1 IV L01). apply flat_calm. exact F1.
Qed.

(** A thing [d] after a text, for which the generator does [X]. *)
Lemma main_thing : forall s d cb X T r ind p k c, Pt r ->
  plain_text p s (d ++ print r ++ k) -> d <> [] -> top_match dflt (rev (p ++ s)) (d ++ print r ++ k) = true ->
  (cb = true -> line_clear (rev (p ++ s)) = true) ->
  (forall sub c1, Gen_Model.s_act c1 <> [] -> eat E sub (mkF (rev (p ++ s)) (d ++ print r ++ k) c1)
                   = lift (Gen_Model.bind (cutting G cb c1) X) (rev ((p ++ s) ++ d)) (print r ++ k)) ->
  (forall t c0, Gen_Model.run G (Gen_Spec.events (T t) Gen_Model.Done) c0
                = Gen_Model.bind (X c0) (Gen_Model.run G (Gen_Spec.events t Gen_Model.Done))) ->
  (forall c0 c1, X c0 = Ok c1 -> like c0 c1 /\ calm ((p ++ s) ++ d) c1) ->
  wf E ind ((p ++ s) ++ d) r k -> ends (p ++ s ++ d ++ print r) k -> inv ind p c ->
  part p (s ++ d ++ print r) k c
    (fun l => Gen_Model.run G (Gen_Spec.events (text s cb (T (elab E ((p ++ s) ++ d) r k l))) Gen_Model.Done) c).
Proof.
  intros s d cb X T r ind p k c IH W1 ND TM CB EAT RUN ST W2 EN IV.
  pose proof (proj1 IV) as CA. pose proof (calm_act p c CA) as A.
  rewrite (app_assoc s d). rewrite (app_assoc s d) in EN.
  apply (part_ext _ _ _ _ (fun l => Gen_Model.bind (Gen_Model.bind (front s cb c) X) (fun c1 => Rt ((p ++ s) ++ d) r k c1 l))).
  { intro l. unfold Rt. rewrite (front_run p s _ _ c CA) by exact CB. rewrite bind_assoc. apply bind_ext. intros. apply RUN. }
  apply part_seq.
  - rewrite <- app_assoc. apply goes_front; try assumption.
    intros sub c1 L1. rewrite (app_assoc p). apply EAT. apply (like_act _ _ L1).
  - intros c1 H. apply bind_inv in H as (c0 & H0 & H1). destruct (front_like s cb c A) as (c0' & F0 & L0).
    rewrite F0 in H0. injection H0 as <-. destruct (ST _ _ H1) as [L1 F1].
    pose proof (like_trans _ _ _ L0 L1) as L01. split; [exact L01|]. rewrite (app_assoc p).
    apply (IH ind); [exact W2|rewrite <- !app_assoc in *; exact EN|]. apply (inv_like ind p _ c c1 IV L01). exact F1.
Qed.

Lemma main_slurp : forall s b w nl r, Pt r -> Pt (SSlurp s b w nl r).
Proof.
  intros s b w nl r IH ind p k c W EN IV. cbn [wf print] in *. cbv zeta in W. destruct W as (W1 & W2 & W3 & W4).
  unfold Rt. cbn [elab]. cbv zeta.
  apply (main_thing s (show_slurp b w nl) (line_clear (rev (p ++ s))) (Gen_Model.step G Gen_Model.ESlurp) Gen_Spec.TSlurp r ind); try assumption.
  - destruct b; discriminate.
  - apply slurp_top; assumption.
  - auto.
  - intros sub c1 A. apply slurp_eat; assumption.
  - reflexivity.
  - intros c0 c1 H. cbn [Gen_Model.step] in H. split; [apply (on_top_like _ _ _ H)|].
    apply flat_calm. apply (on_top_flat _ _ _) in H; [exact H|]. intros m m' HM. injection HM as <-.
    rewrite Gen_Proofs.commit_out. reflexivity.
Qed.

Lemma lines_some : forall s, s <> [] -> Names_Model.splitlines s <> [].
Proof.
  assert (H : forall s cur, cur <> [] -> Names_Model.splitlines_aux false cur s <> []).
  { induction s as [|x s IH]; intros cur NE; cbn [Names_Model.splitlines_aux andb]; [destruct cur; [congruence|discriminate]|].
    destruct (Names_Model.is_linebreak x); [discriminate|]. apply IH. discriminate. }
  intros [|x s] NE; [congruence|]. unfold Names_Model.splitlines. cbn [Names_Model.splitlines_aux andb].
  destruct (Names_Model.is_linebreak x); [discriminate|]. apply H. discriminate.
Qed.

Lemma comments_step : forall ls c c1, ls <> [] -> Gen_Model.run G (comments ls) c = Ok c1 -> like c c1 /\ flat c1.
Proof.
  induction ls as [|l ls IH]; intros c c1 NE H; [congruence|]. cbn [comments fold_right Gen_Model.run] in H.
  apply bind_inv in H as (c0 & H0 & H1). destruct (rem_step _ _ _ H0) as [L0 F0].
  destruct ls as [|l2 ls]; [cbn in H1; injection H1 as <-; split; assumption|].
  destruct (IH c0 c1) as [L1 F1]; [discriminate|exact H1|]. split; [apply (like_trans _ _ _ L0 L1)|exact F1].
Qed.

Lemma main_mul : forall s x u nl r, Pt r -> Pt (SMul s x u nl r).
Proof.
  intros s x u nl r IH ind p k c W EN IV. cbn [wf print] in *. cbv zeta in W. destruct W as (W1 & W2 & W3 & W4).
  unfold Rt. cbn [elab]. cbv zeta.
  apply (main_thing s (show_mul x u nl) (cut_mul (p ++ s) x u nl (print r ++ k)) (Gen_Model.run G (comments (Names_Model.splitlines x))) (rems x) r ind); try assumption.
  - discriminate.
  - apply mul_top; assumption.
  - unfold cut_mul. intro H. apply andb_true_iff in H as [H _]. exact H.
  - intros sub c1 A. apply mul_eat; assumption.
  - intros t c0. apply comments_run.
  - intros c0 c1 H. destruct (comments_step _ _ _ (lines_some x (proj1 W3)) H) as [L1 F1]. split; [exact L1|apply flat_calm; exact F1].
Qed.

Lemma text_calm : forall p t c c1, (line_clear (rev p) = true -> Reader_Spec.after_break t) ->
  Gen_Model.step G (Gen_Model.EText t) c = Ok c1 -> like c c1 /\ calm p c1.
Proof.
  intros p t c c1 AB H. cbn [Gen_Model.step] in H. split; [apply (on_top_like _ _ _ H)|].
  apply on_top_inv in H as (m & m' & r & A & HM & ->). injection HM as <-. exists (Gen_Model.add_text t m), r. split; [reflexivity|].
  intro LC. specialize (AB LC). unfold Gen_Model.strip_ws.
  change (Gen_Model.m_pend (Gen_Model.add_text t m)) with (t :: Gen_Model.m_pend m). rewrite Gen_Proofs.handle_ws_cut.
  assert (C : Gen_Spec.cut_line t = t).
  { rewrite <- (app_nil_r t) at 1. apply Gen_Proofs.cut_line_split; [exact AB|]. split; intros []. }
  rewrite C. destruct m; reflexivity.
Qed.

Lemma after_tail : forall a b, Reader_Spec.after_break (a ++ b) -> Reader_Spec.after_break b.
Proof.
  intros a b H. destruct (list_eq_dec N.eq_dec b []) as [->|NE]; [left; reflexivity|]. right.
  destruct (exists_last NE) as (x & d & ->). rewrite app_assoc in H. destruct H as [H|(y & e & H & D)]; [destruct (a ++ x); discriminate H|].
  apply app_inj_tail in H as [_ ->]. exists x, e. split; [reflexivity|exact D].
Qed.

Lemma main_raw : forall s kc body w ke r, Pt r -> Pt (SRaw s kc body w ke r).
Proof.
  intros s kc body w ke r IH ind p k c W EN IV. cbn [wf print] in *. cbv zeta in W. destruct W as (W1 & W2 & W3 & W4 & W5 & W6).
  unfold Rt. cbn [elab]. cbv zeta. set (d := L "#raw" ++ show_close kc ++ block (L "raw") body w ke) in *.
  assert (DE : forall x, L "#raw" ++ show_close kc ++ block (L "raw") body w ke ++ x = d ++ x) by (intro x; unfold d; rewrite <- !app_assoc; reflexivity).
  rewrite DE in *.
  apply (main_thing s d (own_line kc || own_line ke) (Gen_Model.step G (Gen_Model.EText body)) (Gen_Spec.TText body false) r ind); try assumption.
  - discriminate.
  - unfold top_match. unfold d. rewrite <- !app_assoc.
    assert (CL := MacroUse_Proofs.raw_class default_names ltac:(vm_compute; tauto) (rev (p ++ s)) (show_close kc ++ block (L "raw") body w ke ++ print r ++ k) W2
      (MacroUse_Proofs.close_dn _ _ _ W3)).
    change (Macro_Spec.named default_names) with dflt in CL. rewrite CL. reflexivity.
  - intro H. apply orb_true_iff in H as [H|H]; [|apply W5; exact H]. destruct kc; try discriminate H. apply W3.
  - intros sub c1 A. unfold d. rewrite <- !app_assoc.
    rewrite (MacroUse_Proofs.raw_eaten default_names ltac:(vm_compute; tauto) ltac:(vm_compute; tauto) E sub (p ++ s) kc body w ke (print r ++ k) c1 ET W2 W3 W4 A).
    rewrite <- !app_assoc. reflexivity.
  - reflexivity.
  - intros c0 c1 H. apply (text_calm _ body c0 c1); [|exact H]. intro LC. destruct W4 as (_ & LA & _ & EG).
    unfold d, block in LC. rewrite !app_assoc in LC. rewrite rev_app_distr in LC.
    destruct ke as [|nl|]; cbn [show_close] in LC; [discriminate LC| |].
    + destruct EG as [LC2 _]. destruct LA as [[-> LA]|[LA _]]; [rewrite app_nil_r in LC2; congruence|]. apply (after_tail _ _ LA).
    + rewrite rev_app_distr in LC. discriminate LC.
Qed.

Lemma shown_unclear : forall p u, shown u -> line_clear (rev (p ++ u)) = false.
Proof.
  intros p u (NE & ST & _). rewrite rev_app_distr.
  assert (H : forall v, forallb (fun c => negb (eolchar c)) v = true -> line_clear (v ++ rev p) = true -> forallb is_space v = true).
  { induction v as [|x v IHv]; intros V1 V2; [reflexivity|]. cbn [forallb app line_clear] in *. apply andb_true_iff in V1 as [V0 V1].
    apply negb_true_iff in V0. rewrite V0 in V2. apply andb_true_iff in V2 as [-> V2]. apply IHv; assumption. }
  destruct (line_clear (rev u ++ rev p)) eqn:LC; [|reflexivity]. exfalso. apply ST.
  assert (S1 : forallb is_space u = true).
  { rewrite forallb_forall. intros x I. specialize (H (rev u)). rewrite !forallb_forall in H. apply H; [|exact LC|apply in_rev; rewrite rev_involutive; exact I].
    intros y J. rewrite forallb_forall in NE. apply NE. apply in_rev. exact J. }
  unfold strip. replace (lstrip u) with (@nil N); [reflexivity|]. symmetry. clear - S1. induction u as [|x u IHu]; [reflexivity|].
  cbn [forallb lstrip] in *. apply andb_true_iff in S1 as [-> S1]. apply IHu. exact S1.
Qed.

Lemma main_one_raw : forall s u r, Pt r -> Pt (SOneRaw s u r).
Proof.
  intros s u r IH ind p k c W EN IV. cbn [wf print] in *. cbv zeta in W. destruct W as (W1 & W2 & [W3 W4] & W5).
  unfold Rt. cbn [elab]. cbv zeta. set (d := L "#raw: " ++ u) in *.
  assert (DE : forall x, L "#raw: " ++ u ++ x = d ++ x) by (intro x; unfold d; rewrite <- !app_assoc; reflexivity).
  rewrite DE in *.
  apply (main_thing s d false (Gen_Model.step G (Gen_Model.EText u)) (Gen_Spec.TText u false) r ind); try assumption.
  - discriminate.
  - unfold top_match. unfold d. rewrite <- !app_assoc.
    assert (CL := MacroUse_Proofs.raw_class default_names ltac:(vm_compute; tauto) (rev (p ++ s)) (L ": " ++ u ++ print r ++ k) W2 eq_refl).
    change (Macro_Spec.named default_names) with dflt in CL. change (L "#raw: " ++ u ++ print r ++ k) with (L "#raw" ++ L ": " ++ u ++ print r ++ k).
    rewrite CL. reflexivity.
  - discriminate.
  - intros sub c1 A. unfold d. rewrite <- !app_assoc.
    rewrite (MacroUse_Proofs.raw_line default_names ltac:(vm_compute; tauto) E sub (p ++ s) u (print r ++ k) c1 ET W2 W3 W4 A).
    rewrite <- !app_assoc. reflexivity.
  - reflexivity.
  - intros c0 c1 H. apply (text_calm _ u c0 c1); [|exact H]. intro LC. unfold d in LC. rewrite app_assoc in LC.
    rewrite (shown_unclear _ u W3) in LC. discriminate LC.
Qed.

Lemma main_dir : forall s d kc r, Pt r -> Pt (SDir s d kc r).
Proof.
  intros s d kc r IH ind p k c W EN IV. cbn [wf print] in *. cbv zeta in W. destruct W as (W1 & W2 & W3 & W4 & W5).
  pose proof (proj1 IV) as CA. pose proof (calm_act p c CA) as A.
  replace (s ++ show_dir d ++ show_close kc ++ print r) with ((s ++ show_dir d ++ show_close kc) ++ print r) in *
    by (rewrite <- !app_assoc; reflexivity).
  set (cb := cut (p ++ s) kc (print r ++ k)).
  apply (part_ext _ _ _ _ (fun l => Gen_Model.bind (Gen_Model.bind (front s cb c) (Gen_Model.step G (dir_ev (e_lc E (length (p ++ s))) d)))
          (fun c1 => Rt ((p ++ s) ++ show_dir d ++ show_close kc) r k c1 l))).
  { intro l. unfold Rt. cbn [elab]. cbv zeta. rewrite (front_run p s _ _ c CA) by apply cut_clear.
    rewrite bind_assoc. apply bind_ext. intros. rewrite dir_events. reflexivity. }
  apply part_seq.
  - replace ((s ++ show_dir d ++ show_close kc) ++ print r ++ k) with (s ++ (show_dir d ++ show_close kc) ++ print r ++ k)
      by (rewrite <- !app_assoc; reflexivity).
    apply goes_front; try assumption.
    + rewrite <- !app_assoc. exact W1.
    + discriminate.
    + rewrite <- !app_assoc. apply top_dir; assumption.
    + intros sub c1 L1. rewrite (app_assoc p), <- (app_assoc (show_dir d)).
      apply dir_eat; [exact W3|exact W2|exact W4|apply (like_act _ _ L1)|apply (like_sl _ _ L1); apply IV].
  - intros c1 H. apply bind_inv in H as (c0 & H0 & H1). destruct (front_like s cb c A) as (c0' & F0 & L0).
    rewrite F0 in H0. injection H0 as <-. destruct (dir_step _ _ _ _ W3 H1) as [L1 F1].
    pose proof (like_trans _ _ _ L0 L1) as L01. split; [exact L01|]. rewrite (app_assoc p).
    apply (IH ind); [exact W5|rewrite <- !app_assoc in *; exact EN|]. apply (inv_like ind p _ c c1 IV L01). apply flat_calm. exact F1.
Qed.

Lemma main_nil : Pm SMNil.
Proof.
  intros ind p k c W EN EO A SL OD. unfold part, Rm. cbn [print_m cut_next elab_m Gen_Spec.events_m Gen_Model.run cutting Gen_Model.bind].
  rewrite app_nil_r. split; [apply goes_refl|]. split.
  - intros c1 H. injection H as <-. apply like_refl. exact A.
  - intros _. apply bind_ok.
Qed.

Lemma main_mid : forall m kc b r, Pt b -> Pm r -> Pm (SMCons m kc b r).
Proof.
  intros m kc b r IB IR ind p k c W EN EO A SL OD. cbn [wf_m print_m] in *. cbv zeta in W. destruct W as (W1 & W2 & W3 & W4 & W5).
  set (p1 := p ++ show_mid m ++ show_close kc) in *. set (p2 := p1 ++ print b) in *.
  assert (E1 : forall z, show_mid m ++ show_close kc ++ print b ++ z = (show_mid m ++ show_close kc) ++ print b ++ z)
    by (intro z; rewrite <- !app_assoc; reflexivity).
  rewrite E1. rewrite E1 in EN.
  assert (EN2 : ends (p2 ++ print_m r) k) by (unfold p2, p1; rewrite <- !app_assoc in *; exact EN).
  assert (EN1 : ends (p1 ++ print b) (print_m r ++ k)).
  { apply next_ends; [destruct ind; [right|left]; exact W5|exact W4|exact EN2]. }
  set (cb := cut p kc (print b ++ print_m r ++ k)).
  set (X := fun c => Gen_Model.bind (cutting G cb c) (Gen_Model.step G (Gen_Model.EMid (mid_tm m) (e_lc E (length p))))).
  assert (GX : goes (mkF (rev p) ((show_mid m ++ show_close kc) ++ print b ++ print_m r ++ k) c) (X c) (rev p1) (print b ++ print_m r ++ k)).
  { apply goes_one; [discriminate|]. intro sub. rewrite <- app_assoc. unfold X, cb, p1. apply mid_eat; assumption. }
  assert (LX : forall c1, X c = Ok c1 -> like c c1 /\ flat c1).
  { intros c1 H. apply bind_inv in H as (c0 & H0 & H1). destruct (mid_step _ _ _ _ H1) as [L1 F1]. split; [|exact F1].
    apply (like_trans _ c0); [apply (cutting_like G cb c c0 A H0)|exact L1]. }
  assert (PB : forall c1, X c = Ok c1 -> part p1 (print b) (print_m r ++ k) c1 (Rt p1 b (print_m r ++ k) c1)).
  { intros c1 H. destruct (LX c1 H) as [L1 F1]. apply (IB ind); [exact W3|exact EN1|].
    split; [apply flat_calm; exact F1|]. split; [apply (like_sl _ _ L1 SL)|]. intro I. rewrite (like_defs _ _ L1). apply OD. exact I. }
  assert (PR : forall c1 c2, X c = Ok c1 -> Rt p1 b (print_m r ++ k) c1 false = Ok c2 -> part p2 (print_m r) k c2 (Rm p2 r k c2)).
  { intros c1 c2 H H2. destruct (LX c1 H) as [L1 F1]. destruct (PB c1 H) as (_ & LB & _). pose proof (like_trans _ _ _ L1 (LB c2 H2)) as L2.
    apply (IR ind); [exact W5|exact EN2|exact W4|apply (like_act _ _ L2)|apply (like_sl _ _ L2 SL)|].
    intro I. rewrite (like_defs _ _ L2). apply OD. exact I. }
  assert (EQ : forall l, (l = true -> line_clear (rev (p2 ++ print_m r)) = true) ->
     Rm p (SMCons m kc b r) k c l
     = Gen_Model.bind (X c) (fun c1 => Gen_Model.bind (Rt p1 b (print_m r ++ k) c1 false) (fun c2 => Rm p2 r k c2 l))).
  { intros l LC. unfold Rm at 1. rewrite elab_m_cons. cbn [cut_next Gen_Spec.events_m]. fold p1 p2 cb. unfold X. rewrite bind_assoc.
    apply bind_ext. intros c0 H0. cbn [Gen_Model.run]. apply bind_ext. intros c1 H1. rewrite run_tm.
    assert (HX : X c = Ok c1) by (unfold X; rewrite H0; exact H1).
    fold (Rt p1 b (print_m r ++ k) c1 (cut_next p2 r k l)).
    rewrite (part_last _ _ _ _ _ (cut_next p2 r k l) (PB c1 HX)) by (intro CN; apply (next_clear p2 r k l LC CN)).
    rewrite bind_assoc. reflexivity. }
  unfold part. split; [|split].
  - rewrite EQ by discriminate.
    replace (((show_mid m ++ show_close kc) ++ print b ++ print_m r) ++ k) with ((show_mid m ++ show_close kc) ++ print b ++ print_m r ++ k)
      by (rewrite <- !app_assoc; reflexivity).
    replace (p ++ (show_mid m ++ show_close kc) ++ print b ++ print_m r) with (p2 ++ print_m r)
      by (unfold p2, p1; rewrite <- !app_assoc; reflexivity).
    apply (goes_seq _ _ _ _ _ _ _ GX). intros c1 H1. destruct (PB c1 H1) as (GB & _ & _).
    apply (goes_seq _ _ _ _ _ _ _ GB). intros c2 H2. apply (PR c1 c2 H1 H2).
  - rewrite EQ by discriminate. intros c3 H. apply bind_inv in H as (c1 & H1 & H). apply bind_inv in H as (c2 & H2 & H3).
    destruct (PB c1 H1) as (_ & LB & _). destruct (PR c1 c2 H1 H2) as (_ & LR & _).
    apply (like_trans _ c1); [apply (LX c1 H1)|]. apply (like_trans _ c2); [apply (LB c2 H2)|apply (LR c3 H3)].
  - intro LC. assert (LC2 : line_clear (rev (p2 ++ print_m r)) = true) by (unfold p2, p1; rewrite <- !app_assoc in *; exact LC).
    rewrite !EQ by (try discriminate; intros _; exact LC2). rewrite !bind_assoc. apply bind_ext. intros c1 H1.
    rewrite bind_assoc. apply bind_ext. intros c2 H2. apply (PR c1 c2 H1 H2). exact LC2.
Qed.

(** What an opening directive leads to. *)
Lemma open_inv : forall ind p1 n c0 c1, Gen_Model.s_sl c0 = true -> (ind = false -> Gen_Model.open_defs c0 = 0) ->
  str_eqb (L "def") n = false ->
  like (Gen_Model.set_open (n :: Gen_Model.s_open c0) c0) c1 -> flat c1 -> inv ind p1 c1.
Proof.
  intros ind p1 n c0 c1 SL OD ND LK FL. split; [apply flat_calm; exact FL|].
  pose proof (like_defs _ _ LK) as LD. destruct LK as (_ & S2 & _). split; [cbn in S2; congruence|].
  intro I. rewrite LD. unfold Gen_Model.open_defs in *. cbn [Gen_Model.set_open Gen_Model.s_open filter]. rewrite ND. apply OD. exact I.
Qed.

(** Opening, body and end, when all of it is in one method. *)
Lemma nest_like : forall n c0 c1 c2 c3, like (Gen_Model.set_open (n :: Gen_Model.s_open c0) c0) c1 -> like c1 c2 ->
  like (Gen_Model.set_open (Gen_Model.s_open c0) c2) c3 -> like c0 c3.
Proof.
  intros n c0 c1 c2 c3 (A1 & A2 & A3 & ma & A4) (B1 & B2 & B3 & mb & B4) (C1 & C2 & C3 & mc & C4).
  cbn in *. unfold like. rewrite C1, C2, C3, B2, B3, A2, A3. split; [reflexivity|]. split; [reflexivity|]. split; [reflexivity|].
  exists mc. rewrite C4, B4. cbn [tl]. rewrite A4. reflexivity.
Qed.

Lemma nest_open : forall n c0 c1 c2, like (Gen_Model.set_open (n :: Gen_Model.s_open c0) c0) c1 -> like c1 c2 ->
  Gen_Model.s_open c2 = n :: Gen_Model.s_open c0.
Proof. intros n c0 c1 c2 (A1 & _) (B1 & _). rewrite B1, A1. reflexivity. Qed.

Lemma inv_sl : forall ind p c c1, inv ind p c -> like c c1 -> Gen_Model.s_sl c1 = true.
Proof. intros ind p c c1 (_ & SL & _) LK. apply (like_sl _ _ LK SL). Qed.
Lemma inv_defs : forall ind p c c1, inv ind p c -> like c c1 -> ind = false -> Gen_Model.open_defs c1 = 0.
Proof. intros ind p c c1 (_ & _ & OD) LK I. rewrite (like_defs _ _ LK). apply OD. exact I. Qed.

Lemma blk_closeable : forall o, In (blk_name o) (map L ["capture"; "filter"; "cache"; "call"; "while"; "for"; "if"; "try"; "repeat"; "unless"]%string).
Proof. intros []; cbn; auto 20. Qed.
Lemma blk_oname : forall o, Gen_Model.oname (Gen_Spec.bop_open (blk_bop o)) = blk_name o.
Proof. intros []; reflexivity. Qed.
Lemma end_names : forall n, In n (map L ["capture"; "filter"; "cache"; "call"; "while"; "for"; "if"; "try"; "repeat"; "unless"]%string) ->
  In n (map L ["def"; "block"; "capture"; "filter"; "cache"; "call"; "while"; "for"; "if"; "try"; "repeat"; "unless"]%string).
Proof. intros n H. right. right. exact H. Qed.

Lemma main_blk : forall s o kc b ms ke r, Pt b -> Pm ms -> Pt r -> Pt (SBlk s o kc b ms ke r).
Proof.
  intros s o kc b ms ke r IB IM IR ind p k c W EN IV. cbn [wf print] in *. cbv zeta in W.
  destruct W as (W1 & W2 & W3 & W4 & W5 & W6 & W7 & W8 & W9 & W10).
  pose proof (proj1 IV) as CA. pose proof (calm_act p c CA) as A.
  set (p0 := p ++ s) in *. set (p1 := p0 ++ show_blk o ++ show_close kc) in *. set (p2 := p1 ++ print b) in *.
  set (p3 := p2 ++ print_m ms) in *. set (e := show_end (blk_name o) ++ show_close ke) in *. set (k3 := print r ++ k) in *.
  set (d := show_blk o ++ show_close kc) in *.
  set (cb := cut p0 kc (print b ++ print_m ms ++ e ++ k3)).
  set (ob := Gen_Spec.bop_open (blk_bop o)).
  set (OP := Gen_Model.step G (Gen_Model.EOpen ob [] (e_lc E (length p0)))).
  set (X := Gen_Model.bind (front s cb c) OP).
  set (EE := Gen_Model.step G (Gen_Model.EEnd (blk_name o))).
  set (Z := fun c3 => Gen_Model.bind (cutting G (cut p3 ke k3) c3) EE).
  set (XY := Gen_Model.bind X (fun c1 => Gen_Model.bind (Rt p1 b (print_m ms ++ e ++ k3) c1 false)
               (fun c2 => Gen_Model.bind (Rm p2 ms (e ++ k3) c2 false) Z))).
  (* opening *)
  assert (GX : goes (mkF (rev p) (s ++ d ++ print b ++ print_m ms ++ e ++ k3) c) X (rev p1) (print b ++ print_m ms ++ e ++ k3)).
  { apply goes_front; try assumption.
    - unfold d. rewrite <- app_assoc. exact W1.
    - discriminate.
    - unfold d. rewrite <- app_assoc. apply top_blk; assumption.
    - intros sub c1 L1. unfold d at 1. rewrite <- app_assoc. fold p0. rewrite (blk_eat sub o p0 kc (print b ++ print_m ms ++ e ++ k3) c1 W3 W2 W4 (like_act _ _ L1) (inv_sl _ _ _ _ IV L1)).
      unfold p1, d. f_equal. apply bind_ext. intros c2 _. unfold OP. cbn [Gen_Model.step]. unfold ob, Gen_Model.open_long.
      destruct (blk_bop o); reflexivity. }
  assert (LX : forall c1, X = Ok c1 -> exists c0, like c c0 /\
     like (Gen_Model.set_open (blk_name o :: Gen_Model.s_open c0) c0) c1 /\ flat c1).
  { intros c1 H. apply bind_inv in H as (c0 & H0 & H1). destruct (front_like s cb c A) as (c0' & F0 & L0).
    rewrite F0 in H0. injection H0 as <-. exists c0'. split; [exact L0|].
    rewrite <- (blk_oname o). fold ob. apply (open_inner G ob [] (e_lc E (length p0)) c0' c1).
    - unfold ob. destruct (blk_bop o); reflexivity.
    - apply bop_clears.
    - exact H1. }
  (* body *)
  assert (EN3 : ends p3 (e ++ k3)).
  { right. unfold e. rewrite <- app_assoc. apply top_end; assumption. }
  assert (EN2 : ends p2 (print_m ms ++ e ++ k3)).
  { apply next_ends; [destruct ind; [right|left]; exact W7|exact W6|exact EN3]. }
  assert (DN : str_eqb (L "def") (blk_name o) = false) by (destruct o; reflexivity).
  assert (PB : forall c1, X = Ok c1 -> inv ind p1 c1 /\ part p1 (print b) (print_m ms ++ e ++ k3) c1 (Rt p1 b (print_m ms ++ e ++ k3) c1)).
  { intros c1 H. destruct (LX c1 H) as (c0 & L0 & L1 & F1).
    assert (IV1 : inv ind p1 c1)
      by (apply (open_inv ind p1 (blk_name o) c0); try assumption; [apply (inv_sl _ _ _ _ IV L0)|apply (inv_defs _ _ _ _ IV L0)]).
    split; [exact IV1|]. apply (IB ind); [exact W5|exact EN2|exact IV1]. }
  (* the directives between *)
  assert (PM : forall c1 c2, X = Ok c1 -> Rt p1 b (print_m ms ++ e ++ k3) c1 false = Ok c2 ->
     like c1 c2 /\ part p2 (print_m ms) (e ++ k3) c2 (Rm p2 ms (e ++ k3) c2)).
  { intros c1 c2 H1 H2. destruct (PB c1 H1) as [IV1 (_ & LB & _)]. pose proof (LB c2 H2) as L2. split; [exact L2|].
    apply (IM ind); [exact W7|exact EN3|exact W6|apply (like_act _ _ L2)|apply (inv_sl _ _ _ _ IV1 L2)|apply (inv_defs _ _ _ _ IV1 L2)]. }
  (* the end *)
  assert (PE : forall c1 c2 c3, X = Ok c1 -> Rt p1 b (print_m ms ++ e ++ k3) c1 false = Ok c2 -> Rm p2 ms (e ++ k3) c2 false = Ok c3 ->
     goes (mkF (rev p3) (e ++ k3) c3) (Z c3) (rev (p3 ++ e)) k3 /\ (forall c4, Z c3 = Ok c4 -> like c c4 /\ flat c4)).
  { intros c1 c2 c3 H1 H2 H3. destruct (PB c1 H1) as [IV1 _]. destruct (PM c1 c2 H1 H2) as [L12 (_ & LM & _)].
    pose proof (like_trans _ _ _ L12 (LM c3 H3)) as L13. split.
    - apply goes_one; [discriminate|]. intro sub. unfold e. rewrite <- app_assoc. unfold Z, EE. apply end_eat.
      + apply end_names. apply blk_closeable.
      + exact W8.
      + exact W9.
      + apply (like_act _ _ L13).
      + apply (inv_sl _ _ _ _ IV1 L13).
    - intros c4 H4. unfold Z in H4. apply bind_inv in H4 as (c3' & HC & H4). pose proof (cutting_like _ _ _ _ (like_act _ _ L13) HC) as L3.
      pose proof (like_trans _ _ _ L13 L3) as L14. destruct (LX c1 H1) as (c0 & L0 & L1 & F1).
      destruct (end_inner G (blk_name o) c3' c4 (Gen_Model.s_open c0) (blk_closeable o) (nest_open _ _ _ _ L1 L14) H4) as [L4 F4].
      split; [|exact F4]. apply (like_trans _ _ _ L0). apply (nest_like _ _ _ _ _ L1 L14 L4). }
  assert (EQ : forall l, Rt p (SBlk s o kc b ms ke r) k c l = Gen_Model.bind XY (fun c4 => Rt (p3 ++ e) r k c4 l)).
  { intro l. unfold Rt at 1. rewrite elab_blk. cbv zeta. fold p0. change (show_blk o ++ show_close kc) with d. fold p1. fold p2. fold p3.
    fold e. fold k3. fold cb. rewrite (front_run p s _ _ c CA) by apply cut_clear.
    cbn [Gen_Spec.events]. unfold XY. rewrite bind_assoc. unfold X. rewrite bind_assoc. apply bind_ext. intros c0 H0.
    cbn [Gen_Model.run]. fold ob. fold OP. apply bind_ext. intros c1 H1.
    assert (HX : X = Ok c1) by (unfold X; rewrite H0; exact H1). destruct (PB c1 HX) as [IV1 PB1].
    rewrite run_tm. fold (Rt p1 b (print_m ms ++ e ++ k3) c1 (cut_next p2 ms (e ++ k3) (cut p3 ke k3))).
    rewrite (part_last _ _ _ _ _ (cut_next p2 ms (e ++ k3) (cut p3 ke k3)) PB1) by (apply next_clear; apply cut_clear).
    rewrite !bind_assoc. apply bind_ext. intros c2 H2. destruct (PM c1 c2 HX H2) as [L2 PM2].
    rewrite (bind_ext _ _ (cutting G _ c2) _ (fun c2' => Gen_Model.bind (Gen_Model.run G (Gen_Spec.events_m false (elab_m E p2 ms (e ++ k3) (cut p3 ke k3)) Gen_Model.Done) c2')
        (Gen_Model.run G (Gen_Model.Ev (Gen_Model.EEnd (Gen_Model.oname ob)) (Gen_Spec.events (elab E (p3 ++ e) r k l) Gen_Model.Done)))))
      by (intros; apply run_ms).
    rewrite <- bind_assoc. fold (Rm p2 ms (e ++ k3) c2 (cut p3 ke k3)).
    rewrite (part_last _ _ _ _ _ (cut p3 ke k3) PM2) by apply cut_clear.
    rewrite !bind_assoc. apply bind_ext. intros c3 H3. unfold Z. rewrite bind_assoc. apply bind_ext. intros c3' _.
    cbn [Gen_Model.run]. unfold ob. rewrite blk_oname. reflexivity. }
  assert (ES : s ++ show_blk o ++ show_close kc ++ print b ++ print_m ms ++ show_end (blk_name o) ++ show_close ke ++ print r
               = (s ++ d ++ print b ++ print_m ms ++ e) ++ print r)
    by (unfold d, e; rewrite <- !app_assoc; reflexivity).
  rewrite ES. rewrite ES in EN.
  assert (EP : p ++ s ++ d ++ print b ++ print_m ms ++ e = p3 ++ e)
    by (unfold p3, p2, p1, p0; fold d; rewrite <- !app_assoc; reflexivity).
  apply (part_ext _ _ _ _ _ _ EQ). apply part_seq.
  - replace ((s ++ d ++ print b ++ print_m ms ++ e) ++ print r ++ k) with (s ++ d ++ print b ++ print_m ms ++ e ++ k3)
      by (unfold k3; rewrite <- !app_assoc; reflexivity).
    rewrite EP. unfold XY. apply (goes_seq _ _ _ _ _ _ _ GX). intros c1 H1. destruct (PB c1 H1) as [_ (GB & _)].
    apply (goes_seq _ _ _ _ _ _ _ GB). intros c2 H2. destruct (PM c1 c2 H1 H2) as [_ (GM & _)].
    apply (goes_seq _ _ _ _ _ _ _ GM). intros c3 H3. apply (PE c1 c2 c3 H1 H2 H3).
  - intros c4 H. unfold XY in H. apply bind_inv in H as (c1 & H1 & H). apply bind_inv in H as (c2 & H2 & H). apply bind_inv in H as (c3 & H3 & H4).
    destruct (PE c1 c2 c3 H1 H2 H3) as [_ LE]. destruct (LE c4 H4) as [L4 F4]. split; [exact L4|]. rewrite EP.
    apply (IR ind); [exact W10|rewrite <- EP; rewrite <- app_assoc; exact EN|]. apply (inv_like ind p _ c c4 IV L4). apply flat_calm. exact F4.
Qed.

Lemma reg_closeable : forall o, In (reg_name o) (map L ["capture"; "filter"; "cache"; "call"; "while"; "for"; "if"; "try"; "repeat"; "unless"]%string).
Proof. intros []; cbn; auto 20. Qed.
Lemma reg_oname : forall o, Gen_Model.oname (Gen_Spec.rop_open (reg_rop o)) = reg_name o.
Proof. intros []; reflexivity. Qed.

Lemma elab_reg : forall p s o kc b ke r k l, elab E p (SReg s o kc b ke r) k l
  = let p0 := p ++ s in
      let p1 := p0 ++ show_reg o ++ show_close kc in
      let p2 := p1 ++ print b in
      let k3 := print r ++ k in
      let e := show_end (reg_name o) ++ show_close ke in
      text s (cut p0 kc (print b ++ e ++ k3))
        (Gen_Spec.TReg false (reg_rop o) (e_id E (length p0)) (e_lc E (length p0))
           (elab E p1 b (e ++ k3) (cut p2 ke k3)) (elab E (p2 ++ e) r k l)).
Proof. reflexivity. Qed.

Lemma main_reg : forall s o kc b ke r, Pt b -> Pt r -> Pt (SReg s o kc b ke r).
Proof.
  intros s o kc b ke r IB IR ind p k c W EN IV. cbn [wf print] in *. cbv zeta in W.
  destruct W as (W1 & W2 & W3 & W4 & W5 & W6 & W7 & W8).
  pose proof (proj1 IV) as CA. pose proof (calm_act p c CA) as A.
  set (p0 := p ++ s) in *. set (p1 := p0 ++ show_reg o ++ show_close kc) in *. set (p2 := p1 ++ print b) in *.
  set (e := show_end (reg_name o) ++ show_close ke) in *. set (k3 := print r ++ k) in *.
  set (d := show_reg o ++ show_close kc) in *.
  set (cb := cut p0 kc (print b ++ e ++ k3)).
  set (ob := Gen_Spec.rop_open (reg_rop o)).
  set (OP := Gen_Model.step G (Gen_Model.EOpen ob (e_id E (length p0)) (e_lc E (length p0)))).
  set (X := Gen_Model.bind (front s cb c) OP).
  set (EE := Gen_Model.step G (Gen_Model.EEnd (reg_name o))).
  set (Z := fun c3 => Gen_Model.bind (cutting G (cut p2 ke k3) c3) EE).
  set (XY := Gen_Model.bind X (fun c1 => Gen_Model.bind (Rt p1 b (e ++ k3) c1 false) Z)).
  assert (GX : goes (mkF (rev p) (s ++ d ++ print b ++ e ++ k3) c) X (rev p1) (print b ++ e ++ k3)).
  { apply goes_front; try assumption.
    - unfold d. rewrite <- app_assoc. exact W1.
    - discriminate.
    - unfold d. rewrite <- app_assoc. apply top_reg; assumption.
    - intros sub c1 L1. unfold d at 1. rewrite <- app_assoc. fold p0.
      rewrite (reg_eat sub o p0 kc (print b ++ e ++ k3) c1 W3 W2 W4 (like_act _ _ L1) (inv_sl _ _ _ _ IV L1)). reflexivity. }
  assert (LX : forall c1, X = Ok c1 -> exists c0, like c c0 /\
     like (Gen_Model.set_open (reg_name o :: Gen_Model.s_open c0) c0) c1 /\ flat c1).
  { intros c1 H. apply bind_inv in H as (c0 & H0 & H1). destruct (front_like s cb c A) as (c0' & F0 & L0).
    rewrite F0 in H0. injection H0 as <-. exists c0'. split; [exact L0|].
    rewrite <- (reg_oname o). fold ob. apply (open_inner G ob (e_id E (length p0)) (e_lc E (length p0)) c0' c1).
    - unfold ob. destruct o; reflexivity.
    - unfold ob. destruct o; [apply capture_clears|apply filter_clears|apply filter_clears|apply call_clears|apply cache_clears].
    - exact H1. }
  assert (EN2 : ends p2 (e ++ k3)).
  { right. unfold e. rewrite <- app_assoc. apply top_end; assumption. }
  assert (DN : str_eqb (L "def") (reg_name o) = false) by (destruct o; reflexivity).
  assert (PB : forall c1, X = Ok c1 -> inv ind p1 c1 /\ part p1 (print b) (e ++ k3) c1 (Rt p1 b (e ++ k3) c1)).
  { intros c1 H. destruct (LX c1 H) as (c0 & L0 & L1 & F1).
    assert (IV1 : inv ind p1 c1)
      by (apply (open_inv ind p1 (reg_name o) c0); try assumption; [apply (inv_sl _ _ _ _ IV L0)|apply (inv_defs _ _ _ _ IV L0)]).
    split; [exact IV1|]. apply (IB ind); [exact W5|exact EN2|exact IV1]. }
  assert (PE : forall c1 c3, X = Ok c1 -> Rt p1 b (e ++ k3) c1 false = Ok c3 ->
     goes (mkF (rev p2) (e ++ k3) c3) (Z c3) (rev (p2 ++ e)) k3 /\ (forall c4, Z c3 = Ok c4 -> like c c4 /\ flat c4)).
  { intros c1 c3 H1 H3. destruct (PB c1 H1) as [IV1 (_ & LB & _)]. pose proof (LB c3 H3) as L13. split.
    - apply goes_one; [discriminate|]. intro sub. unfold e. rewrite <- app_assoc. unfold Z, EE. apply end_eat.
      + apply end_names. apply reg_closeable.
      + exact W6.
      + exact W7.
      + apply (like_act _ _ L13).
      + apply (inv_sl _ _ _ _ IV1 L13).
    - intros c4 H4. unfold Z in H4. apply bind_inv in H4 as (c3' & HC & H4). pose proof (cutting_like _ _ _ _ (like_act _ _ L13) HC) as L3.
      pose proof (like_trans _ _ _ L13 L3) as L14. destruct (LX c1 H1) as (c0 & L0 & L1 & F1).
      destruct (end_inner G (reg_name o) c3' c4 (Gen_Model.s_open c0) (reg_closeable o) (nest_open _ _ _ _ L1 L14) H4) as [L4 F4].
      split; [|exact F4]. apply (like_trans _ _ _ L0). apply (nest_like _ _ _ _ _ L1 L14 L4). }
  assert (EQ : forall l, Rt p (SReg s o kc b ke r) k c l = Gen_Model.bind XY (fun c4 => Rt (p2 ++ e) r k c4 l)).
  { intro l. unfold Rt at 1. rewrite elab_reg. cbv zeta. fold p0. change (show_reg o ++ show_close kc) with d. fold p1. fold p2.
    fold e. fold k3. fold cb. rewrite (front_run p s _ _ c CA) by apply cut_clear.
    cbn [Gen_Spec.events]. unfold XY. rewrite bind_assoc. unfold X. rewrite bind_assoc. apply bind_ext. intros c0 H0.
    cbn [Gen_Model.run]. fold ob. fold OP. apply bind_ext. intros c1 H1.
    assert (HX : X = Ok c1) by (unfold X; rewrite H0; exact H1). destruct (PB c1 HX) as [IV1 PB1].
    rewrite run_tm. fold (Rt p1 b (e ++ k3) c1 (cut p2 ke k3)).
    rewrite (part_last _ _ _ _ _ (cut p2 ke k3) PB1) by (apply cut_clear).
    rewrite !bind_assoc. apply bind_ext. intros c3 H3. unfold Z. rewrite bind_assoc. apply bind_ext. intros c3' _.
    cbn [Gen_Model.run]. unfold ob. rewrite reg_oname. reflexivity. }
  assert (ES : s ++ show_reg o ++ show_close kc ++ print b ++ show_end (reg_name o) ++ show_close ke ++ print r
               = (s ++ d ++ print b ++ e) ++ print r)
    by (unfold d, e; rewrite <- !app_assoc; reflexivity).
  rewrite ES. rewrite ES in EN.
  assert (EP : p ++ s ++ d ++ print b ++ e = p2 ++ e)
    by (unfold p2, p1, p0; fold d; rewrite <- !app_assoc; reflexivity).
  apply (part_ext _ _ _ _ _ _ EQ). apply part_seq.
  - replace ((s ++ d ++ print b ++ e) ++ print r ++ k) with (s ++ d ++ print b ++ e ++ k3)
      by (unfold k3; rewrite <- !app_assoc; reflexivity).
    rewrite EP. unfold XY. apply (goes_seq _ _ _ _ _ _ _ GX). intros c1 H1. destruct (PB c1 H1) as [_ (GB & _)].
    apply (goes_seq _ _ _ _ _ _ _ GB). intros c3 H3. apply (PE c1 c3 H1 H3).
  - intros c4 H. unfold XY in H. apply bind_inv in H as (c1 & H1 & H). apply bind_inv in H as (c3 & H3 & H4).
    destruct (PE c1 c3 H1 H3) as [_ LE]. destruct (LE c4 H4) as [L4 F4]. split; [exact L4|]. rewrite EP.
    apply (IR ind); [exact W8|rewrite <- EP; rewrite <- app_assoc; exact EN|]. apply (inv_like ind p _ c c4 IV L4). apply flat_calm. exact F4.
Qed.

(** ** #call with #arg *)

Lemma arg_step : forall n c c1, Gen_Model.step G (Gen_Model.EArg n) c = Ok c1 -> like c c1 /\ flat c1.
Proof.
  intros n c c1 H. cbn [Gen_Model.step] in H.
  split; [apply (on_top_like _ _ _ H)|apply (on_top_flat _ _ _) in H; [exact H|]]. apply arg_clears.
Qed.

(** No text is left to be cut. *)
Lemma arg_cut : forall n p0 k rest c,
  Gen_Model.bind (Gen_Model.step G (Gen_Model.EArg n) c) (cutting G (cut p0 k rest)) = Gen_Model.step G (Gen_Model.EArg n) c.
Proof.
  intros n p0 k rest c. destruct (Gen_Model.step G (Gen_Model.EArg n) c) as [c1|e] eqn:H; [|reflexivity].
  cbn [Gen_Model.bind]. destruct (arg_step _ _ _ H) as [_ F]. destruct (cut p0 k rest) eqn:K; [|reflexivity].
  cbn [cutting]. apply (calm_strip p0); [apply flat_calm; exact F|apply (cut_clear p0 k rest K)].
Qed.

Lemma arg_ends : forall ind p ps k, wf_p E ind p ps k -> esc_ok (rev p) = true -> ends (p ++ print_p ps) k ->
  ends p (print_p ps ++ k).
Proof.
  intros ind p ps k W EO EN. destruct ps as [|n kc b r]; cbn [print_p].
  - cbn [print_p] in EN. rewrite app_nil_r in EN. exact EN.
  - right. rewrite <- !app_assoc. apply top_arg; [exact EO|]. apply W.
Qed.

Lemma arg_clear : forall p ps l, (l = true -> line_clear (rev (p ++ print_p ps)) = true) ->
  cut_arg ps l = true -> line_clear (rev p) = true.
Proof.
  intros p ps l H K. destruct ps as [|n kc b r]; cbn [cut_arg print_p] in *; [|discriminate].
  rewrite app_nil_r in H. apply H. exact K.
Qed.

Lemma main_no_arg : Pp SPNil.
Proof.
  intros ind p k c W EN EO A SL OD. unfold part, Rp. cbn [print_p cut_arg elab_p Gen_Spec.events_p Gen_Model.run cutting Gen_Model.bind].
  rewrite app_nil_r. split; [apply goes_refl|]. split.
  - intros c1 H. injection H as <-. apply like_refl. exact A.
  - intros _. apply bind_ok.
Qed.

Lemma main_arg : forall n kc b r, Pt b -> Pp r -> Pp (SPCons n kc b r).
Proof.
  intros n kc b r IB IR ind p k c W EN EO A SL OD. cbn [wf_p print_p] in *. cbv zeta in W. destruct W as (W1 & W2 & W3 & W4 & W5).
  set (p1 := p ++ show_part n ++ show_close kc) in *. set (p2 := p1 ++ print b) in *.
  assert (E1 : forall z, show_part n ++ show_close kc ++ print b ++ z = (show_part n ++ show_close kc) ++ print b ++ z)
    by (intro z; rewrite <- !app_assoc; reflexivity).
  rewrite E1. rewrite E1 in EN.
  assert (EN2 : ends (p2 ++ print_p r) k) by (unfold p2, p1; rewrite <- !app_assoc in *; exact EN).
  assert (EN1 : ends (p1 ++ print b) (print_p r ++ k)) by (apply (arg_ends ind); [exact W5|exact W4|exact EN2]).
  set (X := Gen_Model.step G (Gen_Model.EArg n)).
  assert (GX : goes (mkF (rev p) ((show_part n ++ show_close kc) ++ print b ++ print_p r ++ k) c) (X c) (rev p1) (print b ++ print_p r ++ k)).
  { apply goes_one; [discriminate|]. intro sub. rewrite <- app_assoc. unfold X, p1. rewrite <- (arg_cut n p kc (print b ++ print_p r ++ k) c).
    apply arg_eat; assumption. }
  assert (LX : forall c1, X c = Ok c1 -> like c c1 /\ flat c1) by (intros c1 H; apply (arg_step n); exact H).
  assert (PB : forall c1, X c = Ok c1 -> part p1 (print b) (print_p r ++ k) c1 (Rt p1 b (print_p r ++ k) c1)).
  { intros c1 H. destruct (LX c1 H) as [L1 F1]. apply (IB ind); [exact W3|exact EN1|].
    split; [apply flat_calm; exact F1|]. split; [apply (like_sl _ _ L1 SL)|]. intro I. rewrite (like_defs _ _ L1). apply OD. exact I. }
  assert (PR : forall c1 c2, X c = Ok c1 -> Rt p1 b (print_p r ++ k) c1 false = Ok c2 -> part p2 (print_p r) k c2 (Rp p2 r k c2)).
  { intros c1 c2 H H2. destruct (LX c1 H) as [L1 F1]. destruct (PB c1 H) as (_ & LB & _). pose proof (like_trans _ _ _ L1 (LB c2 H2)) as L2.
    apply (IR ind); [exact W5|exact EN2|exact W4|apply (like_act _ _ L2)|apply (like_sl _ _ L2 SL)|].
    intro I. rewrite (like_defs _ _ L2). apply OD. exact I. }
  assert (EQ : forall l, (l = true -> line_clear (rev (p2 ++ print_p r)) = true) ->
     Rp p (SPCons n kc b r) k c l
     = Gen_Model.bind (X c) (fun c1 => Gen_Model.bind (Rt p1 b (print_p r ++ k) c1 false) (fun c2 => Rp p2 r k c2 l))).
  { intros l LC. unfold Rp at 1. rewrite elab_p_cons. cbn [cut_arg cutting Gen_Model.bind Gen_Spec.events_p]. fold p1 p2. unfold X.
    cbn [Gen_Model.run]. apply bind_ext. intros c1 HX. rewrite run_tm.
    fold (Rt p1 b (print_p r ++ k) c1 (cut_arg r l)).
    rewrite (part_last _ _ _ _ _ (cut_arg r l) (PB c1 HX)) by (intro CN; apply (arg_clear p2 r l LC CN)).
    rewrite bind_assoc. reflexivity. }
  unfold part. split; [|split].
  - rewrite EQ by discriminate.
    replace (((show_part n ++ show_close kc) ++ print b ++ print_p r) ++ k) with ((show_part n ++ show_close kc) ++ print b ++ print_p r ++ k)
      by (rewrite <- !app_assoc; reflexivity).
    replace (p ++ (show_part n ++ show_close kc) ++ print b ++ print_p r) with (p2 ++ print_p r)
      by (unfold p2, p1; rewrite <- !app_assoc; reflexivity).
    apply (goes_seq _ _ _ _ _ _ _ GX). intros c1 H1. destruct (PB c1 H1) as (GB & _ & _).
    apply (goes_seq _ _ _ _ _ _ _ GB). intros c2 H2. apply (PR c1 c2 H1 H2).
  - rewrite EQ by discriminate. intros c3 H. apply bind_inv in H as (c1 & H1 & H). apply bind_inv in H as (c2 & H2 & H3).
    destruct (PB c1 H1) as (_ & LB & _). destruct (PR c1 c2 H1 H2) as (_ & LR & _).
    apply (like_trans _ c1); [apply (LX c1 H1)|]. apply (like_trans _ c2); [apply (LB c2 H2)|apply (LR c3 H3)].
  - intro LC. assert (LC2 : line_clear (rev (p2 ++ print_p r)) = true) by (unfold p2, p1; rewrite <- !app_assoc in *; exact LC).
    rewrite !EQ by (try discriminate; intros _; exact LC2). rewrite !bind_assoc. apply bind_ext. intros c1 H1.
    rewrite bind_assoc. apply bind_ext. intros c2 H2. apply (PR c1 c2 H1 H2). exact LC2.
Qed.

Lemma called_run : forall fn a id lc ps r c,
  Gen_Model.run G (Gen_Spec.events (called fn a id lc ps r) Gen_Model.Done) c
  = Gen_Model.bind (Gen_Model.step G (Gen_Model.EOpen (Gen_Model.OCall fn a) id lc) c) (fun c1 =>
    Gen_Model.bind (Gen_Model.run G (Gen_Spec.events_p ps Gen_Model.Done) c1) (fun c2 =>
    Gen_Model.bind (Gen_Model.step G (Gen_Model.EEnd (L "call")) c2) (Gen_Model.run G (Gen_Spec.events r Gen_Model.Done)))).
Proof.
  intros fn a id lc ps r c.
  transitivity (Gen_Model.bind (Gen_Model.step G (Gen_Model.EOpen (Gen_Model.OCall fn a) id lc) c)
    (Gen_Model.run G (Gen_Spec.events_p ps (Gen_Model.Ev (Gen_Model.EEnd (L "call")) (Gen_Spec.events r Gen_Model.Done))))).
  - destruct ps; reflexivity.
  - apply bind_ext. intros c1 _. rewrite run_ps. reflexivity.
Qed.

Lemma main_call : forall s fn a kc ps ke r, Pp ps -> Pt r -> Pt (SCall s fn a kc ps ke r).
Proof.
  intros s fn a kc ps ke r IB IR ind p k c W EN IV. cbn [wf print] in *. cbv zeta in W.
  destruct W as (W1 & W2 & W3 & W4 & W50 & W5 & W6 & W7 & W8).
  pose proof (proj1 IV) as CA. pose proof (calm_act p c CA) as A.
  set (o := ICall fn a) in *. set (p0 := p ++ s) in *. set (p1 := p0 ++ show_reg o ++ show_close kc) in *. set (p2 := p1 ++ print_p ps) in *.
  set (e := show_end (L "call") ++ show_close ke) in *. set (k3 := print r ++ k) in *.
  set (d := show_reg o ++ show_close kc) in *.
  set (cb := cut p0 kc (print_p ps ++ e ++ k3)).
  set (ob := Gen_Spec.rop_open (reg_rop o)).
  set (OP := Gen_Model.step G (Gen_Model.EOpen ob (e_id E (length p0)) (e_lc E (length p0)))).
  set (X := Gen_Model.bind (front s cb c) OP).
  set (EE := Gen_Model.step G (Gen_Model.EEnd (L "call"))).
  set (Z := fun c3 => Gen_Model.bind (cutting G (cut p2 ke k3) c3) EE).
  set (XY := Gen_Model.bind X (fun c1 => Gen_Model.bind (Rp p1 ps (e ++ k3) c1 false) Z)).
  assert (GX : goes (mkF (rev p) (s ++ d ++ print_p ps ++ e ++ k3) c) X (rev p1) (print_p ps ++ e ++ k3)).
  { apply goes_front; try assumption.
    - unfold d. rewrite <- app_assoc. exact W1.
    - discriminate.
    - unfold d. rewrite <- app_assoc. apply top_reg; assumption.
    - intros sub c1 L1. unfold d at 1. rewrite <- app_assoc. fold p0.
      rewrite (reg_eat sub o p0 kc (print_p ps ++ e ++ k3) c1 W3 W2 W4 (like_act _ _ L1) (inv_sl _ _ _ _ IV L1)). reflexivity. }
  assert (LX : forall c1, X = Ok c1 -> exists c0, like c c0 /\
     like (Gen_Model.set_open (L "call" :: Gen_Model.s_open c0) c0) c1 /\ flat c1).
  { intros c1 H. apply bind_inv in H as (c0 & H0 & H1). destruct (front_like s cb c A) as (c0' & F0 & L0).
    rewrite F0 in H0. injection H0 as <-. exists c0'. split; [exact L0|].
    change (L "call") with (Gen_Model.oname ob). apply (open_inner G ob (e_id E (length p0)) (e_lc E (length p0)) c0' c1).
    - reflexivity.
    - apply call_clears.
    - exact H1. }
  assert (EN2 : ends p2 (e ++ k3)).
  { right. unfold e. rewrite <- app_assoc. apply top_end; assumption. }
  assert (DN : str_eqb (L "def") (L "call") = false) by reflexivity.
  assert (PB : forall c1, X = Ok c1 -> inv ind p1 c1 /\ part p1 (print_p ps) (e ++ k3) c1 (Rp p1 ps (e ++ k3) c1)).
  { intros c1 H. destruct (LX c1 H) as (c0 & L0 & L1 & F1).
    assert (IV1 : inv ind p1 c1)
      by (apply (open_inv ind p1 (L "call") c0); try assumption; [apply (inv_sl _ _ _ _ IV L0)|apply (inv_defs _ _ _ _ IV L0)]).
    split; [exact IV1|]. apply (IB ind); [exact W5|exact EN2|exact W50|apply (calm_act p1); apply IV1|apply IV1|apply IV1]. }
  assert (PE : forall c1 c3, X = Ok c1 -> Rp p1 ps (e ++ k3) c1 false = Ok c3 ->
     goes (mkF (rev p2) (e ++ k3) c3) (Z c3) (rev (p2 ++ e)) k3 /\ (forall c4, Z c3 = Ok c4 -> like c c4 /\ flat c4)).
  { intros c1 c3 H1 H3. destruct (PB c1 H1) as [IV1 (_ & LB & _)]. pose proof (LB c3 H3) as L13. split.
    - apply goes_one; [discriminate|]. intro sub. unfold e. rewrite <- app_assoc. unfold Z, EE. apply end_eat.
      + cbn; auto 20.
      + exact W6.
      + exact W7.
      + apply (like_act _ _ L13).
      + apply (inv_sl _ _ _ _ IV1 L13).
    - intros c4 H4. unfold Z in H4. apply bind_inv in H4 as (c3' & HC & H4). pose proof (cutting_like _ _ _ _ (like_act _ _ L13) HC) as L3.
      pose proof (like_trans _ _ _ L13 L3) as L14. destruct (LX c1 H1) as (c0 & L0 & L1 & F1).
      destruct (end_inner G (L "call") c3' c4 (Gen_Model.s_open c0) (reg_closeable o) (nest_open _ _ _ _ L1 L14) H4) as [L4 F4].
      split; [|exact F4]. apply (like_trans _ _ _ L0). apply (nest_like _ _ _ _ _ L1 L14 L4). }
  assert (EQ : forall l, Rt p (SCall s fn a kc ps ke r) k c l = Gen_Model.bind XY (fun c4 => Rt (p2 ++ e) r k c4 l)).
  { intro l. unfold Rt at 1. rewrite elab_call. cbv zeta. fold o. fold p0. change (show_reg o ++ show_close kc) with d. fold p1. fold p2.
    fold e. fold k3. fold cb. rewrite (front_run p s _ _ c CA) by apply cut_clear.
    unfold XY. rewrite bind_assoc. unfold X. rewrite bind_assoc. apply bind_ext. intros c0 H0.
    rewrite called_run.
    change (Gen_Model.step G (Gen_Model.EOpen (Gen_Model.OCall (x_code fn) match a with Some x => x_code x | None => [] end) (e_id E (length p0)) (e_lc E (length p0)))) with OP.
    apply bind_ext. intros c1 H1.
    assert (HX : X = Ok c1) by (unfold X; rewrite H0; exact H1). destruct (PB c1 HX) as [IV1 PB1].
    assert (FC : cutting G (cut_arg ps (cut p2 ke k3)) c1 = Ok c1).
    { destruct (cut_arg ps (cut p2 ke k3)) eqn:CT; [|reflexivity]. apply (calm_strip p1); [apply IV1|].
      apply (arg_clear p1 ps (cut p2 ke k3)); [intro; apply (cut_clear p2 ke k3); assumption|exact CT]. }
    assert (RR : Gen_Model.run G (Gen_Spec.events_p (elab_p E p1 ps (e ++ k3) (cut p2 ke k3)) Gen_Model.Done) c1
                 = Rp p1 ps (e ++ k3) c1 (cut p2 ke k3)) by (unfold Rp; rewrite FC; reflexivity).
    rewrite RR. rewrite (part_last _ _ _ _ _ (cut p2 ke k3) PB1) by (apply cut_clear).
    rewrite !bind_assoc. apply bind_ext. intros c3 H3. unfold Z. rewrite bind_assoc. reflexivity. }
  assert (ES : s ++ show_reg o ++ show_close kc ++ print_p ps ++ show_end (L "call") ++ show_close ke ++ print r
               = (s ++ d ++ print_p ps ++ e) ++ print r)
    by (unfold d, e; rewrite <- !app_assoc; reflexivity).
  rewrite ES. rewrite ES in EN.
  assert (EP : p ++ s ++ d ++ print_p ps ++ e = p2 ++ e)
    by (unfold p2, p1, p0; fold d; rewrite <- !app_assoc; reflexivity).
  apply (part_ext _ _ _ _ _ _ EQ). apply part_seq.
  - replace ((s ++ d ++ print_p ps ++ e) ++ print r ++ k) with (s ++ d ++ print_p ps ++ e ++ k3)
      by (unfold k3; rewrite <- !app_assoc; reflexivity).
    rewrite EP. unfold XY. apply (goes_seq _ _ _ _ _ _ _ GX). intros c1 H1. destruct (PB c1 H1) as [_ (GB & _)].
    apply (goes_seq _ _ _ _ _ _ _ GB). intros c3 H3. apply (PE c1 c3 H1 H3).
  - intros c4 H. unfold XY in H. apply bind_inv in H as (c1 & H1 & H). apply bind_inv in H as (c3 & H3 & H4).
    destruct (PE c1 c3 H1 H3) as [_ LE]. destruct (LE c4 H4) as [L4 F4]. split; [exact L4|]. rewrite EP.
    apply (IR ind); [exact W8|rewrite <- EP; rewrite <- app_assoc; exact EN|]. apply (inv_like ind p _ c c4 IV L4). apply flat_calm. exact F4.
Qed.

Lemma def_oname : forall o n a rem, Gen_Model.oname (Gen_Spec.dop_open (def_dop o) n a rem) = def_name o.
Proof. intros []; reflexivity. Qed.

Lemma elab_def : forall p s o n a kc b ke r k l, elab E p (SDef s o n a kc b ke r) k l
  = let p0 := p ++ s in
      let p1 := p0 ++ show_def o n a ++ show_close kc in
      let p2 := p1 ++ print b in
      let k3 := print r ++ k in
      let e := show_end (def_name o) ++ show_close ke in
      text s (cut p0 kc (print b ++ e ++ k3))
        (Gen_Spec.TDef false (def_dop o) n (args_val a) []
           (elab E p1 b (e ++ k3) (cut p2 ke k3)) (elab E (p2 ++ e) r k l)).
Proof. reflexivity. Qed.

Lemma main_def : forall s o n a kc b ke r, Pt b -> Pt r -> Pt (SDef s o n a kc b ke r).
Proof.
  intros s o n a kc b ke r IB IR ind p k c W EN IV. cbn [wf print] in *. cbv zeta in W.
  destruct W as (W1 & W2 & W3 & WA & W4 & WD & W5 & W6 & W7 & W8).
  pose proof (proj1 IV) as CA. pose proof (calm_act p c CA) as A.
  set (p0 := p ++ s) in *. set (p1 := p0 ++ show_def o n a ++ show_close kc) in *. set (p2 := p1 ++ print b) in *.
  set (e := show_end (def_name o) ++ show_close ke) in *. set (k3 := print r ++ k) in *.
  set (d := show_def o n a ++ show_close kc) in *.
  set (cb := cut p0 kc (print b ++ e ++ k3)) in *.
  set (ob := Gen_Spec.dop_open (def_dop o) n (args_val a) []).
  set (OP := Gen_Model.step G (Gen_Model.EOpen ob [] (0, 0)%N)).
  set (X := Gen_Model.bind (front s cb c) OP).
  set (EE := Gen_Model.step G (Gen_Model.EEnd (def_name o))).
  set (Z := fun c3 => Gen_Model.bind (cutting G (cut p2 ke k3) c3) EE).
  set (XY := Gen_Model.bind X (fun c1 => Gen_Model.bind (Rt p1 b (e ++ k3) c1 false) Z)).
  assert (OD : forall c0, like c c0 -> o = IDef -> Gen_Model.open_defs c0 = 0).
  { intros c0 L0 I. apply (inv_defs _ _ _ _ IV L0). apply (WD I). }
  assert (GX : goes (mkF (rev p) (s ++ d ++ print b ++ e ++ k3) c) X (rev p1) (print b ++ e ++ k3)).
  { apply goes_front; try assumption.
    - unfold d. rewrite <- app_assoc. exact W1.
    - discriminate.
    - unfold d. rewrite <- app_assoc. apply top_def; assumption.
    - intros sub c1 L1. unfold d at 1. rewrite <- app_assoc. fold p0.
      destruct (def_eat sub o n a p0 kc (print b ++ e ++ k3) c1 W3 WA W2 W4 (like_act _ _ L1) (inv_sl _ _ _ _ IV L1)) as [rem Q].
      rewrite Q. unfold p1, d. f_equal. apply bind_ext. intros c2 H2. unfold OP, ob. cbn [Gen_Model.step].
      apply (def_open o n (args_val a) rem (e_lc E (length p0)) (0, 0)%N [] c2). apply OD. apply (like_trans _ _ _ L1).
      apply (cutting_like _ _ _ _ (like_act _ _ L1) H2). }
  assert (LX : forall c1, X = Ok c1 -> exists c0, front s cb c = Ok c0 /\ like c c0 /\
     c1 = Gen_Model.start_method G (n, args_val a) (Gen_Model.set_open (def_name o :: Gen_Model.s_open c0) c0)).
  { intros c1 H. apply bind_inv in H as (c0 & H0 & H1). destruct (front_like s cb c A) as (c0' & F0 & L0).
    rewrite F0 in H0. injection H0 as <-. exists c0'. split; [exact F0|]. split; [exact L0|].
    unfold OP, ob in H1. cbn [Gen_Model.step] in H1.
    rewrite (proj2 (def_open o n (args_val a) [] (0, 0)%N (0, 0)%N [] c0' (OD c0' L0))) in H1. injection H1 as <-. reflexivity. }
  assert (EN2 : ends p2 (e ++ k3)).
  { right. unfold e. rewrite <- app_assoc. apply top_end; assumption. }
  set (ind' := match o with IDef => true | IBlock => ind end) in *.
  assert (PB : forall c1, X = Ok c1 -> inv ind' p1 c1 /\ part p1 (print b) (e ++ k3) c1 (Rt p1 b (e ++ k3) c1)).
  { intros c1 H. destruct (LX c1 H) as (c0 & F0 & L0 & ->).
    assert (IV1 : inv ind' p1 (Gen_Model.start_method G (n, args_val a) (Gen_Model.set_open (def_name o :: Gen_Model.s_open c0) c0))).
    { split; [apply flat_calm; do 2 eexists; split; reflexivity|]. split; [apply (inv_sl _ _ _ _ IV L0)|].
      intro I. unfold ind' in I. destruct o; [discriminate I|]. apply (inv_defs _ _ _ _ IV L0 I). }
    split; [exact IV1|]. apply (IB ind'); [exact W5|exact EN2|exact IV1]. }
  assert (PE : forall c1 c3, X = Ok c1 -> Rt p1 b (e ++ k3) c1 false = Ok c3 ->
     goes (mkF (rev p2) (e ++ k3) c3) (Z c3) (rev (p2 ++ e)) k3 /\ (forall c4, Z c3 = Ok c4 -> like c c4 /\ calm (p2 ++ e) c4)).
  { intros c1 c3 H1 H3. destruct (PB c1 H1) as [IV1 (_ & LB & _)]. pose proof (LB c3 H3) as L13. split.
    - apply goes_one; [discriminate|]. intro sub. unfold e. rewrite <- app_assoc. unfold Z, EE. apply end_eat.
      + destruct o; cbn; auto.
      + exact W6.
      + exact W7.
      + apply (like_act _ _ L13).
      + apply (inv_sl _ _ _ _ IV1 L13).
    - intros c4 H4. unfold Z in H4. apply bind_inv in H4 as (c3' & HC & H4). pose proof (cutting_like _ _ _ _ (like_act _ _ L13) HC) as L3.
      pose proof (like_trans _ _ _ L13 L3) as (M1 & M2 & M3 & mb & M4). destruct (LX c1 H1) as (c0 & F0 & L0 & ->).
      cbn [Gen_Model.start_method Gen_Model.set_open Gen_Model.set_act Gen_Model.s_open Gen_Model.s_sl Gen_Model.s_sl0 Gen_Model.s_act tl] in *.
      destruct (def_close o c3' c4 mb (Gen_Model.s_act c0) (Gen_Model.s_open c0)) as (D1 & D2 & D3 & D4); try assumption.
      + intro I. apply (OD c0 L0 I).
      + apply (like_act _ _ L0).
      + assert (L4 : like c0 c4).
        { unfold like. rewrite D1, D2, D3, M2, M3. split; [reflexivity|]. split; [reflexivity|]. split; [reflexivity|].
          pose proof (like_act _ _ L0) as A0.
          destruct o; [rewrite D4; destruct (Gen_Model.s_act c0) as [|m0 r0]; [congruence|exists m0; reflexivity]|].
          destruct D4 as (m' & D4 & _). exists m'. exact D4. }
        split; [apply (like_trans _ _ _ L0 L4)|]. destruct o.
        * destruct (Gen_Model.s_act c0) as [|m0 r0] eqn:A0; [exfalso; apply (like_act _ _ L0); exact A0|].
          exists m0, r0. split; [exact D4|]. intro LC. destruct (WD eq_refl) as [_ CT]. specialize (CT LC).
          rewrite CT in F0. destruct (front_cut s c c0 F0) as (m2 & r2 & Q1 & Q2). rewrite A0 in Q1.
          injection Q1 as -> _. exact Q2.
        * destruct D4 as (m' & D4 & D5). apply flat_calm. exists m', (tl (Gen_Model.s_act c0)). split; assumption. }
  assert (EQ : forall l, Rt p (SDef s o n a kc b ke r) k c l = Gen_Model.bind XY (fun c4 => Rt (p2 ++ e) r k c4 l)).
  { intro l. unfold Rt at 1. rewrite elab_def. cbv zeta. fold p0. change (show_def o n a ++ show_close kc) with d. fold p1. fold p2.
    fold e. fold k3. fold cb. rewrite (front_run p s _ _ c CA) by apply cut_clear.
    cbn [Gen_Spec.events]. unfold XY. rewrite bind_assoc. unfold X. rewrite bind_assoc. apply bind_ext. intros c0 H0.
    cbn [Gen_Model.run]. fold ob. fold OP. apply bind_ext. intros c1 H1.
    assert (HX : X = Ok c1) by (unfold X; rewrite H0; exact H1). destruct (PB c1 HX) as [IV1 PB1].
    rewrite run_tm. fold (Rt p1 b (e ++ k3) c1 (cut p2 ke k3)).
    rewrite (part_last _ _ _ _ _ (cut p2 ke k3) PB1) by (apply cut_clear).
    rewrite !bind_assoc. apply bind_ext. intros c3 H3. unfold Z. rewrite bind_assoc. apply bind_ext. intros c3' _.
    cbn [Gen_Model.run]. unfold ob. rewrite def_oname. reflexivity. }
  assert (ES : s ++ show_def o n a ++ show_close kc ++ print b ++ show_end (def_name o) ++ show_close ke ++ print r
               = (s ++ d ++ print b ++ e) ++ print r)
    by (unfold d, e; rewrite <- !app_assoc; reflexivity).
  rewrite ES. rewrite ES in EN.
  assert (EP : p ++ s ++ d ++ print b ++ e = p2 ++ e)
    by (unfold p2, p1, p0; fold d; rewrite <- !app_assoc; reflexivity).
  apply (part_ext _ _ _ _ _ _ EQ). apply part_seq.
  - replace ((s ++ d ++ print b ++ e) ++ print r ++ k) with (s ++ d ++ print b ++ e ++ k3)
      by (unfold k3; rewrite <- !app_assoc; reflexivity).
    rewrite EP. unfold XY. apply (goes_seq _ _ _ _ _ _ _ GX). intros c1 H1. destruct (PB c1 H1) as [_ (GB & _)].
    apply (goes_seq _ _ _ _ _ _ _ GB). intros c3 H3. apply (PE c1 c3 H1 H3).
  - intros c4 H. unfold XY in H. apply bind_inv in H as (c1 & H1 & H). apply bind_inv in H as (c3 & H3 & H4).
    destruct (PE c1 c3 H1 H3) as [_ LE]. destruct (LE c4 H4) as [L4 F4]. split; [exact L4|]. rewrite EP.
    apply (IR ind); [exact W8|rewrite <- EP; rewrite <- app_assoc; exact EN|]. apply (inv_like ind p _ c c4 IV L4). exact F4.
Qed.

(** ** Short forms *)

Lemma flat_act : forall c, flat c -> Gen_Model.s_act c <> [].
Proof. intros c (m & r & A & _). rewrite A. discriminate. Qed.

Lemma one_inv : forall ind p c c1, (ind = false -> Gen_Model.open_defs c = 0) -> Gen_Model.s_sl c = true -> like c c1 -> flat c1 -> inv ind p c1.
Proof.
  intros ind p c c1 OD SL L1 F1. split; [apply flat_calm; exact F1|]. split; [apply (like_sl _ _ L1 SL)|].
  intro I. rewrite (like_defs _ _ L1). apply OD. exact I.
Qed.

(** A directive with a body in the short form, without the directives between. *)
Lemma one_part : forall ind ob id lc p0 d b rest c, Pt b -> d <> [] -> inner ob = true -> clears (Gen_Model.open_code G ob id lc) ->
  clears (Gen_Model.close_code G (Gen_Model.oname ob)) -> wf E ind (p0 ++ d ++ L ": ") b [] ->
  Gen_Model.s_act c <> [] -> Gen_Model.s_sl c = true -> (ind = false -> Gen_Model.open_defs c = 0) ->
  (forall sub, eat E sub (mkF (rev p0) (d ++ L ": " ++ print b ++ rest) c)
    = fbind (from_g (Gen_Model.open_short G ob id lc c)) (fun '(c1, mem) =>
      fbind (sub (mkF (rev (p0 ++ d ++ L ": ")) (print b) c1)) (fun s' =>
      fbind (from_g (Gen_Model.close_short G ob mem (f_c s'))) (fun c2 => fok (mkF (f_b s') (f_r s' ++ rest) c2))))) ->
  let X := Gen_Model.run G (Gen_Model.Short ob id lc (Gen_Spec.events (elab E (p0 ++ d ++ L ": ") b [] false) Gen_Model.Done) Gen_Model.Done) c in
  goes (mkF (rev p0) (d ++ L ": " ++ print b ++ rest) c) X (rev ((p0 ++ d ++ L ": ") ++ print b)) rest /\
  (forall c1, X = Ok c1 -> like c c1 /\ flat c1).
Proof.
  intros ind ob id lc p0 d b rest c IB ND IN CO CC W A SL OD EAT X. set (p1 := p0 ++ d ++ L ": ") in *.
  assert (OS : forall c1 mem, Gen_Model.open_short G ob id lc c = Ok (c1, mem) -> like c c1 /\ flat c1).
  { intros c1 mem H.
    assert (H' : Gen_Model.bind (Gen_Model.on_top (Gen_Model.open_code G ob id lc) c) (fun c => Ok (c, (Gen_Model.nested_short G c, Gen_Model.s_sl c))) = Ok (c1, mem)
                 \/ exists q, Gen_Model.bind (Gen_Model.on_top (Gen_Model.open_code G ob id lc) c) (fun c => Ok (c, q)) = Ok (c1, mem))
      by (right; eexists; destruct ob; try discriminate IN; exact H).
    destruct H' as [H'|[q H']]; apply bind_inv in H' as (c0 & H0 & H1); injection H1 as -> _;
      (split; [apply (on_top_like _ _ _ H0)|apply (on_top_flat _ _ _ CO H0)]). }
  assert (CS : forall c2 mem c3, Gen_Model.close_short G ob mem c2 = Ok c3 -> like c2 c3 /\ flat c3).
  { intros c2 mem c3 H.
    assert (H' : Gen_Model.on_top (Gen_Model.close_code G (Gen_Model.oname ob)) c2 = Ok c3) by (destruct ob; try discriminate IN; exact H).
    split; [apply (on_top_like _ _ _ H')|apply (on_top_flat _ _ _ CC H')]. }
  assert (PB : forall c1 mem, Gen_Model.open_short G ob id lc c = Ok (c1, mem) -> part p1 (print b) [] c1 (Rt p1 b [] c1)).
  { intros c1 mem H. destruct (OS c1 mem H) as [L1 F1]. apply (IB ind); [exact W|left; reflexivity|].
    apply (one_inv ind p1 c c1); assumption. }
  assert (EX : X = Gen_Model.bind (Gen_Model.open_short G ob id lc c) (fun p => Gen_Model.bind (Rt p1 b [] (fst p) false) (fun c2 =>
                   Gen_Model.bind (Gen_Model.close_short G ob (snd p) c2) (fun c3 => Ok c3)))) by reflexivity.
  split.
  - rewrite EX. apply (goes_line _ _ _ (rev p1) (print b) (rev (p1 ++ print b)) (fun c1 => Rt p1 b [] c1 false) (fun mem => Gen_Model.close_short G ob mem)
      (fun b' r' c2 => fok (mkF b' (r' ++ rest) c2)) (fun c3 => Ok c3)).
    + destruct d; [congruence|discriminate].
    + exact EAT.
    + intros c1 mem H. destruct (PB c1 mem H) as (GB & _). rewrite app_nil_r in GB. exact GB.
    + reflexivity.
  - intros c3 H. rewrite EX in H. apply bind_inv in H as ([c1 mem] & H1 & H). apply bind_inv in H as (c2 & H2 & H). rewrite bind_ok in H.
    cbn [fst snd] in *. destruct (OS c1 mem H1) as [L1 _]. destruct (PB c1 mem H1) as (_ & LB & _). destruct (CS c2 mem c3 H) as [L3 F3].
    split; [|exact F3]. apply (like_trans _ _ _ L1). apply (like_trans _ _ _ (LB c2 H2) L3).
Qed.

Lemma main_none : Pn SNNil.
Proof.
  intros ind p k c W FL SL OD. cbn [print_n elab_n Gen_Spec.events_m Gen_Model.run app]. rewrite app_nil_r. split; [apply goes_refl|].
  intros c1 H. injection H as <-. split; [apply like_refl; apply flat_act; exact FL|exact FL].
Qed.

Lemma main_mid1 : forall m b r, Pt b -> Pn r -> Pn (SNCons m b r).
Proof.
  intros m b r IB IR ind p k c W FL SL OD. cbn [wf_n print_n] in *. cbv zeta in W. destruct W as (W1 & W2 & W3 & W4 & W5).
  rewrite elab_n_cons. cbn [Gen_Spec.events_m].
  set (p1 := p ++ show_mid m ++ L ": ") in *. set (p2 := p1 ++ print b) in *.
  set (lc := e_lc E (length p)) in *.
  set (op := Gen_Model.on_top (Gen_Model.add_reindenting (Gen_Model.mid_head (mid_tm m)) false lc) c).
  set (cl := Gen_Model.on_top (fun m => Gen_Model.dedent (Gen_Model.commit m))).
  set (X := Gen_Model.bind (Gen_Model.bind op (fun c1 => Ok (c1, tt))) (fun q => Gen_Model.bind (Rt p1 b [] (fst q) false) (fun c2 => Gen_Model.bind (cl c2) (fun c3 => Ok c3)))).
  assert (OS : forall c1, op = Ok c1 -> like c c1 /\ flat c1).
  { intros c1 H. split; [apply (on_top_like _ _ _ H)|apply (on_top_flat _ _ _) in H; [exact H|]]. apply reindenting_clears. }
  assert (PB : forall c1, op = Ok c1 -> part p1 (print b) [] c1 (Rt p1 b [] c1)).
  { intros c1 H. destruct (OS c1 H) as [L1 F1]. apply (IB ind); [exact W4|left; reflexivity|]. apply (one_inv ind p1 c c1); assumption. }
  assert (LX : forall c3, X = Ok c3 -> like c c3 /\ flat c3).
  { intros c3 H. apply bind_inv in H as ([c1 []] & H1 & H). apply bind_inv in H1 as (c1' & H1 & E1). injection E1 as ->. cbn [fst] in H.
    apply bind_inv in H as (c2 & H2 & H). rewrite bind_ok in H. destruct (OS c1 H1) as [L1 _]. destruct (PB c1 H1) as (_ & LB & _).
    split; [|apply (on_top_flat _ _ _ dedent_clears H)].
    apply (like_trans _ _ _ L1). apply (like_trans _ _ _ (LB c2 H2)). apply (on_top_like _ _ _ H). }
  assert (EQ : Gen_Model.run G (Gen_Model.MidShort (mid_tm m) lc (Gen_Spec.events (elab E p1 b [] false) Gen_Model.Done)
                 (Gen_Spec.events_m true (elab_n E p2 r) Gen_Model.Done)) c
               = Gen_Model.bind X (Gen_Model.run G (Gen_Spec.events_m true (elab_n E p2 r) Gen_Model.Done))).
  { cbn [Gen_Model.run]. fold op. unfold X. rewrite !bind_assoc. apply bind_ext. intros c1 H1. cbn [Gen_Model.bind fst].
    rewrite bind_assoc. apply bind_ext. intros c2 H2. rewrite bind_ok. reflexivity. }
  rewrite EQ.
  assert (PR : forall c3, X = Ok c3 -> _) by (intros c3 H; exact (IR ind p2 k c3 W5 (proj2 (LX c3 H)) (like_sl _ _ (proj1 (LX c3 H)) SL)
     (fun I => eq_trans (like_defs _ _ (proj1 (LX c3 H))) (OD I)))).
  split.
  - replace ((show_mid m ++ L ": " ++ print b ++ print_n r) ++ k) with (show_mid m ++ L ": " ++ print b ++ print_n r ++ k)
      by (rewrite <- !app_assoc; reflexivity).
    replace (p ++ show_mid m ++ L ": " ++ print b ++ print_n r) with (p2 ++ print_n r)
      by (unfold p2, p1; rewrite <- !app_assoc; reflexivity).
    apply (goes_seq _ X (rev p2) (print_n r ++ k)).
    + unfold X. apply (goes_line unit _ _ (rev p1) (print b) (rev p2) (fun c1 => Rt p1 b [] c1 false) (fun _ => cl)
        (fun b' r' c2 => fok (mkF b' (r' ++ print_n r ++ k) c2)) (fun c3 => Ok c3)).
      * discriminate.
      * intro sub. rewrite (mid_read sub m p _ c W2 W1 (halt_colon _ _) SL). rewrite (mid_short E ET sub _ _ _ _ _ _ _ c W3).
        fold lc. fold op.
        replace (rev (L ": ") ++ rev (p ++ show_mid m)) with (rev p1) by (unfold p1; rewrite (app_assoc p), (rev_app_distr (p ++ _)); reflexivity).
        destruct op as [c1|e]; reflexivity.
      * intros c1 mem H. apply bind_inv in H as (c1' & H & E1). injection E1 as -> _. destruct (PB c1 H) as (GB & _).
        rewrite app_nil_r in GB. exact GB.
      * reflexivity.
    + intros c3 H. apply (PR c3 H).
  - intros c4 H. apply bind_inv in H as (c3 & H3 & H4). destruct (PR c3 H3) as [_ LR]. destruct (LR c4 H4) as [L4 F4].
    split; [|exact F4]. apply (like_trans _ _ _ (proj1 (LX c3 H3)) L4).
Qed.

Lemma short_id : forall o id id' lc b r c, Gen_Model.run G (Gen_Model.Short (Gen_Spec.bop_open (blk_bop o)) id lc b r) c
  = Gen_Model.run G (Gen_Model.Short (Gen_Spec.bop_open (blk_bop o)) id' lc b r) c.
Proof. intros [] id id' lc b r c; reflexivity. Qed.

Lemma short_tail : forall ob id lc b r c, Gen_Model.run G (Gen_Model.Short ob id lc b r) c
  = Gen_Model.bind (Gen_Model.run G (Gen_Model.Short ob id lc b Gen_Model.Done) c) (Gen_Model.run G r).
Proof.
  intros ob id lc b r c. cbn [Gen_Model.run]. rewrite bind_assoc. apply bind_ext. intros q _. rewrite bind_assoc. apply bind_ext.
  intros c2 _. rewrite bind_ok. reflexivity.
Qed.

Lemma main_one : forall s o b ms r, Pt b -> Pn ms -> Pt r -> Pt (SOne s o b ms r).
Proof.
  intros s o b ms r IB IM IR ind p k c W EN IV. cbn [wf print] in *. cbv zeta in W.
  destruct W as (W1 & W2 & W3 & W4 & W5 & W6 & W7).
  pose proof (proj1 IV) as CA. pose proof (calm_act p c CA) as A.
  set (p0 := p ++ s) in *. set (p1 := p0 ++ show_blk o ++ L ": ") in *. set (p2 := p1 ++ print b) in *.
  set (k3 := print r ++ k) in *. set (lc := e_lc E (length p0)).
  set (ob := Gen_Spec.bop_open (blk_bop o)).
  set (X := fun c0 => Gen_Model.run G (Gen_Model.Short ob (e_id E (length p0)) lc (Gen_Spec.events (elab E p1 b [] false) Gen_Model.Done) Gen_Model.Done) c0).
  set (Y := Gen_Model.run G (Gen_Spec.events_m true (elab_n E p2 ms) Gen_Model.Done)).
  assert (PX : forall c0, like c c0 -> goes (mkF (rev p0) (show_blk o ++ L ": " ++ print b ++ print_n ms ++ k3) c0) (X c0) (rev p2) (print_n ms ++ k3) /\
                                       (forall c1, X c0 = Ok c1 -> like c0 c1 /\ flat c1)).
  { intros c0 L0. unfold X, p2, p1. apply (one_part ind); try assumption.
    - discriminate.
    - unfold ob. destruct (blk_bop o); reflexivity.
    - apply bop_clears.
    - unfold ob. rewrite blk_oname. apply close_clears. apply blk_closeable.
    - apply (like_act _ _ L0).
    - apply (inv_sl _ _ _ _ IV L0).
    - apply (inv_defs _ _ _ _ IV L0).
    - intro sub. rewrite (blk_to sub o p0 _ c0 W3 W2 (halt_colon _ _) (inv_sl _ _ _ _ IV L0)).
      rewrite (short_ok E ET sub _ _ _ _ _ _ _ _ c0 W4). fold lc. fold ob.
      replace (rev (L ": ") ++ rev (p0 ++ show_blk o)) with (rev (p0 ++ show_blk o ++ L ": "))
        by (rewrite (app_assoc p0), (rev_app_distr (p0 ++ _)); reflexivity).
      reflexivity. }
  assert (PY : forall c0 c1, like c c0 -> X c0 = Ok c1 -> goes (mkF (rev p2) (print_n ms ++ k3) c1) (Y c1) (rev (p2 ++ print_n ms)) k3 /\
                                                 (forall c2, Y c1 = Ok c2 -> like c1 c2 /\ flat c2)).
  { intros c0 c1 L0 H. destruct (PX c0 L0) as [_ LX]. destruct (LX c1 H) as [L1 F1]. pose proof (like_trans _ _ _ L0 L1) as L01.
    apply (IM ind); [exact W6|exact F1|apply (inv_sl _ _ _ _ IV L01)|apply (inv_defs _ _ _ _ IV L01)]. }
  set (x := Gen_Model.bind (front s false c) (fun c0 => Gen_Model.bind (X c0) Y)).
  assert (ES : forall z, s ++ show_blk o ++ L ": " ++ print b ++ print_n ms ++ z = (s ++ show_blk o ++ L ": " ++ print b ++ print_n ms) ++ z)
    by (intro z; rewrite <- !app_assoc; reflexivity).
  rewrite ES. rewrite ES in EN.
  assert (EP : p ++ s ++ show_blk o ++ L ": " ++ print b ++ print_n ms = p2 ++ print_n ms)
    by (unfold p2, p1, p0; rewrite <- !app_assoc; reflexivity).
  apply (part_ext _ _ _ _ (fun l => Gen_Model.bind x (fun c2 => Rt (p2 ++ print_n ms) r k c2 l))).
  { intro l. unfold Rt at 1. rewrite elab_one. cbv zeta. fold p0. fold p1. fold p2. fold lc.
    rewrite (front_run p s false _ c CA) by discriminate. unfold x. rewrite bind_assoc. apply bind_ext. intros c0 _.
    cbn [Gen_Spec.events]. fold ob. unfold ob. rewrite (short_id o [] (e_id E (length p0))). fold ob. rewrite short_tail. fold (X c0).
    rewrite bind_assoc. apply bind_ext. intros c1 _. rewrite run_ms. reflexivity. }
  apply part_seq.
  - rewrite <- ES. rewrite EP. fold k3. unfold x. apply goes_text.
    + exact CA.
    + exact W1.
    + apply top_blk1. exact W2.
    + intros c0 L0. fold p0. destruct (PX c0 L0) as [GX _]. apply (goes_seq _ _ _ _ _ _ _ GX). intros c1 H. apply (PY c0 c1 L0 H).
  - intros c2 H. apply bind_inv in H as (c0 & H0 & H). destruct (front_like s false c A) as (c0' & F0 & L0).
    rewrite F0 in H0. injection H0 as <-. apply bind_inv in H as (c1 & H1 & H2).
    destruct (PX c0' L0) as [_ LX]. destruct (LX c1 H1) as [L1 _]. destruct (PY c0' c1 L0 H1) as [_ LY]. destruct (LY c2 H2) as [L2 F2].
    pose proof (like_trans _ _ _ (like_trans _ _ _ L0 L1) L2) as L02. split; [exact L02|]. rewrite EP.
    apply (IR ind); [exact W7|rewrite <- EP; rewrite <- app_assoc; exact EN|]. apply (inv_like ind p _ c c2 IV L02). apply flat_calm. exact F2.
Qed.

Lemma main_one_reg : forall s o b r, Pt b -> Pt r -> Pt (SOneReg s o b r).
Proof.
  intros s o b r IB IR ind p k c W EN IV. cbn [wf print] in *. cbv zeta in W.
  destruct W as (W1 & W2 & W3 & W4 & W5 & W7).
  pose proof (proj1 IV) as CA. pose proof (calm_act p c CA) as A.
  set (p0 := p ++ s) in *. set (p1 := p0 ++ show_reg o ++ L ": ") in *. set (p2 := p1 ++ print b) in *.
  set (k3 := print r ++ k) in *. set (lc := e_lc E (length p0)). set (id := e_id E (length p0)).
  set (ob := Gen_Spec.rop_open (reg_rop o)).
  set (X := fun c0 => Gen_Model.run G (Gen_Model.Short ob id lc (Gen_Spec.events (elab E p1 b [] false) Gen_Model.Done) Gen_Model.Done) c0).
  assert (PX : forall c0, like c c0 -> goes (mkF (rev p0) (show_reg o ++ L ": " ++ print b ++ k3) c0) (X c0) (rev p2) k3 /\
                                       (forall c1, X c0 = Ok c1 -> like c0 c1 /\ flat c1)).
  { intros c0 L0. unfold X, p2, p1. apply (one_part ind); try assumption.
    - discriminate.
    - unfold ob. destruct o; reflexivity.
    - unfold ob. destruct o; [apply capture_clears|apply filter_clears|apply filter_clears|apply call_clears|apply cache_clears].
    - unfold ob. rewrite reg_oname. apply close_clears. apply reg_closeable.
    - apply (like_act _ _ L0).
    - apply (inv_sl _ _ _ _ IV L0).
    - apply (inv_defs _ _ _ _ IV L0).
    - intro sub. rewrite (reg_to sub o p0 _ c0 W3 W2 (halt_colon _ _) ltac:(discriminate) (inv_sl _ _ _ _ IV L0)).
      rewrite (short_ok E ET sub _ _ _ _ _ _ _ _ c0 W4). fold lc. fold id. fold ob.
      replace (rev (L ": ") ++ rev (p0 ++ show_reg o)) with (rev (p0 ++ show_reg o ++ L ": "))
        by (rewrite (app_assoc p0), (rev_app_distr (p0 ++ _)); reflexivity).
      reflexivity. }
  set (x := Gen_Model.bind (front s false c) X).
  assert (ES : forall z, s ++ show_reg o ++ L ": " ++ print b ++ z = (s ++ show_reg o ++ L ": " ++ print b) ++ z)
    by (intro z; rewrite <- !app_assoc; reflexivity).
  rewrite ES. rewrite ES in EN.
  assert (EP : p ++ s ++ show_reg o ++ L ": " ++ print b = p2)
    by (unfold p2, p1, p0; rewrite <- !app_assoc; reflexivity).
  apply (part_ext _ _ _ _ (fun l => Gen_Model.bind x (fun c2 => Rt p2 r k c2 l))).
  { intro l. unfold Rt at 1. cbn [elab]. cbv zeta. fold p0. fold p1. fold p2. fold lc. fold id.
    rewrite (front_run p s false _ c CA) by discriminate. unfold x. rewrite bind_assoc. apply bind_ext. intros c0 _.
    cbn [Gen_Spec.events]. fold ob. rewrite short_tail. reflexivity. }
  apply part_seq.
  - rewrite <- ES. rewrite EP. fold k3. unfold x. apply goes_text.
    + exact CA.
    + exact W1.
    + apply top_reg1; [exact W3|exact W2].
    + intros c0 L0. fold p0. apply (PX c0 L0).
  - intros c2 H. apply bind_inv in H as (c0 & H0 & H1). destruct (front_like s false c A) as (c0' & F0 & L0).
    rewrite F0 in H0. injection H0 as <-. destruct (PX c0' L0) as [_ LX]. destruct (LX c2 H1) as [L1 F1].
    pose proof (like_trans _ _ _ L0 L1) as L02. split; [exact L02|]. rewrite EP.
    apply (IR ind); [exact W7|rewrite <- EP; rewrite <- app_assoc; exact EN|]. apply (inv_like ind p _ c c2 IV L02). apply flat_calm. exact F1.
Qed.

(** A single-line definition. *)
Lemma short_open : forall o n a rem id lc c, Gen_Model.open_defs c = 0 ->
  Gen_Model.open_short G (Gen_Spec.dop_open (def_dop o) n a rem) id lc c = Ok (Gen_Model.start_method G (n, a) c, (false, Gen_Model.s_sl c)).
Proof.
  intros o n a rem id lc c H. unfold Gen_Model.open_short, Gen_Model.nested_short. rewrite H. rewrite andb_false_r.
  destruct o; reflexivity.
Qed.
Lemma short_close : forall o n a rem x c, Gen_Model.close_short G (Gen_Spec.dop_open (def_dop o) n a rem) (false, x) c
  = match o with IDef => Gen_Model.close_def G c | IBlock => Gen_Model.close_block G c end.
Proof. intros [] n a rem x c; [reflexivity|]. cbn. unfold Gen_Model.start_marker. rewrite NM. reflexivity. Qed.

Lemma close_acts : forall o c c1 m r, Gen_Model.s_act c = m :: r -> r <> [] ->
  match o with IDef => Gen_Model.close_def G c | IBlock => Gen_Model.close_block G c end = Ok c1 ->
  Gen_Model.s_open c1 = Gen_Model.s_open c /\ Gen_Model.s_sl c1 = Gen_Model.s_sl c /\ Gen_Model.s_sl0 c1 = Gen_Model.s_sl0 c /\
  match o with IDef => Gen_Model.s_act c1 = r | IBlock => exists m', Gen_Model.s_act c1 = m' :: tl r /\ Gen_Model.m_pend m' = [] end.
Proof.
  intros o c c1 m r A NR H. destruct o.
  - unfold Gen_Model.close_def in H. rewrite A in H. unfold Gen_Model.swallow in H. apply bind_inv in H as (m1 & _ & H).
    injection H as <-. cbn. auto.
  - unfold Gen_Model.close_block in H. rewrite A in H. cbv zeta in H. unfold Gen_Model.swallow in H. apply bind_inv in H as (c0 & H0 & H).
    apply bind_inv in H0 as (m1 & _ & H0). injection H0 as <-. apply on_top_inv in H as (m2 & m3 & r' & A' & H & ->). injection H as <-.
    cbn in A' |- *. split; [reflexivity|]. split; [reflexivity|]. split; [reflexivity|].
    eexists. split; [subst r; reflexivity|apply add_pend].
Qed.

Lemma cs_ext : forall a b, Gen_Model.s_act a = Gen_Model.s_act b -> Gen_Model.s_fin a = Gen_Model.s_fin b ->
  Gen_Model.s_open a = Gen_Model.s_open b -> Gen_Model.s_sl a = Gen_Model.s_sl b -> Gen_Model.s_sl0 a = Gen_Model.s_sl0 b -> a = b.
Proof. intros [] [] H1 H2 H3 H4 H5. cbn in *. subst. reflexivity. Qed.

Lemma elab_one_def : forall p s o n a b ke r k l, elab E p (SOneDef s o n a b ke r) k l
  = let p0 := p ++ s in
      let p1 := p0 ++ show_def o n a ++ L ": " in
      let p2 := p1 ++ print b in
      text s (match o with IDef => cut p0 ke (print r ++ k) | IBlock => false end)
        (Gen_Spec.TDef true (def_dop o) n (args_val a) [] (elab E p1 b [] false) (elab E (p2 ++ show_close ke) r k l)).
Proof. reflexivity. Qed.

Lemma main_one_def : forall s o n a b ke r, Pt b -> Pt r -> Pt (SOneDef s o n a b ke r).
Proof.
  intros s o n a b ke r IB IR ind p k c W EN IV. cbn [wf print] in *. cbv zeta in W.
  destruct W as (W1 & W2 & W3 & WA & WI & W4 & W5 & W6 & W7 & W8). subst ind.
  pose proof (proj1 IV) as CA. pose proof (calm_act p c CA) as A.
  set (p0 := p ++ s) in *. set (p1 := p0 ++ show_def o n a ++ L ": ") in *. set (p2 := p1 ++ print b) in *.
  set (k3 := print r ++ k) in *.
  set (bd := elab E p1 b [] false).
  set (ob := Gen_Spec.dop_open (def_dop o) n (args_val a) []).
  set (cb := cut p0 ke k3) in *.
  set (t1 := Gen_Spec.TDef true (def_dop o) n (args_val a) [] bd Gen_Spec.TNil).
  set (X := fun c0 => Gen_Model.run G (Gen_Spec.events t1 Gen_Model.Done) c0).
  set (cl := fun c => match o with IDef => Gen_Model.close_def G c | IBlock => Gen_Model.close_block G c end).
  assert (OD : forall c0, like c c0 -> Gen_Model.open_defs c0 = 0) by (intros c0 L0; apply (inv_defs _ _ _ _ IV L0 eq_refl)).
  assert (SN : Gen_Spec.sane G false t1 = true).
  { cbn [Gen_Spec.sane t1]. cbv zeta.
    assert (D' : match def_dop o with Gen_Spec.DDef => false || (Gen_Model.g_nested G && negb true) | _ => false end = false)
      by (destruct o; cbn [def_dop]; [apply andb_false_r|reflexivity]).
    unfold t1. cbn [Gen_Spec.sane]. cbv zeta. rewrite D'. unfold bd. rewrite (proj1 (wf_sane E NM) b false p1 [] false false (fun _ => eq_refl) W5).
    destruct o; cbn [def_dop]; [reflexivity|rewrite NM; reflexivity]. }
  assert (EX : forall c0, like c c0 -> X c0 = Gen_Model.bind (Rt p1 b [] (Gen_Model.start_method G (n, args_val a) c0) false) cl).
  { intros c0 L0. unfold X, t1. cbn [Gen_Spec.events Gen_Model.run]. rewrite (short_open o n (args_val a) [] [] (0, 0)%N c0 (OD c0 L0)).
    cbn [Gen_Model.bind fst snd]. apply bind_ext. intros c2 _. rewrite bind_ok. apply short_close. }
  assert (PB : forall c0, like c c0 -> part p1 (print b) [] (Gen_Model.start_method G (n, args_val a) c0) (Rt p1 b [] (Gen_Model.start_method G (n, args_val a) c0))).
  { intros c0 L0. apply (IB false); [exact W5|left; reflexivity|].
    split; [apply flat_calm; do 2 eexists; split; reflexivity|]. split; [apply (inv_sl _ _ _ _ IV L0)|]. intros _. apply (OD c0 L0). }
  assert (FX : forall c0 c1, like c c0 -> X c0 = Ok c1 ->
     Gen_Model.s_open c1 = Gen_Model.s_open c0 /\ Gen_Model.s_sl c1 = Gen_Model.s_sl c0 /\ Gen_Model.s_sl0 c1 = Gen_Model.s_sl0 c0 /\
     Gen_Model.s_fin c1 = Gen_Model.s_fin c0 ++ GenLayout_Proofs.flat G (Gen_Spec.meths G false t1) /\
     match o with IDef => Gen_Model.s_act c1 = Gen_Model.s_act c0
             | IBlock => exists m', Gen_Model.s_act c1 = m' :: tl (Gen_Model.s_act c0) /\ Gen_Model.m_pend m' = [] end).
  { intros c0 c1 L0 H. pose proof (fin_same E t1 c0 c1 SN (like_act _ _ L0) (OD c0 L0) H) as FS.
    rewrite (EX c0 L0) in H. apply bind_inv in H as (c2 & H2 & H). destruct (PB c0 L0) as (_ & LB & _).
    destruct (LB c2 H2) as (B1 & B2 & B3 & mb & B4).
    cbn [Gen_Model.start_method Gen_Model.set_act Gen_Model.s_open Gen_Model.s_sl Gen_Model.s_sl0 Gen_Model.s_act tl] in *.
    destruct (close_acts o c2 c1 mb (Gen_Model.s_act c0) B4 (like_act _ _ L0) H) as (D1 & D2 & D3 & D4).
    rewrite D1, D2, D3, B1, B2, B3. auto. }
  assert (LX : forall c0 c1, like c c0 -> X c0 = Ok c1 -> like c0 c1).
  { intros c0 c1 L0 H. destruct (FX c0 c1 L0 H) as (D1 & D2 & D3 & _ & D4). unfold like. rewrite D1, D2, D3.
    split; [reflexivity|]. split; [reflexivity|]. split; [reflexivity|]. pose proof (like_act _ _ L0) as A0.
    destruct o; [rewrite D4; destruct (Gen_Model.s_act c0) as [|m0 r0]; [congruence|exists m0; reflexivity]|].
    destruct D4 as (m' & D4 & _). exists m'. exact D4. }
  (* the text is cut before or after *)
  assert (CM : forall c0, like c c0 -> Gen_Model.bind (X c0) (cutting G cb)
     = Gen_Model.bind (cutting G (match o with IDef => cb | IBlock => false end) c0) X).
  { intros c0 L0. destruct o.
    - destruct cb; [|cbn [cutting Gen_Model.bind]; apply bind_ok].
      destruct (cutting_ok G true c0 (like_act _ _ L0)) as (c0' & H0 & L0'). rewrite H0. cbn [Gen_Model.bind].
      pose proof (like_trans _ _ _ L0 L0') as L1.
      destruct (runs E t1 c0 SN (like_act _ _ L0) (OD c0 L0)) as (c1 & H1). fold (X c0) in H1.
      destruct (runs E t1 c0' SN (like_act _ _ L1) (OD c0' L1)) as (c1' & H1'). fold (X c0') in H1'.
      rewrite H1, H1'. cbn [Gen_Model.bind].
      destruct (FX c0 c1 L0 H1) as (A1 & A2 & A3 & A4 & A5). destruct (FX c0' c1' L1 H1') as (B1 & B2 & B3 & B4 & B5).
      cbn [cutting Gen_Model.step] in H0 |- *. apply on_top_inv in H0 as (m & m' & rr & AC & HM & ->).
      unfold Gen_Model.on_top. rewrite A5, AC, HM. cbn [Gen_Model.bind]. f_equal.
      apply cs_ext; cbn [Gen_Model.set_act Gen_Model.s_act Gen_Model.s_fin Gen_Model.s_open Gen_Model.s_sl Gen_Model.s_sl0] in *; congruence.
    - cbn [cutting Gen_Model.bind].
      transitivity (Gen_Model.bind (X c0) (fun c => Ok c)); [|apply bind_ok]. apply bind_ext. intros c1 H1.
      destruct (FX c0 c1 L0 H1) as (_ & _ & _ & _ & m' & A5 & A6). destruct cb; [|reflexivity]. cbn [cutting Gen_Model.step].
      unfold Gen_Model.on_top. rewrite A5. cbn [Gen_Model.bind]. rewrite (strip_ws_nil _ A6), <- A5. f_equal.
      apply cs_ext; reflexivity. }
  assert (GX : forall c0, like c c0 -> goes (mkF (rev p0) (show_def o n a ++ L ": " ++ print b ++ show_close ke ++ k3) c0)
                  (Gen_Model.bind (X c0) (cutting G cb)) (rev (p2 ++ show_close ke)) k3).
  { intros c0 L0.
    destruct (def_short E ET (fun s => fok s) o n a p0 (print b) (show_close ke ++ k3) c0 W3 WA W2 W4 (inv_sl _ _ _ _ IV L0)) as (rem0 & _).
    assert (EQ : Gen_Model.bind (X c0) (cutting G cb)
       = Gen_Model.bind (Ok (Gen_Model.start_method G (n, args_val a) c0, (false, Gen_Model.s_sl c0))) (fun q =>
           Gen_Model.bind (Rt p1 b [] (fst q) false) (fun c2 => Gen_Model.bind (cl c2) (cutting G cb)))).
    { rewrite (EX c0 L0), bind_assoc. reflexivity. }
    rewrite EQ. 
    apply (goes_line _ _ _ (rev p1) (print b) (rev p2) (fun c1 => Rt p1 b [] c1 false) (fun _ => cl)
      (fun b' r' c2 => rest_of_tag E (line_clear (rev p0))
          (length p0 + length (show_def o n a ++ L ": " ++ print b) + eol_off (show_close ke ++ k3)) (mkF b' (r' ++ show_close ke ++ k3) c2))
      (cutting G cb)).
    - discriminate.
    - intro sub. 
      destruct (def_short E ET sub o n a p0 (print b) (show_close ke ++ k3) c0 W3 WA W2 W4 (inv_sl _ _ _ _ IV L0)) as (rem & Q).
      cbv zeta in Q. rewrite (short_open o n (args_val a) rem [] _ c0 (OD c0 L0)) in Q. cbn [from_g fbind] in Q |- *.
      assert (DD : eat E sub (mkF (rev p0) (show_def o n a ++ L ": " ++ print b ++ show_close ke ++ k3) c0)
                   = eat_def E sub (def_name o) (mkF (rev p0) (35%N :: def_name o ++ (L " " ++ n ++ show_args a) ++ L ": " ++ print b ++ show_close ke ++ k3) c0)).
      { unfold show_def at 1. rewrite (cons_show (def_name o) (L " " ++ n ++ show_args a) (L ": " ++ print b ++ show_close ke ++ k3)).
        assert (KW : known (def_name o)) by (apply known_words; destruct o; cbn; auto 30).
        rewrite (eat_word E ET sub (def_name o) _ _ _ KW W2) by reflexivity.
        unfold eat_directive. rewrite ET. destruct o; reflexivity. }
      rewrite DD, Q. fold p1. destruct (sub _) as [[s'|e]|]; [|reflexivity|reflexivity]. cbn [fbind].
      rewrite (short_close o n (args_val a) rem). reflexivity.
    - intros c1 mem H. injection H as <- _. destruct (PB c0 L0) as (GB & _). rewrite app_nil_r in GB. exact GB.
    - intros c1 mem c2 c3 H1 H2 H3. injection H1 as <- _. cbn [app].
      assert (EQ2 : p2 = p0 ++ show_def o n a ++ L ": " ++ print b) by (unfold p2, p1; rewrite <- !app_assoc; reflexivity).
      rewrite EQ2. rewrite (with_rest E ET p0 (show_def o n a ++ L ": " ++ print b) ke false k3 c3 _).
      + fold cb. rewrite <- !app_assoc. reflexivity.
      + destruct (args_line_ok E n a [] W3 WA) as [NF _]. destruct W4 as [(NW & _) _].
        unfold show_def. repeat apply no_eol_app; try reflexivity; try exact NW; try (destruct o; reflexivity);
        (apply no_eol_app in NF || idtac); unfold no_eol in NF |- *; rewrite forallb_app in NF; apply andb_true_iff in NF; tauto.
      + rewrite <- EQ2. exact W6.
      + exact W7.
      + reflexivity.
      + destruct (PB c0 L0) as (_ & LB & _). destruct (LB c2 H2) as (_ & _ & _ & mb & B4).
        cbn [Gen_Model.start_method Gen_Model.set_act Gen_Model.s_act tl] in B4.
        destruct (close_acts o c2 c3 mb (Gen_Model.s_act c0) B4 (like_act _ _ L0) H3) as (_ & _ & _ & D4).
        destruct o; [rewrite D4; apply (like_act _ _ L0)|destruct D4 as (m' & D4 & _); rewrite D4; discriminate]. }
  assert (KX : forall c0 c2, like c c0 -> Gen_Model.bind (X c0) (cutting G cb) = Ok c2 -> like c c2 /\ calm (p2 ++ show_close ke) c2).
  { intros c0 c2 L0 H. apply bind_inv in H as (c1 & H1 & H2). pose proof (LX c0 c1 L0 H1) as L1.
    pose proof (like_trans _ _ _ L0 L1) as L01. pose proof (cutting_like _ _ _ _ (like_act _ _ L01) H2) as L2.
    split; [apply (like_trans _ _ _ L01 L2)|].
    destruct cb eqn:CB.
    - destruct (cutting_cut c1 c2 H2) as (m & rr & M1 & M2). exists m, rr. split; [exact M1|]. intros _. exact M2.
    - cbn [cutting] in H2. injection H2 as <-.
      assert (LC : line_clear (rev (p2 ++ show_close ke)) = false).
      { destruct ke as [|nl|]; cbn [show_close] in *.
        - destruct W4 as [_ W4]. cbn in W4. discriminate W4.
        - unfold cb, cut in CB. destruct W7 as [W7 _]. rewrite W7 in CB. discriminate CB.
        - rewrite app_nil_r. unfold p2, p1.
          replace ((p0 ++ show_def o n a ++ L ": ") ++ print b) with (p0 ++ 35%N :: (def_name o ++ L " " ++ n ++ show_args a) ++ L ": " ++ print b)
            by (unfold show_def; rewrite <- !app_assoc; change (L "#") with [35%N]; cbn [app]; rewrite <- ?app_assoc; cbn [app]; rewrite <- ?app_assoc; reflexivity).
          apply hash_clear. destruct (args_line_ok E n a [] W3 WA) as [NF _]. destruct W4 as [(NW & _) _].
          apply no_eol_app; [|apply no_eol_app; [reflexivity|exact NW]].
          apply no_eol_app; [destruct o; reflexivity|apply no_eol_app; [reflexivity|exact NF]]. }
      destruct (Gen_Model.s_act c1) as [|m rr] eqn:A1; [exfalso; apply (like_act _ _ L01); exact A1|].
      exists m, rr. split; [exact A1|]. rewrite LC. discriminate. }
  set (x := Gen_Model.bind (front s false c) (fun c0 => Gen_Model.bind (X c0) (cutting G cb))).
  assert (ES : forall z, s ++ show_def o n a ++ L ": " ++ print b ++ show_close ke ++ z = (s ++ show_def o n a ++ L ": " ++ print b ++ show_close ke) ++ z)
    by (intro z; rewrite <- !app_assoc; reflexivity).
  rewrite ES. rewrite ES in EN.
  assert (EP : p ++ s ++ show_def o n a ++ L ": " ++ print b ++ show_close ke = p2 ++ show_close ke)
    by (unfold p2, p1, p0; rewrite <- !app_assoc; reflexivity).
  apply (part_ext _ _ _ _ (fun l => Gen_Model.bind x (fun c2 => Rt (p2 ++ show_close ke) r k c2 l))).
  { intro l. unfold Rt at 1. rewrite elab_one_def. cbv zeta. fold p0. fold p1. fold p2. fold k3. fold cb. fold bd.
    rewrite (front_run p s _ _ c CA) by (destruct o; [apply cut_clear|discriminate]).
    assert (FR : front s (match o with IDef => cb | IBlock => false end) c
                 = Gen_Model.bind (front s false c) (cutting G (match o with IDef => cb | IBlock => false end))).
    { unfold front. rewrite bind_assoc. apply bind_ext. reflexivity. }
    rewrite FR, bind_assoc. unfold x. rewrite bind_assoc. apply bind_ext. intros c0 H0.
    destruct (front_like s false c A) as (c0' & F0 & L0). rewrite F0 in H0. injection H0 as <-.
    rewrite (CM c0' L0), bind_assoc. apply bind_ext. intros c1 _. cbn [Gen_Spec.events]. rewrite short_tail. reflexivity. }
  apply part_seq.
  - rewrite <- ES. rewrite EP. fold k3. unfold x. apply goes_text.
    + exact CA.
    + exact W1.
    + apply top_def1. exact W2.
    + intros c0 L0. fold p0. apply (GX c0 L0).
  - intros c2 H. apply bind_inv in H as (c0 & H0 & H1). destruct (front_like s false c A) as (c0' & F0 & L0).
    rewrite F0 in H0. injection H0 as <-. destruct (KX c0' c2 L0 H1) as [L02 C2].
    split; [exact L02|]. rewrite EP.
    apply (IR false); [exact W8|rewrite <- EP; rewrite <- app_assoc; exact EN|]. apply (inv_like false p _ c c2 IV L02 C2).
Qed.

Lemma main_all : (forall t, Pt t) /\ (forall ms, Pm ms) /\ (forall ms, Pn ms) /\ (forall ps, Pp ps).
Proof.
  apply stm_smids.
  - apply main_end.
  - intros s h r IR. apply main_place. exact IR.
  - intros s x k r IR. apply main_rem. exact IR.
  - intros s x u nl r IR. apply main_mul. exact IR.
  - intros s b w nl r IR. apply main_slurp. exact IR.
  - intros s k body w ke r IR. apply main_raw. exact IR.
  - intros s u r IR. apply main_one_raw. exact IR.
  - intros s d k r IR. apply main_dir. exact IR.
  - intros s o k b IB ms IM ke r IR. apply main_blk; assumption.
  - intros s o k b IB ke r IR. apply main_reg; assumption.
  - intros s fn a k ps IP ke r IR. apply main_call; assumption.
  - intros s o n a k b IB ke r IR. apply main_def; assumption.
  - intros s o b IB ms IM r IR. apply main_one; assumption.
  - intros s o b IB r IR. apply main_one_reg; assumption.
  - intros s o n a b IB ke r IR. apply main_one_def; assumption.
  - apply main_nil.
  - intros m k b IB r IR. apply main_mid; assumption.
  - apply main_none.
  - intros m b IB r IR. apply main_mid1; assumption.
  - apply main_no_arg.
  - intros n k b IB r IR. apply main_arg; assumption.
Qed.

(** The text of a structured template is compiled to the code of its structure. *)
Theorem translates : forall main t, wf E false [] t [] ->
  exists n, forall f, translate E (n + f) main (print t)
  = match Gen_Model.compile G main (Gen_Spec.events (elab E [] t [] false) Gen_Model.Done) with
    | Ok l => fok l
    | Raise e => ferror (FGen e)
    end.
Proof.
  intros main t W.
  assert (IV : inv false [] (Gen_Model.start G main)).
  { split; [apply flat_calm; do 2 eexists; split; reflexivity|]. split; reflexivity. }
  destruct (proj1 main_all t false [] [] (Gen_Model.start G main) W (or_introl eq_refl) IV) as (GO & _ & _).
  rewrite app_nil_r in GO. unfold Gen_Model.compile. unfold Rt in GO. cbn [app] in GO.
  destruct (Gen_Model.run G (Gen_Spec.events (elab E [] t [] false) Gen_Model.Done) (Gen_Model.start G main)) as [c1|e]; cbn [Gen_Model.bind].
  - destruct GO as [n GO]. exists (n + 1). intro f. unfold translate. cbn [rev] in GO. rewrite <- Nat.add_assoc.
    destruct (GO (1 + f)) as (f' & G' & H'). rewrite H'. destruct f' as [|f']; [lia|]. cbn [parse_all f_r fbind fok f_c]. destruct (Gen_Model.s_open c1); [|reflexivity].
    destruct (Gen_Model.close_all G (Gen_Model.s_act c1) (Gen_Model.set_act [] c1)); reflexivity.
  - destruct GO as [n GO]. exists n. intro f. unfold translate. cbn [rev] in GO. rewrite GO. reflexivity.
Qed.
End Main.
