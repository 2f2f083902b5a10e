(** Raw blocks and macros in a template: proofs. *)
From Verif Require Import Base PyStr Alist Reader_Model Reader_Spec Lex_Model Lex_Spec Expr_Model Front_Model Front_Spec.
From Verif Require Import FrontLex_Proofs FrontEat_Proofs FrontGen_Proofs Macro_Model Macro_Spec Macro_Proofs MacroCall_Proofs.
From Verif Require Gen_Model Gen_Spec Gen_Proofs LexLines_Proofs Lex_Proofs.
Local Open Scope nat_scope. Local Open Scope list_scope.

Lemma handle_cut : forall s p d, handle_ws (mkB (s :: p) d) = mkB (Gen_Spec.cut_line s :: p) d.
Proof.
  intros s p d. pose proof (Gen_Proofs.handle_ws_cut s p) as H. unfold handle_ws in *. cbn [pend done] in *.
  destruct (findBOL s (slen s) <? slen s)%Z; cbn [pend] in H; congruence.
Qed.

Section Raw.
Variable ns : list pystr.
Hypothesis END : In (L "end") ns.
Hypothesis RAW : In (L "raw") ns.

Lemma raw_class : forall b tail, esc_ok b = true -> dn_end tail = true -> classify (named ns) b (L "#raw" ++ tail) = KDirective (L "raw").
Proof.
  intros b tail EO TL. change (L "#raw" ++ tail) with (35%N :: L "raw" ++ tail).
  apply classify_named; [split; reflexivity|exact RAW|exact EO|exact TL].
Qed.

Lemma close_dn : forall p0 k rest, ends_tag p0 k rest -> dn_end (show_close k ++ rest) = true.
Proof. intros p0 k rest H. apply (stop_dn []). apply (ends_stop p0 k rest []); [exact H|reflexivity]. Qed.

(** ** A #raw in the whole parser *)

Lemma raw_step : forall E sub b tail c b' r' o, x_T (e_X E) = named ns -> esc_ok b = true -> dn_end tail = true ->
  Gen_Model.s_act c <> [] ->
  eat_raw (named ns) (mkP b (L "#raw" ++ tail) (top_buf c)) = Some (Ok (mkP b' r' o)) ->
  eat E sub (mkF b (L "#raw" ++ tail) c) = fok (mkF b' r' (absorb E o c)).
Proof.
  intros E sub b tail c b' r' o ET EO TL A R. unfold eat. cbn [f_b f_r f_c]. rewrite ET. rewrite (raw_class b tail EO TL).
  unfold eat_directive. rewrite ET. change (forbidden (named ns) (L "raw")) with false. cbv zeta. cbv iota.
  change (existsb (str_eqb (L "raw")) (map L ["slurp"; "raw"]%string)) with true. cbv iota. unfold with_lex, Lex_Model.step.
  cbn [f_b f_r f_c before Lex_Model.rest Lex_Model.out]. rewrite (raw_class b tail EO TL).
  change (forbidden (named ns) (L "raw")) with false. change (str_eqb (L "raw") (L "slurp")) with false. change (str_eqb (L "raw") (L "raw")) with true.
  cbv iota. rewrite R. reflexivity.
Qed.

Lemma absorb_text : forall E b t c, Gen_Model.s_act c <> [] ->
  from_g (Gen_Model.bind (cutting (e_G E) b c) (Gen_Model.step (e_G E) (Gen_Model.EText t)))
  = fok (absorb E (add_text t (if b then handle_ws (top_buf c) else top_buf c)) c).
Proof.
  intros E b t c A. rewrite (absorb_cut E b c A). destruct c as [act fin op sl sl0]. cbn [Gen_Model.s_act] in A.
  destruct act as [|m act]; [congruence|]. cbn [Gen_Model.bind Gen_Model.step]. unfold absorb, top_buf. cbn [Gen_Model.s_act].
  unfold Gen_Model.on_top. cbn [Gen_Model.set_act Gen_Model.s_act Gen_Model.bind from_g]. unfold fok. do 3 f_equal.
Qed.

Lemma raw_eaten : forall E sub p0 k body w ke rest c, x_T (e_X E) = named ns -> esc_ok (rev p0) = true ->
  ends_tag p0 k (block (L "raw") body w ke ++ rest) -> block_ok (L "raw") (p0 ++ L "#raw" ++ show_close k) body w ke rest ->
  Gen_Model.s_act c <> [] ->
  eat E sub (mkF (rev p0) (L "#raw" ++ show_close k ++ block (L "raw") body w ke ++ rest) c)
  = lift (Gen_Model.bind (cutting (e_G E) (own_line k || own_line ke) c) (Gen_Model.step (e_G E) (Gen_Model.EText body)))
         (rev (p0 ++ L "#raw" ++ show_close k ++ block (L "raw") body w ke)) rest.
Proof.
  intros E sub p0 k body w ke rest c ET EO EG BO A.
  rewrite (raw_step E sub (rev p0) _ c _ _ _ ET EO (close_dn _ _ _ EG) A (raw_long ns END p0 k body w ke rest (top_buf c) EO EG BO)).
  pose proof (absorb_text E (own_line k || own_line ke) body c A) as H. unfold lift.
  destruct (Gen_Model.bind (cutting (e_G E) (own_line k || own_line ke) c) (Gen_Model.step (e_G E) (Gen_Model.EText body))) as [c'|e]; [|discriminate H].
  cbn [from_g] in H. unfold fok in *. injection H as <-. reflexivity.
Qed.

Lemma raw_line : forall E sub p0 u rest c, x_T (e_X E) = named ns -> esc_ok (rev p0) = true -> shown u ->
  match rest with [] => True | c :: _ => eolchar c = true end -> Gen_Model.s_act c <> [] ->
  eat E sub (mkF (rev p0) (L "#raw: " ++ u ++ rest) c)
  = lift (Gen_Model.step (e_G E) (Gen_Model.EText u) c) (rev (p0 ++ L "#raw: " ++ u)) rest.
Proof.
  intros E sub p0 u rest c ET EO SH R A. change (L "#raw: " ++ u ++ rest) with (L "#raw" ++ L ": " ++ u ++ rest).
  rewrite (raw_step E sub (rev p0) (L ": " ++ u ++ rest) c _ _ _ ET EO eq_refl A (raw_short ns p0 u rest (top_buf c) EO SH R)).
  pose proof (absorb_text E false u c A) as H. unfold lift. cbn [cutting Gen_Model.bind] in H. unfold cutting in H. cbn [Gen_Model.bind] in H.
  destruct (Gen_Model.step (e_G E) (Gen_Model.EText u) c) as [c'|e]; [|discriminate H].
  cbn [from_g] in H. unfold fok in *. injection H as <-. reflexivity.
Qed.

(** ** A template of texts and a raw block *)

Lemma clean_top : forall c r b, c <> 36%N -> c <> 35%N -> c <> 60%N -> top_match (named ns) b (c :: r) = false.
Proof.
  intros c r b H1 H2 H3. unfold top_match. change (first_chars (named ns)) with [35; 35; 36; 35; 60]%N. cbn [mem_char existsb].
  destruct (N.eqb_spec c 36); [congruence|]. destruct (N.eqb_spec c 35); [congruence|]. destruct (N.eqb_spec c 60); [congruence|]. reflexivity.
Qed.

Lemma clean_class : forall c r b, c <> 36%N -> c <> 35%N -> c <> 60%N -> classify (named ns) b (c :: r) = KText.
Proof.
  intros c r b H1 H2 H3. apply Lex_Proofs.classify_text. intros t I. cbn in I.
  assert (D : forall d t, d <> c -> starts_with (d :: t) (c :: r) = false).
  { intros d t' ND. cbn [starts_with]. destruct (N.eqb_spec d c); [congruence|reflexivity]. }
  repeat (destruct I as [<-|I]; [apply D; congruence|]). contradiction.
Qed.

Lemma clean_same : forall s, clean s -> unescape (named ns) s = s.
Proof.
  intros s C. apply Lex_Proofs.unescape_absent; intros (a & b & E); subst s.
  - destruct (C 36%N) as (H & _ & _); [|congruence]. apply in_or_app. right. left. reflexivity.
  - destruct (C 35%N) as (_ & H & _); [|congruence]. apply in_or_app. right. left. reflexivity.
Qed.

Lemma clean_run : forall s b r, clean s -> r = [] \/ top_match (named ns) (rev s ++ b) r = true ->
  plain_run (named ns) b (s ++ r) = (s, rev s ++ b, r).
Proof.
  intros s b r C K. rewrite Lex_Proofs.plain_run_text.
  - destruct K as [->|K]; [|rewrite Lex_Proofs.plain_run_stop by exact K]; cbn; rewrite ?app_nil_r; reflexivity.
  - intros x c y ->. destruct (C c) as (H1 & H2 & H3); [apply in_or_app; right; left; reflexivity|]. apply clean_top; assumption.
Qed.

Lemma step_clean : forall other s b r o, clean s -> s <> [] -> r = [] \/ top_match (named ns) (rev s ++ b) r = true ->
  Lex_Model.step (named ns) other (mkP b (s ++ r) o) = Some (Ok (mkP (rev s ++ b) r (add_text s o))).
Proof.
  intros other s b r o C NE K. unfold Lex_Model.step. cbn [before Lex_Model.rest].
  assert (CL : classify (named ns) b (s ++ r) = KText).
  { destruct s as [|c s]; [congruence|]. destruct (C c) as (H1 & H2 & H3); [left; reflexivity|]. apply clean_class; assumption. }
  rewrite CL. unfold eat_plain. cbn [before Lex_Model.rest Lex_Model.out]. rewrite (clean_run s b r C K). rewrite (clean_same s C). reflexivity.
Qed.

Lemma raw_template : forall other pre k body w ke post fuel, clean pre -> clean post -> esc_ok (rev pre) = true ->
  ends_tag pre k (block (L "raw") body w ke ++ post) -> block_ok (L "raw") (pre ++ L "#raw" ++ show_close k) body w ke post ->
  4 <= fuel ->
  exists l, compile_body fuel (named ns) other (pre ++ L "#raw" ++ show_close k ++ block (L "raw") body w ke ++ post) = Some (Ok l)
    /\ written l = Gen_Spec.text_of pre (own_line k || own_line ke) ++ body ++ post.
Proof.
  intros other pre k body w ke post fuel C1 C2 EO EG BO F.
  set (B := block (L "raw") body w ke) in *.
  assert (CLS : classify (named ns) (rev pre) (L "#raw" ++ show_close k ++ B ++ post) = KDirective (L "raw")).
  { apply raw_class; [exact EO|apply (close_dn _ _ _ EG)]. }
  set (o1 := match pre with [] => mkB [] [] | _ => add_text pre (mkB [] []) end).
  assert (P1 : parse fuel (named ns) other (start (pre ++ L "#raw" ++ show_close k ++ B ++ post))
    = parse (match pre with [] => fuel | _ => pred fuel end) (named ns) other (mkP (rev pre) (L "#raw" ++ show_close k ++ B ++ post) o1)).
  { destruct pre as [|c pre]; [reflexivity|]. destruct fuel as [|fuel]; [lia|]. unfold start. cbn [parse Lex_Model.rest app pred].
    change (c :: pre ++ L "#raw" ++ show_close k ++ B ++ post) with ((c :: pre) ++ L "#raw" ++ show_close k ++ B ++ post).
    rewrite (step_clean other (c :: pre) [] (L "#raw" ++ show_close k ++ B ++ post)); [rewrite app_nil_r; reflexivity|exact C1|discriminate|].
    right. rewrite app_nil_r. unfold top_match. rewrite CLS. reflexivity. }
  set (o2 := add_text body (if own_line k || own_line ke then handle_ws o1 else o1)).
  set (f2 := match pre with [] => fuel | _ => pred fuel end) in *.
  assert (F2 : 3 <= f2) by (unfold f2; destruct pre; lia).
  destruct f2 as [|f3]; [lia|].
  assert (P2 : parse (S f3) (named ns) other (mkP (rev pre) (L "#raw" ++ show_close k ++ B ++ post) o1)
    = parse f3 (named ns) other (mkP (rev (pre ++ L "#raw" ++ show_close k ++ B)) post o2)).
  { cbn [parse Lex_Model.rest]. change (L "#raw" ++ show_close k ++ B ++ post) with (35%N :: L "raw" ++ show_close k ++ B ++ post) at 1.
    cbv iota. unfold Lex_Model.step. cbn [before Lex_Model.rest]. rewrite CLS.
    change (forbidden (named ns) (L "raw")) with false. change (str_eqb (L "raw") (L "slurp")) with false. change (str_eqb (L "raw") (L "raw")) with true.
    cbv iota. unfold B. rewrite (raw_long ns END pre k body w ke post o1 EO EG BO). reflexivity. }
  assert (P3 : exists o3, parse f3 (named ns) other (mkP (rev (pre ++ L "#raw" ++ show_close k ++ B)) post o2)
                 = Some (Ok (mkP (rev post ++ rev (pre ++ L "#raw" ++ show_close k ++ B)) [] o3)) /\
               text_so_far o3 = text_so_far o2 ++ post).
  { destruct f3 as [|[|f3]]; [lia|lia|]. destruct post as [|c post].
    - exists o2. rewrite app_nil_r. split; reflexivity.
    - exists (add_text (c :: post) o2). cbn [parse Lex_Model.rest].
      pose proof (step_clean other (c :: post) (rev (pre ++ L "#raw" ++ show_close k ++ B)) [] o2 C2) as SC. rewrite app_nil_r in SC.
      rewrite SC; [|discriminate|left; reflexivity]. cbn [Lex_Model.rest].
      split; [reflexivity|]. unfold text_so_far, add_text. cbn [pend done rev]. rewrite concat_app. cbn [concat].
      rewrite app_nil_r, app_assoc. reflexivity. }
  destruct P3 as (o3 & P3 & T3).
  exists (done (commit o3)). split.
  - unfold compile_body. rewrite P1. rewrite P2, P3. reflexivity.
  - pose proof (LexLines_Proofs.text_commit o3) as TC. unfold text_so_far at 1 in TC. rewrite LexLines_Proofs.pend_commit in TC.
    cbn [rev concat] in TC. rewrite app_nil_r in TC. rewrite TC, T3. rewrite app_assoc. f_equal.
    unfold o2, o1, text_so_far, Gen_Spec.text_of. destruct pre as [|c pre].
    + destruct (own_line k || own_line ke); cbn; rewrite app_nil_r; reflexivity.
    + unfold add_text. cbn [pend done]. destruct (own_line k || own_line ke); [rewrite handle_cut|]; cbn [pend done written rev app concat];
        rewrite app_nil_r; reflexivity.
Qed.
End Raw.

(** ** Macros *)

Lemma call_named : forall E macros name m x code p0, macro_name E macros name m -> written_args E x code -> esc_ok (rev p0) = true ->
  forall kwargs sub K c, dn_end K = true ->
  eat (with_macros E macros kwargs sub) sub (mkF (rev p0) (call_of name x ++ K) c)
  = eat_macro E macros kwargs sub (mkF (rev p0) (call_of name x ++ K) c).
Proof.
  intros E macros name m x code p0 (ns & ET & END & IN & ID & NB & AG) WA EO kwargs sub K c DK.
  unfold call_of. rewrite <- !app_assoc.
  change (L "#" ++ name ++ match x with [] => [] | _ => L " " ++ x end ++ K) with (35%N :: name ++ match x with [] => [] | _ => L " " ++ x end ++ K).
  apply (dispatch E macros kwargs sub ns ET name m); try assumption. destruct x; [exact DK|reflexivity].
Qed.

Lemma macro_long : forall E macros kwargs sub name m x code user p0 k body w ke rest c c1,
  macro_name E macros name m -> written_args E x code -> kwargs (strip code) = Some user -> aget (L "src") user = None ->
  esc_ok (rev p0) = true -> ends_tag p0 k (block name body w ke ++ rest) ->
  block_ok name (p0 ++ call_of name x ++ show_close k) body w ke rest ->
  Gen_Model.s_sl c = true -> Gen_Model.s_act c <> [] -> cutting (e_G E) (own_line k || own_line ke) c = Ok c1 ->
  let p1 := p0 ++ call_of name x ++ show_close k ++ block name body w ke in
  exists K, (forall n, aget n K = told m user body None (length p0) (length p1) n) /\
    eat (with_macros E macros kwargs sub) sub (mkF (rev p0) (call_of name x ++ show_close k ++ block name body w ke ++ rest) c)
    = called sub (mc_call m K) (rev p1) rest c1.
Proof.
  intros E macros kwargs sub name m x code user p0 k body w ke rest c c1 MN WA KW US EO EG BO SL A CU p1.
  destruct (args_told m user body None (length p0) (length (rev p1)) US) as (K & K1 & K2). exists K. split.
  - intro n. rewrite K2, rev_length. reflexivity.
  - rewrite (call_named E macros name m x code p0 MN WA EO) by (apply (close_dn _ _ _ EG)).
    destruct MN as (ns & ET & END & IN & ID & NB & AG).
    rewrite (long_call E macros kwargs sub ns ET END name m x code p0 k body w ke rest c c1 ID AG WA EO EG BO SL A CU).
    fold p1. unfold expand. rewrite KW, K1. reflexivity.
Qed.

Lemma macro_short : forall E macros kwargs sub name m x code user p0 u e rest c,
  macro_name E macros name m -> written_args E x code -> kwargs (strip code) = Some user -> aget (L "src") user = None ->
  esc_ok (rev p0) = true -> shown u ->
  e = [10%N] \/ e = [13; 10]%N \/ e = [13%N] /\ at_char 10 rest = false \/ e = [] /\ rest = [] ->
  Gen_Model.s_sl c = true ->
  let p1 := p0 ++ call_of name x ++ L ": " ++ u ++ e in
  exists K, (forall n, aget n K = told m user u (Some e) (length p0) (length p1) n) /\
    eat (with_macros E macros kwargs sub) sub (mkF (rev p0) (call_of name x ++ L ": " ++ u ++ e ++ rest) c)
    = called sub (mc_call m K) (rev p1) rest c.
Proof.
  intros E macros kwargs sub name m x code user p0 u e rest c MN WA KW US EO SH HE SL p1.
  destruct (args_told m user u (Some e) (length p0) (length (rev p1)) US) as (K & K1 & K2). exists K. split.
  - intro n. rewrite K2, rev_length. reflexivity.
  - rewrite (call_named E macros name m x code p0 MN WA EO) by reflexivity.
    destruct MN as (ns & ET & END & IN & ID & NB & AG).
    rewrite (short_call E macros kwargs sub ns ET name m x code p0 u e rest c ID AG WA EO SH HE SL).
    fold p1. unfold expand. rewrite KW, K1. reflexivity.
Qed.

(** ** #i18n *)

Lemma i18n_keys : forall tr len user src eol start stop K, incl (keys user) i18n_names ->
  (forall n, aget n K = told (i18n tr len) user src eol start stop n) ->
  forallb (fun n => existsb (str_eqb n) i18n_names) (keys K) = true.
Proof.
  intros tr len user src eol start stop K IU H. apply forallb_forall. intros n I. apply aget_In_keys in I as (v & V). rewrite H in V.
  apply Lex_Proofs.existsb_str. unfold told in V. cbv zeta in V. destruct (str_eqb_spec n (L "src")) as [->|_]; [left; reflexivity|].
  cbn [mc_takes i18n] in V. destruct (existsb (str_eqb n) i18n_names) eqn:X; cbn [negb] in V.
  - apply Lex_Proofs.existsb_str. exact X.
  - destruct (aget n user) as [t|] eqn:U; [|discriminate V]. apply IU. apply aget_In_keys. eauto.
Qed.

Lemma i18n_result : forall tr len user src eol start stop K, incl (keys user) i18n_names ->
  (forall n, aget n K = told (i18n tr len) user src eol start stop n) ->
  mc_call (i18n tr len) K = Some (match eol with Some e => if stop <? len then tr src ++ e else tr src | None => tr src end).
Proof.
  intros tr len user src eol start stop K IU H. cbn [mc_call i18n]. unfold i18n_call. rewrite (i18n_keys tr len user src eol start stop K IU H).
  rewrite !H. change (told (i18n tr len) user src eol start stop (L "src")) with (Some (VText src)).
  change (told (i18n tr len) user src eol start stop (L "isShortForm")) with (Some (VFlag (match eol with Some _ => true | None => false end))).
  change (told (i18n tr len) user src eol start stop (L "endPos")) with (Some (VPos stop)).
  cbn [negb]. destruct eol as [e|]; [|reflexivity]. reflexivity.
Qed.
