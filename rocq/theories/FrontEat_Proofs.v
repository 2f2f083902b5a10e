(** Lemmas for the whole parser: one round of the loop for each thing. *)
From Verif Require Import Base PyStr Reader_Model Lex_Model Expr_Model Front_Model FrontParts_Proofs Front_Spec FrontLex_Proofs FrontExpr_Proofs.
From Verif Require Gen_Model Gen_Spec.
From Verif Require Import FrontGen_Proofs.

Local Notation cs := Gen_Model.cs.

(** Outcome of a round, as a step of the generator and the new position. *)
Definition lift (x : res Gen_Model.gerr cs) (b r : pystr) : fout fstate :=
  match x with Ok c => fok (mkF b r c) | Raise e => ferror (FGen e) end.

Lemma lift_bind : forall x F b r,
  fbind (lift x b r) (fun s' => fbind (from_g (F (f_c s'))) (fun c => fok (mkF (f_b s') (f_r s') c)))
  = lift (Gen_Model.bind x F) b r.
Proof. intros [c|e] F b r; [|reflexivity]. cbn. destruct (F c); reflexivity. Qed.

(** ** Stripping white space *)

Lemma strip_blank : forall s, strip (32%N :: s) = strip s.
Proof. reflexivity. Qed.

Lemma strip_ends : forall s, s <> [] -> strip s = s -> is_space (last s 0%N) = false.
Proof.
  intros s NE H. destruct (exists_last NE) as (r & c & ->). rewrite last_last. apply (strip_last _ r c H).
Qed.

Lemma strip_app : forall w s, s <> [] -> strip s = s -> match w with c :: _ => is_space c = false | [] => False end ->
  strip (w ++ s) = w ++ s.
Proof.
  intros w s NE H W. destruct w as [|c w]; [contradiction|]. unfold strip. cbn [app lstrip]. rewrite W.
  unfold rstrip. pose proof (strip_ends s NE H) as K. destruct (exists_last NE) as (r & d & ->).
  rewrite last_last in K. change (c :: w ++ r ++ [d]) with ((c :: w) ++ r ++ [d]). rewrite app_assoc, rev_unit.
  cbn [lstrip]. rewrite K. cbn [rev]. rewrite rev_involutive. reflexivity.
Qed.

Section Eaters.
Variable E : env.
Hypothesis ET : x_T (e_X E) = dflt.
Hypothesis TW : tokenizes_words (e_X E).
Local Notation G := (e_G E).

(** ** The end of a directive *)

Lemma with_rest : forall p0 d k body rest c fe, no_eol d -> esc_ok (rev (p0 ++ d)) = true ->
  close_ok body p0 k rest -> fe = length p0 + length d + eol_off (show_close k ++ rest) ->
  Gen_Model.s_act c <> [] ->
  rest_of_tag E (line_clear (rev p0)) fe (mkF (rev (p0 ++ d)) (show_close k ++ rest) c)
  = lift (cutting G (cut p0 k rest) c) (rev (p0 ++ d ++ show_close k)) rest.
Proof.
  intros p0 d k body rest c fe ND EO CO FE A. unfold rest_of_tag, with_lex. cbn [f_b f_r f_c]. rewrite ET.
  rewrite (rest_of_tag_lex p0 d k body rest (top_buf c) fe ND EO CO FE). cbn [before Lex_Model.rest Lex_Model.out].
  unfold cutting, lift, fok. destruct c as [act fin op sl sl0]. cbn [Gen_Model.s_act] in A.
  destruct act as [|m act]; [congruence|]. unfold absorb, top_buf. cbn [Gen_Model.s_act].
  destruct (cut p0 k rest).
  - cbn [Gen_Model.step]. unfold Gen_Model.on_top. cbn [Gen_Model.s_act Gen_Model.bind]. do 4 f_equal.
    unfold Gen_Model.strip_ws, Gen_Model.set_act. f_equal. f_equal.
    rewrite LexLines_Proofs.safe_handle. cbn [done map]. rewrite app_nil_r. destruct m; reflexivity.
  - do 4 f_equal. unfold Gen_Model.set_act. cbn. rewrite app_nil_r. destruct m; reflexivity.
Qed.

(** ** Text *)

Lemma eat_text : forall sub p s k c, plain_text p s k -> k = [] \/ top_match dflt (rev (p ++ s)) k = true -> s <> [] ->
  Gen_Model.s_act c <> [] ->
  eat E sub (mkF (rev p) (s ++ k) c) = lift (Gen_Model.step G (Gen_Model.EText (unescape dflt s)) c) (rev (p ++ s)) k.
Proof.
  intros sub p s k c PT K NE A. unfold eat. cbn [f_b f_r f_c]. rewrite ET.
  assert (CL : classify dflt (rev p) (s ++ k) = KText).
  { apply top_first; [|destruct s; [congruence|discriminate]]. destruct s as [|a s]; [congruence|].
    specialize (PT [] a s eq_refl). rewrite app_nil_r in PT. exact PT. }
  rewrite CL. unfold with_lex, Lex_Model.step. cbn [f_b f_r f_c before Lex_Model.rest Lex_Model.out]. rewrite CL.
  unfold eat_plain. cbn [before Lex_Model.rest Lex_Model.out]. rewrite (plain_run_text s p k PT K).
  cbn [before Lex_Model.rest Lex_Model.out]. unfold lift, fok.
  destruct c as [act fin op sl sl0]. cbn [Gen_Model.s_act] in A. destruct act as [|m act]; [congruence|].
  cbn [Gen_Model.step]. unfold Gen_Model.on_top, absorb, top_buf. cbn [Gen_Model.s_act Gen_Model.bind].
  do 4 f_equal. unfold Gen_Model.set_act. cbn. rewrite app_nil_r. destruct m; reflexivity.
Qed.

(** ** Expressions *)

Lemma lang_X0 : forall c, Gen_Model.s_sl c = true -> lang_at E c = X0 E.
Proof. intros c H. unfold lang_at, X0. rewrite H. reflexivity. Qed.

Lemma get_reads : forall c um brk s code b r, Gen_Model.s_sl c = true -> reads E um brk s code -> esc_ok b = true ->
  halt brk (rev s ++ b) r -> get_expr E c um brk b (s ++ r) = fok (code, (rev s ++ b, r)).
Proof.
  intros c um brk s code b r SL RD EB ST. unfold get_expr. rewrite (lang_X0 c SL). rewrite (RD b r _ EB ST); [reflexivity|].
  unfold enough. lia.
Qed.

Lemma get_parts_reads : forall c um brk s code b r, Gen_Model.s_sl c = true -> reads E um brk s code -> esc_ok b = true ->
  halt brk (rev s ++ b) r -> exists ps, get_parts E c um brk b (s ++ r) = fok (ps, (rev s ++ b, r)) /\ concat ps = code.
Proof.
  intros c um brk s code b r SL RD EB ST. unfold get_parts. rewrite (lang_X0 c SL).
  destruct (parts_ok (X0 E) (enough (s ++ r)) um [] brk b (s ++ r) code (rev s ++ b) r) as (ps & P1 & P2).
  - apply RD; [exact EB|exact ST|unfold enough; lia].
  - exists ps. rewrite P1. split; [reflexivity|exact P2].
Qed.

Lemma contains_app : forall w a b s, contains w (a ++ (w ++ b) ++ s) = true.
Proof.
  intros w a b s. induction a as [|c a IH].
  - cbn [app]. rewrite <- app_assoc. assert (K : starts_with w (w ++ b ++ s) = true).
    { induction w as [|c w IHw]; [destruct (b ++ s); reflexivity|]. cbn. rewrite N.eqb_refl. exact IHw. }
    destruct (w ++ b ++ s) eqn:Q; cbn [contains]; rewrite K; reflexivity.
  - cbn [app contains]. rewrite IH. apply orb_true_r.
Qed.

Lemma mem_contains : forall w ps, Gen_Model.mem_str w ps = true -> contains w (concat ps) = true.
Proof.
  intros w ps H. unfold Gen_Model.mem_str in H. apply existsb_exists in H as (p & I & J).
  destruct (str_eqb_spec w p) as [e|]; [subst p|discriminate J]. apply in_split in I as (l1 & l2 & ->).
  rewrite concat_app. cbn [concat]. rewrite <- (app_nil_r w) at 2. apply contains_app.
Qed.

Lemma parts_no_then : forall ps, contains (L "then") (concat ps) && contains (L "else") (concat ps) = false ->
  Gen_Model.mem_str (L "then") ps && Gen_Model.mem_str (L "else") ps = false.
Proof.
  intros ps H. destruct (Gen_Model.mem_str (L "then") ps) eqn:E1; [|reflexivity].
  destruct (Gen_Model.mem_str (L "else") ps) eqn:E2; [|reflexivity].
  rewrite (mem_contains _ _ E1), (mem_contains _ _ E2) in H. discriminate H.
Qed.

Lemma close_halt : forall brk body p0 k rest b, close_ok body p0 k rest -> esc_ok b = true ->
  halt brk b (show_close k ++ rest).
Proof. intros. apply stop_halt. apply (close_stop body p0); assumption. Qed.

(** ** Names *)

Lemma esc_word : forall name sk p0, dir_word name -> sk = [] \/ sk = name -> esc_ok (rev (p0 ++ 35%N :: sk)) = true.
Proof.
  intros name sk p0 (_ & ID & NE) [->| ->].
  - rewrite rev_app_distr. reflexivity.
  - destruct (exists_last NE) as (r & d & ->). change (35%N :: r ++ [d]) with ((35%N :: r) ++ [d]).
    rewrite app_assoc, rev_unit. rewrite forallb_app in ID. apply andb_true_iff in ID as [_ ID]. cbn [forallb] in ID.
    cbn [esc_ok]. destruct (N.eqb_spec d 92) as [->|]; [discriminate ID|reflexivity].
Qed.
Lemma esc_blank : forall p s, esc_ok (rev (p ++ s ++ L " ")) = true.
Proof. intros. rewrite app_assoc, rev_app_distr. reflexivity. Qed.

Definition known (w : pystr) : Prop := dir_word w /\ forbidden dflt w = false.
Lemma known_words : forall w, In w (map L ["if"; "unless"; "while"; "repeat"; "for"; "try"; "else"; "elif"; "except"; "finally";
  "capture"; "filter"; "cache"; "call"; "def"; "block"; "end"; "set"; "silent"; "echo"; "stop"; "pass"; "break"; "continue"; "return";
  "raise"; "del"; "assert"; "arg"]%string) -> known w.
Proof.
  assert (F : forallb (fun w => existsb (str_eqb w) default_names && forallb identchar w && negb (forbidden dflt w)
      && match w with [] => false | _ => true end)
    (map L ["if"; "unless"; "while"; "repeat"; "for"; "try"; "else"; "elif"; "except"; "finally";
     "capture"; "filter"; "cache"; "call"; "def"; "block"; "end"; "set"; "silent"; "echo"; "stop"; "pass"; "break"; "continue"; "return";
     "raise"; "del"; "assert"; "arg"]%string) = true) by (vm_compute; reflexivity).
  rewrite forallb_forall in F. intros w I. specialize (F w I). rewrite !andb_true_iff in F. destruct F as (((F1 & F2) & F3) & F4).
  apply existsb_exists in F1 as (x & X1 & X2). apply str_eqb_eq in X2 as <-. apply negb_true_iff in F3.
  split; [|exact F3]. split; [exact X1|]. split; [exact F2|]. destruct w; [discriminate|discriminate].
Qed.

(** A directive is recognized. *)
Lemma eat_word : forall sub w b tail c, known w -> esc_ok b = true -> dn_end tail = true ->
  eat E sub (mkF b (35%N :: w ++ tail) c) = eat_directive E sub w (mkF b (35%N :: w ++ tail) c).
Proof.
  intros sub w b tail c [DW _] EO TL. unfold eat. cbn [f_b f_r]. rewrite ET, (classify_dir w b tail DW EO TL). reflexivity.
Qed.

Lemma dn_blank : forall r, dn_end (L " " ++ r) = true.
Proof. reflexivity. Qed.

(** ** Positions *)

Lemma skip_to : forall sk w src p0 K, dir_word w -> esc_ok (rev p0) = true -> sk = [] \/ sk = w -> forall args, w ++ args = sk ++ src ->
  skip_dir dflt sk (rev p0) (35%N :: w ++ args ++ K) = (rev (p0 ++ 35%N :: sk), src ++ K).
Proof.
  intros sk w src p0 K DW EO SK args HS. rewrite (skip_dir_word w sk (rev p0) (args ++ K) DW EO SK).
  rewrite app_assoc, HS, <- app_assoc. rewrite skipn_app, skipn_all, Nat.sub_diag.
  rewrite rev_app_distr. cbn [rev skipn app]. rewrite <- app_assoc. reflexivity.
Qed.

Lemma rev_cat : forall (a b : pystr), rev b ++ rev a = rev (a ++ b).
Proof. intros. rewrite rev_app_distr. reflexivity. Qed.

Lemma first_eol_eq : forall (p0 d K : pystr), no_eol d -> length (rev p0) + eol_off (d ++ K) = length p0 + length d + eol_off K.
Proof. intros p0 d K ND. rewrite rev_length, (eol_off_app d K ND). lia. Qed.

Lemma skip_plain : forall b s r, starts_plain s -> skip_ws b (s ++ r) = (b, s ++ r).
Proof. intros b [|c s] r H; [contradiction|]. destruct H as [H _]. cbn [app skip_ws]. rewrite H. reflexivity. Qed.

Lemma skip_one : forall b s r, starts_plain s -> skip_ws b (L " " ++ s ++ r) = (32%N :: b, s ++ r).
Proof.
  intros b s r H. change (L " " ++ s ++ r) with (32%N :: (s ++ r)). cbn [skip_ws]. change (blank 32) with true. cbv iota.
  apply skip_plain. exact H.
Qed.

Lemma ident_plain : forall w s, ident w -> starts_plain (w ++ s).
Proof.
  intros [|c w] s H; [contradiction|]. destruct H as [H _]. split.
  - unfold blank. idc H. reflexivity.
  - intros ->. discriminate H.
Qed.

(** ** The directives of one line *)

Lemma simple_ok : forall name sk src args code x p0 k rest c,
  dir_word name -> esc_ok (rev p0) = true -> sk = (if str_eqb name (L "silent") || str_eqb name (L "echo") then name else []) ->
  name ++ args = sk ++ src -> reads E (e_um E) [] src code -> strip code = x -> split_ws x <> [] ->
  no_eol (35%N :: name ++ args) -> esc_ok (rev (p0 ++ 35%N :: name ++ args)) = true -> close_ok false p0 k rest ->
  Gen_Model.s_act c <> [] -> Gen_Model.s_sl c = true ->
  eat_simple E name (mkF (rev p0) (35%N :: name ++ args ++ show_close k ++ rest) c)
  = lift (Gen_Model.bind (cutting G (cut p0 k rest) c) (Gen_Model.step G (Gen_Model.EExpr (kind_of name) x)))
         (rev (p0 ++ (35%N :: name ++ args) ++ show_close k)) rest.
Proof.
  intros name sk src args code x p0 k rest c DW EO SK HS RD SX NX ND EO2 CO A SL. unfold eat_simple. cbn [f_b f_r f_c].
  cbv zeta. rewrite ET.
  match goal with |- context [skip_dir dflt ?i _ _] => replace i with sk
    by (rewrite SK; destruct (str_eqb name (L "silent") || str_eqb name (L "echo")); reflexivity) end.
  rewrite (skip_to sk name src p0 (show_close k ++ rest) DW EO) with (args := args);
    [|rewrite SK; destruct (str_eqb name (L "silent") || str_eqb name (L "echo")); [right|left]; reflexivity|exact HS].
  assert (PE : rev src ++ rev (p0 ++ 35%N :: sk) = rev (p0 ++ 35%N :: name ++ args)).
  { rewrite rev_cat, <- app_assoc. cbn [app]. rewrite HS. reflexivity. }
  rewrite (get_reads c (e_um E) [] src code _ _ SL RD); [|apply (esc_word name); [exact DW|
    rewrite SK; destruct (str_eqb name (L "silent") || str_eqb name (L "echo")); [right|left]; reflexivity]|rewrite PE; apply (close_halt [] false p0); assumption].
  cbn [fbind fok]. rewrite PE, SX. destruct (split_ws x) as [|w ws] eqn:SW; [congruence|].
  rewrite (with_rest p0 (35%N :: name ++ args) k false rest c _ ND EO2 CO); [|
    change (35%N :: name ++ args ++ show_close k ++ rest) with ([35%N] ++ name ++ args ++ show_close k ++ rest);
    replace ([35%N] ++ name ++ args ++ show_close k ++ rest) with ((35%N :: name ++ args) ++ show_close k ++ rest)
      by (cbn [app]; rewrite <- !app_assoc; reflexivity);
    apply first_eol_eq; exact ND|exact A].
  apply lift_bind.
Qed.

(** ** The directives with a body *)

Lemma long_ok : forall sub o g fe start p0 d k rest c, no_eol d -> esc_ok (rev (p0 ++ d)) = true -> close_ok true p0 k rest ->
  fe = length p0 + length d + eol_off (show_close k ++ rest) -> Gen_Model.s_act c <> [] ->
  short_or_long E sub o g (line_clear (rev p0)) fe start (mkF (rev (p0 ++ d)) (show_close k ++ rest) c)
  = lift (Gen_Model.bind (cutting G (cut p0 k rest) c) (Gen_Model.open_long G o (e_id E start) (e_lc E start)))
         (rev (p0 ++ d ++ show_close k)) rest.
Proof.
  intros sub o g fe start p0 d k rest c ND EO CO FE A. unfold short_or_long. cbn [f_b f_r f_c]. rewrite ET.
  pose proof (close_stop true p0 k rest _ CO EO) as ST. rewrite (stop_short _ _ ST).
  rewrite (stop_colon _ _ _ ST (close_nonempty p0 k rest CO)). cbn [fbind fok]. rewrite (stop_ws _ _ _ ST).
  rewrite (with_rest p0 d k true rest c fe ND EO CO FE A). apply lift_bind.
Qed.

Lemma indent_read : forall name sk src args code p0 K c,
  dir_word name -> esc_ok (rev p0) = true -> sk = (if keeps_name name then [] else name) ->
  name ++ args = sk ++ (if keeps_name name then [] else L " ") ++ src -> starts_plain src -> reads E (e_um E) [L ":"] src code ->
  halt [L ":"] (rev (p0 ++ 35%N :: name ++ args)) K -> Gen_Model.s_sl c = true ->
  let '(b, r) := skip_dir dflt (if keeps_name name then [] else name) (rev p0) (35%N :: name ++ args ++ K) in
  let '(b, r) := skip_ws b r in
  get_expr E c (e_um E) [L ":"] b r = fok (code, (rev (p0 ++ 35%N :: name ++ args), K)).
Proof.
  intros name sk src args code p0 KK c DW EO SK HS SP RD HA SL.
  match goal with |- context [skip_dir dflt ?i _ _] => replace i with sk by (rewrite SK; destruct (keeps_name name); reflexivity) end.
  rewrite (skip_to sk name ((if keeps_name name then [] else L " ") ++ src) p0 KK DW EO) with (args := args);
    [|rewrite SK; destruct (keeps_name name); [left|right]; reflexivity|exact HS].
  assert (K : skip_ws (rev (p0 ++ 35%N :: sk)) (((if keeps_name name then [] else L " ") ++ src) ++ KK)
              = (rev (p0 ++ 35%N :: sk ++ if keeps_name name then [] else L " "), src ++ KK)).
  { destruct (keeps_name name).
    - rewrite app_nil_r. apply skip_plain. exact SP.
    - rewrite <- app_assoc. rewrite skip_one by exact SP. f_equal.
      change (p0 ++ 35%N :: sk ++ L " ") with (p0 ++ (35%N :: sk) ++ L " "). rewrite app_assoc, (rev_app_distr _ (L " ")). reflexivity. }
  rewrite K.
  assert (PE : rev src ++ rev (p0 ++ 35%N :: sk ++ (if keeps_name name then [] else L " ")) = rev (p0 ++ 35%N :: name ++ args)).
  { rewrite rev_cat, HS, <- !app_assoc. cbn [app]. rewrite <- app_assoc. reflexivity. }
  rewrite (get_reads c (e_um E) [L ":"] src code _ _ SL RD); [rewrite PE; reflexivity| |].
  { destruct (keeps_name name).
    - rewrite app_nil_r. apply (esc_word name); [exact DW|left; exact SK].
    - apply (esc_blank p0 (35%N :: sk)). }
  rewrite PE. exact HA.
Qed.

Lemma eol_dir : forall (p0 : pystr) name args (K : pystr), no_eol (35%N :: name ++ args) ->
  length (rev p0) + eol_off (35%N :: name ++ args ++ K) = length p0 + length (35%N :: name ++ args) + eol_off K.
Proof.
  intros p0 name args K ND.
  replace (35%N :: name ++ args ++ K) with ((35%N :: name ++ args) ++ K) by (cbn [app]; rewrite <- !app_assoc; reflexivity).
  apply first_eol_eq. exact ND.
Qed.

(** Up to the point where the short and the long form part. *)
Lemma indent_to : forall sub name sk src args code o p0 K c,
  dir_word name -> esc_ok (rev p0) = true -> sk = (if keeps_name name then [] else name) ->
  name ++ args = sk ++ (if keeps_name name then [] else L " ") ++ src -> starts_plain src -> reads E (e_um E) [L ":"] src code ->
  no_eol (35%N :: name ++ args) -> halt [L ":"] (rev (p0 ++ 35%N :: name ++ args)) K ->
  Gen_Model.s_sl c = true ->
  is_mid name = false -> opener_of name code = Some o ->
  eat_indent E sub name (mkF (rev p0) (35%N :: name ++ args ++ K) c)
  = short_or_long E sub o true (line_clear (rev p0)) (length p0 + length (35%N :: name ++ args) + eol_off K) (length p0)
      (mkF (rev (p0 ++ 35%N :: name ++ args)) K c).
Proof.
  intros sub name sk src args code o p0 K c DW EO SK HS SP RD ND HA SL MID OP. unfold eat_indent. cbn [f_b f_r f_c].
  cbv zeta. rewrite ET.
  pose proof (indent_read name sk src args code p0 K c DW EO SK HS SP RD HA SL) as R.
  unfold pystr in *. match type of R with let '(_, _) := ?s in _ => destruct s as [b1 r1] end.
  destruct (skip_ws b1 r1) as [b2 r2]. rewrite R. cbn [fbind fok]. rewrite MID, OP.
  rewrite (eol_dir p0 name args K ND), rev_length. reflexivity.
Qed.

(** A directive between, once its expression is read. *)
Definition mid_rest (sub : fstate -> fout fstate) (m : Gen_Model.mid) (clear : bool) (fe : nat) (lc : N * N) (s : fstate) : fout fstate :=
  if short_form (x_T (e_X E)) (f_r s) then
    let '(b, r) := go 1 (f_b s) (f_r s) in
    fbind (from_g (Gen_Model.on_top (Gen_Model.add_reindenting (Gen_Model.mid_head m) false lc) (f_c s)))
      (fun c =>
    fbind (parse_line sub true (mkF b r c)) (fun s' =>
    fbind (from_g (Gen_Model.on_top (fun m => Gen_Model.dedent (Gen_Model.commit m)) (f_c s'))) (fun c =>
    fok (mkF (f_b s') (f_r s') c))))
  else
    fbind (skip_colon (f_b s) (f_r s)) (fun '(b, r) =>
    let '(b, r) := skip_ws b r in
    fbind (rest_of_tag E clear fe (mkF b r (f_c s))) (fun s' =>
    fbind (from_g (Gen_Model.step G (Gen_Model.EMid m lc) (f_c s'))) (fun c =>
    fok (mkF (f_b s') (f_r s') c)))).

Lemma mid_to : forall sub name sk src args code m p0 K c,
  dir_word name -> esc_ok (rev p0) = true -> sk = (if keeps_name name then [] else name) ->
  name ++ args = sk ++ (if keeps_name name then [] else L " ") ++ src -> starts_plain src -> reads E (e_um E) [L ":"] src code ->
  no_eol (35%N :: name ++ args) -> halt [L ":"] (rev (p0 ++ 35%N :: name ++ args)) K ->
  Gen_Model.s_sl c = true ->
  is_mid name = true -> mid_of name code = Some m ->
  eat_indent E sub name (mkF (rev p0) (35%N :: name ++ args ++ K) c)
  = mid_rest sub m (line_clear (rev p0)) (length p0 + length (35%N :: name ++ args) + eol_off K) (e_lc E (length p0))
      (mkF (rev (p0 ++ 35%N :: name ++ args)) K c).
Proof.
  intros sub name sk src args code m p0 K c DW EO SK HS SP RD ND HA SL MID OP. unfold eat_indent. cbn [f_b f_r f_c].
  cbv zeta. rewrite ET.
  pose proof (indent_read name sk src args code p0 K c DW EO SK HS SP RD HA SL) as R.
  unfold pystr in *. match type of R with let '(_, _) := ?s in _ => destruct s as [b1 r1] end.
  destruct (skip_ws b1 r1) as [b2 r2]. rewrite R. cbn [fbind fok]. rewrite MID, OP.
  rewrite (eol_dir p0 name args K ND), rev_length. unfold mid_rest. rewrite ET. reflexivity.
Qed.

Lemma mid_long : forall sub m p0 d k rest c, no_eol d -> esc_ok (rev (p0 ++ d)) = true -> close_ok true p0 k rest ->
  Gen_Model.s_act c <> [] ->
  mid_rest sub m (line_clear (rev p0)) (length p0 + length d + eol_off (show_close k ++ rest)) (e_lc E (length p0))
    (mkF (rev (p0 ++ d)) (show_close k ++ rest) c)
  = lift (Gen_Model.bind (cutting G (cut p0 k rest) c) (Gen_Model.step G (Gen_Model.EMid m (e_lc E (length p0)))))
         (rev (p0 ++ d ++ show_close k)) rest.
Proof.
  intros sub m p0 d k rest c ND EO2 CO A. unfold mid_rest. cbn [f_b f_r f_c]. rewrite ET.
  pose proof (close_stop true p0 k rest _ CO EO2) as ST. rewrite (stop_short _ _ ST).
  rewrite (stop_colon _ _ _ ST (close_nonempty p0 k rest CO)). cbn [fbind fok]. rewrite (stop_ws _ _ _ ST).
  rewrite (with_rest p0 d k true rest c _ ND EO2 CO eq_refl A). apply lift_bind.
Qed.

Lemma if_to : forall sub e p0 K c, xok E [L ":"] e -> esc_ok (rev p0) = true ->
  contains (L "then") (L "if " ++ x_code e) && contains (L "else") (L "if " ++ x_code e) = false ->
  no_eol (35%N :: L "if" ++ L " " ++ x_src e) -> halt [L ":"] (rev (p0 ++ 35%N :: L "if" ++ L " " ++ x_src e)) K ->
  Gen_Model.s_sl c = true ->
  eat_if E sub (mkF (rev p0) (35%N :: L "if" ++ (L " " ++ x_src e) ++ K) c)
  = short_or_long E sub (Gen_Model.OIf (x_code e)) true (line_clear (rev p0))
      (length p0 + length (35%N :: L "if" ++ L " " ++ x_src e) + eol_off K) (length p0)
      (mkF (rev (p0 ++ 35%N :: L "if" ++ L " " ++ x_src e)) K c).
Proof.
  intros sub e p0 K c (RD & OL & SP & SC & NC) EO TE ND HA SL. unfold eat_if. cbn [f_b f_r f_c]. cbv zeta. rewrite ET.
  assert (DW : dir_word (L "if")) by (apply (known_words (L "if")); cbn; auto 30).
  rewrite (skip_to [] (L "if") (L "if" ++ L " " ++ x_src e) p0 K DW EO (or_introl eq_refl)) by reflexivity.
  assert (RI : reads E (e_um E) [L ":"] (L "if" ++ L " " ++ x_src e) (L "if" ++ L " " ++ x_code e))
    by (apply (reads_kw E ET TW); [split; reflexivity|reflexivity|reflexivity|exact SP|exact RD]).
  assert (PE : rev (L "if" ++ L " " ++ x_src e) ++ rev (p0 ++ [35%N]) = rev (p0 ++ 35%N :: L "if" ++ L " " ++ x_src e))
    by (rewrite rev_cat, <- app_assoc; reflexivity).
  destruct (get_parts_reads c (e_um E) [L ":"] _ _ (rev (p0 ++ [35%N])) K SL RI) as (ps & GP & CP);
    [apply (esc_word (L "if")); [exact DW|left; reflexivity]|rewrite PE; exact HA|].
  rewrite GP. cbn [fbind fok]. rewrite PE, CP.
  rewrite parts_no_then by (rewrite CP; exact TE).
  assert (SI : strip (L "if" ++ L " " ++ x_code e) = L "if " ++ x_code e)
    by (change (L "if" ++ L " " ++ x_code e) with (L "if " ++ x_code e); apply strip_app; [exact NC|exact SC|reflexivity]).
  rewrite SI. change (opener_of (L "if") (L "if " ++ x_code e)) with (Some (Gen_Model.OIf (x_code e))).
  rewrite (eol_dir p0 (L "if") (L " " ++ x_src e) K ND). unfold pystr in *. rewrite rev_length. reflexivity.
Qed.

(** ** The end of a directive with a body *)

Lemma end_ok : forall name p0 k rest c, In name (map L ["def"; "block"; "capture"; "filter"; "cache"; "call"; "while"; "for"; "if"; "try"; "repeat"; "unless"]%string) ->
  esc_ok (rev p0) = true -> close_ok false p0 k rest -> Gen_Model.s_act c <> [] -> Gen_Model.s_sl c = true ->
  eat_end E (mkF (rev p0) (35%N :: L "end" ++ (L " " ++ name) ++ show_close k ++ rest) c)
  = lift (Gen_Model.bind (cutting G (cut p0 k rest) c) (Gen_Model.step G (Gen_Model.EEnd name)))
         (rev (p0 ++ show_end name ++ show_close k)) rest.
Proof.
  intros name p0 k rest c I EO CO A SL. unfold eat_end. cbn [f_b f_r f_c]. cbv zeta. rewrite ET.
  assert (DW : dir_word (L "end")) by (apply (known_words (L "end")); cbn; auto 30).
  rewrite (skip_to (L "end") (L "end") (L " " ++ name) p0 (show_close k ++ rest) DW EO (or_intror eq_refl)) by reflexivity.
  assert (F : ident name /\ no_eol (show_end name) /\ (forall b, esc_ok (rev name ++ b) = true) /\
              (forall K, match K with [] => True | x :: _ => x = 10%N \/ x = 13%N \/ x = 35%N end ->
                 Gen_Model.end_name (name ++ K) = Some name)).
  { cbn [map In] in I. repeat (destruct I as [<-|I]; [split; [split; reflexivity|split; [reflexivity|split; [reflexivity|
      intros [|x K] HK; [reflexivity|destruct HK as [->|[->| ->]]; reflexivity]]]]|]). destruct I. }
  destruct F as (ID & ND & EN & KE).
  rewrite <- app_assoc, (skip_one _ name _) by (rewrite <- (app_nil_r name); apply ident_plain; exact ID).
  assert (PE : rev name ++ 32%N :: rev (p0 ++ 35%N :: L "end") = rev (p0 ++ show_end name)).
  { change (32%N :: rev (p0 ++ 35%N :: L "end")) with (rev (L " ") ++ rev (p0 ++ 35%N :: L "end")).
    rewrite !rev_cat, <- !app_assoc. reflexivity. }
  assert (EO2 : esc_ok (rev (p0 ++ show_end name)) = true) by (rewrite <- PE; apply EN).
  pose proof (close_stop false p0 k rest _ CO EO2) as ST.
  rewrite KE by (apply (stop_first _ _ ST)).
  rewrite (get_reads c (e_um E) [] name name _ _ SL (reads_word E ET TW (e_um E) [] name ID eq_refl (or_intror eq_refl))); [|reflexivity|rewrite PE; apply stop_halt; exact ST].
  cbn [fbind fok]. rewrite PE.
  rewrite (with_rest p0 (show_end name) k false rest c _ ND EO2 CO); [apply lift_bind| |exact A].
  change (length (32%N :: rev (p0 ++ 35%N :: L "end"))) with (S (length (rev (p0 ++ 35%N :: L "end")))).
  rewrite (eol_off_app name). 2:{ unfold no_eol, show_end in *. rewrite forallb_app in ND. apply andb_true_iff in ND. apply ND. }
  rewrite rev_length, app_length. unfold show_end. rewrite app_length. change (length (L "#end ")) with 5.
  change (length (35%N :: L "end")) with 4. lia.
Qed.

(** ** #set *)

Lemma namerun_word : forall w b r, forallb namechar w = true -> match r with c :: _ => namechar c = false | [] => True end ->
  namerun b (w ++ r) = (w, (rev w ++ b, r)).
Proof.
  induction w as [|c w IH]; intros b r H K.
  - cbn [app namerun rev]. destruct r as [|c r]; [reflexivity|]. cbn [namerun]. rewrite K. reflexivity.
  - cbn [forallb] in H. apply andb_true_iff in H as [H1 H2]. cbn [app namerun]. rewrite H1.
    rewrite (IH (c :: b) r H2 K). cbn [rev]. rewrite <- app_assoc. reflexivity.
Qed.

Lemma starts_no : forall (l : list pystr) (x w : pystr), existsb (fun w => starts_with w x) l = false -> In w l -> starts_with w x = false.
Proof.
  intros l x w H I. destruct (starts_with w x) eqn:S1; [|reflexivity].
  rewrite <- H. symmetry. apply existsb_exists. exists w. split; assumption.
Qed.

Lemma set_ok : forall g lv op e p0 k rest c, lvalue_ok E lv op -> In op assign_ops -> xok E [] e ->
  (forall r, x_tok (e_X E) (op ++ L " " ++ r) = Some (length op)) -> esc_ok (rev p0) = true ->
  no_eol (35%N :: L "set" ++ dir_args (ISet g lv op e)) -> esc_ok (rev (p0 ++ 35%N :: L "set" ++ dir_args (ISet g lv op e))) = true ->
  close_ok false p0 k rest -> Gen_Model.s_act c <> [] -> Gen_Model.s_sl c = true ->
  eat_set E (mkF (rev p0) (35%N :: L "set" ++ dir_args (ISet g lv op e) ++ show_close k ++ rest) c)
  = lift (Gen_Model.bind (cutting G (cut p0 k rest) c) (Gen_Model.step G (Gen_Model.ESet g (x_code lv) op (x_code e))))
         (rev (p0 ++ (35%N :: L "set" ++ dir_args (ISet g lv op e)) ++ show_close k)) rest.
Proof.
  intros g lv op e p0 k rest c (LV & _ & SLV & BLV & WLV) IOP (RD & OL & SP & SC & NC) TOK EO ND EO2 CO A SL.
  set (K := show_close k ++ rest).
  unfold eat_set. cbn [f_b f_r f_c]. cbv zeta. rewrite ET.
  assert (DW : dir_word (L "set")) by (apply (known_words (L "set")); cbn; auto 30).
  rewrite (skip_to (L "set") (L "set") (dir_args (ISet g lv op e)) p0 K DW EO (or_intror eq_refl)) by reflexivity.
  set (Z := x_src lv ++ L " " ++ op ++ L " " ++ x_src e ++ K).
  assert (SK : forall b, skip_ws b Z = (b, Z)).
  { intro b. unfold Z. destruct (x_src lv) as [|d l]; [contradiction|]. cbn [app skip_ws]. rewrite BLV. reflexivity. }
  set (pre := if g then L " global " else L " ") in *.
  assert (DA : dir_args (ISet g lv op e) ++ K = pre ++ Z).
  { unfold Z, pre. cbn [dir_args]. rewrite <- !app_assoc. reflexivity. }
  rewrite DA.
  assert (PRE : exists bb rr, skip_ws (rev (p0 ++ 35%N :: L "set")) (pre ++ Z) = (bb, rr) /\
     starts_with (L "module") rr = false /\ starts_with (L "global") rr = g /\
     (if existsb (fun w => starts_with w rr) (map L ["local"; "global"; "module"]%string)
      then let '(_, (b, r)) := namerun bb rr in skip_ws b r else (bb, rr)) = (rev (p0 ++ 35%N :: L "set" ++ pre), Z)).
  { destruct g; unfold pre.
    - exists (32%N :: rev (p0 ++ 35%N :: L "set")), (L "global" ++ L " " ++ Z). split; [reflexivity|]. split; [reflexivity|].
      split; [reflexivity|].
      change (existsb (fun w => starts_with w (L "global" ++ L " " ++ Z)) (map L ["local"; "global"; "module"]%string)) with true. cbv iota.
      rewrite namerun_word by reflexivity. change (L " " ++ Z) with (32%N :: Z). cbn [skip_ws]. change (blank 32) with true. cbv iota.
      rewrite SK. f_equal. change (p0 ++ 35%N :: L "set" ++ L " global ") with (p0 ++ (35%N :: L "set") ++ L " global ").
      rewrite (app_assoc p0), (rev_app_distr (p0 ++ _)). reflexivity.
    - exists (32%N :: rev (p0 ++ 35%N :: L "set")), Z. split; [change (L " " ++ Z) with (32%N :: Z); cbn [skip_ws]; change (blank 32) with true; cbv iota; apply SK|].
      pose proof (WLV (op ++ L " " ++ x_src e ++ K)) as W. fold Z in W.
      split; [apply (starts_no _ _ _ W); cbn; auto|]. split; [apply (starts_no _ _ _ W); cbn; auto|]. rewrite W.
      f_equal. change (p0 ++ 35%N :: L "set" ++ L " ") with (p0 ++ (35%N :: L "set") ++ L " ").
      rewrite (app_assoc p0), (rev_app_distr (p0 ++ _)). reflexivity. }
  destruct PRE as (bb & rr & P1 & P2 & P3 & P4). rewrite P1, P2, P4, P3.
  unfold get_expr at 1. rewrite (lang_X0 c SL). unfold Z at 1 2.
  assert (EB : esc_ok (rev (p0 ++ 35%N :: L "set" ++ pre)) = true).
  { unfold pre. destruct g; [apply (esc_blank p0 (L "#set global"))|apply (esc_blank p0 (L "#set"))]. }
  rewrite (LV _ _ _ EB) by (unfold enough; rewrite !app_length; cbn [length]; lia). cbn [from_x ok fbind].
  rewrite TOK. rewrite firstn_over, go_over.
  assert (IO : existsb (str_eqb op) assign_ops = true)
    by (apply existsb_exists; exists op; split; [exact IOP|apply str_eqb_refl]).
  rewrite IO.
  assert (PE : rev (L " " ++ x_src e) ++ rev op ++ rev (x_src lv ++ L " ") ++ rev (p0 ++ 35%N :: L "set" ++ pre)
               = rev (p0 ++ 35%N :: L "set" ++ dir_args (ISet g lv op e))).
  { cbn [dir_args]. fold pre. rewrite !rev_cat, <- !app_assoc. cbn [app]. rewrite <- !app_assoc. reflexivity. }
  replace (L " " ++ x_src e ++ K) with ((L " " ++ x_src e) ++ K) by (rewrite <- app_assoc; reflexivity).
  rewrite (get_reads c (e_um E) [] (L " " ++ x_src e) (L " " ++ x_code e) _ _ SL (reads_blank E ET _ _ _ _ SP RD));
    [|clear - IOP; unfold assign_ops in IOP; cbn [map In] in IOP; repeat (destruct IOP as [<-|IOP]; [reflexivity|]); destruct IOP|rewrite PE; apply (close_halt [] false p0); assumption].
  cbn [fbind fok]. rewrite PE. rewrite SLV.
  rewrite <- DA. unfold K. rewrite (with_rest p0 _ k false rest c _ ND EO2 CO (eol_dir p0 (L "set") _ _ ND) A).
  rewrite lift_bind. reflexivity.
Qed.

(** ** The ternary form *)

Lemma split_quiet : forall ps k l, Forall (fun p => strip p <> L "then" /\ strip p <> L "else") ps ->
  split_then k (ps ++ l) = let '(c, t, f) := split_then k l in
    match k with 0 => (concat ps ++ c, t, f) | 1 => (c, concat ps ++ t, f) | _ => (c, t, concat ps ++ f) end.
Proof.
  induction ps as [|p ps IH]; intros k l H.
  - cbn [app]. destruct (split_then k l) as [[c t] f]. destruct k as [|[|k]]; reflexivity.
  - inversion H as [|? ? [H1 H2] H3]; subst. cbn [app split_then].
    destruct (str_eqb_spec (strip p) (L "then")); [contradiction|]. destruct (str_eqb_spec (strip p) (L "else")); [contradiction|].
    rewrite (IH _ _ H3). destruct (split_then k l) as [[c t] f].
    destruct k as [|[|k]]; cbn [concat]; rewrite <- app_assoc; reflexivity.
Qed.

Lemma split_all : forall ps1 ps2 ps3,
  Forall (fun p => strip p <> L "then" /\ strip p <> L "else") ps1 ->
  Forall (fun p => strip p <> L "then" /\ strip p <> L "else") ps2 ->
  Forall (fun p => strip p <> L "then" /\ strip p <> L "else") ps3 ->
  split_then 0 (ps1 ++ [L "then"] ++ ps2 ++ [L "else"] ++ ps3) = (concat ps1, concat ps2, concat ps3).
Proof.
  intros ps1 ps2 ps3 H1 H2 H3. rewrite (split_quiet _ _ _ H1). cbn [app].
  change (split_then 0 (L "then" :: ps2 ++ L "else" :: ps3)) with (split_then 1 (ps2 ++ L "else" :: ps3)).
  rewrite (split_quiet _ _ _ H2).
  change (split_then 1 (L "else" :: ps3)) with (split_then 2 ps3).
  rewrite <- (app_nil_r ps3) at 1. rewrite (split_quiet _ _ _ H3). cbn [split_then]. rewrite !app_nil_r. reflexivity.
Qed.

Lemma then_ok_eat : forall sub ci t f p0 k rest c, then_ok E ci t f -> esc_ok (rev p0) = true ->
  no_eol (35%N :: L "if" ++ dir_args (IThen ci t f)) -> esc_ok (rev (p0 ++ 35%N :: L "if" ++ dir_args (IThen ci t f))) = true ->
  close_ok false p0 k rest -> Gen_Model.s_act c <> [] -> Gen_Model.s_sl c = true ->
  eat_if E sub (mkF (rev p0) (35%N :: L "if" ++ dir_args (IThen ci t f) ++ show_close k ++ rest) c)
  = lift (Gen_Model.bind (cutting G (cut p0 k rest) c)
           (Gen_Model.step G (Gen_Model.ETern (x_code ci ++ L " ") (L " " ++ x_code t ++ L " ") (L " " ++ x_code f) (e_lc E (length p0)))))
         (rev (p0 ++ (35%N :: L "if" ++ dir_args (IThen ci t f)) ++ show_close k)) rest.
Proof.
  intros sub ci t f p0 k rest c (RD & _) EO ND EO2 CO A SL.
  set (src := L "if " ++ x_src ci ++ L " then " ++ x_src t ++ L " else " ++ x_src f) in *.
  assert (SR : L "if" ++ dir_args (IThen ci t f) = src) by reflexivity.
  unfold eat_if. cbn [f_b f_r f_c]. cbv zeta. rewrite ET.
  assert (DW : dir_word (L "if")) by (apply (known_words (L "if")); cbn; auto 30).
  rewrite (skip_to [] (L "if") src p0 (show_close k ++ rest) DW EO (or_introl eq_refl)) by reflexivity.
  assert (PE : rev src ++ rev (p0 ++ [35%N]) = rev (p0 ++ 35%N :: L "if" ++ dir_args (IThen ci t f)))
    by (rewrite SR, rev_cat, <- app_assoc; reflexivity).
  destruct (RD (rev (p0 ++ [35%N])) (show_close k ++ rest) (enough (src ++ show_close k ++ rest)))
    as (ps1 & ps2 & ps3 & Q1 & Q2 & Q3 & C1 & C2 & C3 & P).
  - apply (esc_word (L "if")); [exact DW|left; reflexivity].
  - rewrite PE. apply (close_stop false p0); assumption.
  - unfold enough. lia.
  - unfold get_parts. rewrite (lang_X0 c SL), P. cbn [from_x ok fbind]. rewrite PE.
    assert (MT : forall w a b, Gen_Model.mem_str w (a ++ w :: b) = true).
    { intros w a b. unfold Gen_Model.mem_str. apply existsb_exists. exists w. split; [apply in_elt|apply str_eqb_refl]. }
    assert (M1 : Gen_Model.mem_str (L "then") (ps1 ++ [L "then"] ++ ps2 ++ [L "else"] ++ ps3) = true) by apply MT.
    assert (M2 : Gen_Model.mem_str (L "else") (ps1 ++ [L "then"] ++ ps2 ++ [L "else"] ++ ps3) = true).
    { replace (ps1 ++ [L "then"] ++ ps2 ++ [L "else"] ++ ps3) with ((ps1 ++ [L "then"] ++ ps2) ++ L "else" :: ps3)
        by (rewrite <- !app_assoc; reflexivity). apply MT. }
    rewrite M1, M2. cbn [andb]. rewrite (split_all _ _ _ Q1 Q2 Q3), C1, C2, C3.
    rewrite (with_rest p0 _ k false rest c _ ND EO2 CO (eol_dir p0 (L "if") _ _ ND) A).
    change (arg_of (L "if") (L "if " ++ x_code ci ++ L " ")) with (Some (x_code ci ++ L " ")). cbv iota.
    unfold pystr in *. rewrite rev_length. apply lift_bind.
Qed.

(** ** Regions *)

Lemma capture_to : forall sub v p0 K c, xok E [L ":"] v -> esc_ok (rev p0) = true ->
  no_eol (35%N :: L "capture" ++ L " " ++ x_src v) -> halt [L ":"] (rev (p0 ++ 35%N :: L "capture" ++ L " " ++ x_src v)) K ->
  Gen_Model.s_sl c = true ->
  eat_capture E sub (mkF (rev p0) (35%N :: L "capture" ++ (L " " ++ x_src v) ++ K) c)
  = short_or_long E sub (Gen_Model.OCapture (x_code v)) false (line_clear (rev p0))
      (length p0 + length (35%N :: L "capture" ++ L " " ++ x_src v) + eol_off K) (length p0)
      (mkF (rev (p0 ++ 35%N :: L "capture" ++ L " " ++ x_src v)) K c).
Proof.
  intros sub v p0 K c (RD & OL & SP & SC & NC) EO ND HA SL. unfold eat_capture. cbn [f_b f_r f_c]. cbv zeta. rewrite ET.
  assert (DW : dir_word (L "capture")) by (apply (known_words (L "capture")); cbn; auto 30).
  rewrite (skip_to (L "capture") (L "capture") (L " " ++ x_src v) p0 K DW EO (or_intror eq_refl)) by reflexivity.
  rewrite (eol_dir p0 (L "capture") (L " " ++ x_src v) K ND).
  rewrite <- (app_assoc (L " ")), (skip_one _ _ _ SP).
  assert (PE : rev (x_src v) ++ 32%N :: rev (p0 ++ 35%N :: L "capture") = rev (p0 ++ 35%N :: L "capture" ++ L " " ++ x_src v)).
  { change (32%N :: rev (p0 ++ 35%N :: L "capture")) with (rev (L " ") ++ rev (p0 ++ 35%N :: L "capture")).
    rewrite !rev_cat, <- !app_assoc. reflexivity. }
  rewrite (get_reads c (e_um E) [L ":"] _ _ _ _ SL RD); [|reflexivity|rewrite PE; exact HA].
  cbn [fbind fok]. rewrite PE. unfold pystr in *; rewrite rev_length. reflexivity.
Qed.

Lemma ident_var : forall w b r, ident w -> m_var dflt b (w ++ r) = false.
Proof.
  intros [|c w] b r H; [contradiction|]. destruct H as [H _]. unfold m_var, m_tok. change (t_var dflt) with [36%N].
  cbn [app starts_with]. rewrite (not_identchar c 36 H eq_refl), andb_false_r. reflexivity.
Qed.

Lemma stop_name : forall b r, stop b r -> match r with c :: _ => namechar c = false | [] => True end.
Proof. intros b [|c r] H; [exact H|]. apply stop_first in H. destruct H as [->|[->| ->]]; reflexivity. Qed.

Lemma get_ident_word : forall w b r, ident w -> match r with c :: _ => namechar c = false | [] => True end ->
  get_ident b (w ++ r) = fok (w, (rev w ++ b, r)).
Proof.
  intros w b r H K. unfold get_ident. destruct w as [|c w]; [contradiction|]. destruct H as [H1 H2].
  cbn [app at_ident]. rewrite H1. change (c :: w ++ r) with ((c :: w) ++ r). rewrite namerun_word; [reflexivity| |exact K].
  cbn [forallb]. rewrite (identchar_nm c H1), H2. reflexivity.
Qed.

Lemma ident_no_eol : forall w, ident w -> no_eol w /\ forall b, esc_ok (rev w ++ b) = true.
Proof.
  intros [|c w] H; [contradiction|]. destruct H as [H1 H2]. assert (N1 : forallb namechar (c :: w) = true)
    by (cbn [forallb]; rewrite (identchar_nm c H1), H2; reflexivity). clear H1 H2. split.
  - unfold no_eol. rewrite forallb_forall in *. intros x I. specialize (N1 x I). destruct (eolchar x) eqn:EQ; [|reflexivity].
    apply eolchar_iff in EQ as [->| ->]; discriminate N1.
  - intro b. destruct (@exists_last _ (c :: w)) as (r & d & R); [discriminate|]. rewrite R, rev_unit. cbn [app esc_ok].
    rewrite R in N1. rewrite forallb_app in N1. apply andb_true_iff in N1 as [_ N1]. cbn [forallb] in N1. rewrite andb_true_r in N1.
    destruct (N.eqb_spec d 92) as [->|]; [discriminate N1|reflexivity].
Qed.

Lemma filter_to : forall sub f p0 K c, ident f -> esc_ok (rev p0) = true ->
  halt [L ":"] (rev (p0 ++ 35%N :: L "filter" ++ L " " ++ f)) K -> Gen_Model.s_sl c = true ->
  eat_filter E sub (mkF (rev p0) (35%N :: L "filter" ++ (L " " ++ f) ++ K) c)
  = short_or_long E sub (Gen_Model.OFilter f false) false (line_clear (rev p0))
      (length p0 + length (35%N :: L "filter" ++ L " " ++ f) + eol_off K) (length p0)
      (mkF (rev (p0 ++ 35%N :: L "filter" ++ L " " ++ f)) K c).
Proof.
  intros sub f p0 K c ID EO HA SL. unfold eat_filter. cbn [f_b f_r f_c]. cbv zeta. rewrite ET.
  assert (DW : dir_word (L "filter")) by (apply (known_words (L "filter")); cbn; auto 30).
  destruct (ident_no_eol f ID) as [NF EF].
  assert (ND : no_eol (35%N :: L "filter" ++ L " " ++ f)) by exact NF.
  rewrite (skip_to (L "filter") (L "filter") (L " " ++ f) p0 K DW EO (or_intror eq_refl)) by reflexivity.
  rewrite (eol_dir p0 (L "filter") (L " " ++ f) K ND).
  rewrite <- (app_assoc (L " ")), (skip_one _ f) by (rewrite <- (app_nil_r f); apply ident_plain; exact ID).
  rewrite (ident_var f _ _ ID).
  assert (PE : rev f ++ 32%N :: rev (p0 ++ 35%N :: L "filter") = rev (p0 ++ 35%N :: L "filter" ++ L " " ++ f)).
  { change (32%N :: rev (p0 ++ 35%N :: L "filter")) with (rev (L " ") ++ rev (p0 ++ 35%N :: L "filter")).
    rewrite !rev_cat, <- !app_assoc. reflexivity. }
  rewrite (get_ident_word f _ _ ID (halt_name _ _ _ HA)). cbn [fbind fok]. rewrite PE, (halt_ws _ _ _ _ HA).
  unfold pystr in *; rewrite rev_length. reflexivity.
Qed.

(** An argument of a #call: what was collected is finished before the line is looked at. *)
Lemma arg_ok : forall n p0 k rest c, ident n -> esc_ok (rev p0) = true -> close_ok true p0 k rest ->
  eat_arg E (mkF (rev p0) (35%N :: L "arg" ++ (L " " ++ n) ++ show_close k ++ rest) c)
  = lift (Gen_Model.bind (Gen_Model.step G (Gen_Model.EArg n) c) (cutting G (cut p0 k rest)))
         (rev (p0 ++ (35%N :: L "arg" ++ L " " ++ n) ++ show_close k)) rest.
Proof.
  intros n p0 k rest c ID EO CO. unfold eat_arg. cbn [f_b f_r f_c]. cbv zeta. rewrite ET.
  assert (DW : dir_word (L "arg")) by (apply (known_words (L "arg")); cbn; auto 40).
  destruct (ident_no_eol n ID) as [NF EF].
  assert (ND : no_eol (35%N :: L "arg" ++ L " " ++ n)) by exact NF.
  rewrite (skip_to (L "arg") (L "arg") (L " " ++ n) p0 (show_close k ++ rest) DW EO (or_intror eq_refl)) by reflexivity.
  rewrite (eol_dir p0 (L "arg") (L " " ++ n) (show_close k ++ rest) ND).
  rewrite <- (app_assoc (L " ")), (skip_one _ n) by (rewrite <- (app_nil_r n); apply ident_plain; exact ID).
  assert (PE : rev n ++ 32%N :: rev (p0 ++ 35%N :: L "arg") = rev (p0 ++ 35%N :: L "arg" ++ L " " ++ n)).
  { change (32%N :: rev (p0 ++ 35%N :: L "arg")) with (rev (L " ") ++ rev (p0 ++ 35%N :: L "arg")).
    rewrite !rev_cat, <- !app_assoc. reflexivity. }
  assert (EO2 : esc_ok (rev (p0 ++ 35%N :: L "arg" ++ L " " ++ n)) = true) by (rewrite <- PE; apply EF).
  pose proof (close_stop true p0 k rest _ CO EO2) as ST.
  rewrite (get_ident_word n _ _ ID (stop_name _ _ ST)). cbn [fbind fok]. rewrite PE, (stop_ws _ _ _ ST).
  destruct (Gen_Model.step G (Gen_Model.EArg n) c) as [c1|e] eqn:ST1; [|reflexivity]. cbn [from_g fbind fok Gen_Model.bind].
  assert (A1 : Gen_Model.s_act c1 <> []) by (cbn [Gen_Model.step] in ST1; apply on_top_like in ST1; apply (like_act _ _ ST1)).
  rewrite <- (with_rest p0 (35%N :: L "arg" ++ L " " ++ n) k true rest c1 _ ND EO2 CO eq_refl A1).
  pose proof (close_nonempty p0 k rest CO) as NE. apply stop_first in ST.
  destruct (show_close k ++ rest) as [|d r]; [congruence|]. destruct ST as [->|[->| ->]]; reflexivity.
Qed.

(** The same with a class. *)
Lemma var_starts : forall s b r, starts_var s = true -> esc_ok b = true -> m_var dflt b (s ++ r) = true.
Proof.
  intros [|c [|d s]] b r H EB; try discriminate H. cbn [starts_var] in H. apply andb_true_iff in H as [H1 H2].
  apply N.eqb_eq in H1. subst c. unfold m_var, m_tok. change (t_var dflt) with [36%N]. rewrite EB. cbn [app starts_with length skipn].
  change (36 =? 36)%N with true. cbn [andb].
  assert (ND : forall k, identchar k = false -> (d =? k)%N = false) by (intros k K; apply N.eqb_neq; intros ->; congruence).
  rewrite (ND 33%N eq_refl).
  assert (AC : after_cache (d :: s ++ r) = d :: s ++ r) by (unfold after_cache; rewrite (ND 42%N eq_refl); reflexivity).
  rewrite AC. assert (OP : opener d = false) by (unfold opener; rewrite !ND by reflexivity; reflexivity). rewrite OP. exact H2.
Qed.

Lemma filter_is_to : forall sub v p0 K c, xok E [L ":"] v -> starts_var (x_src v) = true -> esc_ok (rev p0) = true ->
  no_eol (35%N :: L "filter" ++ L " " ++ x_src v) -> halt [L ":"] (rev (p0 ++ 35%N :: L "filter" ++ L " " ++ x_src v)) K ->
  Gen_Model.s_sl c = true ->
  eat_filter E sub (mkF (rev p0) (35%N :: L "filter" ++ (L " " ++ x_src v) ++ K) c)
  = short_or_long E sub (Gen_Model.OFilter (x_code v) true) false (line_clear (rev p0))
      (length p0 + length (35%N :: L "filter" ++ L " " ++ x_src v) + eol_off K) (length p0)
      (mkF (rev (p0 ++ 35%N :: L "filter" ++ L " " ++ x_src v)) K c).
Proof.
  intros sub v p0 K c (RD & OL & SP & SC & NC) SV EO ND HA SL. unfold eat_filter. cbn [f_b f_r f_c]. cbv zeta. rewrite ET.
  assert (DW : dir_word (L "filter")) by (apply (known_words (L "filter")); cbn; auto 30).
  rewrite (skip_to (L "filter") (L "filter") (L " " ++ x_src v) p0 K DW EO (or_intror eq_refl)) by reflexivity.
  rewrite (eol_dir p0 (L "filter") (L " " ++ x_src v) K ND).
  rewrite <- (app_assoc (L " ")), (skip_one _ _ _ SP).
  rewrite (var_starts (x_src v) _ K SV) by reflexivity.
  assert (PE : rev (x_src v) ++ 32%N :: rev (p0 ++ 35%N :: L "filter") = rev (p0 ++ 35%N :: L "filter" ++ L " " ++ x_src v)).
  { change (32%N :: rev (p0 ++ 35%N :: L "filter")) with (rev (L " ") ++ rev (p0 ++ 35%N :: L "filter")).
    rewrite !rev_cat, <- !app_assoc. reflexivity. }
  rewrite (get_reads c (e_um E) [L ":"] _ _ _ _ SL RD); [|reflexivity|rewrite PE; exact HA].
  cbn [fbind fok]. rewrite PE. unfold pystr in *; rewrite rev_length. reflexivity.
Qed.

(** #call *)
Lemma fn_plain : forall f, fn_ok E f -> starts_plain (x_src f).
Proof.
  intros f (_ & _ & H). destruct (x_src f) as [|c s]; [contradiction|]. cbn [starts_plain]. destruct H as [H|H].
  - split; [unfold blank; rewrite !(identchar_not c _ H) by reflexivity; reflexivity|intros ->; discriminate H].
  - destruct s as [|d s]; [discriminate H|]. cbn [starts_var] in H. apply andb_true_iff in H as [H _]. apply N.eqb_eq in H. subst c.
    split; [reflexivity|discriminate].
Qed.

Lemma fn_read : forall f c b r, fn_ok E f -> Gen_Model.s_sl c = true -> esc_ok b = true ->
  at_char 32 r = true \/ halt [L ":"] (rev (x_src f) ++ b) r ->
  (if m_var dflt b (x_src f ++ r) then from_x (cvar (lang_with (e_X E) false (Gen_Model.s_sl c)) (enough (x_src f ++ r)) (e_um E) false b (x_src f ++ r))
   else fbind (from_x (chunks (lang_with (e_X E) false (Gen_Model.s_sl c)) (enough (x_src f ++ r)) (e_um E) b (x_src f ++ r))) (fun '(l, p) =>
        match gen_var (lang_with (e_X E) false (Gen_Model.s_sl c)) (e_um E) true l with
        | Some x => fok (x, p)
        | None => ferror (FExpr XIndex)
        end)) = fok (x_code f, (rev (x_src f) ++ b, r)).
Proof.
  intros f c b r (RD & _ & ST) SL EB HR. rewrite SL. specialize (RD b r (enough (x_src f ++ r)) EB HR ltac:(unfold enough; lia)).
  destruct (starts_var (x_src f)) eqn:SV.
  - rewrite (var_starts _ b r SV EB), RD. reflexivity.
  - assert (MV : m_var dflt b (x_src f ++ r) = false).
    { destruct (x_src f) as [|d s]; [contradiction|]. destruct ST as [ST|ST]; [|discriminate ST].
      unfold m_var, m_tok. change (t_var dflt) with [36%N]. cbn [app starts_with]. rewrite (not_identchar d 36 ST eq_refl), andb_false_r. reflexivity. }
    destruct RD as (l & RD & GV). rewrite MV, RD. cbn [from_x ok fbind]. rewrite GV. reflexivity.
Qed.

Lemma call_to : forall sub f a p0 K c, fn_ok E f -> match a with Some x => xok E [L ":"] x | None => True end -> esc_ok (rev p0) = true ->
  no_eol (35%N :: L "call" ++ reg_args (ICall f a)) -> halt [L ":"] (rev (p0 ++ 35%N :: L "call" ++ reg_args (ICall f a))) K ->
  Gen_Model.s_sl c = true ->
  eat_call E sub (mkF (rev p0) (35%N :: L "call" ++ reg_args (ICall f a) ++ K) c)
  = short_or_long E sub (Gen_Model.OCall (x_code f) match a with Some x => x_code x | None => [] end) false (line_clear (rev p0))
      (length p0 + length (35%N :: L "call" ++ reg_args (ICall f a)) + eol_off K) (length p0)
      (mkF (rev (p0 ++ 35%N :: L "call" ++ reg_args (ICall f a))) K c).
Proof.
  intros sub f a p0 K c FO AO EO ND HA SL. unfold eat_call. cbn [f_b f_r f_c]. cbv zeta. rewrite ET.
  assert (DW : dir_word (L "call")) by (apply (known_words (L "call")); cbn; auto 30).
  rewrite (skip_to (L "call") (L "call") (reg_args (ICall f a)) p0 K DW EO (or_intror eq_refl)) by reflexivity.
  rewrite (eol_dir p0 (L "call") (reg_args (ICall f a)) K ND).
  set (t := match a with Some x => L " " ++ x_src x | None => [] end).
  assert (RA : reg_args (ICall f a) = L " " ++ x_src f ++ t) by reflexivity.
  assert (RK : reg_args (ICall f a) ++ K = L " " ++ x_src f ++ t ++ K) by (rewrite RA, <- !app_assoc; reflexivity).
  rewrite RK, (skip_one _ _ _ (fn_plain f FO)).
  set (b0 := 32%N :: rev (p0 ++ 35%N :: L "call")).
  assert (P1 : rev (x_src f ++ t) ++ b0 = rev (p0 ++ 35%N :: L "call" ++ reg_args (ICall f a))).
  { unfold b0. change (32%N :: rev (p0 ++ 35%N :: L "call")) with (rev (L " ") ++ rev (p0 ++ 35%N :: L "call")).
    rewrite RA, !rev_cat, <- !app_assoc. reflexivity. }
  rewrite (fn_read f c b0 (t ++ K) FO SL eq_refl).
  2:{ unfold t in *. destruct a as [x|]; [left; reflexivity|]. right. rewrite app_nil_r in P1. rewrite P1. exact HA. }
  cbn [fbind fok]. destruct a as [x|]; unfold t in *.
  - destruct AO as (RD & OL & SP & SC & NC). rewrite <- app_assoc, (skip_one _ _ _ SP).
    assert (P2 : rev (x_src x) ++ 32%N :: rev (x_src f) ++ b0 = rev (p0 ++ 35%N :: L "call" ++ reg_args (ICall f (Some x)))).
    { rewrite <- P1, !rev_app_distr, <- !app_assoc. reflexivity. }
    rewrite (get_reads c (e_um E) [L ":"] _ _ _ _ SL RD); [|reflexivity|rewrite P2; exact HA].
    cbn [fbind fok]. rewrite P2, SC. unfold pystr in *; rewrite rev_length. reflexivity.
  - rewrite app_nil_r in P1. rewrite P1. cbn [app]. rewrite (halt_ws _ _ _ _ HA).
    assert (RE : reads E (e_um E) [L ":"] [] []).
    { intros b r n EB HB HN. destruct n as [|n]; [lia|]. apply (expr_halt E ET TW). exact HB. }
    rewrite (get_reads c (e_um E) [L ":"] [] [] _ K SL RE); [| |exact HA].
    2:{ rewrite <- P1. destruct FO as (_ & [_ OL] & NE). destruct (rev (x_src f)) as [|d s] eqn:RV; [|destruct s; exact OL].
        destruct (x_src f) as [|d s]; [contradiction|]. cbn [rev] in RV. destruct (rev s); discriminate RV. }
    cbn [fbind fok rev app]. unfold pystr in *; rewrite rev_length. reflexivity.
Qed.

(** #cache *)
Lemma cache_to : forall sub a ci p0 K c, cache_ok E a ci -> esc_ok (rev p0) = true ->
  no_eol (35%N :: L "cache" ++ sa_src a) -> halt [L ":"] (rev (p0 ++ 35%N :: L "cache" ++ sa_src a)) K -> K <> [] ->
  Gen_Model.s_sl c = true ->
  eat_cache E sub (mkF (rev p0) (35%N :: L "cache" ++ sa_src a ++ K) c)
  = short_or_long E sub (Gen_Model.OCache ci) true (line_clear (rev p0))
      (length p0 + length (35%N :: L "cache" ++ sa_src a) + eol_off K) (length p0)
      (mkF (rev (p0 ++ 35%N :: L "cache" ++ sa_src a)) K c).
Proof.
  intros sub a ci p0 K c (RD & CI & _ & _) EO ND HA NK SL. unfold eat_cache. cbn [f_b f_r f_c]. cbv zeta. rewrite ET.
  assert (DW : dir_word (L "cache")) by (apply (known_words (L "cache")); cbn; auto 30).
  rewrite (skip_to (L "cache") (L "cache") (sa_src a) p0 K DW EO (or_intror eq_refl)) by reflexivity.
  rewrite (eol_dir p0 (L "cache") (sa_src a) K ND).
  assert (PE : rev (sa_src a) ++ rev (p0 ++ 35%N :: L "cache") = rev (p0 ++ 35%N :: L "cache" ++ sa_src a)).
  { rewrite rev_cat, <- app_assoc. reflexivity. }
  rewrite (RD c (rev (p0 ++ 35%N :: L "cache")) K SL); [|apply (esc_word (L "cache")); [exact DW|right; reflexivity]|rewrite PE; exact HA|exact NK].
  cbn [fbind fok]. rewrite CI, PE. unfold pystr in *; rewrite rev_length. reflexivity.
Qed.

(** ** Definitions *)

(** The name of a definition and its arguments, up to the end of the directive. *)
Lemma def_head : forall c n a b K, ident n -> args_ok E a -> Gen_Model.s_sl c = true -> K <> [] ->
  halt [L ":"] (rev (n ++ show_args a) ++ b) K ->
  forall (go_on : pystr -> list (pystr * option pystr) -> pystr -> pystr -> fout fstate),
  fbind (get_ident b ((n ++ show_args a) ++ K)) (fun '(name, (b, r)) =>
    let '(b, r) := skip_ws b r in
    fbind (match r with
           | [] => ferror (FLex PIndex)
           | d :: _ =>
               if (d =? 40)%N then
                 fbind (def_args E c false b r) (fun '(l, (b, r)) => fok (drop_self l, go 1 b r))
               else fok ([], (b, r))
           end) (fun '(l, (b, r)) => go_on name l b r))
  = go_on n (args_val a) (rev (n ++ show_args a) ++ b) K.
Proof.
  intros c n a b K ID AO SL NE ST go_on. destruct a as [a|]; cbn [show_args args_val] in *.
  - destruct AO as (RD & _ & NS). rewrite <- !app_assoc.
    rewrite (get_ident_word n b (L "(" ++ sa_src a ++ L ")" ++ K) ID) by reflexivity. cbn [fbind fok].
    change (skip_ws (rev n ++ b) (L "(" ++ sa_src a ++ L ")" ++ K)) with (rev n ++ b, L "(" ++ sa_src a ++ L ")" ++ K).
    pose proof (RD c (rev n ++ b) K SL) as R1.
    change (L "(" ++ sa_src a ++ L ")" ++ K) with (40%N :: sa_src a ++ L ")" ++ K) in R1 |- *. cbv iota.
    change (40 =? 40)%N with true. cbv iota. rewrite R1. cbn [fbind fok].
    assert (DS : drop_self (sa_val a) = sa_val a).
    { unfold drop_self. destruct (sa_val a) as [|[m v] l]; [reflexivity|]. rewrite NS. reflexivity. }
    rewrite DS. cbn [app go]. f_equal.
    rewrite !rev_app_distr. cbn [rev app]. rewrite <- !app_assoc. reflexivity.
  - rewrite app_nil_r in *. rewrite (get_ident_word n b K ID (halt_name _ _ _ ST)). cbn [fbind fok].
    rewrite (halt_ws _ _ _ _ ST). destruct K as [|d K]; [congruence|].
    assert (D40 : (d =? 40)%N = false) by (apply halt_first in ST; destruct ST as [->|[->|[->| ->]]]; reflexivity).
    rewrite D40. reflexivity.
Qed.

Lemma args_line_ok : forall n a b, ident n -> args_ok E a ->
  no_eol (n ++ show_args a) /\ esc_ok (rev (n ++ show_args a) ++ b) = true.
Proof.
  intros n a b ID AO. destruct (ident_no_eol n ID) as [NF EF]. destruct a as [a|]; cbn [show_args].
  - destruct AO as (_ & (OL & _) & _). split.
    + unfold no_eol in *. rewrite !forallb_app, NF, OL. reflexivity.
    + rewrite !rev_app_distr, <- !app_assoc. reflexivity.
  - rewrite app_nil_r. split; [exact NF|apply EF].
Qed.

Lemma def_ok : forall sub o n a p0 k rest c, ident n -> args_ok E a -> esc_ok (rev p0) = true ->
  close_ok true p0 k rest -> Gen_Model.s_act c <> [] -> Gen_Model.s_sl c = true ->
  exists rem, eat_def E sub (def_name o) (mkF (rev p0) (35%N :: def_name o ++ (L " " ++ n ++ show_args a) ++ show_close k ++ rest) c)
  = lift (Gen_Model.bind (cutting G (cut p0 k rest) c)
            (Gen_Model.open_long G (Gen_Spec.dop_open (def_dop o) n (args_val a) rem) [] (e_lc E (length p0))))
         (rev (p0 ++ show_def o n a ++ show_close k)) rest.
Proof.
  intros sub o n a p0 k rest c ID AO EO CO A SL. unfold eat_def. cbn [f_b f_r f_c]. cbv zeta. rewrite ET.
  assert (DW : dir_word (def_name o)) by (apply (known_words (def_name o)); destruct o; cbn; auto 30).
  set (na := n ++ show_args a) in *.
  rewrite (skip_to (def_name o) (def_name o) (L " " ++ na) p0 (show_close k ++ rest) DW EO (or_intror eq_refl)) by reflexivity.
  assert (SPN : starts_plain na).
  { unfold na. clear - ID. destruct n as [|d n]; [contradiction|]. apply (ident_plain (d :: n) (show_args a)). exact ID. }
  rewrite <- (app_assoc (L " ")), (skip_one _ na) by exact SPN.
  assert (NV : forall b r, m_var dflt b (na ++ r) = false).
  { intros b r. unfold na. rewrite <- app_assoc. apply ident_var. exact ID. }
  rewrite NV.
  assert (PE : rev na ++ 32%N :: rev (p0 ++ 35%N :: def_name o) = rev (p0 ++ 35%N :: def_name o ++ L " " ++ na)).
  { change (32%N :: rev (p0 ++ 35%N :: def_name o)) with (rev (L " ") ++ rev (p0 ++ 35%N :: def_name o)).
    rewrite !rev_cat, <- !app_assoc. reflexivity. }
  destruct (args_line_ok n a (32%N :: rev (p0 ++ 35%N :: def_name o)) ID AO) as [NF EF]. fold na in NF, EF.
  assert (EO2 : esc_ok (rev (p0 ++ 35%N :: def_name o ++ L " " ++ na)) = true) by (rewrite <- PE; exact EF).
  pose proof (close_stop true p0 k rest _ CO EO2) as ST.
  pose proof (close_nonempty p0 k rest CO) as NE.
  rewrite <- PE in ST.
  eexists. etransitivity.
  { refine (def_head c n a (32%N :: rev (p0 ++ 35%N :: def_name o)) (show_close k ++ rest) ID AO SL NE (stop_halt _ _ _ ST) _). }
  cbv beta. fold na. rewrite PE in *.
  destruct (show_close k ++ rest) as [|d K] eqn:HK; [congruence|].
  rewrite (stop_short _ _ ST), (stop_colon _ _ _ ST NE). cbn [fbind fok].
  unfold get_expr. rewrite (lang_X0 c SL).
  assert (EX : expr (X0 E) (enough (d :: K)) (e_um E) false [] [] (rev (p0 ++ 35%N :: def_name o ++ L " " ++ na)) (d :: K)
               = ok [] (rev (p0 ++ 35%N :: def_name o ++ L " " ++ na)) (d :: K)).
  { assert (EN : enough (d :: K) = S (pred (enough (d :: K)))) by (unfold enough; lia). rewrite EN. apply (expr_stop E ET). exact ST. }
  rewrite EX. cbn [from_x ok fbind].
  assert (ND : no_eol (35%N :: def_name o ++ L " " ++ na)).
  { unfold no_eol. change (35%N :: def_name o ++ L " " ++ na) with ([35%N] ++ def_name o ++ L " " ++ na). rewrite !forallb_app.
    unfold no_eol in NF. rewrite NF. destruct o; reflexivity. }
  rewrite <- HK. rewrite (with_rest p0 _ k true rest c _ ND EO2 CO); [|rewrite rev_length, app_length; lia|exact A].
  rewrite lift_bind. f_equal. f_equal. destruct o; reflexivity.
Qed.

(** ** Short forms *)

Lemma firstn_len : forall (w r : pystr), firstn (length w) (w ++ r) = w.
Proof. intros. rewrite firstn_app, Nat.sub_diag, firstn_all, app_nil_r. reflexivity. Qed.
Lemma skipn_len : forall (w r : pystr), skipn (length w) (w ++ r) = r.
Proof. intros. rewrite skipn_app, Nat.sub_diag, skipn_all. reflexivity. Qed.

Lemma line_blank : forall sub g B r c, parse_line sub g (mkF B (32%N :: r) c)
  = fbind (sub (mkF (32%N :: B) (firstn (if g then eol_end r else eol_off r) r) c))
      (fun s' => fok (mkF (f_b s') (f_r s' ++ skipn (if g then eol_end r else eol_off r) r) (f_c s'))).
Proof. reflexivity. Qed.

Lemma line_parsed : forall sub g B w rest c, line_ok g w rest ->
  parse_line sub g (mkF B (L " " ++ w ++ rest) c)
  = fbind (sub (mkF (32%N :: B) w c)) (fun s' => fok (mkF (f_b s') (f_r s' ++ rest) (f_c s'))).
Proof.
  intros sub g B w rest c LO. change (L " " ++ w ++ rest) with (32%N :: w ++ rest).
  rewrite line_blank, (line_taken g w rest LO), firstn_len, skipn_len. reflexivity.
Qed.

Lemma short_ok : forall sub o g clear fe start B w rest c, line_ok g w rest ->
  short_or_long E sub o g clear fe start (mkF B (L ": " ++ w ++ rest) c)
  = fbind (from_g (Gen_Model.open_short G o (e_id E start) (e_lc E start) c)) (fun '(c1, mem) =>
    fbind (sub (mkF (rev (L ": ") ++ B) w c1)) (fun s' =>
    fbind (from_g (Gen_Model.close_short G o mem (f_c s'))) (fun c2 => fok (mkF (f_b s') (f_r s' ++ rest) c2)))).
Proof.
  intros sub o g clear fe start B w rest c LO. unfold short_or_long. cbn [f_b f_r f_c]. rewrite ET, (line_short g w rest LO).
  change (L ": " ++ w ++ rest) with (58%N :: L " " ++ w ++ rest). cbn [go].
  destruct (Gen_Model.open_short G o (e_id E start) (e_lc E start) c) as [[c1 mem]|e]; [|reflexivity].
  cbn [from_g fbind fok]. rewrite (line_parsed sub g (58%N :: B) w rest c1 LO).
  change (rev (L ": ") ++ B) with (32%N :: 58%N :: B).
  destruct (sub (mkF (32%N :: 58%N :: B) w c1)) as [[s'|e]|]; reflexivity.
Qed.

Lemma mid_short : forall sub m clear fe lc B w rest c, line_ok true w rest ->
  mid_rest sub m clear fe lc (mkF B (L ": " ++ w ++ rest) c)
  = fbind (from_g (Gen_Model.on_top (Gen_Model.add_reindenting (Gen_Model.mid_head m) false lc) c)) (fun c1 =>
    fbind (sub (mkF (rev (L ": ") ++ B) w c1)) (fun s' =>
    fbind (from_g (Gen_Model.on_top (fun m => Gen_Model.dedent (Gen_Model.commit m)) (f_c s'))) (fun c2 =>
    fok (mkF (f_b s') (f_r s' ++ rest) c2)))).
Proof.
  intros sub m clear fe lc B w rest c LO. unfold mid_rest. cbn [f_b f_r f_c]. rewrite ET, (line_short true w rest LO).
  change (L ": " ++ w ++ rest) with (58%N :: L " " ++ w ++ rest). cbn [go].
  destruct (Gen_Model.on_top (Gen_Model.add_reindenting (Gen_Model.mid_head m) false lc) c) as [c1|e]; [|reflexivity].
  cbn [from_g fbind fok]. rewrite (line_parsed sub true (58%N :: B) w rest c1 LO).
  change (rev (L ": ") ++ B) with (32%N :: 58%N :: B).
  destruct (sub (mkF (32%N :: 58%N :: B) w c1)) as [[s'|e]|]; reflexivity.
Qed.

Lemma def_short : forall sub o n a p0 w rest c, ident n -> args_ok E a -> esc_ok (rev p0) = true ->
  line_ok false w rest -> Gen_Model.s_sl c = true ->
  exists rem, eat_def E sub (def_name o) (mkF (rev p0) (35%N :: def_name o ++ (L " " ++ n ++ show_args a) ++ L ": " ++ w ++ rest) c)
  = let ob := Gen_Spec.dop_open (def_dop o) n (args_val a) rem in
    fbind (from_g (Gen_Model.open_short G ob [] (e_lc E (length p0)) c)) (fun '(c1, mem) =>
    fbind (sub (mkF (rev (p0 ++ show_def o n a ++ L ": ")) w c1)) (fun s' =>
    fbind (from_g (Gen_Model.close_short G ob mem (f_c s'))) (fun c2 =>
    rest_of_tag E (line_clear (rev p0)) (length p0 + length (show_def o n a ++ L ": " ++ w) + eol_off rest)
      (mkF (f_b s') (f_r s' ++ rest) c2)))).
Proof.
  intros sub o n a p0 w rest c ID AO EO LO SL. unfold eat_def. cbn [f_b f_r f_c]. cbv zeta. rewrite ET.
  assert (DW : dir_word (def_name o)) by (apply (known_words (def_name o)); destruct o; cbn; auto 30).
  set (na := n ++ show_args a) in *.
  set (K := L ": " ++ w ++ rest).
  rewrite (skip_to (def_name o) (def_name o) (L " " ++ na) p0 K DW EO (or_intror eq_refl)) by reflexivity.
  assert (SPN : starts_plain na).
  { unfold na. clear - ID. destruct n as [|d n]; [contradiction|]. apply (ident_plain (d :: n) (show_args a)). exact ID. }
  assert (ND : no_eol (show_def o n a ++ L ": " ++ w)).
  { destruct (args_line_ok n a [] ID AO) as [NF _]. destruct LO as [(NW & _) _]. unfold show_def, no_eol in *.
    rewrite !forallb_app in *. rewrite NW. fold na. rewrite <- forallb_app in NF. fold na in NF. 
    unfold na in *. rewrite forallb_app in *. rewrite NF. destruct o; reflexivity. }
  assert (NE0 : eol_off (35%N :: def_name o ++ (L " " ++ na) ++ K) = length (show_def o n a ++ L ": " ++ w) + eol_off rest).
  { rewrite <- (eol_off_app _ rest ND). f_equal. unfold show_def, K. fold na. rewrite <- !app_assoc. reflexivity. }
  rewrite NE0.
  rewrite <- (app_assoc (L " ")), (skip_one _ na) by exact SPN.
  assert (NV : forall b r, m_var dflt b (na ++ r) = false).
  { intros b r. unfold na. rewrite <- app_assoc. apply ident_var. exact ID. }
  rewrite NV.
  assert (PE : rev na ++ 32%N :: rev (p0 ++ 35%N :: def_name o) = rev (p0 ++ show_def o n a)).
  { change (32%N :: rev (p0 ++ 35%N :: def_name o)) with (rev (L " ") ++ rev (p0 ++ 35%N :: def_name o)).
    unfold show_def. fold na. rewrite !rev_cat, <- !app_assoc. reflexivity. }
  match goal with |- context [def_comment (L "Generated") ?y ?z] => exists (def_comment (L "Generated") y z) end. cbv zeta.
  match goal with |- context [def_comment (L "Generated") ?y ?z] => set (rem := def_comment (L "Generated") y z) end.
  etransitivity.
  { refine (def_head c n a (32%N :: rev (p0 ++ 35%N :: def_name o)) K ID AO SL _ (halt_colon _ _) _). discriminate. }
  cbv beta. fold na. rewrite PE in *. unfold K. rewrite (line_short false w rest LO).
  change (L ": " ++ w ++ rest) with (58%N :: L " " ++ w ++ rest) at 1. cbn [go].
  assert (OB : def_opener (def_name o) n (args_val a) rem = Gen_Spec.dop_open (def_dop o) n (args_val a) rem) by (destruct o; reflexivity).
  rewrite OB. set (ob := Gen_Spec.dop_open (def_dop o) n (args_val a) rem). rewrite rev_length.
  destruct (Gen_Model.open_short G ob [] (e_lc E (length p0)) c) as [[c1 mem]|e]; [|reflexivity].
  cbn [from_g fbind fok]. change (L " " ++ w ++ rest) with (32%N :: w ++ rest). cbv iota. change (blank 32) with true. cbv iota.
  match goal with |- context [firstn ?k (w ++ rest)] => assert (KK : k = length w) end.
  { cbn [length]. rewrite rev_length. unfold show_def. fold na. rewrite !app_length. change (length (L ": ")) with 2.
    destruct LO as [_ R]. 
    assert (ER : eol_off rest = 0) by (destruct rest as [|x r]; [reflexivity|apply (eol_cons x r R)]). rewrite ER. lia. }
  rewrite KK, firstn_len, skipn_len.
  replace (32%N :: 58%N :: rev (p0 ++ show_def o n a)) with (rev (p0 ++ show_def o n a ++ L ": "))
    by (rewrite (app_assoc p0), (rev_app_distr (p0 ++ _)); reflexivity).
  rewrite Nat.add_assoc. reflexivity.
Qed.

(** ** Placeholders *)

Lemma place_ok : forall sub p0 h rest c, ph_ok E p0 h rest -> Gen_Model.s_sl c = true ->
  eat E sub (mkF (rev p0) (show_ph h ++ rest) c)
  = lift (Gen_Model.step G (Gen_Model.EPlace (ph_code h) (match ph_fa h with Some a => a | None => [] end) (show_ph h)
                              (e_lc E (length p0)) (ph_sil h)) c)
         (rev (p0 ++ show_ph h)) rest.
Proof.
  intros sub p0 h rest c (MV & FC & PL) SL. unfold eat. cbn [f_b f_r f_c]. rewrite ET.
  assert (CL : classify dflt (rev p0) (show_ph h ++ rest) = KVar \/ classify dflt (rev p0) (show_ph h ++ rest) = KExpr).
  { unfold classify. replace (m_tok (t_com dflt) (rev p0) (show_ph h ++ rest)) with false
      by (unfold m_tok; cbn; rewrite andb_false_r; reflexivity).
    replace (m_tok (t_ml dflt) (rev p0) (show_ph h ++ rest)) with false by (unfold m_tok; cbn; rewrite andb_false_r; reflexivity).
    destruct (m_var dflt (rev p0) (show_ph h ++ rest)); [left; reflexivity|]. cbn [orb] in MV. rewrite MV. right. reflexivity. }
  assert (PP : eat_placeholder E (mkF (rev p0) (show_ph h ++ rest) c) =
     lift (Gen_Model.step G (Gen_Model.EPlace (ph_code h) (match ph_fa h with Some a => a | None => [] end) (show_ph h)
                              (e_lc E (length p0)) (ph_sil h)) c) (rev (p0 ++ show_ph h)) rest).
  { unfold eat_placeholder. cbn [f_b f_r f_c]. cbv zeta. rewrite ET, (lang_X0 c SL). rewrite PL by (unfold enough; lia).
    cbn [from_x ok fbind]. change (length (t_var dflt)) with 1.
    replace (length (show_ph h ++ rest) - length rest) with (length (show_ph h)) by (rewrite app_length; lia).
    rewrite firstn_over.
    change (skipn 1 (show_ph h ++ rest)) with (((if ph_sil h then L "!" else []) ++ ph_src h) ++ rest). rewrite <- app_assoc.
    destruct (ph_src h) as [|d src] eqn:PS; [contradiction|].
    assert (D33 : (d =? 33)%N = false) by (destruct (N.eqb_spec d 33) as [->|]; [discriminate FC|reflexivity]).
    assert (D42 : (d =? 42)%N = false) by (destruct (N.eqb_spec d 42) as [->|]; [discriminate FC|reflexivity]).
    assert (SI : at_char 33 ((if ph_sil h then L "!" else []) ++ (d :: src) ++ rest) = ph_sil h).
    { destruct (ph_sil h); [reflexivity|]. cbn [app at_char]. exact D33. }
    rewrite SI.
    assert (R2 : (if ph_sil h then skipn 1 ((if ph_sil h then L "!" else []) ++ (d :: src) ++ rest)
                  else (if ph_sil h then L "!" else []) ++ (d :: src) ++ rest) = (d :: src) ++ rest)
      by (destruct (ph_sil h); reflexivity).
    rewrite R2.
    assert (AC : after_cache ((d :: src) ++ rest) = (d :: src) ++ rest).
    { cbn [app]. unfold after_cache. rewrite ?D42. reflexivity. }
    rewrite AC, Nat.sub_diag. cbn [firstn]. rewrite rev_length, rev_cat.
    match goal with |- fbind (from_g ?x) _ = _ => destruct x; reflexivity end. }
  destruct CL as [CL|CL]; rewrite CL; exact PP.
Qed.

(** ** Comments *)

Definition nlish (s : pystr) : Prop := s = [] \/ s = [10%N] \/ s = [13; 10]%N \/ s = [13%N].

Lemma drop_hashes_app : forall c nl, nlish nl -> drop_hashes (c ++ nl) = drop_hashes c ++ nl.
Proof.
  induction c as [|x c IH]; intros nl NL.
  - cbn [app drop_hashes]. destruct NL as [->|[->|[->| ->]]]; reflexivity.
  - cbn [app drop_hashes]. destruct (x =? 35)%N; [apply IH; exact NL|reflexivity].
Qed.

Lemma bar_app : forall c nl, c <> [] -> nlish nl -> bar_comment c = false -> bar_comment (c ++ nl) = false.
Proof.
  intros [|x c] nl NE NL H; [congruence|]. unfold bar_comment in *. change ((x :: c) ++ nl) with (x :: (c ++ nl)) at 1. cbv iota.
  change (x :: c ++ nl) with ((x :: c) ++ nl). destruct (x =? 35)%N eqn:X; [|reflexivity]. cbn [andb] in *.
  rewrite (drop_hashes_app (x :: c) nl NL). destruct (drop_hashes (x :: c)) as [|y l]; [discriminate|].
  destruct l as [|z l]; [destruct NL as [->|[->|[->| ->]]]; [exact H|reflexivity..]|reflexivity].
Qed.

Lemma special_rest_app : forall c nl, nlish nl -> special_rest (c ++ nl) = special_rest c.
Proof.
  induction c as [|x c IH]; intros nl NL.
  - destruct NL as [->|[->|[->| ->]]]; reflexivity.
  - cbn [app special_rest]. rewrite IH by exact NL. reflexivity.
Qed.

Lemma special_app : forall c nl, c <> [] -> nlish nl -> special_var (c ++ nl) = special_var c.
Proof.
  intros [|x c] nl NE NL; [congruence|]. cbn [app special_var]. rewrite special_rest_app by exact NL. reflexivity.
Qed.

Lemma starts_app : forall q c nl, nlish nl -> no_eol q -> starts_with q (c ++ nl) = starts_with q c.
Proof.
  induction q as [|x q IH]; intros c nl NL Q; [destruct (c ++ nl), c; reflexivity|].
  unfold no_eol in Q. cbn [forallb] in Q. apply andb_true_iff in Q as [Q1 Q2]. apply negb_true_iff in Q1.
  destruct c as [|y c].
  - cbn [app]. destruct nl as [|z nl]; [reflexivity|]. cbn [starts_with].
    destruct (N.eqb_spec x z) as [->|]; [|reflexivity]. exfalso.
    destruct NL as [F|[F|[F|F]]]; try discriminate F; injection F as -> ->; discriminate Q1.
  - cbn [app starts_with]. rewrite IH by assumption. reflexivity.
Qed.

Lemma splitlines_one : forall c nl cur, forallb (fun x => negb (Names_Model.is_linebreak x)) c = true -> nlish nl -> cur ++ c <> [] ->
  Names_Model.splitlines_aux false (rev cur) (c ++ nl) = [cur ++ c].
Proof.
  induction c as [|x c IH]; intros nl cur H NL NE.
  - rewrite app_nil_r in *. cbn [app].
    assert (RC : match rev cur with [] => [] | _ => [rev (rev cur)] end = [cur]).
    { rewrite rev_involutive. destruct (rev cur) eqn:R; [|reflexivity].
      apply (f_equal (@rev N)) in R. rewrite rev_involutive in R. cbn in R; contradiction. }
    destruct NL as [->|[->|[->| ->]]]; cbn; rewrite ?rev_involutive; try reflexivity. rewrite rev_involutive in RC; exact RC.
  - cbn [forallb] in H. apply andb_true_iff in H as [H1 H2]. apply negb_true_iff in H1.
    cbn [app Names_Model.splitlines_aux andb]. rewrite H1.
    rewrite <- (rev_unit cur x). rewrite IH; [rewrite <- app_assoc; reflexivity|exact H2|exact NL|].
    destruct cur; discriminate.
Qed.

Lemma rem_add : forall s m p, 
  Gen_Model.set_pend (pend (Lex_Model.commit (mkB p [])))
    (Gen_Model.set_body (Gen_Model.m_body m ++ map (item_chunk E (Gen_Model.m_lev m)) (done (Lex_Model.commit (mkB p [])) ++ [Rem s])) m)
  = Gen_Model.add (Gen_Model.GComment (L "#" ++ repeat 32%N (Gen_Model.g_offset G) ++ s)) (Gen_Model.set_pend p m).
Proof.
  intros s m p. unfold Lex_Model.commit, Gen_Model.add, Gen_Model.add_gl, Gen_Model.commit. cbn [pend done Gen_Model.m_pend Gen_Model.set_pend].
  destruct p as [|x p]; [reflexivity|]. destruct (concat (rev (x :: p))) as [|y t]; [reflexivity|].
  cbn. rewrite <- app_assoc. reflexivity.
Qed.

Lemma rem_eat : forall sub s p0 k rest c, rem_ok p0 s k rest -> esc_ok (rev p0) = true -> Gen_Model.s_act c <> [] ->
  eat E sub (mkF (rev p0) (L "##" ++ s ++ show_close k ++ rest) c)
  = lift (Gen_Model.bind (cutting G (cut p0 k rest) c) (Gen_Model.step G (Gen_Model.EComment s)))
         (rev (p0 ++ L "##" ++ s ++ show_close k)) rest.
Proof.
  intros sub s p0 k rest c (NE & LB & NH & CO & BC & SV & DOC) EO A. unfold eat. cbn [f_b f_r f_c]. rewrite ET.
  assert (CL : classify dflt (rev p0) (L "##" ++ s ++ show_close k ++ rest) = KComment).
  { unfold classify, m_tok. rewrite EO. reflexivity. }
  rewrite CL. unfold with_lex, Lex_Model.step. cbn [f_b f_r f_c before Lex_Model.rest Lex_Model.out]. rewrite CL.
  unfold eat_comment. cbn [f_b f_r f_c before Lex_Model.rest Lex_Model.out].
  change (length (t_com dflt)) with (length (L "##")). rewrite go_over.
  assert (NS : no_eol s).
  { unfold no_eol. rewrite forallb_forall in *. intros x I. specialize (LB x I). destruct (eolchar x) eqn:EQ; [|reflexivity].
    apply eolchar_iff in EQ as [->| ->]; discriminate LB. }
  assert (PS : Reader_Spec.plain s).
  { unfold no_eol in NS. rewrite forallb_forall in NS. split; intro I; specialize (NS _ I); discriminate NS. }
  assert (Q : exists nl, nlish nl /\ nl = show_close k /\ cut p0 k rest = line_clear (rev p0) /\
     read_eol (line_clear (rev p0)) (rev (L "##") ++ rev p0) (s ++ show_close k ++ rest)
     = (s ++ nl, (rev (p0 ++ L "##" ++ s ++ show_close k), rest))).
  { unfold cut. destruct k as [|nl|]; [congruence| |]; cbn [show_close app] in *.
    - destruct CO as [LC NL]. exists nl. rewrite LC. split; [unfold nlish; destruct NL as [->|[->|[-> _]]]; auto|].
      split; [reflexivity|]. split; [reflexivity|]. unfold read_eol, eol_end. rewrite (Reader_Proofs.eolz_plain s _ PS), (eol_nl nl rest NL).
      cbn [fst snd]. rewrite <- app_length. rewrite (app_assoc s nl). rewrite firstn_over, go_over. f_equal. f_equal.
      rewrite !rev_cat, <- !app_assoc. reflexivity.
    - exists []. split; [left; reflexivity|]. split; [reflexivity|].
      assert (Z : eolz rest = (0, 0) \/ (exists n, eolz rest = (0, n)) /\ line_clear (rev p0) = false).
      { destruct rest as [|x rest]; [left; reflexivity|]. destruct CO as [C1 C2]. right. split; [|exact C2].
        exists (snd (eolz (x :: rest))). pose proof (eol_cons x rest C1) as Q. unfold eol_off in Q. destruct (eolz (x :: rest)); cbn in *; congruence. }
      split.
      { destruct rest as [|x rest]; [apply andb_true_r|]. destruct CO as [_ C2]. rewrite C2. reflexivity. }
      unfold read_eol, eol_end, eol_off. rewrite (Reader_Proofs.eolz_plain s rest PS).
      assert (Y : (if line_clear (rev p0) then snd (length s + fst (eolz rest), length s + snd (eolz rest))
                   else fst (length s + fst (eolz rest), length s + snd (eolz rest))) = length s).
      { destruct Z as [Z|[[n Z] L1]]; rewrite Z; cbn [fst snd]; [destruct (line_clear (rev p0)); lia|rewrite L1; lia]. }
      match goal with |- (firstn ?n _, _) = _ => replace n with (length s) by (rewrite <- Y at 1; destruct (eolz rest); reflexivity) end.
      rewrite firstn_over, go_over, !app_nil_r. f_equal. f_equal. rewrite !rev_cat, <- !app_assoc. reflexivity. }
  destruct Q as (nl & NL & NLE & CUT & RE). rewrite RE. cbn [before Lex_Model.rest Lex_Model.out]. rewrite CUT.
  assert (AC : forall o, done o = [] -> add_comment (s ++ nl) o = let b := Lex_Model.commit o in mkB (pend b) (done b ++ [Rem s])).
  { intros o D. unfold add_comment. rewrite (bar_app s nl NE NL BC), (special_app s nl NE NL), SV. cbn [orb].
    replace (existsb (fun p => starts_with p (s ++ nl)) [L "doc:"; L "doc-method:"; L "doc-module:"; L "doc-class:"; L "header:"])
      with (existsb (fun p => starts_with p s) [L "doc:"; L "doc-method:"; L "doc-module:"; L "doc-class:"; L "header:"]).
    2:{ cbn [existsb]. rewrite !(starts_app _ s nl NL) by reflexivity. reflexivity. }
    rewrite DOC. unfold Names_Model.splitlines. change (@nil N) with (rev (@nil N)) at 1; rewrite (splitlines_one s nl [] LB NL NE). reflexivity. }
  unfold lift, fok, cutting. destruct c as [act fin op sl sl0]. cbn [Gen_Model.s_act] in A. destruct act as [|m act]; [congruence|].
  unfold absorb, top_buf. cbn [Gen_Model.s_act]. 
  destruct (line_clear (rev p0)).
  - rewrite AC by (rewrite LexLines_Proofs.safe_handle; reflexivity). cbv zeta. cbn [pend done].
    destruct (handle_ws (mkB (Gen_Model.m_pend m) [])) as [hp hd] eqn:HW.
    assert (D : hd = []) by (pose proof (LexLines_Proofs.safe_handle (mkB (Gen_Model.m_pend m) [])) as SH; rewrite HW in SH; exact SH).
    subst hd. rewrite rem_add.
    assert (HS : Gen_Model.strip_ws m = Gen_Model.set_pend hp m) by (unfold Gen_Model.strip_ws; rewrite HW; reflexivity).
    cbn [Gen_Model.step]. unfold Gen_Model.on_top. cbn [Gen_Model.s_act Gen_Model.bind]. rewrite HS. reflexivity.
  - rewrite AC by reflexivity. cbv zeta. cbn [Gen_Model.step Gen_Model.bind]. unfold Gen_Model.on_top. cbn [Gen_Model.s_act Gen_Model.bind].
    do 4 f_equal. unfold Gen_Model.set_act. cbn [Gen_Model.s_act Gen_Model.s_fin Gen_Model.s_open Gen_Model.s_sl Gen_Model.s_sl0].
    f_equal. f_equal. cbn [pend done]. rewrite rem_add. destruct m; reflexivity.
Qed.
End Eaters.
