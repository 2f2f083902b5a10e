(** Lemmas for the whole parser: what is found where a directive, a placeholder or an expression
    starts and ends. *)
From Verif Require Import Base PyStr Reader_Model Lex_Model Expr_Model Front_Model Front_Spec.
From Verif Require Reader_Proofs Gen_Model Gen_Spec.

Lemma app_cons : forall (a : N) (l m : pystr), l ++ a :: m = (l ++ [a]) ++ m.
Proof. intros. rewrite <- app_assoc. reflexivity. Qed.

(** ** Going forward *)

Lemma go_over : forall s b r, go (length s) b (s ++ r) = (rev s ++ b, r).
Proof.
  induction s as [|c s IH]; intros b r; [destruct r; reflexivity|]. cbn [length app go rev].
  rewrite IH, <- app_assoc. reflexivity.
Qed.

Lemma namechar_dn : forall c, namechar c = true -> dnchar c = true.
Proof. intros c H. unfold namechar, dnchar in *. rewrite !orb_true_iff in *. tauto. Qed.
Lemma identchar_dn : forall c, identchar c = true -> dnchar c = true.
Proof. intros c H. unfold dnchar. rewrite H. reflexivity. Qed.
Lemma identchar_nm : forall c, identchar c = true -> namechar c = true.
Proof. intros c H. unfold namechar. rewrite H. reflexivity. Qed.

(** An identifier character is none of the special ones. *)
Lemma identchar_not : forall c d, identchar c = true -> identchar d = false -> (c =? d)%N = false.
Proof. intros c d H K. destruct (N.eqb_spec c d) as [->|]; [congruence|reflexivity]. Qed.

Lemma not_identchar : forall c d, identchar c = true -> identchar d = false -> (d =? c)%N = false.
Proof. intros c d H K. rewrite N.eqb_sym. apply identchar_not; assumption. Qed.

Ltac idc H := repeat rewrite (identchar_not _ _ H) by reflexivity.

(** ** Names of directives *)

Lemma match_name_word : forall x name P tail, In (name ++ x) P -> x <> [] ->
  forallb dnchar x = true -> match name ++ x with c :: _ => c <> 64%N | [] => True end ->
  match tail with c :: _ => dnchar c = false | [] => True end ->
  match_name P name (x ++ tail) = Some (name ++ x).
Proof.
  induction x as [|c x IH]; intros name P tail IN NE DN AT TL; [congruence|].
  cbn [app match_name]. cbn [forallb] in DN. apply andb_true_iff in DN as [D1 D2]. rewrite D1. cbn [negb].
  assert (A64 : str_eqb (name ++ [c]) [64%N] = false).
  { destruct (str_eqb_spec (name ++ [c]) [64%N]) as [e|]; [|reflexivity]. exfalso.
    destruct name as [|a name]; cbn in e, AT; [injection e as e; congruence|].
    destruct name; cbn in e; discriminate e. }
  rewrite A64.
  assert (IN' : In (name ++ c :: x) (filter (starts_with (name ++ [c])) P)).
  { apply filter_In. split; [exact IN|]. apply starts_with_iff. exists x. rewrite <- app_assoc. reflexivity. }
  destruct (filter (starts_with (name ++ [c])) P) as [|q Q] eqn:F; [contradiction|].
  destruct x as [|d x].
  - cbn [app]. assert (EX : existsb (str_eqb (name ++ [c])) (q :: Q) = true).
    { apply existsb_exists. exists (name ++ [c]). split; [exact IN'|apply str_eqb_refl]. }
    rewrite EX. destruct tail as [|t tail]; [reflexivity|]. rewrite TL. reflexivity.
  - cbn [app]. cbn [forallb] in D2. pose proof D2 as D3. apply andb_true_iff in D3 as [D3 _].
    rewrite D3. cbn [negb]. rewrite andb_false_r.
    change (d :: x ++ tail) with ((d :: x) ++ tail).
    rewrite (IH (name ++ [c]) (q :: Q) tail).
    + rewrite <- app_assoc. reflexivity.
    + rewrite <- app_assoc. exact IN'.
    + discriminate.
    + exact D2.
    + rewrite <- app_assoc. exact AT.
    + exact TL.
Qed.

(** A directive of the default parser. *)
Definition dir_word (w : pystr) : Prop := In w default_names /\ forallb identchar w = true /\ w <> [].

Definition dn_end (r : pystr) : bool := match r with [] => true | c :: _ => negb (dnchar c) end.

Lemma m_dir_word : forall w b tail, dir_word w -> esc_ok b = true -> dn_end tail = true ->
  m_dir dflt b (35%N :: w ++ tail) = Some w.
Proof.
  intros w b tail (IN & ID & NE) EO TL. unfold m_dir, m_dirstart, m_tok. rewrite EO. cbn [t_dir dflt].
  change (starts_with (L "#") (35%N :: w ++ tail)) with true. cbn [andb].
  change (skipn (length (L "#")) (35%N :: w ++ tail)) with (w ++ tail). change (t_dirws dflt) with false. cbv iota.
  destruct w as [|c w]; [congruence|]. cbn [app]. cbn [forallb] in ID. apply andb_true_iff in ID as [I1 I2].
  rewrite I1. cbn [orb]. change (c :: w ++ tail) with ((c :: w) ++ tail).
  apply (match_name_word (c :: w) [] default_names tail IN).
  - discriminate.
  - cbn [forallb]. rewrite (identchar_dn c I1). cbn [andb].
    rewrite forallb_forall in *. intros x Hx. apply identchar_dn, I2, Hx.
  - cbn. intro e. subst c. discriminate I1.
  - destruct tail as [|t tail]; [exact Logic.I|]. cbn in TL. apply negb_true_iff in TL. exact TL.
Qed.

Lemma classify_dir : forall w b tail, dir_word w -> esc_ok b = true -> dn_end tail = true ->
  classify dflt b (35%N :: w ++ tail) = KDirective w.
Proof.
  intros w b tail DW EO TL. unfold classify, m_tok. rewrite EO. rewrite (m_dir_word w b tail DW EO TL).
  destruct DW as (IN & ID & NE). destruct w as [|c w]; [congruence|]. cbn [forallb] in ID.
  apply andb_true_iff in ID as [I1 _]. cbn [t_com t_ml dflt app].
  assert (A : starts_with (L "##") (35%N :: c :: w ++ tail) = false).
  { change (L "##") with [35%N; 35%N]. cbn [starts_with]. rewrite (not_identchar c 35 I1 eq_refl). reflexivity. }
  assert (B : starts_with (L "#*") (35%N :: c :: w ++ tail) = false).
  { change (L "#*") with [35%N; 42%N]. cbn [starts_with]. rewrite (not_identchar c 42 I1 eq_refl). reflexivity. }
  rewrite A, B. cbn [andb].
  unfold m_var, m_expr, m_tok. rewrite EO. cbn [t_var dflt andb].
  change (starts_with (L "$") (35%N :: c :: w ++ tail)) with false. reflexivity.
Qed.

Lemma top_match_dir : forall w b tail, dir_word w -> esc_ok b = true -> dn_end tail = true ->
  top_match dflt b (35%N :: w ++ tail) = true.
Proof.
  intros w b tail DW EO TL. unfold top_match. rewrite (classify_dir w b tail DW EO TL). reflexivity.
Qed.

Lemma skip_dir_word : forall w x b tail, dir_word w -> esc_ok b = true -> x = [] \/ x = w ->
  skip_dir dflt x b (35%N :: w ++ tail) = (rev x ++ 35%N :: b, skipn (length x) (w ++ tail)).
Proof.
  intros w x b tail (IN & ID & NE) EO HX. unfold skip_dir, m_dirstart, m_tok. rewrite EO. cbn [t_dir dflt].
  change (starts_with (L "#") (35%N :: w ++ tail)) with true. cbn [andb].
  change (skipn (length (L "#")) (35%N :: w ++ tail)) with (w ++ tail). change (t_dirws dflt) with false. cbv iota.
  destruct w as [|c w]; [congruence|]. cbn [app]. cbn [forallb] in ID. apply andb_true_iff in ID as [I1 I2].
  rewrite I1. cbn [orb].
  replace (length (35%N :: c :: w ++ tail) - length (c :: w ++ tail)) with 1 by (cbn [length]; lia).
  destruct HX as [->| ->].
  - reflexivity.
  - change (1 + length (c :: w)) with (length (35%N :: c :: w)).
    change (35%N :: c :: w ++ tail) with ((35%N :: c :: w) ++ tail). rewrite go_over.
    change (c :: w ++ tail) with ((c :: w) ++ tail).
    rewrite skipn_app, skipn_all, Nat.sub_diag. cbn [skipn app]. cbn [rev]. rewrite <- !app_assoc. reflexivity.
Qed.

(** ** Text *)

Lemma top_first : forall b r, top_match dflt b r = false -> r <> [] -> classify dflt b r = KText.
Proof.
  intros b [|c r] H NE; [congruence|]. unfold top_match in H. apply andb_false_iff in H as [H|H].
  - change (first_chars dflt) with [35; 35; 36; 35; 60]%N in H. cbn [mem_char existsb] in H.
    rewrite !orb_false_iff in H. destruct H as (H1 & _ & H2 & _ & H3 & _).
    assert (F : forall d t, (c =? d)%N = false -> starts_with (d :: t) (c :: r) = false).
    { intros d t Hd. cbn [starts_with]. rewrite N.eqb_sym, Hd. reflexivity. }
    unfold classify, m_dir, m_dirstart, m_var, m_expr, m_tok, m_slurp.
    change (t_com dflt) with [35; 35]%N. change (t_ml dflt) with [35; 42]%N. change (t_var dflt) with [36]%N.
    change (t_dir dflt) with [35]%N. change (t_psp dflt) with [60; 37]%N. change (t_slurp dflt) with [35]%N.
    rewrite !F by assumption. rewrite !andb_false_r. reflexivity.
  - destruct (classify dflt b (c :: r)); try discriminate. reflexivity.
Qed.

Lemma plain_run_text : forall s p k, plain_text p s k -> k = [] \/ top_match dflt (rev (p ++ s)) k = true ->
  plain_run dflt (rev p) (s ++ k) = (s, rev (p ++ s), k).
Proof.
  induction s as [|c s IH]; intros p k H E.
  - cbn [app]. rewrite app_nil_r in *. destruct k as [|d k]; [reflexivity|]. destruct E as [E|E]; [discriminate|].
    cbn [plain_run]. rewrite E. reflexivity.
  - cbn [app plain_run]. pose proof (H [] c s eq_refl) as H1. rewrite app_nil_r in H1. rewrite H1.
    specialize (IH (p ++ [c]) k).
    assert (R : rev (p ++ [c]) = c :: rev p) by (rewrite rev_app_distr; reflexivity).
    rewrite R in IH. rewrite <- !app_assoc in IH. cbn [app] in IH. rewrite IH.
    + reflexivity.
    + intros u d v ->. rewrite <- app_assoc. cbn [app]. apply (H (c :: u) d v eq_refl).
    + exact E.
Qed.

(** ** Ends of directives *)

Definition no_eol (s : pystr) : Prop := forallb (fun c => negb (eolchar c)) s = true.

Lemma eolchar_iff : forall c, eolchar c = true <-> c = 10%N \/ c = 13%N.
Proof. intro c. unfold eolchar. rewrite orb_true_iff, !N.eqb_eq. reflexivity. Qed.

Lemma eol_off_app : forall d r, no_eol d -> eol_off (d ++ r) = length d + eol_off r.
Proof.
  intros d r H. unfold eol_off. rewrite Reader_Proofs.eolz_plain; [reflexivity|].
  unfold no_eol in H. rewrite forallb_forall in H.
  split; intro I; specialize (H _ I); discriminate H.
Qed.

Lemma eol_cons : forall c r, eolchar c = true -> eol_off (c :: r) = 0.
Proof.
  intros c r H. apply eolchar_iff in H as [->| ->]; unfold eol_off; cbn; [reflexivity|].
  destruct r as [|d r]; [reflexivity|]. destruct (d =? 10)%N; reflexivity.
Qed.

Lemma eol_nl : forall nl r, nl = [10%N] \/ nl = [13; 10]%N \/ nl = [13%N] /\ at_char 10 r = false ->
  eolz (nl ++ r) = (0, length nl).
Proof.
  intros nl r [->|[->|[-> H]]]; [reflexivity|reflexivity|]. cbn [app eolz]. change (13 =? 13)%N with true. cbv iota.
  destruct r as [|d r]; [reflexivity|]. cbn in H. rewrite H. reflexivity.
Qed.

Lemma m_dir_esc : forall b b' r, esc_ok b = esc_ok b' -> m_dir dflt b r = m_dir dflt b' r.
Proof. intros b b' r H. unfold m_dir, m_dirstart, m_tok. rewrite H. reflexivity. Qed.

(** The end of a directive and what is left of it. *)
Lemma rest_of_tag_lex : forall p0 d k body rest o fe, no_eol d -> esc_ok (rev (p0 ++ d)) = true ->
  close_ok body p0 k rest -> fe = length p0 + length d + eol_off (show_close k ++ rest) ->
  eat_rest_of_tag dflt (line_clear (rev p0)) fe (mkP (rev (p0 ++ d)) (show_close k ++ rest) o)
  = mkP (rev (p0 ++ d ++ show_close k)) rest (if cut p0 k rest then handle_ws o else o).
Proof.
  intros p0 d k body rest o fe ND EO CO FE. unfold eat_rest_of_tag. cbn [before Lex_Model.rest Lex_Model.out].
  change (t_com dflt) with [35; 35]%N. change (t_dirend dflt) with [35]%N. unfold cut.
  assert (LB : length (rev (p0 ++ d)) = length p0 + length d) by (rewrite rev_length, app_length; reflexivity).
  destruct k as [|nl|]; cbn [show_close] in *.
  - change (L "#" ++ rest) with (35%N :: rest) in *.
    assert (F : m_tok [35%N] (rev (p0 ++ d)) (35%N :: rest) = true) by (unfold m_tok; rewrite EO; reflexivity).
    assert (K : (if m_tok [35%N; 35%N] (rev (p0 ++ d)) (35%N :: rest)
       then let (b, r) := go 1 (rev (p0 ++ d)) (35%N :: rest) in
            match m_dir dflt b r with
            | Some _ => (false, mkP (rev (p0 ++ d)) (35%N :: rest) o)
            | None => (true, eat_comment dflt (mkP (rev (p0 ++ d)) (35%N :: rest) o))
            end
       else (false, mkP (rev (p0 ++ d)) (35%N :: rest) o)) = (false, mkP (rev (p0 ++ d)) (35%N :: rest) o)).
    { destruct (m_tok [35%N; 35%N] (rev (p0 ++ d)) (35%N :: rest)) eqn:M; [|reflexivity].
      cbn [go]. cbn [close_ok] in CO. destruct rest as [|e rest].
      { unfold m_tok in M. cbn in M. rewrite andb_false_r in M. discriminate M. }
      unfold m_tok in M. apply andb_true_iff in M as [_ M]. cbn [starts_with] in M. change (35 =? 35)%N with true in M. cbn [andb] in M. rewrite andb_true_r in M.
      cbn [at_char] in CO. rewrite N.eqb_sym in M. specialize (CO M).
      rewrite (m_dir_esc (35%N :: rev (p0 ++ d)) [35%N] (e :: rest) eq_refl).
      destruct (m_dir dflt [35%N] (e :: rest)); [reflexivity|congruence]. }
    rewrite K. cbn [before Lex_Model.rest negb andb]. rewrite F. cbn [go length Lex_Model.out].
    replace (fe <? S (length (rev (p0 ++ d)))) with false.
    2:{ symmetry. apply Nat.ltb_ge. rewrite LB, FE. pose proof (eol_off_app [35%N] rest eq_refl) as Q. cbn [app length] in Q. rewrite Q. lia. }
    rewrite orb_false_r. replace (p0 ++ d ++ L "#") with ((p0 ++ d) ++ [35%N]) by (rewrite <- app_assoc; reflexivity).
    rewrite (rev_app_distr (p0 ++ d)). cbn [rev app]. reflexivity.
  - cbn [close_ok] in CO. destruct CO as [CL NL]. rewrite CL. cbn [andb].
    assert (Z := eol_nl nl rest NL).
    assert (HD : exists c nl', nl = c :: nl' /\ eolchar c = true).
    { destruct NL as [->|[->|[-> _]]]; eexists _, _; split; reflexivity. }
    destruct HD as (c & nl' & -> & EC). cbn [app] in *.
    assert (C35 : (35 =? c)%N = false) by (apply eolchar_iff in EC as [->| ->]; reflexivity).
    assert (M : forall t b, m_tok (35%N :: t) b (c :: nl' ++ rest) = false).
    { intros t b. unfold m_tok. cbn [starts_with]. rewrite C35, andb_false_r. reflexivity. }
    rewrite !M. cbn [negb andb before Lex_Model.rest Lex_Model.out]. rewrite ?M, EC.
    unfold read_eol, eol_end. rewrite Z. cbn [snd].
    change (c :: nl' ++ rest) with ((c :: nl') ++ rest). rewrite go_over.
    replace (fe <? length (rev (c :: nl') ++ rev (p0 ++ d))) with true.
    2:{ symmetry. apply Nat.ltb_lt. rewrite app_length, LB, FE, rev_length. unfold eol_off. cbn [app] in Z |- *. rewrite Z.
        cbn [fst length]. lia. }
    rewrite orb_true_r. rewrite app_assoc, (rev_app_distr (p0 ++ d)). reflexivity.
  - cbn [app] in *. rewrite !app_nil_r. destruct rest as [|c rest].
    + assert (M : forall t b, m_tok (35%N :: t) b [] = false) by (intros; unfold m_tok; cbn [starts_with]; apply andb_false_r).
      rewrite !M. cbn [negb andb before Lex_Model.rest Lex_Model.out]. rewrite ?M. rewrite ?andb_false_r.
      cbn [orb]. reflexivity.
    + cbn [close_ok] in CO. destruct CO as [EC CL]. rewrite CL. cbn [andb].
      assert (C35 : (35 =? c)%N = false) by (apply eolchar_iff in EC as [->| ->]; reflexivity).
      assert (M : forall t b, m_tok (35%N :: t) b (c :: rest) = false).
      { intros t b. unfold m_tok. cbn [starts_with]. rewrite C35, andb_false_r. reflexivity. }
      rewrite !M. cbn [negb andb before Lex_Model.rest Lex_Model.out]. rewrite ?M. reflexivity.
Qed.

(** What follows a directive with nothing behind its expression. *)
Lemma close_stop : forall body p0 k rest b, close_ok body p0 k rest -> esc_ok b = true ->
  stop b (show_close k ++ rest).
Proof.
  intros body p0 [|nl|] rest b CO EO; cbn [show_close app].
  - right. split; [reflexivity|exact EO].
  - destruct CO as [_ NL]. destruct NL as [->|[->|[-> _]]]; left; reflexivity.
  - destruct rest as [|c rest]; [exact Logic.I|]. left. apply CO.
Qed.

Lemma stop_first : forall b r, stop b r -> match r with [] => True | c :: _ =>
  c = 10%N \/ c = 13%N \/ c = 35%N end.
Proof.
  intros b [|c r] H; [exact H|]. destruct H as [H|[H _]]; [apply eolchar_iff in H; tauto|tauto].
Qed.

Lemma stop_dn : forall b r, stop b r -> dn_end r = true.
Proof. intros b [|c r] H; [reflexivity|]. apply stop_first in H. destruct H as [->|[->| ->]]; reflexivity. Qed.

Lemma stop_word : forall b r, stop b r -> word_end r = true.
Proof. intros b [|c r] H; [reflexivity|]. apply stop_first in H. destruct H as [->|[->| ->]]; reflexivity. Qed.

Lemma stop_ws : forall b b' r, stop b r -> skip_ws b' r = (b', r).
Proof. intros b b' [|c r] H; [reflexivity|]. apply stop_first in H. destruct H as [->|[->| ->]]; reflexivity. Qed.

Lemma stop_take : forall b b' r, stop b r -> take_ws b' r = ([], (b', r)).
Proof. intros b b' [|c r] H; [reflexivity|]. apply stop_first in H. destruct H as [->|[->| ->]]; reflexivity. Qed.

Lemma stop_short : forall b r, stop b r -> short_form dflt r = false.
Proof. intros b [|c r] H; [reflexivity|]. apply stop_first in H. destruct H as [->|[->| ->]]; reflexivity. Qed.

Lemma stop_colon : forall b b' r, stop b r -> r <> [] -> skip_colon b' r = fok (b', r).
Proof. intros b b' [|c r] H NE; [congruence|]. apply stop_first in H. destruct H as [->|[->| ->]]; reflexivity. Qed.

Lemma stop_paren : forall b r, stop b r -> at_char 40 r = false.
Proof. intros b [|c r] H; [reflexivity|]. apply stop_first in H. destruct H as [->|[->| ->]]; reflexivity. Qed.

Lemma close_nonempty : forall p0 k rest, close_ok true p0 k rest -> show_close k ++ rest <> [].
Proof.
  intros p0 [|nl|] rest CO; cbn [show_close].
  - discriminate.
  - destruct CO as [_ NL]. destruct NL as [->|[->|[-> _]]]; discriminate.
  - destruct rest; [discriminate CO|discriminate].
Qed.

(** ** Where an expression ends *)

Lemma stop_halt : forall brk b r, stop b r -> halt brk b r.
Proof. intros. left. assumption. Qed.

Lemma halt_first : forall brk b r, halt brk b r -> match r with [] => True | c :: _ =>
  c = 10%N \/ c = 13%N \/ c = 35%N \/ c = 58%N end.
Proof.
  intros brk b r [H|[_ H]].
  - apply stop_first in H. destruct r; tauto.
  - destruct r as [|c r]; [discriminate H|]. cbn [L map app starts_with] in H.
    apply andb_true_iff in H as [H _]. apply N.eqb_eq in H. subst c. tauto.
Qed.

Lemma halt_dn : forall brk b r, halt brk b r -> dn_end r = true.
Proof. intros brk b [|c r] H; [reflexivity|]. apply halt_first in H. destruct H as [->|[->|[->| ->]]]; reflexivity. Qed.

Lemma halt_word : forall brk b r, halt brk b r -> word_end r = true.
Proof.
  intros brk b r [H|[_ H]]; [apply (stop_word b r H)|]. unfold word_end. rewrite H. apply orb_true_r.
Qed.

Lemma halt_ws : forall brk b b' r, halt brk b r -> skip_ws b' r = (b', r).
Proof. intros brk b b' [|c r] H; [reflexivity|]. apply halt_first in H. destruct H as [->|[->|[->| ->]]]; reflexivity. Qed.

Lemma halt_take : forall brk b b' r, halt brk b r -> take_ws b' r = ([], (b', r)).
Proof. intros brk b b' [|c r] H; [reflexivity|]. apply halt_first in H. destruct H as [->|[->|[->| ->]]]; reflexivity. Qed.

Lemma halt_paren : forall brk b r, halt brk b r -> at_char 40 r = false.
Proof. intros brk b [|c r] H; [reflexivity|]. apply halt_first in H. destruct H as [->|[->|[->| ->]]]; reflexivity. Qed.

Lemma halt_name : forall brk b r, halt brk b r -> match r with c :: _ => namechar c = false | [] => True end.
Proof. intros brk b [|c r] H; [exact I|]. apply halt_first in H. destruct H as [->|[->|[->| ->]]]; reflexivity. Qed.

Lemma halt_colon : forall b r, halt [L ":"] b (L ": " ++ r).
Proof. intros b r. right. split; [left; reflexivity|reflexivity]. Qed.

(** ** The line of a short form *)

Lemma shown_blank : forall u rest, shown u -> match rest with [] => True | c :: _ => eolchar c = true end ->
  short_form dflt (L ": " ++ u ++ rest) = true.
Proof.
  intros u rest (NE & SU & CM) R. change (L ": " ++ u ++ rest) with (58%N :: 32%N :: u ++ rest). cbn [short_form].
  change (58 =? 58)%N with true. cbn [andb].
  assert (EO : eol_off ((32%N :: u) ++ rest) = length (32%N :: u)).
  { rewrite eol_off_app by exact NE. destruct rest as [|c r]; [change (eol_off []) with 0; lia|]. rewrite (eol_cons c r R). lia. }
  change (32%N :: u ++ rest) with ((32%N :: u) ++ rest). rewrite EO.
  rewrite firstn_app, firstn_all, Nat.sub_diag. cbn [firstn]. rewrite app_nil_r.
  change (strip (32%N :: u)) with (strip u). destruct (strip u) as [|x t] eqn:ST; [congruence|].
  change (t_com dflt) with (L "##"). rewrite CM. reflexivity.
Qed.

Lemma line_short : forall g w rest, line_ok g w rest -> short_form dflt (L ": " ++ w ++ rest) = true.
Proof.
  intros [|] w rest H; cbn [line_ok] in H.
  - destruct H as (u & e & -> & SH & HE). rewrite <- app_assoc. apply shown_blank; [exact SH|].
    destruct HE as [->|[->|[[-> _]|[-> ->]]]]; reflexivity || exact Logic.I.
  - destruct H as [SH R]. apply shown_blank; assumption.
Qed.

Lemma line_taken : forall g w rest, line_ok g w rest ->
  (if g then eol_end (w ++ rest) else eol_off (w ++ rest)) = length w.
Proof.
  intros [|] w rest H; cbn [line_ok] in H.
  - destruct H as (u & e & -> & (NE & _ & _) & HE). unfold eol_end. rewrite <- app_assoc.
    assert (PL : Reader_Spec.plain u).
    { rewrite forallb_forall in NE. split; intro I; specialize (NE _ I); discriminate NE. }
    rewrite (Reader_Proofs.eolz_plain u _ PL). cbn [snd].
    rewrite app_length. f_equal.
    destruct HE as [HE|[HE|[HE|[-> ->]]]]; [| | |reflexivity];
      (rewrite eol_nl by tauto; reflexivity).
  - destruct H as [(NE & _) R]. rewrite eol_off_app by exact NE. destruct rest as [|c r]; [change (eol_off []) with 0; lia|].
    rewrite (eol_cons c r R). lia.
Qed.

Lemma hash_clear : forall p0 x, no_eol x -> line_clear (rev (p0 ++ 35%N :: x)) = false.
Proof.
  intros p0 x H. replace (p0 ++ 35%N :: x) with ((p0 ++ [35%N]) ++ x) by (rewrite <- app_assoc; reflexivity).
  rewrite rev_app_distr. unfold no_eol in H. rewrite forallb_forall in H.
  assert (K : forall y, (forall c, In c y -> eolchar c = false) -> line_clear (y ++ rev (p0 ++ [35%N])) = false).
  { induction y as [|c y IH]; intros Y.
    - rewrite rev_unit. reflexivity.
    - cbn [app line_clear]. rewrite (Y c (or_introl eq_refl)). rewrite IH by (intros; apply Y; right; assumption). apply andb_false_r. }
  apply K. intros c I. apply in_rev in I. specialize (H c I). destruct (eolchar c); [discriminate H|reflexivity].
Qed.
