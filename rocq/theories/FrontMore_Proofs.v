(** #slurp, #raw and comments of several lines in a template: proofs. *)
From Verif Require Import Base PyStr Alist Reader_Model Reader_Spec Lex_Model Lex_Spec Expr_Model Front_Model Front_Spec.
From Verif Require Import FrontLex_Proofs FrontEat_Proofs FrontGen_Proofs Macro_Model Macro_Spec Macro_Proofs MacroCall_Proofs MacroUse_Proofs.
From Verif Require Gen_Model Gen_Spec Gen_Proofs LexLines_Proofs Lex_Proofs Reader_Proofs.
Local Open Scope nat_scope. Local Open Scope list_scope.

Lemma break_eol : forall w nl rest, forallb (fun c => negb (eolchar c)) w = true ->
  break_ok nl rest \/ nl = [] /\ rest = [] -> eol_end (w ++ nl ++ rest) = length (w ++ nl).
Proof.
  intros w nl rest W [B|[-> ->]].
  - unfold eol_end. rewrite Reader_Proofs.eolz_plain.
    + rewrite (eol_nl nl rest B). cbn [fst snd]. rewrite app_length. reflexivity.
    + rewrite forallb_forall in W. split; intro I; specialize (W _ I); discriminate W.
  - cbn [app]. unfold eol_end. rewrite Reader_Proofs.eolz_plain.
    + cbn. rewrite app_nil_r. lia.
    + rewrite forallb_forall in W. split; intro I; specialize (W _ I); discriminate W.
Qed.

(** ** #slurp *)

Lemma slurp_first : forall b w nl rest, slurp_ok b w nl rest ->
  (if b then dn_end (w ++ nl ++ rest) else match dropws (w ++ nl ++ rest) with c :: _ => eolchar c | [] => false end) = true.
Proof.
  intros b w nl rest (W & D & B). destruct b.
  - destruct w as [|c w]; [|cbn [app dn_end]; rewrite D; reflexivity]. cbn [app].
    destruct B as [[->|[->|[-> _]]]|(_ & -> & ->)]; reflexivity.
  - assert (N0 : exists c t, nl ++ rest = c :: t /\ eolchar c = true /\ blank c = false).
    { destruct B as [[->|[->|[-> _]]]|(K & _)]; [..|discriminate K]; do 2 eexists; repeat split; reflexivity. }
    destruct N0 as (c & t & -> & EC & BC). clear W B. induction w as [|x w IH]; cbn [app dropws].
    + rewrite BC. exact EC.
    + cbn [forallb] in D. apply andb_true_iff in D as [-> D]. apply IH. exact D.
Qed.

Lemma slurp_class : forall b p0 w nl rest, esc_ok (rev p0) = true -> slurp_ok b w nl rest ->
  classify dflt (rev p0) (show_slurp b w nl ++ rest) = if b then KDirective (L "slurp") else KSlurp.
Proof.
  intros b p0 w nl rest EO OK. pose proof (slurp_first b w nl rest OK) as F. unfold show_slurp. rewrite <- !app_assoc. destruct b.
  - change (L "#slurp" ++ w ++ nl ++ rest) with (35%N :: L "slurp" ++ w ++ nl ++ rest).
    apply (classify_named default_names); [split; reflexivity|vm_compute; tauto|exact EO|exact F].
  - destruct OK as (W & D & B). change (L "#" ++ w ++ nl ++ rest) with (35%N :: w ++ nl ++ rest).
    assert (X : exists c t, w ++ nl ++ rest = c :: t /\ (blank c = true \/ eolchar c = true)).
    { destruct w as [|c w].
      - destruct B as [[->|[->|[-> _]]]|(K & _)]; [..|discriminate K]; do 2 eexists; split; try reflexivity; right; reflexivity.
      - cbn [forallb] in D. apply andb_true_iff in D as [D _]. do 2 eexists. split; [reflexivity|left; exact D]. }
    destruct X as (c & t & EQ & C).
    assert (C1 : (c =? 35)%N = false /\ (c =? 42)%N = false /\ identchar c = false /\ (c =? 64)%N = false /\ blank c || eolchar c = true).
    { unfold blank, eolchar, identchar in *. lia. }
    destruct C1 as (C1 & C2 & C3 & C4 & _).
    unfold classify, m_tok. rewrite EO. change (t_com dflt) with [35;35]%N. change (t_ml dflt) with [35;42]%N. rewrite EQ in *.
    assert (S1 : starts_with [35;35]%N (35%N :: c :: t) = false) by (cbn [starts_with]; rewrite (N.eqb_sym 35 c), C1; reflexivity).
    assert (S2 : starts_with [35;42]%N (35%N :: c :: t) = false) by (cbn [starts_with]; rewrite (N.eqb_sym 42 c), C2; reflexivity).
    rewrite S1, S2. cbn [andb].
    assert (V1 : m_var dflt (rev p0) (35%N :: c :: t) = false) by (unfold m_var, m_tok; cbn; rewrite ?andb_false_r; reflexivity).
    assert (V2 : m_expr dflt (rev p0) (35%N :: c :: t) = false) by (unfold m_expr, m_tok; cbn; rewrite ?andb_false_r; reflexivity).
    rewrite V1, V2.
    assert (D1 : m_dir dflt (rev p0) (35%N :: c :: t) = None).
    { unfold m_dir, m_dirstart, m_tok. rewrite EO. change (t_dir dflt) with [35%N]. cbn [starts_with andb length skipn]. change (35 =? 35)%N with true. cbn [andb].
      change (t_dirws dflt) with false. cbv iota. rewrite C3, C4. reflexivity. }
    rewrite D1. change (starts_with (t_psp dflt) (35%N :: c :: t)) with false. cbn [andb].
    unfold m_slurp. change (t_slurp dflt) with [35%N]. cbn [starts_with length skipn]. change (35 =? 35)%N with true. cbn [andb].
    rewrite F. reflexivity.
Qed.

Lemma slurp_top : forall b p0 w nl rest, esc_ok (rev p0) = true -> slurp_ok b w nl rest ->
  top_match dflt (rev p0) (show_slurp b w nl ++ rest) = true.
Proof.
  intros b p0 w nl rest EO OK. unfold top_match. pose proof (slurp_class b p0 w nl rest EO OK) as C.
  destruct (show_slurp b w nl ++ rest) as [|c t] eqn:Q; [destruct b; discriminate Q|]. rewrite C.
  assert (c = 35%N) as -> by (destruct b; injection Q as <- _; reflexivity). destruct b; reflexivity.
Qed.

Lemma slurp_len : forall b w nl rest, slurp_ok b w nl rest ->
  eol_end (show_slurp b w nl ++ rest) = length (show_slurp b w nl).
Proof.
  intros b w nl rest (W & _ & B). unfold show_slurp. rewrite (app_assoc _ w nl), <- (app_assoc _ nl rest). apply break_eol.
  - rewrite forallb_app, W. destruct b; reflexivity.
  - destruct B as [B|(_ & B)]; tauto.
Qed.

Lemma absorb_slurp : forall E b c, Gen_Model.s_act c <> [] ->
  from_g (Gen_Model.bind (cutting (e_G E) b c) (Gen_Model.step (e_G E) Gen_Model.ESlurp))
  = fok (absorb E (Lex_Model.commit (if b then handle_ws (top_buf c) else top_buf c)) c).
Proof.
  intros E b c A. rewrite (absorb_cut E b c A). destruct c as [act fin op sl sl0]. cbn [Gen_Model.s_act] in A.
  destruct act as [|m act]; [congruence|]. cbn [Gen_Model.bind Gen_Model.step]. unfold absorb, top_buf. cbn [Gen_Model.s_act].
  unfold Gen_Model.on_top. cbn [Gen_Model.set_act Gen_Model.s_act Gen_Model.bind from_g]. unfold fok. do 2 f_equal.
  unfold Gen_Model.set_act. cbn [Gen_Model.s_act Gen_Model.s_fin Gen_Model.s_open Gen_Model.s_sl Gen_Model.s_sl0]. f_equal. f_equal.
  set (o := if b then handle_ws (mkB (Gen_Model.m_pend m) []) else mkB (Gen_Model.m_pend m) []).
  assert (D : done o = []) by (unfold o; destruct b; [rewrite LexLines_Proofs.safe_handle|]; reflexivity).
  destruct o as [pe dn]. cbn [done] in D. subst dn. unfold Lex_Model.commit, Gen_Model.commit. cbn [pend done map Gen_Model.m_pend Gen_Model.set_pend].
  destruct pe as [|x p]; [reflexivity|]. destruct (concat (rev (x :: p))) as [|y t]; [reflexivity|].
  cbn. rewrite app_nil_r. reflexivity.
Qed.

Lemma slurp_eat : forall E sub b p0 w nl rest c, x_T (e_X E) = dflt -> esc_ok (rev p0) = true -> slurp_ok b w nl rest ->
  Gen_Model.s_act c <> [] ->
  eat E sub (mkF (rev p0) (show_slurp b w nl ++ rest) c)
  = lift (Gen_Model.bind (cutting (e_G E) (line_clear (rev p0)) c) (Gen_Model.step (e_G E) Gen_Model.ESlurp))
         (rev (p0 ++ show_slurp b w nl)) rest.
Proof.
  intros E sub b p0 w nl rest c ET EO OK A. pose proof (slurp_class b p0 w nl rest EO OK) as CL.
  assert (W : eat E sub (mkF (rev p0) (show_slurp b w nl ++ rest) c)
    = with_lex E (Lex_Model.step dflt (fun _ _ => None)) (mkF (rev p0) (show_slurp b w nl ++ rest) c)).
  { unfold eat. cbn [f_b f_r f_c]. rewrite ET, CL. destruct b; [|reflexivity]. unfold eat_directive. rewrite ET.
    change (forbidden dflt (L "slurp")) with false. cbv zeta. cbv iota.
    change (existsb (str_eqb (L "slurp")) (map L ["slurp"; "raw"]%string)) with true. reflexivity. }
  rewrite W. unfold with_lex. cbn [f_b f_r f_c].
  assert (ST : Lex_Model.step dflt (fun _ _ => None) (mkP (rev p0) (show_slurp b w nl ++ rest) (top_buf c))
    = Some (Ok (eat_slurp (mkP (rev p0) (show_slurp b w nl ++ rest) (top_buf c))))).
  { unfold Lex_Model.step. cbn [before Lex_Model.rest]. rewrite CL. destruct b; reflexivity. }
  rewrite ST. unfold eat_slurp. cbn [before Lex_Model.rest Lex_Model.out]. unfold read_eol. rewrite (slurp_len b w nl rest OK).
  cbn [snd]. rewrite go_over. rewrite <- rev_app_distr. cbn [before Lex_Model.rest Lex_Model.out].
  pose proof (absorb_slurp E (line_clear (rev p0)) c A) as H. unfold lift.
  destruct (Gen_Model.bind (cutting (e_G E) (line_clear (rev p0)) c) (Gen_Model.step (e_G E) Gen_Model.ESlurp)) as [c'|e]; [|discriminate H].
  cbn [from_g] in H. unfold fok in *. injection H as <-. reflexivity.
Qed.

(** ** Comments of several lines *)

Definition absorbed (E : env) (o : buf) (m : Gen_Model.mcomp) : Gen_Model.mcomp :=
  Gen_Model.set_pend (pend o) (Gen_Model.set_body (Gen_Model.m_body m ++ map (item_chunk E (Gen_Model.m_lev m)) (done o)) m).

Lemma absorbed_one : forall E l o m,
  absorbed E (let b := Lex_Model.commit o in mkB (pend b) (done b ++ [Rem l])) m
  = Gen_Model.add (Gen_Model.GComment (L "#" ++ repeat 32%N (Gen_Model.g_offset (e_G E)) ++ l)) (absorbed E o m).
Proof.
  intros E l [p dn] m. unfold absorbed, Lex_Model.commit, Gen_Model.add, Gen_Model.add_gl, Gen_Model.commit. cbn [pend done Gen_Model.m_pend Gen_Model.set_pend].
  destruct p as [|x p].
  - cbn [pend done]. rewrite map_app. cbn. rewrite <- app_assoc. reflexivity.
  - destruct (concat (rev (x :: p))) as [|y t]; cbn [pend done]; rewrite !map_app; cbn; rewrite <- ?app_assoc; reflexivity.
Qed.

Definition comments (ls : list pystr) : Gen_Model.evs :=
  fold_right (fun l k => Gen_Model.Ev (Gen_Model.EComment l) k) Gen_Model.Done ls.

Lemma absorbed_all : forall E ls o m act fin op sl sl0,
  Gen_Model.run (e_G E) (comments ls) (Gen_Model.mkS (absorbed E o m :: act) fin op sl sl0)
  = Ok (Gen_Model.mkS (absorbed E (fold_left (fun b line => let b := Lex_Model.commit b in mkB (pend b) (done b ++ [Rem line])) ls o) m :: act)
                      fin op sl sl0).
Proof.
  intros E. induction ls as [|l ls IH]; intros o m act fin op sl sl0; [reflexivity|].
  cbn [comments fold_right Gen_Model.run]. cbn [Gen_Model.step]. unfold Gen_Model.on_top. cbn [Gen_Model.s_act Gen_Model.bind].
  unfold Gen_Model.set_act. cbn [Gen_Model.s_fin Gen_Model.s_open Gen_Model.s_sl Gen_Model.s_sl0].
  rewrite <- absorbed_one. apply IH.
Qed.

Lemma absorb_mul : forall E b ls c, Gen_Model.s_act c <> [] ->
  from_g (Gen_Model.bind (cutting (e_G E) b c) (Gen_Model.run (e_G E) (comments ls)))
  = fok (absorb E (fold_left (fun b line => let b := Lex_Model.commit b in mkB (pend b) (done b ++ [Rem line])) ls
                     (if b then handle_ws (top_buf c) else top_buf c)) c).
Proof.
  intros E b ls c A. rewrite (absorb_cut E b c A). destruct c as [act fin op sl sl0]. cbn [Gen_Model.s_act] in A.
  destruct act as [|m act]; [congruence|]. cbn [Gen_Model.bind]. unfold absorb. cbn [Gen_Model.s_act].
  set (o := if b then handle_ws _ else _). unfold Gen_Model.set_act. cbn [Gen_Model.s_fin Gen_Model.s_open Gen_Model.s_sl Gen_Model.s_sl0].
  fold (absorbed E o m). rewrite absorbed_all. reflexivity.
Qed.

Lemma comments_run : forall G c t c0,
  Gen_Model.run G (Gen_Spec.events (rems c t) Gen_Model.Done) c0
  = Gen_Model.bind (Gen_Model.run G (comments (Names_Model.splitlines c)) c0) (Gen_Model.run G (Gen_Spec.events t Gen_Model.Done)).
Proof.
  intros G c t. unfold rems. induction (Names_Model.splitlines c) as [|l ls IH]; intro c0; [reflexivity|].
  cbn [fold_right Gen_Spec.events comments Gen_Model.run]. destruct (Gen_Model.step G (Gen_Model.EComment l) c0); [|reflexivity].
  cbn [Gen_Model.bind]. apply IH.
Qed.

Lemma mul_class : forall p0 c u nl rest, esc_ok (rev p0) = true ->
  classify dflt (rev p0) (show_mul c u nl ++ rest) = KMulti.
Proof. intros p0 c u nl rest EO. unfold classify, m_tok, show_mul. rewrite <- !app_assoc. rewrite EO. reflexivity. Qed.

Lemma mul_top : forall p0 c u nl rest, esc_ok (rev p0) = true -> top_match dflt (rev p0) (show_mul c u nl ++ rest) = true.
Proof.
  intros p0 c u nl rest EO. unfold top_match. rewrite (mul_class p0 c u nl rest EO). unfold show_mul. reflexivity.
Qed.

Lemma eol_off_break : forall a r, existsb eolchar a = true -> eol_off (a ++ r) < length a.
Proof.
  induction a as [|x a IH]; intros r H; [discriminate|]. cbn [existsb] in H. cbn [app].
  destruct (eolchar x) eqn:EX.
  - rewrite (eol_cons x (a ++ r) EX). cbn [length]. lia.
  - cbn [orb] in H. specialize (IH r H). change (x :: a ++ r) with ([x] ++ a ++ r).
    rewrite (eol_off_app [x]) by (unfold no_eol; cbn [forallb]; rewrite EX; reflexivity). cbn [length]. lia.
Qed.

Lemma no_break : forall a, existsb eolchar a = false -> forallb (fun c => negb (eolchar c)) a = true.
Proof.
  induction a as [|x a IH]; intro H; [reflexivity|]. cbn [existsb forallb] in *. apply orb_false_iff in H as [-> H]. apply IH. exact H.
Qed.

Lemma mul_eat : forall E sub p0 s u nl rest c, x_T (e_X E) = dflt -> esc_ok (rev p0) = true -> mul_ok p0 s u nl rest ->
  Gen_Model.s_act c <> [] ->
  eat E sub (mkF (rev p0) (show_mul s u nl ++ rest) c)
  = lift (Gen_Model.bind (cutting (e_G E) (cut_mul p0 s u nl rest) c) (Gen_Model.run (e_G E) (comments (Names_Model.splitlines s))))
         (rev (p0 ++ show_mul s u nl)) rest.
Proof.
  intros E sub p0 s u nl rest c ET EO OK A. unfold eat. cbn [f_b f_r f_c]. rewrite ET, (mul_class p0 s u nl rest EO).
  unfold with_lex. cbn [f_b f_r f_c]. unfold Lex_Model.step. cbn [before Lex_Model.rest]. rewrite (mul_class p0 s u nl rest EO).
  destruct OK as (NE & CB & BC & SV & DOC & END).
  assert (AC : forall o, add_comment s o = fold_left (fun b line => let b := Lex_Model.commit b in mkB (pend b) (done b ++ [Rem line])) (Names_Model.splitlines s) o).
  { intro o. unfold add_comment. rewrite BC, SV, DOC. reflexivity. }
  assert (SH : show_mul s u nl ++ rest = [35; 42]%N ++ s ++ [42; 35]%N ++ (u ++ nl) ++ rest) by (unfold show_mul; rewrite <- !app_assoc; reflexivity).
  assert (DT : default_tokens dflt) by (repeat split).
  rewrite (LexLines_Proofs.eat_multi_eq dflt DT (mkP (rev p0) (show_mul s u nl ++ rest) (top_buf c)) s ((u ++ nl) ++ rest) SH CB).
  cbn [before Lex_Model.rest Lex_Model.out]. change (t_gobble dflt) with true. cbv iota.
  set (b2 := 35%N :: 42%N :: rev s ++ 42%N :: 35%N :: rev p0).
  assert (B2 : b2 = rev (p0 ++ L "#*" ++ s ++ L "*#")) by (unfold b2; rewrite !rev_app_distr, <- !app_assoc; reflexivity).
  assert (BR : rev (p0 ++ show_mul s u nl) = rev (u ++ nl) ++ b2) by (rewrite B2, <- rev_app_distr; f_equal; unfold show_mul; rewrite <- !app_assoc; reflexivity).
  assert (K : forall b, cut_mul p0 s u nl rest = b -> 
     lift (Gen_Model.bind (cutting (e_G E) (cut_mul p0 s u nl rest) c) (Gen_Model.run (e_G E) (comments (Names_Model.splitlines s))))
         (rev (p0 ++ show_mul s u nl)) rest
     = Some (Ok (mkF (rev (u ++ nl) ++ b2) rest (absorb E (add_comment s (if b then handle_ws (top_buf c) else top_buf c)) c)))).
  { intros b <-. rewrite AC, BR. pose proof (absorb_mul E (cut_mul p0 s u nl rest) (Names_Model.splitlines s) c A) as H. unfold lift.
    destruct (Gen_Model.bind (cutting (e_G E) (cut_mul p0 s u nl rest) c) (Gen_Model.run (e_G E) (comments (Names_Model.splitlines s)))) as [c'|e]; [|discriminate H].
    cbn [from_g] in H. unfold fok in *. injection H as <-. reflexivity. }
  destruct END as [(-> & -> & ->)|[(-> & -> & v & x & y & -> & NV & SX)|(US & EN)]].
  - rewrite (K false); [reflexivity|]. unfold cut_mul. apply andb_false_r.
  - assert (F : forallb is_space (firstn (eol_off (v ++ x :: y)) (v ++ x :: y)) = false).
    { change (x :: y) with ([x] ++ y). rewrite (app_assoc v [x] y). rewrite (eol_off_app (v ++ [x]) y NV).
      rewrite firstn_app. rewrite firstn_all2 by lia. rewrite !forallb_app. cbn [forallb]. rewrite SX. rewrite !andb_false_r. reflexivity. }
    assert (Q : (length (rev p0) + eol_off (show_mul s [] [] ++ v ++ x :: y) <? length b2) = existsb eolchar s).
    { rewrite B2. unfold show_mul. rewrite !app_nil_r, !rev_length, !app_length. destruct (existsb eolchar s) eqn:XS.
      - apply Nat.ltb_lt. pose proof (eol_off_break (L "#*" ++ s ++ L "*#") (v ++ x :: y)) as H.
        rewrite !app_length in H. rewrite !existsb_app, XS in H. specialize (H eq_refl). lia.
      - apply Nat.ltb_ge. rewrite (eol_off_app (L "#*" ++ s ++ L "*#")); [rewrite !app_length; lia|].
        unfold no_eol. rewrite !forallb_app, (no_break s XS). reflexivity. }
    assert (PN : v ++ x :: y <> []) by (destruct v; discriminate).
    rewrite (K (line_clear (rev p0) && existsb eolchar s)).
    2:{ unfold cut_mul. cbn [app]. destruct (v ++ x :: y); [congruence|reflexivity]. }
    clear K. cbn [app rev]. set (post := v ++ x :: y) in *. clearbody post. destruct post as [|z zs]; [congruence|].
    rewrite F. cbn [before Lex_Model.rest Lex_Model.out orb]. rewrite Q. reflexivity.
  - assert (NU : no_eol u).
    { unfold no_eol. rewrite forallb_forall in *. intros x I. specialize (US x I). apply andb_true_iff in US as [_ US]. exact US. }
    assert (SU : forallb is_space u = true).
    { rewrite forallb_forall in *. intros x I. specialize (US x I). apply andb_true_iff in US as [US _]. exact US. }
    destruct (line_clear (rev p0)) eqn:LC.
    + assert (Z : eol_off (nl ++ rest) = 0).
      { destruct EN as [[->|[->|[-> _]]]|(_ & -> & ->)]; [apply eol_cons; reflexivity..|reflexivity]. }
      assert (EE : eol_end ((u ++ nl) ++ rest) = length (u ++ nl)).
      { rewrite <- app_assoc. apply break_eol; [exact NU|]. destruct EN as [EN|(_ & EN)]; [left; exact EN|right; exact EN]. }
      assert (F : forallb is_space (firstn (eol_off ((u ++ nl) ++ rest)) ((u ++ nl) ++ rest)) = true).
      { rewrite <- app_assoc, (eol_off_app u _ NU), Z, Nat.add_0_r. rewrite firstn_app, firstn_all, Nat.sub_diag. cbn [firstn]. rewrite app_nil_r. exact SU. }
      assert (UN : u ++ nl <> []).
      { destruct EN as [[->|[->|[-> _]]]|(H & _)]; destruct u; try discriminate; congruence. }
      rewrite (K true).
      2:{ unfold cut_mul. rewrite LC. destruct (u ++ nl); [congruence|reflexivity]. }
      rewrite F. unfold read_eol. rewrite EE. cbn [snd]. rewrite go_over.
      destruct ((u ++ nl) ++ rest) as [|z zs] eqn:ZZ; [apply app_eq_nil in ZZ as [ZZ _]; congruence|]. cbn [before Lex_Model.rest Lex_Model.out].
      do 5 f_equal. cbn [andb]. destruct rest as [|r0 rest]; [reflexivity|]. cbn [orb].
      assert (Q : (length (rev p0) + eol_off (show_mul s u nl ++ r0 :: rest) <? length (rev (u ++ nl) ++ b2)) = true); [|rewrite Q; reflexivity].
      apply Nat.ltb_lt. rewrite <- BR. rewrite !rev_length, app_length.
      pose proof (eol_off_break (show_mul s u nl) (r0 :: rest)) as H.
      assert (X : existsb eolchar (show_mul s u nl) = true); [|specialize (H X); lia].
      unfold show_mul. rewrite !existsb_app. destruct EN as [[->|[->|[-> _]]]|(_ & _ & EN)]; [..|discriminate EN]; cbn; rewrite ?orb_true_r; reflexivity.
    + destruct EN as [-> ER]. rewrite app_nil_r in *.
      assert (Z : eol_off rest = 0) by (destruct rest; [reflexivity|apply eol_cons; exact ER]).
      assert (EE : eol_off (u ++ rest) = length u) by (rewrite (eol_off_app u _ NU), Z; lia).
      assert (F : forallb is_space (firstn (eol_off (u ++ rest)) (u ++ rest)) = true).
      { rewrite EE, firstn_app, firstn_all, Nat.sub_diag. cbn [firstn]. rewrite app_nil_r. exact SU. }
      rewrite (K false) by (unfold cut_mul; rewrite LC; reflexivity).
      rewrite F. unfold read_eol. rewrite EE. cbn [snd]. rewrite go_over. cbn [andb].
      destruct (u ++ rest) as [|z zs] eqn:ZZ; [|reflexivity].
      apply app_eq_nil in ZZ as [-> ->]. congruence.
Qed.
