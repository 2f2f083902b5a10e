(** Calls of macros: proofs. *)
From Verif Require Import Base PyStr Alist Reader_Model Reader_Spec Lex_Model Lex_Spec Expr_Model Front_Model Front_Spec.
From Verif Require Import FrontLex_Proofs FrontEat_Proofs FrontGen_Proofs Macro_Model Macro_Spec Macro_Proofs.
From Verif Require Gen_Model Gen_Proofs LexLines_Proofs Lex_Proofs.
Local Open Scope nat_scope. Local Open Scope list_scope.

(** ** The arguments *)

Lemma aget_supply : forall m n v k x,
  aget x (supply m n v k) = if existsb (str_eqb n) (mc_takes m) && str_eqb x n then Some v else aget x k.
Proof.
  intros m n v k x. unfold supply. destruct (existsb (str_eqb n) (mc_takes m)); [|reflexivity]. cbn [andb].
  destruct (str_eqb_spec x n) as [->|NE]; [apply aget_aset_same|apply aget_aset_other; exact NE].
Qed.

Lemma aget_user : forall n (user : list (pystr * pystr)),
  aget n (map (fun x => (fst x, VUser (snd x))) user) = option_map VUser (aget n user).
Proof.
  intros n user. induction user as [|[a v] u IH]; [reflexivity|]. cbn [map aget fst snd]. destruct (str_eqb n a); [reflexivity|exact IH].
Qed.

Lemma args_told : forall m user src eol start stop, aget (L "src") user = None ->
  exists K, macro_args m user src eol start stop = Some K /\ forall n, aget n K = told m user src eol start stop n.
Proof.
  intros m user src eol start stop H. unfold macro_args. cbv zeta. unfold ahas. rewrite aget_user, H. cbn [option_map].
  eexists. split; [reflexivity|]. intro n. rewrite !aget_supply.
  assert (Q : aget n (match eol with Some e => supply m (L "EOLCharsInShortForm") (VText e)
                (supply m (L "isShortForm") (VFlag (match eol with Some _ => true | None => false end))
                  (supply m (L "compilerSettings") VSettings (supply m (L "macros") VMacros (supply m (L "parser") VParser
                     (aset (L "src") (VText src) (map (fun x => (fst x, VUser (snd x))) user))))))
              | None => supply m (L "isShortForm") (VFlag (match eol with Some _ => true | None => false end))
                  (supply m (L "compilerSettings") VSettings (supply m (L "macros") VMacros (supply m (L "parser") VParser
                     (aset (L "src") (VText src) (map (fun x => (fst x, VUser (snd x))) user))))) end)
     = match eol with
       | Some e => if existsb (str_eqb (L "EOLCharsInShortForm")) (mc_takes m) && str_eqb n (L "EOLCharsInShortForm") then Some (VText e) else
          aget n (supply m (L "isShortForm") (VFlag true)
                  (supply m (L "compilerSettings") VSettings (supply m (L "macros") VMacros (supply m (L "parser") VParser
                     (aset (L "src") (VText src) (map (fun x => (fst x, VUser (snd x))) user))))))
       | None => aget n (supply m (L "isShortForm") (VFlag false)
                  (supply m (L "compilerSettings") VSettings (supply m (L "macros") VMacros (supply m (L "parser") VParser
                     (aset (L "src") (VText src) (map (fun x => (fst x, VUser (snd x))) user))))))
       end).
  { destruct eol; [rewrite aget_supply|]; reflexivity. }
  rewrite Q. clear Q. rewrite !aget_supply. rewrite aget_aset, aget_user. unfold told. cbv zeta.
  destruct (str_eqb_spec n (L "src")) as [->|N1].
  { change (str_eqb (L "src") (L "endPos")) with false. change (str_eqb (L "src") (L "startPos")) with false.
    change (str_eqb (L "src") (L "EOLCharsInShortForm")) with false. change (str_eqb (L "src") (L "isShortForm")) with false.
    change (str_eqb (L "src") (L "compilerSettings")) with false. change (str_eqb (L "src") (L "macros")) with false.
    change (str_eqb (L "src") (L "parser")) with false. rewrite !andb_false_r. destruct eol; reflexivity. }
  assert (TK : forall x, existsb (str_eqb x) (mc_takes m) && str_eqb n x = existsb (str_eqb n) (mc_takes m) && str_eqb n x).
  { intro x. destruct (str_eqb_spec n x) as [->|_]; [reflexivity|rewrite !andb_false_r; reflexivity]. }
  rewrite !TK. destruct (existsb (str_eqb n) (mc_takes m)); cbn [negb andb]; [|destruct eol; reflexivity].
  destruct (str_eqb_spec n (L "parser")) as [->|N2]; [destruct eol; reflexivity|].
  destruct (str_eqb_spec n (L "macros")) as [->|N3]; [destruct eol; reflexivity|].
  destruct (str_eqb_spec n (L "compilerSettings")) as [->|N4]; [destruct eol; reflexivity|].
  destruct (str_eqb_spec n (L "isShortForm")) as [->|N5]; [destruct eol; reflexivity|].
  destruct (str_eqb_spec n (L "EOLCharsInShortForm")) as [->|N6]; [destruct eol; reflexivity|].
  destruct (str_eqb_spec n (L "startPos")) as [->|N7]; [destruct eol; reflexivity|].
  destruct (str_eqb_spec n (L "endPos")) as [->|N8]; [destruct eol; reflexivity|]. destruct eol; reflexivity.
Qed.

(** ** The pending text *)

Lemma absorb_cut : forall E b c, Gen_Model.s_act c <> [] ->
  cutting (e_G E) b c = Ok (absorb E (if b then handle_ws (top_buf c) else top_buf c) c).
Proof.
  intros E b c A. unfold cutting. destruct c as [act fin op sl sl0]. cbn [Gen_Model.s_act] in A.
  destruct act as [|m act]; [congruence|]. unfold absorb, top_buf. cbn [Gen_Model.s_act]. destruct b.
  - cbn [Gen_Model.step]. unfold Gen_Model.on_top. cbn [Gen_Model.s_act Gen_Model.bind]. f_equal.
    unfold Gen_Model.strip_ws, Gen_Model.set_act. f_equal. f_equal.
    rewrite LexLines_Proofs.safe_handle. cbn [done map]. rewrite app_nil_r. destruct m; reflexivity.
  - f_equal. unfold Gen_Model.set_act. cbn. rewrite app_nil_r. destruct m; reflexivity.
Qed.

Lemma absorb_act : forall E o c, Gen_Model.s_act c <> [] -> Gen_Model.s_act (absorb E o c) <> [].
Proof. intros E o [act fin op sl sl0] H. cbn [Gen_Model.s_act] in H. destruct act as [|m act]; [congruence|]. cbn. discriminate. Qed.

Lemma cutting_twice : forall G a b c c1 c2, Gen_Model.s_act c <> [] -> cutting G a c = Ok c1 -> cutting G b c1 = Ok c2 ->
  cutting G (a || b) c = Ok c2.
Proof.
  intros G a b c c1 c2 A H1 H2. unfold cutting in *. destruct a, b; cbn [orb] in *; try (injection H1 as <-; exact H2).
  2:{ injection H2 as <-. exact H1. }
  destruct c as [act fin op sl sl0]. cbn [Gen_Model.s_act] in A. destruct act as [|m act]; [congruence|].
  cbn [Gen_Model.step] in *. unfold Gen_Model.on_top in *. cbn [Gen_Model.s_act Gen_Model.bind] in *.
  injection H1 as <-. cbn [Gen_Model.s_act Gen_Model.set_act Gen_Model.bind] in H2. rewrite strip_ws_idem in H2. exact H2.
Qed.

Section Call.
Variable E : env.
Variable macros : list (pystr * macro).
Variable kwargs : pystr -> option (list (pystr * pystr)).
Variable sub : fstate -> fout fstate.
Variable ns : list pystr.
Hypothesis ET : x_T (e_X E) = named ns.
Hypothesis END : In (L "end") ns.

(** From the start of a call to the end of its arguments. *)
Definition after_args (m : macro) (args : pystr) (clear : bool) (first_eol start : nat) (name b r : pystr) (c : Gen_Model.cs) : fout fstate :=
  let T := x_T (e_X E) in
  if short_form T r then
        let '(b, r) := go 1 b r in
        let '(b, r) := match r with d :: r' => if blank d then (d :: b, r') else (b, r) | [] => (b, r) end in
        let '(src, (b, r)) := read_eol false b r in
        let '(eol, (b, r)) := read_eol true b r in
        expand kwargs sub m args src (Some eol) start b r c
      else
        fbind (skip_colon b r) (fun '(b, r) =>
        let '(b, r) := skip_ws b r in
        fbind (rest_of_tag E clear first_eol (mkF b r c)) (fun s1 =>
        match eat_to_end T name (mkP (f_b s1) (f_r s1) (top_buf (f_c s1))) with
        | None => None
        | Some (Raise e) => ferror (FLex e)
        | Some (Ok (src, p)) =>
            expand kwargs sub m args src None start (before p) (rest p) (absorb E (Lex_Model.out p) (f_c s1))
        end)).

Lemma call_head : forall name m x code p0 K c, ident name -> aget name macros = Some m -> written_args E x code ->
  esc_ok (rev p0) = true -> halt [L ":"] (rev (p0 ++ call_of name x)) K -> Gen_Model.s_sl c = true ->
  eat_macro E macros kwargs sub (mkF (rev p0) (call_of name x ++ K) c)
  = after_args m (strip code) (line_clear (rev p0)) (length p0 + length (call_of name x) + eol_off K) (length p0) name
      (rev (p0 ++ call_of name x)) K c.
Proof.
  intros name m x code p0 K c ID AG (RD & (NX & EX) & BX) EO HA SL. unfold eat_macro. cbn [f_b f_r f_c]. cbv zeta. rewrite ET.
  destruct (ident_no_eol name ID) as [NN EN].
  assert (NC : no_eol (call_of name x)).
  { unfold call_of, no_eol. rewrite !forallb_app. rewrite NN. destruct x as [|d x]; [reflexivity|]. rewrite forallb_app. rewrite NX. reflexivity. }
  rewrite (eol_off_app _ K NC). rewrite rev_length.
  assert (SK : skip_dir (named ns) [] (rev p0) (call_of name x ++ K)
               = (35%N :: rev p0, name ++ match x with [] => [] | _ => L " " ++ x end ++ K)).
  { unfold call_of. rewrite <- !app_assoc. change (L "#" ++ name ++ match x with [] => [] | _ => L " " ++ x end ++ K)
      with (35%N :: name ++ match x with [] => [] | _ => L " " ++ x end ++ K).
    rewrite (skip_name ns name [] (rev p0) _ ID EO (or_introl eq_refl)). reflexivity. }
  rewrite SK.
  rewrite get_ident_word; [|exact ID|].
  2:{ destruct x as [|d x]; cbn [app]; [apply (halt_name _ _ _ HA)|reflexivity]. }
  cbn [fbind fok]. rewrite AG.
  assert (WS : skip_ws (rev name ++ 35%N :: rev p0) (match x with [] => [] | _ => L " " ++ x end ++ K)
               = (match x with [] => [] | _ => [32%N] end ++ rev name ++ 35%N :: rev p0, x ++ K)).
  { destruct x as [|d x]; cbn [app].
    - apply (halt_ws _ _ _ _ HA).
    - change (L " ") with [32%N]. cbn [app skip_ws]. change (blank 32) with true. rewrite BX. reflexivity. }
  rewrite WS.
  assert (EB : esc_ok (match x with [] => [] | _ => [32%N] end ++ rev name ++ 35%N :: rev p0) = true).
  { destruct x; [apply EN|reflexivity]. }
  assert (RV : rev x ++ match x with [] => [] | _ => [32%N] end ++ rev name ++ 35%N :: rev p0 = rev (p0 ++ call_of name x)).
  { unfold call_of. rewrite !rev_app_distr. destruct x as [|d x]; [cbn [rev app]; rewrite <- app_assoc; reflexivity|].
    rewrite rev_app_distr. rewrite <- !app_assoc. reflexivity. }
  rewrite (get_reads E c false [L ":"] x code _ K SL RD EB) by (rewrite RV; exact HA).
  cbn [fbind fok]. rewrite RV. unfold after_args. rewrite ET. rewrite !Nat.add_assoc. reflexivity.
Qed.

Lemma long_call : forall name m x code p0 k body w ke rest c c1, ident name -> aget name macros = Some m -> written_args E x code ->
  esc_ok (rev p0) = true -> ends_tag p0 k (block name body w ke ++ rest) ->
  block_ok name (p0 ++ call_of name x ++ show_close k) body w ke rest ->
  Gen_Model.s_sl c = true -> Gen_Model.s_act c <> [] -> cutting (e_G E) (own_line k || own_line ke) c = Ok c1 ->
  eat_macro E macros kwargs sub (mkF (rev p0) (call_of name x ++ show_close k ++ block name body w ke ++ rest) c)
  = expand kwargs sub m (strip code) body None (length p0) (rev (p0 ++ call_of name x ++ show_close k ++ block name body w ke)) rest c1.
Proof.
  intros name m x code p0 k body w ke rest c c1 ID AG WA EO EG BO SL A CU.
  destruct (ident_no_eol name ID) as [NN EN]. pose proof WA as (RD & (NX & EX) & BX).
  assert (NC : no_eol (call_of name x)).
  { unfold call_of, no_eol. rewrite !forallb_app. rewrite NN. destruct x as [|d x]; [reflexivity|]. rewrite forallb_app. rewrite NX. reflexivity. }
  assert (EC : esc_ok (rev (p0 ++ call_of name x)) = true).
  { unfold call_of. destruct x as [|d x]; [rewrite app_nil_r, !rev_app_distr, <- app_assoc; apply EN|].
    rewrite !app_assoc, rev_app_distr. destruct (@exists_last _ (d :: x)) as (y & e & R); [discriminate|]. rewrite R in EX |- *. rewrite rev_unit in EX |- *. exact EX. }
  pose proof (ends_stop _ _ _ (rev (p0 ++ call_of name x)) EG EC) as ST.
  rewrite (call_head name m x code p0 _ c ID AG WA EO) by (try exact SL; left; exact ST).
  unfold after_args. rewrite ET. change (short_form (named ns)) with (short_form dflt). rewrite (stop_short _ _ ST).
  rewrite (stop_colon _ _ _ ST).
  2:{ unfold block. intro H. apply (f_equal (@length N)) in H. rewrite !app_length in H. change (length (L "#end ")) with 5 in H. cbn [length] in H. lia. }
  cbn [fbind fok]. rewrite (stop_ws _ _ _ ST). unfold rest_of_tag, with_lex. cbn [f_b f_r f_c]. rewrite ET.
  rewrite (tag_named ns p0 (call_of name x) k (block name body w ke ++ rest) (top_buf c) _ NC EC EG eq_refl).
  cbn [before Lex_Model.rest Lex_Model.out]. rewrite (cut_block _ _ _ _ _ _ _ EG).
  pose proof (absorb_cut E (own_line k) c A) as C1. set (c0 := absorb E (if own_line k then handle_ws (top_buf c) else top_buf c) c) in *.
  unfold fbind. cbn [f_b f_r f_c]. rewrite (to_end ns END _ _ _ _ _ _ _ ID BO). cbn [before Lex_Model.rest Lex_Model.out].
  assert (A0 : Gen_Model.s_act c0 <> []) by (apply absorb_act; exact A).
  pose proof (absorb_cut E (own_line ke) c0 A0) as C2.
  pose proof (cutting_twice _ _ _ _ _ _ A C1 C2) as C3.
  rewrite C3 in CU. injection CU as <-. rewrite <- !app_assoc. reflexivity.
Qed.

Lemma short_call : forall name m x code p0 u e rest c, ident name -> aget name macros = Some m -> written_args E x code ->
  esc_ok (rev p0) = true -> shown u ->
  e = [10%N] \/ e = [13; 10]%N \/ e = [13%N] /\ at_char 10 rest = false \/ e = [] /\ rest = [] ->
  Gen_Model.s_sl c = true ->
  eat_macro E macros kwargs sub (mkF (rev p0) (call_of name x ++ L ": " ++ u ++ e ++ rest) c)
  = expand kwargs sub m (strip code) u (Some e) (length p0) (rev (p0 ++ call_of name x ++ L ": " ++ u ++ e)) rest c.
Proof.
  intros name m x code p0 u e rest c ID AG WA EO SH HE SL.
  assert (R : match e ++ rest with [] => True | c :: _ => eolchar c = true end).
  { destruct HE as [->|[->|[[-> _]|[-> ->]]]]; reflexivity || exact Logic.I. }
  rewrite (call_head name m x code p0 _ c ID AG WA EO); [|right; split; [left; reflexivity|reflexivity]|exact SL].
  unfold after_args. rewrite ET. change (short_form (named ns)) with (short_form dflt). rewrite (shown_blank u (e ++ rest) SH R).
  change (go 1 (rev (p0 ++ call_of name x)) (L ": " ++ u ++ e ++ rest)) with (58%N :: rev (p0 ++ call_of name x), 32%N :: u ++ e ++ rest).
  cbv iota beta. change (blank 32) with true. cbv iota beta. unfold read_eol at 1.
  assert (EO2 : eol_off (u ++ e ++ rest) = length u).
  { rewrite eol_off_app by apply SH. destruct (e ++ rest) as [|d r]; [change (eol_off []) with 0; lia|]. rewrite (eol_cons d r R). lia. }
  rewrite EO2, firstn_len, go_over. unfold read_eol.
  assert (EE : eol_end (e ++ rest) = length e).
  { unfold eol_end. destruct HE as [H|[H|[H|[-> ->]]]]; [| | |reflexivity]; (rewrite eol_nl by tauto; reflexivity). }
  rewrite EE, firstn_len, go_over. f_equal. rewrite !rev_app_distr, <- !app_assoc. reflexivity.
Qed.

(** ** Which eater is called *)

Lemma classify_named : forall w b tail, ident w -> In w ns -> esc_ok b = true -> dn_end tail = true ->
  classify (named ns) b (35%N :: w ++ tail) = KDirective w.
Proof.
  intros w b tail ID IN EO TL. unfold classify. unfold m_dir. rewrite dirstart_hash, EO. unfold m_tok. rewrite EO.
  destruct w as [|c w]; [contradiction|]. destruct ID as [I1 I2].
  change (t_com (named ns)) with [35%N; 35%N]. change (t_ml (named ns)) with [35%N; 42%N]. cbn [app starts_with].
  rewrite (not_identchar c 35 I1 eq_refl), (not_identchar c 42 I1 eq_refl). rewrite !andb_false_r. cbn [andb].
  unfold m_var, m_expr, m_tok. rewrite EO. change (t_var (named ns)) with [36%N]. cbn [starts_with]. change (36 =? 35)%N with false. cbn [andb].
  rewrite I1. cbn [orb]. change (t_names (named ns)) with ns. change (c :: w ++ tail) with ((c :: w) ++ tail).
  rewrite (match_name_word (c :: w) [] ns tail IN); [reflexivity|discriminate| | |].
  - cbn [forallb]. rewrite (identchar_dn c I1). cbn [andb]. rewrite forallb_forall in *. intros x Hx. apply namechar_dn, I2, Hx.
  - cbn. intro e. subst c. discriminate I1.
  - destruct tail as [|t tail]; [exact Logic.I|]. cbn in TL. apply negb_true_iff in TL. exact TL.
Qed.

Lemma not_in_sub : forall name l l', ~ In name l' -> incl l l' -> existsb (str_eqb name) l = false.
Proof.
  intros name l l' H I. destruct (existsb (str_eqb name) l) eqn:X; [|reflexivity]. exfalso.
  apply existsb_exists in X as (y & Y & Q). destruct (str_eqb_spec name y) as [e|]; [|discriminate]. subst y. apply H, I, Y.
Qed.

Lemma dispatch : forall name m tail b c, ident name -> In name ns -> ~ In name builtin -> aget name macros = Some m ->
  esc_ok b = true -> dn_end tail = true ->
  eat (with_macros E macros kwargs sub) sub (mkF b (35%N :: name ++ tail) c) = eat_macro E macros kwargs sub (mkF b (35%N :: name ++ tail) c).
Proof.
  intros name m tail b c ID IN NB AG EO TL. unfold eat. cbn [f_b f_r f_c with_macros e_X]. rewrite ET.
  rewrite (classify_named name b tail ID IN EO TL). unfold eat_directive. cbn [with_macros e_X]. rewrite ET.
  change (forbidden (named ns) name) with false. cbv zeta. cbv iota.
  repeat (match goal with |- context [existsb (str_eqb name) (map L ?l)] =>
    rewrite (not_in_sub name (map L l) builtin NB) by (intros z Hz; cbn in Hz |- *; tauto) end).
  cbn [with_macros e_other]. unfold ahas. rewrite AG. reflexivity.
Qed.
End Call.
