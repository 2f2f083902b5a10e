(** Proofs for [#if … then … else …] with simple expressions (FrontWords_Spec.v): the parts of a list of
    items. *)
From Verif Require Import Base PyStr Lex_Model Expr_Model Front_Model Front_Spec FrontLex_Proofs FrontExpr_Proofs FrontEat_Proofs Front_Proofs FrontWords_Spec FrontWords_Proofs.
From Verif Require Gen_Model Gen_Spec.

Section Parts.
Variable E : env.
Hypothesis ET : x_T (e_X E) = dflt.
Hypothesis TW : tokenizes_words (e_X E).
Local Notation X := (X0 E).
Local Notation var_code := (var_code E).

Lemma parts_S : forall n um enc brk b r, parts X (S n) um enc brk b r = 
  match r with
  | [] => match enc with
          | (o, p) :: _ => err (XParse p (MEof o))
          | [] => ok [] b r
          end
  | c :: r1 =>
      if opener c then prel [[c]] (parts X n um ((c, length b) :: enc) brk (c :: b) r1)
      else if closer c then
        match enc with
        | [] => fail b r MInvalid
        | (o, p) :: enc' =>
            if (c =? mate o)%N then prel [[c]] (parts X n um enc' brk (c :: b) r1)
            else err (XParse p (MMismatch c o))
        end
      else if blank c then
        let '(w, (b', r')) := take_ws b r in prel [w] (parts X n um enc brk b' r')
      else if m_tok (t_dirend (x_T X)) b r && empty enc then ok [] b r
      else if (c =? 92)%N && negb (empty r1) then
        match eol_len r1 with
        | O => fail (c :: b) r1 MLine
        | k => let '(b', r') := go (S k) b r in parts X n um enc brk b' r'
        end
      else if eolchar c then
        match enc with
        | [] => ok [] b r
        | _ => parts X n um enc brk (c :: b) r1
        end
      else if m_xvar (x_T X) r then
        bnd (cvar X n um false b r) (fun x b r => prel [x] (parts X n um enc brk b r))
      else if m_var (x_T X) b r then var_error (x_T X) b r
      else match x_tok X r with
           | None => fail b r MInvalid
           | Some k =>
               let tok := firstn k r in
               let '(b1, r1) := go k b r in
               if empty enc && existsb (str_eqb tok) brk then ok [] b r
               else
                 bnd (transform X n um b r tok b1 r1) (fun t b1 r1 =>
                 match t with
                 | None => err XType
                 | Some tok =>
                     if at_ident tok then
                       if str_eqb tok (L "for") then
                         bnd (expr X n false false [] [L "in"] b1 r1) (fun x b2 r2 =>
                         prel [tok; x] (parts X n um enc brk b2 r2))
                       else
                         let '(w, (b2, r2)) := take_ws b1 r1 in
                         if at_char 40 r2 then
                           bnd (callargs X n um [] b2 r2) (fun a b3 r3 =>
                           prel [tok; w; a] (parts X n um enc brk b3 r3))
                         else prel [tok; w] (parts X n um enc brk b2 r2)
                     else prel [tok] (parts X n um enc brk b1 r1)
                 end)
           end
  end.
Proof. reflexivity. Qed.

Lemma parts_stop : forall n um brk b r, stop b r -> parts X (S n) um [] brk b r = ok [] b r.
Proof.
  intros n um brk b [|c r] H; [reflexivity|]. rewrite parts_S, (XT E ET).
  change (t_dirend dflt) with [35%N]. cbn [negb andb empty]. destruct H as [H|[-> H]].
  - apply eolchar_iff in H as [->| ->]; unfold m_tok; cbn; rewrite andb_false_r; reflexivity.
  - unfold m_tok. cbn. rewrite H. reflexivity.
Qed.

Lemma parts_blank : forall n um brk b s r, starts_plain s ->
  parts X (S n) um [] brk b (L " " ++ s ++ r) = prel [L " "] (parts X n um [] brk (32%N :: b) (s ++ r)).
Proof.
  intros n um brk b s r SP. rewrite parts_S. change (L " " ++ s ++ r) with (32%N :: s ++ r).
  change (opener 32) with false. change (closer 32) with false. change (blank 32) with true. cbv iota.
  change (32%N :: s ++ r) with (L " " ++ s ++ r). rewrite take_one by exact SP. reflexivity.
Qed.

Lemma parts_ident : forall n um brk b w r, ident w -> word_end r = true -> existsb (str_eqb w) brk = false ->
  str_eqb w (L "for") = false ->
  parts X (S (S n)) um [] brk b (w ++ r) =
    let '(ws, (b2, r2)) := take_ws (rev w ++ b) r in
    if at_char 40 r2 then
      bnd (callargs X (S n) um [] b2 r2) (fun a b3 r3 => prel [w; ws; a] (parts X (S n) um [] brk b3 r3))
    else prel [w; ws] (parts X (S n) um [] brk b2 r2).
Proof.
  intros n um brk b w r ID WE BR NF. destruct w as [|c w]; [contradiction|]. destruct ID as [I1 I2].
  assert (TK : x_tok X ((c :: w) ++ r) = Some (length (c :: w))) by (apply (proj1 TW); [split; assumption|exact WE]).
  rewrite parts_S. cbn [app] in *. rewrite (XT E ET).
  assert (O : opener c = false) by (unfold opener; idc I1; reflexivity).
  assert (CL : closer c = false) by (unfold closer; idc I1; reflexivity).
  assert (BL : blank c = false) by (unfold blank; idc I1; reflexivity).
  assert (EL : eolchar c = false) by (unfold eolchar; idc I1; reflexivity).
  assert (M : forall d t b', identchar d = false -> m_tok (d :: t) b' (c :: w ++ r) = false).
  { intros d t b' D. unfold m_tok. cbn [starts_with]. rewrite (not_identchar c d I1 D), andb_false_r. reflexivity. }
  rewrite O, CL, BL, EL. cbn [andb]. change (t_dirend dflt) with [35%N]. rewrite M by reflexivity. cbn [andb].
  rewrite (identchar_not c 92 I1 eq_refl). cbn [andb].
  assert (XV : m_xvar dflt (c :: w ++ r) = false).
  { unfold m_xvar. change (t_var dflt) with [36%N]. cbn [starts_with]. rewrite (not_identchar c 36 I1 eq_refl). reflexivity. }
  assert (MV : m_var dflt b (c :: w ++ r) = false).
  { unfold m_var. change (t_var dflt) with [36%N]. rewrite M by reflexivity. reflexivity. }
  rewrite XV, MV, TK. change (c :: w ++ r) with ((c :: w) ++ r). rewrite firstn_over, go_over.
  cbn [empty andb]. rewrite BR. rewrite (transform_word E n um b ((c :: w) ++ r) (c :: w) (rev (c :: w) ++ b) r (word_quote r WE)).
  cbn [bnd ok at_ident]. rewrite I1, NF. reflexivity.
Qed.

Lemma parts_name : forall n um brk b nm r, dotted_name nm = true -> name_end r = true -> esc_ok b = true ->
  parts X (S (S (S (S n)))) um [] brk b (L "$" ++ nm ++ r) =
  prel [var_code um nm] (parts X (S (S (S n))) um [] brk (rev (L "$" ++ nm) ++ b) r).
Proof.
  intros n um brk b nm r D NE EB. rewrite parts_S, (XT E ET).
  change (L "$" ++ nm ++ r) with (36%N :: nm ++ r).
  change (opener 36) with false. change (closer 36) with false. change (blank 36) with false. change (eolchar 36) with false.
  change (36 =? 92)%N with false. cbn [andb negb empty].
  assert (M : m_tok (t_dirend dflt) b (36%N :: nm ++ r) = false) by (unfold m_tok; cbn; rewrite andb_false_r; reflexivity).
  rewrite M. cbn [andb].
  assert (XV : m_xvar dflt (36%N :: nm ++ r) = true).
  { destruct (dotted_cons nm D) as (c & s & -> & I & DN). unfold m_xvar. cbn. exact I. }
  rewrite XV. change (36%N :: nm ++ r) with (L "$" ++ nm ++ r). rewrite cvar_name by assumption. reflexivity.
Qed.

Lemma parts_tok : forall n um brk b t r, other_tok E t -> word_end r = true -> existsb (str_eqb t) brk = false ->
  parts X (S (S n)) um [] brk b (t ++ r) = prel [t] (parts X (S n) um [] brk (rev t ++ b) r).
Proof.
  intros n um brk b t r (ST & OL & LS & TK) WE BR. destruct t as [|c t]; [contradiction|].
  destruct (tok_start_cases c ST) as (H1 & H2 & H3 & H4 & H5 & H6 & H7 & H8 & H9).
  specialize (TK r WE). change (x_tok (e_X E)) with (x_tok X) in TK.
  rewrite parts_S. cbn [app] in *. rewrite (XT E ET). rewrite H1, H2, H3.
  cbn [andb negb empty].
  assert (M : forall d l b', (c =? d)%N = false -> m_tok (d :: l) b' (c :: t ++ r) = false).
  { intros d l b' D. unfold m_tok. cbn [starts_with]. rewrite N.eqb_sym, D, andb_false_r. reflexivity. }
  change (t_dirend dflt) with [35%N]. rewrite M by assumption. cbn [andb]. rewrite H9. cbn [andb]. rewrite H4.
  assert (XV : m_xvar dflt (c :: t ++ r) = false).
  { unfold m_xvar. change (t_var dflt) with [36%N]. cbn [starts_with]. rewrite N.eqb_sym, H8. reflexivity. }
  assert (MV : m_var dflt b (c :: t ++ r) = false).
  { unfold m_var. change (t_var dflt) with [36%N]. rewrite M by assumption. reflexivity. }
  rewrite XV, MV, TK. change (c :: t ++ r) with ((c :: t) ++ r). rewrite firstn_over, go_over.
  rewrite BR. rewrite (transform_word E n um b ((c :: t) ++ r) (c :: t) (rev (c :: t) ++ b) r (word_quote r WE)).
  cbn [bnd ok at_ident]. rewrite H5. reflexivity.
Qed.

(** ** The parts of a list of items *)

Variable um : bool.

Definition mid_parts (i : xitem) : list pystr := [xi_code E um i; L " "].
Definition last_parts (i : xitem) : list pystr :=
  match i with XWord w => [w; []] | _ => [xi_code E um i] end.
Fixpoint list_parts (l : list xitem) : list pystr :=
  match l with
  | [] => []
  | [i] => last_parts i
  | i :: l => mid_parts i ++ list_parts l
  end.

Lemma prel_ok : forall t x b r, prel t (ok x b r) = ok (t ++ x) b r.
Proof. reflexivity. Qed.

Lemma prel_prel : forall a c x, prel a (prel c x) = prel (a ++ c) x.
Proof. intros a c [[[l [b r]]|e]|]; cbn; try reflexivity. rewrite app_assoc. reflexivity. Qed.

Lemma parts_last : forall brk i b r n, xi_ok E brk i -> esc_ok b = true -> stop (rev (xi_src i) ++ b) r -> 5 <= n ->
  parts X n um [] brk b (xi_src i ++ r) = ok (last_parts i) (rev (xi_src i) ++ b) r.
Proof.
  intros brk i b r n H EB ST LE. destruct n as [|[|[|[|[|n]]]]]; try lia.
  pose proof (halt_word brk _ _ (stop_halt brk _ _ ST)) as WE.
  destruct i as [w|nm|t]; cbn [xi_src xi_code xi_ok last_parts] in *.
  - destruct H as (I & NF & B). rewrite parts_ident by assumption.
    rewrite (halt_take brk _ _ _ (stop_halt brk _ _ ST)), (halt_paren brk _ _ (stop_halt brk _ _ ST)).
    rewrite (parts_stop _ _ _ _ _ ST). reflexivity.
  - change ((L "$" ++ nm) ++ r) with (L "$" ++ nm ++ r).
    rewrite parts_name by (try assumption; apply word_end_name; exact WE). rewrite (parts_stop _ _ _ _ _ ST). reflexivity.
  - destruct H as (O & B). rewrite parts_tok by assumption. rewrite (parts_stop _ _ _ _ _ ST). reflexivity.
Qed.

Lemma parts_mid : forall brk i b s r n, xi_ok E brk i -> esc_ok b = true -> starts_plain s -> 6 <= n ->
  exists m, n <= m + 2 /\
    parts X n um [] brk b (xi_src i ++ L " " ++ s ++ r)
    = prel (mid_parts i) (parts X m um [] brk (rev (xi_src i ++ L " ") ++ b) (s ++ r)).
Proof.
  intros brk i b s r n H EB SP LE. destruct n as [|[|[|[|[|n]]]]]; try lia.
  assert (RV : rev (xi_src i ++ L " ") ++ b = 32%N :: rev (xi_src i) ++ b) by (rewrite rev_app_distr; reflexivity).
  rewrite RV. unfold mid_parts. destruct i as [w|nm|t]; cbn [xi_src xi_code xi_ok] in *.
  - destruct H as (I & NF & B). exists (S (S (S (S n)))). split; [lia|]. rewrite parts_ident by (try assumption; reflexivity).
    rewrite take_one by exact SP. rewrite paren_plain by exact SP. reflexivity.
  - exists (S (S (S n))). split; [lia|]. change ((L "$" ++ nm) ++ L " " ++ s ++ r) with (L "$" ++ nm ++ L " " ++ s ++ r).
    rewrite parts_name by (try assumption; reflexivity). rewrite parts_blank by exact SP. rewrite prel_prel. reflexivity.
  - exists (S (S (S n))). split; [lia|]. destruct H as (O & B). rewrite parts_tok by (try assumption; reflexivity).
    rewrite parts_blank by exact SP. rewrite prel_prel. reflexivity.
Qed.

Lemma join_cons : forall a b l, join (L " ") (a :: b :: l) = a ++ L " " ++ join (L " ") (b :: l).
Proof. reflexivity. Qed.

Lemma list_start : forall brk i l, xi_ok E brk i -> starts_plain (join (L " ") (map xi_src (i :: l))).
Proof.
  intros brk i [|j l] H; [apply (item_start E brk); exact H|].
  pose proof (item_start E brk i H) as K. cbn [map]. rewrite join_cons. destruct (xi_src i) as [|c s]; [contradiction|exact K].
Qed.

Lemma parts_list : forall brk l b r n, l <> [] -> Forall (xi_ok E brk) l -> esc_ok b = true ->
  stop (rev (join (L " ") (map xi_src l)) ++ b) r -> 5 * length (join (L " ") (map xi_src l)) + 5 <= n ->
  parts X n um [] brk b (join (L " ") (map xi_src l) ++ r) = ok (list_parts l) (rev (join (L " ") (map xi_src l)) ++ b) r.
Proof.
  intros brk l. induction l as [|i [|j l] IH]; intros b r n NE F EB ST LE; [congruence| |].
  - inversion F as [|? ? H _]; subst. cbn [map join list_parts] in *. apply (parts_last brk); try assumption. lia.
  - inversion F as [|? ? H F']; subst. inversion F' as [|? ? HJ _]; subst.
    change (map xi_src (i :: j :: l)) with (xi_src i :: xi_src j :: map xi_src l) in *. rewrite join_cons in *.
    change (xi_src j :: map xi_src l) with (map xi_src (j :: l)) in *. set (s := join (L " ") (map xi_src (j :: l))) in *.
    assert (SP : starts_plain s) by (apply (list_start brk); exact HJ).
    rewrite <- !app_assoc.
    rewrite !app_length in LE. change (length (L " ")) with 1 in LE.
    destruct (parts_mid brk i b s r n H EB SP ltac:(lia)) as (m & LM & ->).
    assert (RV : rev (xi_src i ++ L " " ++ s) ++ b = rev s ++ rev (xi_src i ++ L " ") ++ b)
      by (rewrite (app_assoc (xi_src i)), (rev_app_distr (xi_src i ++ L " ")), <- app_assoc; reflexivity).
    rewrite RV in *. rewrite IH; [rewrite prel_ok; reflexivity|discriminate|exact F'| |exact ST|lia].
    rewrite rev_app_distr. reflexivity.
Qed.

Lemma list_parts_app : forall a c, c <> [] -> list_parts (a ++ c) = flat_map mid_parts a ++ list_parts c.
Proof.
  induction a as [|i a IH]; intros c NE; [reflexivity|]. cbn [app flat_map]. rewrite <- app_assoc, <- IH by exact NE.
  destruct (a ++ c) as [|j l] eqn:Q; [|reflexivity]. apply app_eq_nil in Q as [_ Q]. congruence.
Qed.

Lemma flat_code : forall l, l <> [] -> concat (flat_map mid_parts l) = join (L " ") (map (xi_code E um) l) ++ L " ".
Proof.
  induction l as [|i [|j l] IH]; intro NE; [congruence| |].
  - cbn [flat_map map join mid_parts concat app]. rewrite app_nil_r. reflexivity.
  - change (flat_map mid_parts (i :: j :: l)) with (mid_parts i ++ flat_map mid_parts (j :: l)).
    rewrite concat_app, IH by discriminate. cbn [map]. rewrite join_cons. unfold mid_parts. cbn [concat]. rewrite app_nil_r, <- !app_assoc. reflexivity.
Qed.

Lemma list_code : forall l, concat (list_parts l) = join (L " ") (map (xi_code E um) l).
Proof.
  induction l as [|i [|j l] IH]; [reflexivity| |].
  - destruct i; cbn [list_parts last_parts concat map join xi_code]; rewrite ?app_nil_r; reflexivity.
  - change (list_parts (i :: j :: l)) with (mid_parts i ++ list_parts (j :: l)).
    rewrite concat_app, IH. cbn [map]. rewrite join_cons. unfold mid_parts. cbn [concat]. rewrite app_nil_r, <- !app_assoc. reflexivity.
Qed.

Definition calm_item (i : xitem) : Prop := xi_code E um i <> L "then" /\ xi_code E um i <> L "else".
Notation quiet := (Forall (fun p => strip p <> L "then" /\ strip p <> L "else")).

Lemma mid_quiet : forall brk l, Forall (xi_ok E brk) l -> Forall calm_item l -> quiet (flat_map mid_parts l).
Proof.
  intros brk l H K. induction l as [|i l IH]; [constructor|]. inversion H; inversion K; subst. cbn [flat_map mid_parts app].
  destruct (item_strip E um brk i) as [S1 _]; [assumption|]. constructor; [rewrite S1; assumption|].
  constructor; [split; discriminate|]. apply IH; assumption.
Qed.

Lemma list_quiet : forall brk l, Forall (xi_ok E brk) l -> Forall calm_item l -> quiet (list_parts l).
Proof.
  intros brk l H K. induction l as [|i [|j l] IH]; [constructor| |].
  - inversion H; inversion K; subst. cbn [list_parts]. destruct (item_strip E um brk i) as [S1 _]; [assumption|].
    destruct i; cbn [last_parts xi_code] in *; (constructor; [rewrite S1; assumption|]); [|constructor|constructor].
    constructor; [split; discriminate|constructor].
  - change (list_parts (i :: j :: l)) with (mid_parts i ++ list_parts (j :: l)). inversion H; inversion K; subst.
    apply Forall_app. split; [|apply IH; assumption]. pose proof (mid_quiet brk [i]) as M. cbn [flat_map app] in M. rewrite app_nil_r in M.
    apply M; constructor; assumption || constructor.
Qed.

Lemma join_app : forall (a c : list pystr), a <> [] -> c <> [] -> join (L " ") (a ++ c) = join (L " ") a ++ L " " ++ join (L " ") c.
Proof.
  induction a as [|x [|y a] IH]; intros c NA NC; [congruence| |].
  - destruct c as [|z c]; [congruence|]. reflexivity.
  - change ((x :: y :: a) ++ c) with (x :: y :: (a ++ c)). rewrite !join_cons. change (y :: a ++ c) with ((y :: a) ++ c).
    rewrite IH by (discriminate || assumption). rewrite <- !app_assoc. reflexivity.
Qed.
End Parts.

(** The ternary form with simple expressions. *)
Theorem items_then : forall E, x_T (e_X E) = dflt -> tokenizes_words (e_X E) -> forall c t f, c <> [] -> t <> [] -> f <> [] ->
  Forall (xi_ok E [L ":"]) (c ++ t ++ f) ->
  Forall (fun i => xi_code E (e_um E) i <> L "then" /\ xi_code E (e_um E) i <> L "else") (c ++ t ++ f) ->
  then_ok E (items E (e_um E) c) (items E (e_um E) t) (items E (e_um E) f).
Proof.
  intros E ET TW c t f NC NT NF F Q. apply Forall_app in F as [FC F]. apply Forall_app in F as [FT FF].
  apply Forall_app in Q as [QC Q]. apply Forall_app in Q as [QT QF].
  set (um := e_um E) in *.
  set (l := XWord (L "if") :: c ++ XWord (L "then") :: t ++ XWord (L "else") :: f).
  assert (MA : forall (A B : Type) (g : A -> B) (x : list A), x <> [] -> map g x <> []) by (intros A B g [|y x] N K; [congruence|discriminate K]).
  assert (SRC : L "if " ++ x_src (items E um c) ++ L " then " ++ x_src (items E um t) ++ L " else " ++ x_src (items E um f)
                = join (L " ") (map xi_src l)).
  { unfold l. cbn [items x_src map]. rewrite map_app. cbn [map]. rewrite map_app. cbn [map].
    change (xi_src (XWord (L "if")) :: ?x) with ([L "if"] ++ x).
    rewrite join_app; [|discriminate|apply (MA _ _ xi_src) in NC; destruct (map xi_src c); [congruence|discriminate]].
    rewrite join_app; [|auto|discriminate].
    change (xi_src (XWord (L "then")) :: ?x) with ([L "then"] ++ x).
    rewrite join_app; [|discriminate|apply (MA _ _ xi_src) in NT; destruct (map xi_src t); [congruence|discriminate]].
    rewrite join_app; [|auto|discriminate].
    change (xi_src (XWord (L "else")) :: ?x) with ([L "else"] ++ x).
    rewrite join_app; [|discriminate|auto]. cbn [join]. rewrite <- ?app_assoc. reflexivity. }
  assert (OK : Forall (xi_ok E [L ":"]) l).
  { assert (W : forall w, ident w -> str_eqb w (L "for") = false -> existsb (str_eqb w) [L ":"] = false -> xi_ok E [L ":"] (XWord w))
      by (intros w A1 A2 A3; cbn [xi_ok]; auto).
    unfold l. constructor; [apply W; [split; reflexivity|reflexivity|reflexivity]|].
    apply Forall_app. split; [exact FC|]. constructor; [apply W; [split; reflexivity|reflexivity|reflexivity]|].
    apply Forall_app. split; [exact FT|]. constructor; [apply W; [split; reflexivity|reflexivity|reflexivity]|exact FF]. }
  assert (LP : list_parts E um l = (L "if" :: L " " :: flat_map (mid_parts E um) c) ++ [L "then"] ++ (L " " :: flat_map (mid_parts E um) t)
                 ++ [L "else"] ++ (L " " :: list_parts E um f)).
  { unfold l. change (XWord (L "if") :: ?x) with ([XWord (L "if")] ++ x).
    rewrite list_parts_app by (destruct c; discriminate). rewrite list_parts_app by discriminate.
    change (XWord (L "then") :: ?x) with ([XWord (L "then")] ++ x). rewrite list_parts_app by (destruct t; discriminate).
    rewrite list_parts_app by discriminate. change (XWord (L "else") :: ?x) with ([XWord (L "else")] ++ x).
    rewrite list_parts_app by exact NF. reflexivity. }
  assert (OL : forall x, x <> [] -> Forall (xi_ok E [L ":"]) x -> one_line (x_src (items E um x)) /\ x_src (items E um x) <> []).
  { intros x NX FX. destruct (items_reads E ET TW um [L ":"] x NX FX) as (_ & O & SP & _).
    split; [exact O|]. intro K. rewrite K in SP. contradiction. }
  split; [|repeat split; apply OL; assumption].
  intros b r n EB ST LE. rewrite SRC in *.
  exists (L "if" :: L " " :: flat_map (mid_parts E um) c), (L " " :: flat_map (mid_parts E um) t), (L " " :: list_parts E um f).
  split; [constructor; [split; discriminate|]; constructor; [split; discriminate|]; apply (mid_quiet E um [L ":"]); assumption|].
  split; [constructor; [split; discriminate|]; apply (mid_quiet E um [L ":"]); assumption|].
  split; [constructor; [split; discriminate|]; apply (list_quiet E um [L ":"]); assumption|].
  split; [cbn [concat]; rewrite flat_code by exact NC; reflexivity|].
  split; [cbn [concat]; rewrite flat_code by exact NT; reflexivity|].
  split; [cbn [concat]; rewrite list_code; reflexivity|].
  rewrite <- LP. apply (parts_list E ET TW um [L ":"]); [discriminate|exact OK|exact EB|exact ST|].
  rewrite app_length in LE. lia.
Qed.
