(** The directives about the class and the module ask the compiler for what is written. *)
From Verif Require Import Base PyStr Lex_Model Expr_Model Front_Model Front_Spec FrontLex_Proofs FrontExpr_Proofs.
From Verif Require Gen_Model Gen_Spec.
From Verif Require Import FrontGen_Proofs FrontEat_Proofs FrontSane_Proofs Front_Proofs.
From Verif Require Import Head_Model Head_Spec.

Local Notation cs := Gen_Model.cs.

(** ** Lists of names *)

Lemma sym_flag : forall cur b r, match r with c :: _ => namechar c = false | [] => True end ->
  symbols true cur b r = symbols false cur b r.
Proof. intros cur b [|c r] H; [reflexivity|]. cbn [symbols]. rewrite H. reflexivity. Qed.

Lemma sym_in : forall w cur b r, forallb namechar w = true -> symbols true cur b (w ++ r) = symbols true (cur ++ w) (rev w ++ b) r.
Proof.
  induction w as [|c w IH]; intros cur b r H; [rewrite app_nil_r; reflexivity|].
  cbn [forallb] in H. apply andb_true_iff in H as [H1 H2]. cbn [app symbols]. rewrite H1. cbn [orb].
  rewrite (IH _ _ _ H2). cbn [rev]. rewrite <- !app_assoc. reflexivity.
Qed.

Lemma sym_ident : forall w cur b r, ident w -> match r with c :: _ => namechar c = false | [] => True end ->
  symbols false cur b (w ++ r) = symbols false (cur ++ w) (rev w ++ b) r.
Proof.
  intros [|c w] cur b r H R; [contradiction|]. destruct H as [H1 H2]. cbn [app symbols].
  unfold namechar at 1. rewrite H1. cbn [orb]. rewrite (sym_in _ _ _ _ H2), (sym_flag _ _ _ R).
  cbn [rev]. rewrite <- !app_assoc. reflexivity.
Qed.

Lemma ident_at : forall w r, ident w -> at_ident (w ++ r) = true.
Proof. intros [|c w] r H; [contradiction|]. apply H. Qed.

Lemma dots_cons : forall w ids, ids <> [] -> dots (w :: ids) = w ++ L "." ++ dots ids.
Proof. intros w [|x ids] H; [congruence|reflexivity]. Qed.
Lemma dots_at : forall ids r, ids <> [] -> Forall ident ids -> at_ident (dots ids ++ r) = true.
Proof.
  intros [|w ids] r NE F; [congruence|]. inversion F; subst. destruct ids as [|x ids].
  - apply ident_at. assumption.
  - rewrite dots_cons by discriminate. rewrite <- app_assoc. apply ident_at. assumption.
Qed.

Lemma sym_dots : forall ids cur b r, ids <> [] -> Forall ident ids -> match r with c :: _ => namechar c = false | [] => True end ->
  symbols false cur b (dots ids ++ r) = symbols false (cur ++ dots ids) (rev (dots ids) ++ b) r.
Proof.
  induction ids as [|w ids IH]; intros cur b r NE F R; [congruence|]. inversion F as [|? ? F1 F2]; subst.
  destruct ids as [|x ids].
  - change (dots [w]) with w. apply sym_ident; assumption.
  - rewrite dots_cons by discriminate. rewrite <- !app_assoc. rewrite sym_ident; [|exact F1|reflexivity].
    change (L "." ++ dots (x :: ids) ++ r) with (46%N :: dots (x :: ids) ++ r). cbn [symbols].
    change (namechar 46) with false. change (46 =? 46)%N with true. cbv iota.
    rewrite dots_at by (assumption || discriminate). rewrite IH by (assumption || discriminate).
    rewrite !rev_app_distr. rewrite <- !app_assoc. reflexivity.
Qed.

Lemma gap_char : forall c, ((c =? 32) || (c =? 9))%N = true -> namechar c = false /\ (c =? 46)%N = false /\ (c =? 44)%N = false /\ blank c = true /\ eolchar c = false.
Proof.
  intros c H. apply orb_prop in H as [H|H]; apply N.eqb_eq in H; subst; repeat split; reflexivity.
Qed.

Lemma sym_gap : forall w cur b r, gap w -> symbols false cur b (w ++ r) = symbols false cur (rev w ++ b) r.
Proof.
  induction w as [|c w IH]; intros cur b r H; [reflexivity|]. unfold gap in H. cbn [forallb] in H.
  apply andb_true_iff in H as [H1 H2]. cbn [app symbols]. destruct (gap_char c H1) as (-> & -> & -> & _). rewrite H1.
  rewrite (IH _ _ _ H2). cbn [rev]. rewrite <- app_assoc. reflexivity.
Qed.

Lemma dots_nonempty : forall ids, ids <> [] -> Forall ident ids -> dots ids <> [].
Proof.
  intros ids NE F H. pose proof (dots_at ids [] NE F) as A. rewrite H in A. discriminate A.
Qed.

Lemma sym_listed : forall n cur b r, listed_ok n -> match r with c :: _ => namechar c = false | [] => True end ->
  symbols false cur b (show_listed n ++ r) = symbols false (cur ++ dots (li_ids n)) (rev (show_listed n) ++ b) r.
Proof.
  intros n cur b r (G1 & G2 & NE & F) R. unfold show_listed. rewrite <- !app_assoc. rewrite (sym_gap _ _ _ _ G1).
  rewrite sym_dots; [|exact NE|exact F|].
  - rewrite (sym_gap _ _ _ _ G2). rewrite !rev_app_distr, <- !app_assoc. reflexivity.
  - destruct (li_after n) as [|c w]; [exact R|]. unfold gap in G2. cbn [forallb] in G2. apply andb_true_iff in G2 as [G2 _].
    cbn [app]. apply (gap_char c G2).
Qed.

Lemma sym_list : forall l b b' r, l <> [] -> Forall listed_ok l -> stop b' r ->
  symbols false [] b (join (L ",") (map show_listed l) ++ r)
  = fok (map (fun n => dots (li_ids n)) l, (rev (join (L ",") (map show_listed l)) ++ b, r)).
Proof.
  induction l as [|n l IH]; intros b b' r NE F ST; [congruence|]. inversion F as [|? ? F1 F2]; subst.
  assert (DN : dots (li_ids n) <> []) by (apply dots_nonempty; apply F1).
  destruct l as [|m l].
  - cbn [map join]. rewrite sym_listed; [|exact F1|apply (stop_name _ _ ST)]. cbn [app].
    destruct r as [|c r]; cbn [symbols].
    + destruct (dots (li_ids n)); [congruence|reflexivity].
    + assert (H : namechar c = false /\ (c =? 46)%N = false /\ (c =? 44)%N = false /\ ((c =? 32) || (c =? 9))%N = false).
      { apply stop_first in ST. destruct ST as [->|[->| ->]]; repeat split; reflexivity. }
      destruct H as (-> & -> & -> & ->). destruct (dots (li_ids n)); [congruence|reflexivity].
  - change (join (L ",") (map show_listed (n :: m :: l))) with (show_listed n ++ L "," ++ join (L ",") (map show_listed (m :: l))).
    rewrite <- !app_assoc. rewrite sym_listed; [|exact F1|reflexivity]. cbn [app].
    change (L "," ++ join (L ",") (map show_listed (m :: l)) ++ r) with (44%N :: join (L ",") (map show_listed (m :: l)) ++ r).
    cbn [symbols]. change (namechar 44) with false. change (44 =? 46)%N with false. change (44 =? 44)%N with true. cbv iota.
    rewrite (IH _ b' r) by (assumption || discriminate). cbn [fbind fok].
    rewrite !rev_app_distr, <- !app_assoc. reflexivity.
Qed.

Lemma gap_skip : forall w b r, gap w -> skip_ws b (w ++ r) = skip_ws (rev w ++ b) r.
Proof.
  induction w as [|c w IH]; intros b r H; [reflexivity|]. unfold gap in H. cbn [forallb] in H.
  apply andb_true_iff in H as [H1 H2]. cbn [app skip_ws]. destruct (gap_char c H1) as (_ & _ & _ & -> & _).
  rewrite (IH _ _ H2). cbn [rev]. rewrite <- app_assoc. reflexivity.
Qed.

(** Their text is one line and does not end with a backslash. *)
Lemma identchar_eol : forall c, identchar c = true -> eolchar c = false /\ (c =? 92)%N = false.
Proof. intros c H. split; [unfold eolchar; idc H; reflexivity|idc H; reflexivity]. Qed.
Lemma namechar_eol : forall c, namechar c = true -> eolchar c = false /\ (c =? 92)%N = false.
Proof.
  intros c H. unfold namechar in H. apply orb_prop in H as [H|H]; [apply identchar_eol; exact H|].
  unfold eolchar. lia.
Qed.

Definition calm (s : pystr) : Prop := forallb (fun c => negb (eolchar c) && negb (c =? 92)%N) s = true.
Lemma calm_app : forall a b, calm a -> calm b -> calm (a ++ b).
Proof. intros a b A B. unfold calm in *. rewrite forallb_app, A, B. reflexivity. Qed.
Lemma calm_ident : forall w, ident w -> calm w.
Proof.
  intros [|c w] H; [contradiction|]. destruct H as [H1 H2]. unfold calm. cbn [forallb].
  destruct (identchar_eol c H1) as [-> ->]. cbn [negb andb]. rewrite forallb_forall in *. intros x I.
  destruct (namechar_eol x (H2 x I)) as [-> ->]. reflexivity.
Qed.
Lemma calm_gap : forall w, gap w -> calm w.
Proof.
  intros w H. unfold calm, gap in *. rewrite forallb_forall in *. intros x I. specialize (H x I).
  destruct (gap_char x H) as (_ & _ & _ & _ & ->). apply orb_prop in H as [H|H]; apply N.eqb_eq in H; subst; reflexivity.
Qed.
Lemma calm_dots : forall ids, Forall ident ids -> calm (dots ids).
Proof.
  induction ids as [|w ids IH]; intro F; [reflexivity|]. inversion F; subst. destruct ids as [|x ids]; [apply calm_ident; assumption|].
  rewrite dots_cons by discriminate. repeat apply calm_app; [apply calm_ident; assumption|reflexivity|apply IH; assumption].
Qed.
Lemma calm_listed : forall n, listed_ok n -> calm (show_listed n).
Proof. intros n (G1 & G2 & _ & F). repeat apply calm_app; [apply calm_gap; exact G1|apply calm_dots; exact F|apply calm_gap; exact G2]. Qed.
Lemma calm_list : forall l, Forall listed_ok l -> calm (join (L ",") (map show_listed l)).
Proof.
  induction l as [|n l IH]; intro F; [reflexivity|]. inversion F; subst. destruct l as [|m l]; [apply calm_listed; assumption|].
  change (join (L ",") (map show_listed (n :: m :: l))) with (show_listed n ++ L "," ++ join (L ",") (map show_listed (m :: l))).
  apply calm_app; [apply calm_listed; assumption|apply calm_app; [reflexivity|apply IH; assumption]].
Qed.
Lemma calm_no_eol : forall s, calm s -> no_eol s.
Proof.
  intros s H. unfold calm, no_eol in *. rewrite forallb_forall in *. intros x I. specialize (H x I). apply andb_true_iff in H. apply H.
Qed.
Lemma calm_esc : forall s p, calm s -> s <> [] -> esc_ok (rev (p ++ s)) = true.
Proof.
  intros s p H NE. destruct (exists_last NE) as (r & d & ->). rewrite app_assoc, rev_unit. unfold calm in H.
  rewrite forallb_app in H. apply andb_true_iff in H as [_ H]. cbn [forallb] in H. apply andb_true_iff in H as [H _].
  apply andb_true_iff in H as [_ H]. apply negb_true_iff in H. cbn [esc_ok]. rewrite H. reflexivity.
Qed.

Ltac in_skip H := match type of H with ?l = ?r => match goal with |- context [skip_ws ?b l] =>
  replace (skip_ws b l) with (skip_ws b r) by (rewrite H; reflexivity) end end.

Section Main.
Variable E : env.
Hypothesis ET : x_T (e_X E) = dflt.
Variable cls : pystr.
Variable sub : fstate -> fout fstate.
Local Notation G := (e_G E).

(** The outcome. *)
Definition hlift (k : call) (x : res Gen_Model.gerr cs) (b r : pystr) : hout (call * fstate) :=
  match x with Ok c => hok (k, mkF b r c) | Raise e => Some (Raise (HFront (FGen e))) end.

Lemma hlift_bind : forall k x F b r,
  hbind (lift x b r) (fun s' => hbind (from_g (F (f_c s'))) (fun c => hok (k, mkF (f_b s') (f_r s') c)))
  = hlift k (Gen_Model.bind x F) b r.
Proof. intros k [c|e] F b r; [|reflexivity]. cbn. destruct (F c); reflexivity. Qed.
Lemma hlift_ok : forall k x b r, hbind (lift x b r) (fun s' => hok (k, s')) = hlift k (Gen_Model.bind x (fun c => Ok c)) b r.
Proof. intros k [c|e] b r; reflexivity. Qed.

(** The names of these directives. *)
Lemma hnames : forall w, In w (map L ["extends"; "implements"; "super"; "attr"; "set"; "include"; "errorCatcher"; "transform"]%string) -> known w.
Proof.
  assert (F : forallb (fun w => existsb (str_eqb w) default_names && forallb identchar w && negb (forbidden dflt w)
      && match w with [] => false | _ => true end)
    (map L ["extends"; "implements"; "super"; "attr"; "set"; "include"; "errorCatcher"; "transform"]%string) = true) by (vm_compute; reflexivity).
  rewrite forallb_forall in F. intros w I. specialize (F w I). rewrite !andb_true_iff in F. destruct F as (((F1 & F2) & F3) & F4).
  apply existsb_exists in F1 as (x & X1 & X2). apply str_eqb_eq in X2 as <-. apply negb_true_iff in F3.
  split; [|exact F3]. split; [exact X1|]. split; [exact F2|]. destruct w; [discriminate|discriminate].
Qed.
Lemma hname_known : forall d, known (hname d).
Proof. intro d. apply hnames. destruct d; cbn; auto 10. Qed.

Lemma enter_ok : forall d p0 K c, esc_ok (rev p0) = true ->
  enter E (hname d) (mkF (rev p0) (35%N :: hname d ++ hargs d ++ K) c)
  = (line_clear (rev p0), length (rev p0) + eol_off (35%N :: hname d ++ hargs d ++ K), skip_ws (rev (p0 ++ 35%N :: hname d)) (hargs d ++ K)).
Proof.
  intros d p0 K c EO. unfold enter. cbn [f_b f_r]. rewrite ET.
  rewrite (skip_to (hname d) (hname d) (hargs d) p0 K (proj1 (hname_known d)) EO (or_intror eq_refl) (hargs d) eq_refl). reflexivity.
Qed.

(** The arguments are one line and do not end with a backslash. *)
Lemma args_esc : forall a p, args_read E a -> esc_ok (rev p) = true -> esc_ok (rev (p ++ show_args a)) = true.
Proof.
  intros [a|] p AO EO; cbn [show_args]; [|rewrite app_nil_r; exact EO].
  rewrite !rev_app_distr, <- !app_assoc. reflexivity.
Qed.
Lemma args_eol : forall a, args_read E a -> no_eol (show_args a).
Proof.
  intros [a|] AO; [|reflexivity]. destruct AO as (_ & (OL & _)). unfold no_eol, show_args. rewrite !forallb_app, OL. reflexivity.
Qed.

Lemma hline : forall d p0, hdir_ok E d ->
  no_eol (35%N :: hname d ++ hargs d) /\ esc_ok (rev (p0 ++ 35%N :: hname d ++ hargs d)) = true.
Proof.
  intros d p0 OK.
  assert (N0 : no_eol (hname d)) by (destruct d; reflexivity).
  assert (A : forall s, no_eol s -> no_eol (35%N :: hname d ++ s)).
  { intros s H. change (35%N :: hname d ++ s) with (L "#" ++ hname d ++ s). repeat apply no_eol_app; [reflexivity|exact N0|exact H]. }
  assert (B : forall a s, calm s -> s <> [] -> esc_ok (rev (p0 ++ 35%N :: hname d ++ a ++ s)) = true).
  { intros a s H NE. replace (p0 ++ 35%N :: hname d ++ a ++ s) with ((p0 ++ 35%N :: hname d ++ a) ++ s)
      by (rewrite <- app_assoc; cbn [app]; rewrite <- ?app_assoc; reflexivity). apply calm_esc; assumption. }
  assert (B2 : forall a s, one_line s -> s <> [] -> esc_ok (rev (p0 ++ 35%N :: hname d ++ a ++ s)) = true).
  { intros a s H NE. replace (p0 ++ 35%N :: hname d ++ a ++ s) with ((p0 ++ 35%N :: hname d ++ a) ++ s)
      by (rewrite <- app_assoc; cbn [app]; rewrite <- ?app_assoc; reflexivity). rewrite rev_app_distr. apply esc_tail; assumption. }
  destruct d as [l|n a|a|v n e|lv op e|raw str e|n|n]; cbn [hdir_ok hargs] in *.
  - destruct OK as [NE F]. pose proof (calm_list l F) as CL. split.
    + apply A. apply no_eol_app; [reflexivity|apply calm_no_eol; exact CL].
    + apply B; [exact CL|]. destruct l as [|n l]; [congruence|]. inversion F as [|? ? F1 F2]; subst.
      pose proof (dots_nonempty (li_ids n)) as D. destruct F1 as (_ & _ & D1 & D2). specialize (D D1 D2).
      cbn [map]. intro H. apply D. destruct (map show_listed l); cbn [join] in H; unfold show_listed in H;
        [|apply app_eq_nil in H as [H _]]; apply app_eq_nil in H as [_ H]; apply app_eq_nil in H as [H _]; exact H.
  - destruct OK as [ID AO]. split.
    + apply A. repeat apply no_eol_app; [reflexivity|apply calm_no_eol, calm_ident; exact ID|apply args_eol; exact AO].
    + rewrite (app_assoc (L " ")). replace (p0 ++ 35%N :: hname (HImplements n a) ++ (L " " ++ n) ++ show_args a)
        with ((p0 ++ 35%N :: hname (HImplements n a) ++ L " " ++ n) ++ show_args a)
        by (rewrite <- app_assoc; cbn [app]; rewrite <- ?app_assoc; reflexivity).
      apply args_esc; [exact AO|]. apply B; [apply calm_ident; exact ID|]. destruct n; [contradiction|discriminate].
  - split; [apply A; apply args_eol; exact OK|].
    replace (p0 ++ 35%N :: hname (HSuper a) ++ show_args a) with ((p0 ++ L "#" ++ hname (HSuper a)) ++ show_args a)
      by (rewrite <- app_assoc; cbn [app]; reflexivity).
    apply args_esc; [exact OK|]. apply calm_esc; [reflexivity|discriminate].
  - destruct OK as (ID & (_ & OL & SP & _) & _). split.
    + apply A. repeat apply no_eol_app; [reflexivity|destruct v; reflexivity|apply calm_no_eol, calm_ident; exact ID|reflexivity|apply one_no_eol; exact OL].
    + replace (L " " ++ (if v then L "$" else []) ++ n ++ L " = " ++ x_src e) with ((L " " ++ (if v then L "$" else []) ++ n ++ L " = ") ++ x_src e)
        by (rewrite <- !app_assoc; reflexivity). apply B2; [exact OL|apply plain_nonempty; exact SP].
  - destruct OK as ((_ & LO & _) & IOP & (_ & OL & SP & _) & _). split.
    + apply A. repeat apply no_eol_app; try reflexivity; [apply one_no_eol; exact LO| |apply one_no_eol; exact OL].
      clear - IOP. unfold assign_ops in IOP. cbn [map In] in IOP. repeat (destruct IOP as [<-|IOP]; [reflexivity|]). destruct IOP.
    + replace (L " module " ++ x_src lv ++ L " " ++ op ++ L " " ++ x_src e) with ((L " module " ++ x_src lv ++ L " " ++ op ++ L " ") ++ x_src e)
        by (rewrite <- !app_assoc; reflexivity). apply B2; [exact OL|apply plain_nonempty; exact SP].
  - destruct OK as ((_ & OL & SP & _) & _). split.
    + apply A. repeat apply no_eol_app; [reflexivity|destruct raw; reflexivity|destruct str; reflexivity|apply one_no_eol; exact OL].
    + replace (L " " ++ (if raw then L "raw " else []) ++ (if str then L "source=" else []) ++ x_src e)
        with ((L " " ++ (if raw then L "raw " else []) ++ (if str then L "source=" else [])) ++ x_src e)
        by (rewrite <- !app_assoc; reflexivity). apply B2; [exact OL|apply plain_nonempty; exact SP].
  - split; [apply A; apply no_eol_app; [reflexivity|apply calm_no_eol, calm_ident; exact OK]|].
    apply B; [apply calm_ident; exact OK|destruct n; [contradiction|discriminate]].
  - split; [apply A; apply no_eol_app; [reflexivity|apply calm_no_eol, calm_ident; exact OK]|].
    apply B; [apply calm_ident; exact OK|destruct n; [contradiction|discriminate]].
Qed.

(** The end of the directive. *)
Lemma hend : forall d body p0 k rest c, hdir_ok E d -> close_ok body p0 k rest -> Gen_Model.s_act c <> [] ->
  rest_of_tag E (line_clear (rev p0)) (length (rev p0) + eol_off (35%N :: hname d ++ hargs d ++ show_close k ++ rest))
    (mkF (rev (p0 ++ 35%N :: hname d ++ hargs d)) (show_close k ++ rest) c)
  = lift (cutting G (cut p0 k rest) c) (rev (p0 ++ (35%N :: hname d ++ hargs d) ++ show_close k)) rest.
Proof.
  intros d body p0 k rest c OK CO A. destruct (hline d p0 OK) as [ND EO2].
  apply (with_rest E ET p0 (35%N :: hname d ++ hargs d) k body rest c _ ND EO2 CO); [|exact A].
  apply eol_dir. exact ND.
Qed.

Lemma empty_expr : forall c b r, Gen_Model.s_sl c = true -> stop b r -> get_expr E c (e_um E) [] b r = fok ([], (b, r)).
Proof.
  intros c b r SL ST. unfold get_expr. rewrite (lang_X0 E c SL).
  assert (EN : enough r = S (pred (enough r))) by (unfold enough; lia). rewrite EN.
  rewrite (expr_stop E ET) by exact ST. reflexivity.
Qed.

Lemma drop_self_eq : forall a, drop_self (args_val a) = given a.
Proof.
  intro a. unfold drop_self, given. destruct (args_val a) as [|[n v] l]; [reflexivity|]. cbn [fst].
  destruct (list_eq_dec N.eq_dec n (L "self")) as [->|NE]; [reflexivity|].
  destruct (str_eqb_spec n (L "self")); [contradiction|reflexivity].
Qed.

Lemma opt_args_ok : forall a c b b' r, args_read E a -> Gen_Model.s_sl c = true -> stop b' r ->
  opt_args E c b (show_args a ++ r) = fok (given a, (rev (show_args a) ++ b, r)).
Proof.
  intros a c b b' r AO SL ST. rewrite <- drop_self_eq. unfold opt_args. destruct a as [a|]; cbn [show_args args_val].
  - destruct AO as (RD & _). rewrite <- !app_assoc.
    change (at_char 40 (L "(" ++ sa_src a ++ L ")" ++ r)) with true. cbv iota.
    rewrite (RD c b r SL). cbn [fbind fok].
    cbn [app go]. do 4 f_equal. rewrite !rev_app_distr. cbn [rev app]. rewrite <- !app_assoc. reflexivity.
  - cbn [app]. rewrite (stop_paren _ _ ST). reflexivity.
Qed.

Lemma super_args_eq : forall l, super_args l = join (L ",") (map arg_text l).
Proof.
  intro l. unfold super_args. f_equal. apply map_ext. intros [n [d|]]; unfold arg_text; cbn [fst snd]; [reflexivity|rewrite app_nil_r; reflexivity].
Qed.

Lemma finds_contains : forall w s, finds w s = contains w s.
Proof. intros w s. induction s as [|c s IH]; [reflexivity|]. cbn [finds contains]. rewrite IH. reflexivity. Qed.

Lemma op_esc : forall op b, In op assign_ops -> esc_ok (rev op ++ b) = true.
Proof. intros op b I. unfold assign_ops in I. cbn [map In] in I. repeat (destruct I as [<-|I]; [reflexivity|]). destruct I. Qed.

Lemma get_assign_ok : forall op b r, In op assign_ops -> x_tok (e_X E) (op ++ r) = Some (length op) ->
  get_assign E b (op ++ r) = fok (op, (rev op ++ b, r)).
Proof.
  intros op b r I TK. unfold get_assign. rewrite TK, firstn_over, go_over.
  assert (IO : existsb (str_eqb op) assign_ops = true) by (apply existsb_exists; exists op; split; [exact I|apply str_eqb_refl]).
  rewrite IO. reflexivity.
Qed.

(** ** The directives *)

Lemma extends_ok : forall l p0 k rest c, hdir_ok E (HExtends l) -> esc_ok (rev p0) = true -> close_ok false p0 k rest ->
  Gen_Model.s_act c <> [] -> Gen_Model.s_sl c = true ->
  eat_extends E false (mkF (rev p0) (35%N :: L "extends" ++ hargs (HExtends l) ++ show_close k ++ rest) c)
  = hlift (asks (HExtends l)) (Gen_Model.bind (cutting G (cut p0 k rest) c) (fun c => Ok c))
      (rev (p0 ++ (35%N :: L "extends" ++ hargs (HExtends l)) ++ show_close k)) rest.
Proof.
  intros l p0 k rest c OK EO CO A SL. unfold eat_extends. change (L "extends") with (hname (HExtends l)).
  destruct (hline _ p0 OK) as [ND EO2]. pose proof (close_stop false p0 k rest _ CO EO2) as ST.
  rewrite (enter_ok _ p0 _ c EO). pose proof OK as OK0. destruct OK as [NE F]. destruct l as [|n l]; [congruence|]. inversion F as [|? ? (G1 & G2 & D1 & D2) F2]; subst.
  set (n' := mkLi [] (li_ids n) (li_after n)).
  assert (F' : Forall listed_ok (n' :: l)) by (constructor; [repeat split; try assumption|exact F2]).
  assert (J : join (L ",") (map show_listed (n :: l)) = li_before n ++ join (L ",") (map show_listed (n' :: l))).
  { cbn [map]. replace (show_listed n) with (li_before n ++ show_listed n') by reflexivity.
    destruct (map show_listed l); cbn [join]; [reflexivity|]. rewrite <- !app_assoc. reflexivity. }
  assert (HA : hargs (HExtends (n :: l)) ++ show_close k ++ rest = (L " " ++ li_before n) ++ join (L ",") (map show_listed (n' :: l)) ++ show_close k ++ rest).
  { cbn [hargs]. rewrite J, <- !app_assoc. reflexivity. }
  rewrite HA. rewrite gap_skip by (unfold gap in *; rewrite forallb_app, G1; reflexivity).
  assert (ID : exists ch tl, join (L ",") (map show_listed (n' :: l)) = ch :: tl /\ identchar ch = true).
  { cbn [map]. unfold show_listed at 1, n'. cbn [li_before li_ids li_after app].
    pose proof (dots_at (li_ids n) [] D1 D2) as H. rewrite app_nil_r in H. destruct (dots (li_ids n)) as [|ch tl]; [discriminate H|].
    destruct (map show_listed l); eexists; eexists; (split; [reflexivity|exact H]). }
  destruct ID as (ch & tl & EJ & ICH).
  assert (SK : forall b, skip_ws b (join (L ",") (map show_listed (n' :: l)) ++ show_close k ++ rest) = (b, join (L ",") (map show_listed (n' :: l)) ++ show_close k ++ rest)).
  { intro b. rewrite EJ. cbn [app skip_ws]. unfold blank. idc ICH. reflexivity. }
  rewrite SK. cbv iota beta. unfold get_symbols.
  assert (GS : forall b, match join (L ",") (map show_listed (n' :: l)) ++ show_close k ++ rest with
     | [] => ferror (FLex PIndex) | c0 :: _ => if identchar c0 then symbols false [] b (join (L ",") (map show_listed (n' :: l)) ++ show_close k ++ rest) else fparse b (join (L ",") (map show_listed (n' :: l)) ++ show_close k ++ rest) end
     = symbols false [] b (join (L ",") (map show_listed (n' :: l)) ++ show_close k ++ rest)).
  { intro b. rewrite EJ. cbn [app]. rewrite ICH. reflexivity. }
  rewrite GS. rewrite (sym_list (n' :: l) _ _ _ ltac:(discriminate) F' ST). cbn [fbind fok hbind].
  assert (PE : rev (join (L ",") (map show_listed (n' :: l))) ++ rev (L " " ++ li_before n) ++ rev (p0 ++ 35%N :: hname (HExtends (n :: l)))
    = rev (p0 ++ 35%N :: hname (HExtends (n :: l)) ++ hargs (HExtends (n :: l)))).
  { cbn [hargs]. rewrite J. rewrite !rev_cat. f_equal. rewrite <- !app_assoc. cbn [app]. rewrite <- ?app_assoc. reflexivity. }
  rewrite PE. rewrite <- HA. cbn [f_c].
  rewrite (hend (HExtends (n :: l)) false p0 k rest c OK0 CO A).
  rewrite hlift_ok. reflexivity.
Qed.

Lemma implements_ok : forall n a p0 k rest c, hdir_ok E (HImplements n a) -> esc_ok (rev p0) = true -> close_ok false p0 k rest ->
  Gen_Model.s_act c <> [] -> Gen_Model.s_sl c = true ->
  eat_implements E (mkF (rev p0) (35%N :: L "implements" ++ hargs (HImplements n a) ++ show_close k ++ rest) c)
  = hlift (asks (HImplements n a)) (Gen_Model.bind (cutting G (cut p0 k rest) c) (fun c => Ok c))
      (rev (p0 ++ (35%N :: L "implements" ++ hargs (HImplements n a)) ++ show_close k)) rest.
Proof.
  intros n a p0 k rest c OK EO CO A SL. unfold eat_implements. change (L "implements") with (hname (HImplements n a)).
  destruct (hline _ p0 OK) as [ND EO2]. pose proof (close_stop false p0 k rest _ CO EO2) as ST.
  rewrite (enter_ok _ p0 _ c EO). pose proof OK as OK0. destruct OK as [ID AO].
  assert (HA : hargs (HImplements n a) ++ show_close k ++ rest = L " " ++ n ++ show_args a ++ show_close k ++ rest)
    by (cbn [hargs]; rewrite <- !app_assoc; reflexivity).
  in_skip HA. assert (SPN : starts_plain n) by (rewrite <- (app_nil_r n); apply ident_plain; exact ID).
  rewrite (skip_one _ n _ SPN). cbv iota beta. rewrite (get_ident_word n _ _ ID).
  2:{ destruct a as [a|]; [reflexivity|]. apply (stop_name _ _ ST). }
  cbn [hbind fok]. rewrite (opt_args_ok a _ _ _ _ AO SL ST). cbn [hbind fok].
  assert (PE : rev (show_args a) ++ rev n ++ 32%N :: rev (p0 ++ 35%N :: hname (HImplements n a)) = rev (p0 ++ 35%N :: hname (HImplements n a) ++ hargs (HImplements n a))).
  { change (32%N :: rev (p0 ++ 35%N :: hname (HImplements n a))) with (rev (L " ") ++ rev (p0 ++ 35%N :: hname (HImplements n a))).
    cbn [hargs]. rewrite !rev_cat. f_equal. rewrite <- !app_assoc. cbn [app]. rewrite <- ?app_assoc. reflexivity. }
  rewrite PE. cbn [f_c]. rewrite (empty_expr _ _ _ SL ST). cbn [hbind fok].
  rewrite (hend (HImplements n a) false p0 k rest c OK0 CO A). rewrite hlift_ok. reflexivity.
Qed.

Lemma super_ok : forall a p0 k rest c, hdir_ok E (HSuper a) -> esc_ok (rev p0) = true -> close_ok false p0 k rest ->
  Gen_Model.s_act c <> [] -> Gen_Model.s_sl c = true ->
  eat_super E cls (mkF (rev p0) (35%N :: L "super" ++ hargs (HSuper a) ++ show_close k ++ rest) c)
  = hlift CNone (Gen_Model.bind (cutting G (cut p0 k rest) c) (asks_body G cls (HSuper a)))
      (rev (p0 ++ (35%N :: L "super" ++ hargs (HSuper a)) ++ show_close k)) rest.
Proof.
  intros a p0 k rest c OK EO CO A SL. unfold eat_super. change (L "super") with (hname (HSuper a)).
  destruct (hline _ p0 OK) as [ND EO2]. pose proof (close_stop false p0 k rest _ CO EO2) as ST.
  rewrite (enter_ok _ p0 _ c EO).
  assert (SK : forall b, skip_ws b (hargs (HSuper a) ++ show_close k ++ rest) = (b, hargs (HSuper a) ++ show_close k ++ rest)).
  { intro b. destruct a as [a|]; [reflexivity|]. cbn [hargs show_args app]. apply (halt_ws [] _ _ _ (stop_halt [] _ _ ST)). }
  rewrite SK. cbv iota beta. cbn [f_c]. assert (OA : forall b, opt_args E c b (hargs (HSuper a) ++ show_close k ++ rest) = fok (given a, (rev (hargs (HSuper a)) ++ b, show_close k ++ rest)))
    by (intro b; exact (opt_args_ok a _ b _ _ OK SL ST)).
  rewrite OA. cbn [hbind fok].
  assert (PE : rev (hargs (HSuper a)) ++ rev (p0 ++ 35%N :: hname (HSuper a)) = rev (p0 ++ 35%N :: hname (HSuper a) ++ hargs (HSuper a))).
  { rewrite !rev_cat. f_equal. rewrite <- !app_assoc. reflexivity. }
  rewrite PE, (empty_expr _ _ _ SL ST). cbn [hbind fok].
  rewrite (hend (HSuper a) false p0 k rest c OK CO A). rewrite hlift_bind.
  f_equal. f_equal. unfold add_super, asks_body, super_code. rewrite super_args_eq. reflexivity.
Qed.

Lemma attr_ok : forall v n e p0 k rest c, hdir_ok E (HAttr v n e) -> esc_ok (rev p0) = true -> close_ok false p0 k rest ->
  Gen_Model.s_act c <> [] -> Gen_Model.s_sl c = true ->
  eat_attr E (mkF (rev p0) (35%N :: L "attr" ++ hargs (HAttr v n e) ++ show_close k ++ rest) c)
  = hlift (asks (HAttr v n e)) (Gen_Model.bind (cutting G (cut p0 k rest) c) (fun c => Ok c))
      (rev (p0 ++ (35%N :: L "attr" ++ hargs (HAttr v n e)) ++ show_close k)) rest.
Proof.
  intros v n e p0 k rest c OK EO CO A SL. unfold eat_attr. change (L "attr") with (hname (HAttr v n e)).
  destruct (hline _ p0 OK) as [ND EO2]. pose proof (close_stop false p0 k rest _ CO EO2) as ST.
  cbv zeta. rewrite (enter_ok _ p0 _ c EO). pose proof OK as OK0. destruct OK as (ID & (RD & OL & SP & SC & NC) & TK & V1 & V2).
  set (K := show_close k ++ rest) in *.
  set (dl := if v then L "$" else []).
  assert (HA : hargs (HAttr v n e) ++ K = L " " ++ dl ++ n ++ L " = " ++ x_src e ++ K)
    by (cbn [hargs]; fold dl; rewrite <- !app_assoc; reflexivity).
  in_skip HA.
  assert (SPN : starts_plain (dl ++ n)).
  { unfold dl. destruct v; [split; [reflexivity|discriminate]|]. cbn [app]. rewrite <- (app_nil_r n). apply ident_plain. exact ID. }
  assert (SK : forall b, skip_ws b (L " " ++ dl ++ n ++ L " = " ++ x_src e ++ K) = (32%N :: b, dl ++ n ++ L " = " ++ x_src e ++ K)).
  { intro b. rewrite (app_assoc dl n). exact (skip_one _ (dl ++ n) _ SPN). }
  rewrite SK. cbv iota beta. rewrite ET.
  assert (MV : (if m_var dflt (32%N :: rev (p0 ++ 35%N :: hname (HAttr v n e))) (dl ++ n ++ L " = " ++ x_src e ++ K)
     then go (length (t_var dflt)) (32%N :: rev (p0 ++ 35%N :: hname (HAttr v n e))) (dl ++ n ++ L " = " ++ x_src e ++ K)
     else (32%N :: rev (p0 ++ 35%N :: hname (HAttr v n e)), dl ++ n ++ L " = " ++ x_src e ++ K))
     = (rev dl ++ 32%N :: rev (p0 ++ 35%N :: hname (HAttr v n e)), n ++ L " = " ++ x_src e ++ K)).
  { unfold dl. destruct v.
    - assert (M : m_var dflt (32%N :: rev (p0 ++ 35%N :: hname (HAttr true n e))) (L "$" ++ n ++ L " = " ++ x_src e ++ K) = true).
      { clear - ID. destruct n as [|ch n]; [contradiction|]. destruct ID as [I1 _]. unfold m_var.
        change (m_tok (t_var dflt) (32%N :: rev (p0 ++ 35%N :: hname (HAttr true (ch :: n) e))) (L "$" ++ (ch :: n) ++ L " = " ++ x_src e ++ K)) with true.
        change (skipn (length (t_var dflt)) (L "$" ++ (ch :: n) ++ L " = " ++ x_src e ++ K)) with (ch :: n ++ L " = " ++ x_src e ++ K).
        cbv zeta. unfold after_cache, opener. cbn [andb]. idc I1. exact I1. }
      rewrite M. reflexivity.
    - cbn [app rev]. rewrite (ident_var n _ _ ID). reflexivity. }
  match type of MV with ?l = _ => match goal with |- context [if m_var ?t ?b ?r then ?x else ?y] => change (if m_var t b r then x else y) with l end end.
  rewrite MV. rewrite (get_ident_word n _ _ ID) by reflexivity. cbn [hbind fok].
  change (L " = " ++ x_src e ++ K) with (32%N :: L "=" ++ L " " ++ x_src e ++ K). cbn [skip_ws]. change (blank 32) with true. cbv iota.
  match goal with |- context [skip_ws ?b (L "=" ++ ?z)] => change (skip_ws b (L "=" ++ z)) with (b, L "=" ++ z) end. cbv iota beta.
  rewrite (get_assign_ok (L "=")); [|cbn; auto|apply (TK (x_src e ++ K))]. cbn [hbind fok].
  assert (PE : rev (L " " ++ x_src e) ++ rev (L "=") ++ 32%N :: rev n ++ rev dl ++ 32%N :: rev (p0 ++ 35%N :: hname (HAttr v n e))
     = rev (p0 ++ 35%N :: hname (HAttr v n e) ++ hargs (HAttr v n e))).
  { change (32%N :: rev n ++ rev dl ++ 32%N :: rev (p0 ++ 35%N :: hname (HAttr v n e)))
      with (rev (L " ") ++ rev n ++ rev dl ++ rev (L " ") ++ rev (p0 ++ 35%N :: hname (HAttr v n e))).
    cbn [hargs]. fold dl. rewrite !rev_cat. f_equal. rewrite <- !app_assoc. cbn [app]. rewrite <- ?app_assoc. reflexivity. }
  replace (L " " ++ x_src e ++ K) with ((L " " ++ x_src e) ++ K) by (rewrite <- app_assoc; reflexivity). cbn [f_c].
  rewrite (get_reads E c (e_um E) [] (L " " ++ x_src e) (L " " ++ x_code e) _ _ SL (reads_blank E ET _ _ _ _ SP RD));
    [|reflexivity|rewrite PE; apply stop_halt; exact ST].
  cbn [hbind fok]. rewrite PE. unfold add_attribute. rewrite (finds_contains (L "VFN(")), (finds_contains (L "VFFSL(")).
  change (n ++ L " =" ++ L " " ++ x_code e) with (n ++ L " = " ++ x_code e). rewrite V1, V2. cbn [orb].
  unfold hok at 1. unfold K. rewrite (hend (HAttr v n e) false p0 k rest c OK0 CO A). rewrite hlift_ok. reflexivity.
Qed.

Lemma module_ok : forall lv op e p0 k rest c, hdir_ok E (HModule lv op e) -> esc_ok (rev p0) = true -> close_ok false p0 k rest ->
  Gen_Model.s_act c <> [] -> Gen_Model.s_sl c = true ->
  eat_any_set E (mkF (rev p0) (35%N :: L "set" ++ hargs (HModule lv op e) ++ show_close k ++ rest) c)
  = hlift (asks (HModule lv op e)) (Gen_Model.bind (cutting G (cut p0 k rest) c) (fun c => Ok c))
      (rev (p0 ++ (35%N :: L "set" ++ hargs (HModule lv op e)) ++ show_close k)) rest.
Proof.
  intros lv op e p0 k rest c OK EO CO A SL. unfold eat_any_set. change (L "set") with (hname (HModule lv op e)).
  destruct (hline _ p0 OK) as [ND EO2]. pose proof (close_stop false p0 k rest _ CO EO2) as ST.
  rewrite (enter_ok _ p0 _ c EO). pose proof OK as OK0. destruct OK as ((LV & _ & SLV & BLV & _) & IOP & (RD & OL & SP & SC & NC) & TK).
  set (K := show_close k ++ rest) in *.
  set (Z := x_src lv ++ L " " ++ op ++ L " " ++ x_src e ++ K).
  assert (HA : hargs (HModule lv op e) ++ K = L " module " ++ Z) by (cbn [hargs]; unfold Z; rewrite <- !app_assoc; reflexivity).
  in_skip HA.
  change (skip_ws (rev (p0 ++ 35%N :: hname (HModule lv op e))) (L " module " ++ Z)) with (32%N :: rev (p0 ++ 35%N :: hname (HModule lv op e)), L "module" ++ L " " ++ Z).
  cbv iota beta. change (starts_with (L "module") (L "module" ++ L " " ++ Z)) with true. cbv iota.
  rewrite namerun_word by reflexivity. change (L " " ++ Z) with (32%N :: Z). cbn [skip_ws]. change (blank 32) with true. cbv iota.
  assert (SK : forall b, skip_ws b Z = (b, Z)).
  { intro b. unfold Z. destruct (x_src lv) as [|d l]; [contradiction|]. cbn [app skip_ws]. rewrite BLV. reflexivity. }
  rewrite SK. cbv iota beta. cbn [f_c]. unfold get_expr at 1. rewrite (lang_X0 E c SL). unfold Z at 1 2.
  rewrite (LV _ _ _) by (reflexivity || (unfold enough; rewrite !app_length; cbn [length]; lia)). cbn [from_x ok hbind].
  rewrite (get_assign_ok op _ _ IOP (TK _)). cbn [hbind fok].
  assert (PE : rev (L " " ++ x_src e) ++ rev op ++ rev (x_src lv ++ L " ") ++ 32%N :: rev (L "module") ++ 32%N :: rev (p0 ++ 35%N :: hname (HModule lv op e))
     = rev (p0 ++ 35%N :: hname (HModule lv op e) ++ hargs (HModule lv op e))).
  { change (32%N :: rev (L "module") ++ 32%N :: rev (p0 ++ 35%N :: hname (HModule lv op e)))
      with (rev (L " module ") ++ rev (p0 ++ 35%N :: hname (HModule lv op e))).
    cbn [hargs]. rewrite !rev_cat. f_equal. rewrite <- !app_assoc. cbn [app]. rewrite <- ?app_assoc. reflexivity. }
  replace (L " " ++ x_src e ++ K) with ((L " " ++ x_src e) ++ K) by (rewrite <- app_assoc; reflexivity).
  rewrite (get_reads E c (e_um E) [] (L " " ++ x_src e) (L " " ++ x_code e) _ _ SL (reads_blank E ET _ _ _ _ SP RD));
    [|apply op_esc; exact IOP|rewrite PE; apply stop_halt; exact ST].
  cbn [hbind fok]. rewrite PE. unfold K. rewrite (hend (HModule lv op e) false p0 k rest c OK0 CO A). rewrite hlift_ok.
  rewrite SLV. change (L " " ++ x_code e) with (32%N :: x_code e). rewrite strip_blank, SC. reflexivity.
Qed.

Lemma include_ok : forall raw str e p0 k rest c, hdir_ok E (HInclude raw str e) -> esc_ok (rev p0) = true -> close_ok false p0 k rest ->
  Gen_Model.s_act c <> [] -> Gen_Model.s_sl c = true ->
  eat_include E (mkF (rev p0) (35%N :: L "include" ++ hargs (HInclude raw str e) ++ show_close k ++ rest) c)
  = hlift CNone (Gen_Model.bind (cutting G (cut p0 k rest) c) (asks_body G cls (HInclude raw str e)))
      (rev (p0 ++ (35%N :: L "include" ++ hargs (HInclude raw str e)) ++ show_close k)) rest.
Proof.
  intros raw str e p0 k rest c OK EO CO A SL. unfold eat_include. change (L "include") with (hname (HInclude raw str e)).
  destruct (hline _ p0 OK) as [ND EO2]. pose proof (close_stop false p0 k rest _ CO EO2) as ST.
  rewrite (enter_ok _ p0 _ c EO). pose proof OK as OK0. destruct OK as ((RD & OL & SP & SC & NC) & NS & NR).
  set (K := show_close k ++ rest) in *.
  set (B0 := rev (p0 ++ 35%N :: hname (HInclude raw str e))).
  set (s1 := if str then L "source=" else []). set (r1 := if raw then L "raw " else []).
  assert (HA : hargs (HInclude raw str e) ++ K = L " " ++ r1 ++ s1 ++ x_src e ++ K) by (cbn [hargs]; fold r1 s1; rewrite <- !app_assoc; reflexivity).
  in_skip HA.
  assert (SP1 : starts_plain (s1 ++ x_src e)).
  { unfold s1. destruct str; [split; [reflexivity|discriminate]|exact SP]. }
  assert (S1 : skip_ws B0 (L " " ++ r1 ++ s1 ++ x_src e ++ K) = (32%N :: B0, r1 ++ s1 ++ x_src e ++ K)).
  { unfold r1. destruct raw; [reflexivity|]. cbn [app]. rewrite (app_assoc s1). exact (skip_one _ _ _ SP1). }
  rewrite S1. cbv iota beta.
  assert (R1 : starts_with (L "raw") (r1 ++ s1 ++ x_src e ++ K) = raw).
  { unfold r1. destruct raw; [reflexivity|]. unfold s1. destruct str; [reflexivity|]. apply NR; reflexivity. }
  rewrite R1.
  assert (S2 : skip_ws ((if raw then rev (L "raw") else []) ++ 32%N :: B0) ((if raw then L " " else []) ++ s1 ++ x_src e ++ K)
     = (rev r1 ++ 32%N :: B0, s1 ++ x_src e ++ K)).
  { rewrite (app_assoc s1). unfold r1. destruct raw.
    - rewrite (skip_one _ _ _ SP1). reflexivity.
    - cbn [app rev]. apply skip_plain. exact SP1. }
  match goal with |- context [if raw then go 3 ?b ?r else ?y] => replace (if raw then go 3 b r else y)
    with ((if raw then rev (L "raw") else []) ++ 32%N :: B0, (if raw then L " " else []) ++ s1 ++ x_src e ++ K)
    by (unfold r1; destruct raw; reflexivity) end.
  cbv iota beta.
  rewrite S2. cbv zeta.
  assert (R2 : starts_with (L "source") (s1 ++ x_src e ++ K) = str).
  { unfold s1. destruct str; [reflexivity|]. apply NS. reflexivity. }
  rewrite R2.
  match goal with |- context [hbind (if str then ?x else ?y) _] => replace (if str then x else y)
    with (fok (rev s1 ++ rev r1 ++ 32%N :: B0, x_src e ++ K)) by (unfold s1; destruct str; reflexivity) end.
  cbn [hbind fok f_c].
  assert (PE : rev (x_src e) ++ rev s1 ++ rev r1 ++ 32%N :: B0 = rev (p0 ++ 35%N :: hname (HInclude raw str e) ++ hargs (HInclude raw str e))).
  { change (32%N :: B0) with (rev (L " ") ++ B0). unfold B0. cbn [hargs]. fold r1 s1.
    rewrite !rev_cat. f_equal. rewrite <- !app_assoc. cbn [app]. rewrite <- ?app_assoc. reflexivity. }
  rewrite (get_reads E c (e_um E) [] (x_src e) (x_code e) _ _ SL RD);
    [|unfold s1, r1; destruct str, raw; reflexivity|rewrite PE; apply stop_halt; exact ST].
  cbn [hbind fok]. rewrite PE. unfold K. rewrite (hend (HInclude raw str e) false p0 k rest c OK0 CO A). rewrite hlift_bind.
  f_equal. f_equal. unfold add_stmts, asks_body, include_code. cbn [fold_left]. destruct str, raw; reflexivity.
Qed.

Lemma catcher_ok : forall n p0 k rest c, hdir_ok E (HCatcher n) -> esc_ok (rev p0) = true -> close_ok false p0 k rest ->
  Gen_Model.s_act c <> [] -> Gen_Model.s_sl c = true ->
  eat_catcher E (mkF (rev p0) (35%N :: L "errorCatcher" ++ hargs (HCatcher n) ++ show_close k ++ rest) c)
  = hlift (asks (HCatcher n)) (Gen_Model.bind (cutting G (cut p0 k rest) c) (fun c => Ok c))
      (rev (p0 ++ (35%N :: L "errorCatcher" ++ hargs (HCatcher n)) ++ show_close k)) rest.
Proof.
  intros n p0 k rest c OK EO CO A SL. unfold eat_catcher. change (L "errorCatcher") with (hname (HCatcher n)).
  destruct (hline _ p0 OK) as [ND EO2]. pose proof (close_stop false p0 k rest _ CO EO2) as ST.
  rewrite (enter_ok _ p0 _ c EO). assert (SPN : starts_plain n) by (rewrite <- (app_nil_r n); apply ident_plain; exact OK).
  assert (SK : forall b, skip_ws b (hargs (HCatcher n) ++ show_close k ++ rest) = (32%N :: b, n ++ show_close k ++ rest))
    by (intro b; cbn [hargs]; rewrite <- (app_assoc (L " ") n); exact (skip_one _ n _ SPN)).
  rewrite SK. cbv iota beta.
  rewrite (get_ident_word n _ _ OK) by (apply (stop_name _ _ ST)). cbn [hbind fok f_c].
  assert (PE : rev n ++ 32%N :: rev (p0 ++ 35%N :: hname (HCatcher n)) = rev (p0 ++ 35%N :: hname (HCatcher n) ++ hargs (HCatcher n))).
  { change (32%N :: rev (p0 ++ 35%N :: hname (HCatcher n))) with (rev (L " ") ++ rev (p0 ++ 35%N :: hname (HCatcher n))).
    cbn [hargs]. rewrite !rev_cat. f_equal. rewrite <- !app_assoc. cbn [app]. reflexivity. }
  rewrite PE. rewrite (hend (HCatcher n) false p0 k rest c OK CO A). rewrite hlift_ok. reflexivity.
Qed.

Lemma transform_ok : forall n p0 k rest c, hdir_ok E (HTransform n) -> esc_ok (rev p0) = true -> close_ok true p0 k rest ->
  Gen_Model.s_act c <> [] -> Gen_Model.s_sl c = true ->
  eat_transform E (mkF (rev p0) (35%N :: L "transform" ++ hargs (HTransform n) ++ show_close k ++ rest) c)
  = hlift CNone (Gen_Model.bind (cutting G (cut p0 k rest) c) (asks_body G cls (HTransform n)))
      (rev (p0 ++ (35%N :: L "transform" ++ hargs (HTransform n)) ++ show_close k)) rest.
Proof.
  intros n p0 k rest c OK EO CO A SL. unfold eat_transform. change (L "transform") with (hname (HTransform n)).
  destruct (hline _ p0 OK) as [ND EO2]. pose proof (close_stop true p0 k rest _ CO EO2) as ST.
  rewrite (enter_ok _ p0 _ c EO). assert (SPN : starts_plain n) by (rewrite <- (app_nil_r n); apply ident_plain; exact OK).
  assert (SK : forall b, skip_ws b (hargs (HTransform n) ++ show_close k ++ rest) = (32%N :: b, n ++ show_close k ++ rest))
    by (intro b; cbn [hargs]; rewrite <- (app_assoc (L " ") n); exact (skip_one _ n _ SPN)).
  rewrite SK. cbv iota beta.
  rewrite ET, (ident_var n _ _ OK). rewrite (get_ident_word n _ _ OK) by (apply (stop_name _ _ ST)). cbn [fbind fok f_c].
  rewrite (halt_ws [] _ _ _ (stop_halt [] _ _ ST)). cbn [hbind fok].
  rewrite (stop_colon _ _ _ ST (close_nonempty p0 k rest CO)). cbn [hbind fok].
  rewrite (halt_ws [] _ _ _ (stop_halt [] _ _ ST)). cbv iota beta.
  assert (PE : rev n ++ 32%N :: rev (p0 ++ 35%N :: hname (HTransform n)) = rev (p0 ++ 35%N :: hname (HTransform n) ++ hargs (HTransform n))).
  { change (32%N :: rev (p0 ++ 35%N :: hname (HTransform n))) with (rev (L " ") ++ rev (p0 ++ 35%N :: hname (HTransform n))).
    cbn [hargs]. rewrite !rev_cat. f_equal. rewrite <- !app_assoc. cbn [app]. reflexivity. }
  rewrite PE. rewrite (hend (HTransform n) true p0 k rest c OK CO A). rewrite hlift_bind.
  f_equal. destruct (cutting G (cut p0 k rest) c) as [c1|x]; [|reflexivity]. cbn [Gen_Model.bind].
  unfold asks_body, add_stmts, transform_code. cbn [fold_left]. unfold Gen_Model.on_top.
  destruct c1 as [act fin op sl sl0]. cbn [Gen_Model.s_act]. destruct act as [|m act]; reflexivity.
Qed.

(** All of them, from the place where they start. *)
Theorem head_ok : forall d p0 k rest c, hdir_ok E d -> esc_ok (rev p0) = true -> close_ok (reads_on d) p0 k rest ->
  Gen_Model.s_act c <> [] -> Gen_Model.s_sl c = true ->
  eat_head E cls false sub (mkF (rev p0) (show_hdir d ++ show_close k ++ rest) c)
  = hlift (asks d) (Gen_Model.bind (if cut p0 k rest then Gen_Model.step G Gen_Model.EStrip c else Ok c) (asks_body G cls d))
      (rev (p0 ++ show_hdir d ++ show_close k)) rest.
Proof.
  intros d p0 k rest c OK EO CO A SL. unfold show_hdir. rewrite (cons_show (hname d) (hargs d) (show_close k ++ rest)).
  change (L "#" ++ hname d ++ hargs d) with (35%N :: hname d ++ hargs d).
  unfold eat_head. cbn [f_b f_r]. cbv zeta. rewrite ET.
  assert (DN : dn_end (hargs d ++ show_close k ++ rest) = true).
  { destruct (hline d p0 OK) as [_ EO2]. pose proof (close_stop _ p0 k rest _ CO EO2) as ST.
    destruct d as [l|n a|[a|]|v n e|lv op e|raw str e|n|n]; try reflexivity. cbn [hargs show_args app]. apply (stop_dn _ _ ST). }
  rewrite (classify_dir (hname d) (rev p0) _ (proj1 (hname_known d)) EO DN).
  rewrite (proj2 (hname_known d)).
  destruct d as [l|n a|a|v n e|lv op e|raw str e|n|n]; cbn [hname].
  - refine (eq_trans (extends_ok l p0 k rest c OK EO CO A SL) _). reflexivity.
  - refine (eq_trans (implements_ok n a p0 k rest c OK EO CO A SL) _). reflexivity.
  - refine (eq_trans (super_ok a p0 k rest c OK EO CO A SL) _). reflexivity.
  - refine (eq_trans (attr_ok v n e p0 k rest c OK EO CO A SL) _). reflexivity.
  - refine (eq_trans (module_ok lv op e p0 k rest c OK EO CO A SL) _). reflexivity.
  - refine (eq_trans (include_ok raw str e p0 k rest c OK EO CO A SL) _). reflexivity.
  - refine (eq_trans (catcher_ok n p0 k rest c OK EO CO A SL) _). reflexivity.
  - refine (eq_trans (transform_ok n p0 k rest c OK EO CO A SL) _). reflexivity.
Qed.
(** No name where one is due. *)
Theorem no_name : forall n p0 c r st, In n (map L ["extends"; "implements"; "errorCatcher"]%string) -> esc_ok (rev p0) = true ->
  blank c = false -> identchar c = false ->
  eat_head E cls false sub (mkF (rev p0) (L "#" ++ n ++ L " " ++ c :: r) st)
  = Some (Raise (HFront (FParse (length (p0 ++ L "#" ++ n ++ L " "))))).
Proof.
  intros n p0 c r st I EO BC IC.
  assert (KN : known n) by (apply hnames; cbn [map In] in I |- *; tauto).
  assert (EN : enter E n (mkF (rev p0) (35%N :: n ++ L " " ++ c :: r) st)
    = (line_clear (rev p0), length (rev p0) + eol_off (35%N :: n ++ L " " ++ c :: r), (32%N :: rev (p0 ++ 35%N :: n), c :: r))).
  { unfold enter. cbn [f_b f_r]. rewrite ET.
    rewrite (skip_to n n (L " ") p0 (c :: r) (proj1 KN) EO (or_intror eq_refl) (L " ") eq_refl).
    change (L " " ++ c :: r) with (32%N :: c :: r). cbn [skip_ws]. change (blank 32) with true. cbv iota. rewrite BC. reflexivity. }
  assert (LE : length (32%N :: rev (p0 ++ 35%N :: n)) = length (p0 ++ L "#" ++ n ++ L " ")).
  { cbn [length]. rewrite rev_length, !app_length. cbn [length L map list_ascii_of_string]. lia. }
  change (L "#" ++ n ++ L " " ++ c :: r) with (35%N :: n ++ L " " ++ c :: r).
  unfold eat_head. cbn [f_b f_r]. cbv zeta. rewrite ET.
  rewrite (classify_dir n (rev p0) (L " " ++ c :: r) (proj1 KN) EO eq_refl). rewrite (proj2 KN). rewrite <- LE.
  cbn [map In] in I. destruct I as [<-|[<-|[<-|[]]]].
  - refine (eq_trans (y := eat_extends E false (mkF (rev p0) (35%N :: L "extends" ++ L " " ++ c :: r) st)) eq_refl _).
    unfold eat_extends. rewrite EN. unfold get_symbols. rewrite IC. reflexivity.
  - refine (eq_trans (y := eat_implements E (mkF (rev p0) (35%N :: L "implements" ++ L " " ++ c :: r) st)) eq_refl _).
    unfold eat_implements. rewrite EN. unfold get_ident, at_ident. rewrite IC. reflexivity.
  - refine (eq_trans (y := eat_catcher E (mkF (rev p0) (35%N :: L "errorCatcher" ++ L " " ++ c :: r) st)) eq_refl _).
    unfold eat_catcher. rewrite EN. unfold get_ident, at_ident. rewrite IC. reflexivity.
Qed.
End Main.

(** ** The names of an #extends are the paths Import_Model.v reads in its text *)
From Verif Require Import Import_Model Import_Spec Import_Proofs.

Lemma ident_part : forall w, ident w -> part w.
Proof.
  assert (NC : forall c, namechar c = true -> is_space c = false /\ c <> 44%N /\ c <> 46%N).
  { intros c H. unfold namechar, identchar in H. unfold is_space. repeat split; lia. }
  intros [|c w] H; [contradiction|]. destruct H as [H1 H2]. split; [discriminate|].
  intros x [<-|I]; [apply NC; unfold namechar; rewrite H1; reflexivity|].
  apply NC. rewrite forallb_forall in H2. apply H2. exact I.
Qed.

Fixpoint bases_of (first : bool) (l : list listed) : list base :=
  match l with [] => [] | n :: r => (if first then [] else L " ", li_ids n, []) :: bases_of false r end.

Lemma bases_paths : forall l f, map base_path (bases_of f l) = map li_ids l.
Proof. induction l as [|n l IH]; intro f; [reflexivity|]. cbn [bases_of map]. rewrite IH. reflexivity. Qed.
Lemma bases_ok : forall l f, Forall listed_ok l -> forall b, In b (bases_of f l) -> base_ok b.
Proof.
  induction l as [|n l IH]; intros f F b I; [contradiction|]. inversion F as [|? ? (_ & _ & D1 & D2) F2]; subst.
  destruct I as [<-|I]; [|exact (IH false F2 b I)]. split; [|split].
  - intros c H. destruct f; [destruct H|]. destruct H as [<-|[]]. reflexivity.
  - split; [exact D1|]. intros x Hx. apply ident_part. rewrite Forall_forall in D2. apply D2. exact Hx.
  - intros c [].
Qed.
Lemma bases_join : forall l, join (L ", ") (map (fun n => dots (li_ids n)) l) = bases_text (bases_of true l).
Proof.
  assert (P : forall l, l <> [] -> L " " ++ join (L ", ") (map (fun n => dots (li_ids n)) l) = bases_text (bases_of false l)).
  { induction l as [|n l IH]; intro NE; [congruence|]. destruct l as [|m l].
    - unfold bases_text. cbn. rewrite app_nil_r. reflexivity.
    - specialize (IH ltac:(discriminate)).
      change (join (L ", ") (map (fun n => dots (li_ids n)) (n :: m :: l)))
        with (dots (li_ids n) ++ L "," ++ L " " ++ join (L ", ") (map (fun n => dots (li_ids n)) (m :: l))).
      rewrite IH. unfold bases_text. cbn [bases_of map]. unfold base_text at 3. cbn [base_path fst snd].
      cbn [join]. rewrite app_nil_r. rewrite <- !app_assoc. reflexivity. }
  intros [|n l]; [reflexivity|]. destruct l as [|m l].
  - unfold bases_text. cbn. rewrite app_nil_r. reflexivity.
  - change (join (L ", ") (map (fun n => dots (li_ids n)) (n :: m :: l)))
      with (dots (li_ids n) ++ L "," ++ L " " ++ join (L ", ") (map (fun n => dots (li_ids n)) (m :: l))).
    rewrite P by discriminate. unfold bases_text. cbn [bases_of map]. unfold base_text at 3. cbn [base_path fst snd].
    cbn [join]. rewrite app_nil_r. reflexivity.
Qed.

Lemma extends_bases : forall l st, l <> [] -> Forall listed_ok l ->
  (forall n, In n l -> ~ through (i_names st ++ map class_of (map li_ids l)) (li_ids n)) ->
  forall x, asks (HExtends l) = CBase x -> x <> L "object" -> ~ In x (i_names st) ->
  exists st1, set_base true true x st = Ok st1
    /\ i_base st1 = join (L ", ") (map class_of (map li_ids l))
    /\ i_stmts st1 = i_stmts st ++ map stmt_text (wanted (i_names st) (map li_ids l))
    /\ i_body st1 = i_body st.
Proof.
  intros l st NE F TH x AX NO NK. cbn [asks] in AX. injection AX as <-. rewrite bases_join in *.
  destruct (set_base_all (bases_of true l) st) as (st1 & E & B & Sx & _ & Bo).
  - destruct l; [congruence|discriminate].
  - apply bases_ok. exact F.
  - intros b I. rewrite bases_paths. assert (I2 : In (base_path b) (map li_ids l)) by (rewrite <- (bases_paths l true); apply in_map; exact I).
    apply in_map_iff in I2 as (n & <- & In2). apply TH. exact In2.
  - exact NO.
  - exact NK.
  - rewrite bases_paths in *. exists st1. auto.
Qed.
