(** Lemmas for the whole parser: the code generator run on a sequence of events. *)
From Verif Require Import Base PyStr Lex_Model Expr_Model Front_Model Front_Spec FrontLex_Proofs.
From Verif Require Gen_Proofs.
From Verif Require Import Gen_Model Gen_Spec.

(** ** Sequencing *)

Lemma bind_assoc : forall A B C (x : res gerr A) (f : A -> res gerr B) (g : B -> res gerr C),
  bind (bind x f) g = bind x (fun a => bind (f a) g).
Proof. intros A B C [a|e] f g; reflexivity. Qed.

Lemma bind_ext : forall A B (x : res gerr A) (f g : A -> res gerr B), (forall a, x = Ok a -> f a = g a) ->
  bind x f = bind x g.
Proof. intros A B [a|e] f g H; [apply H; reflexivity|reflexivity]. Qed.

Lemma bind_ok : forall A (x : res gerr A), bind x (fun a => Ok a) = x.
Proof. intros A [a|e]; reflexivity. Qed.

Lemma bind_inv : forall A B (x : res gerr A) (f : A -> res gerr B) b, bind x f = Ok b ->
  exists a, x = Ok a /\ f a = Ok b.
Proof. intros A B [a|e] f b H; [exists a; split; [reflexivity|exact H]|discriminate]. Qed.

(** Texts of different length and the like do not matter: a run is the run of its parts. *)
Lemma run_events : forall G,
  (forall t k c, run G (events t k) c = bind (run G (events t Done) c) (run G k)) /\
  (forall ms s k c, run G (events_m s ms k) c = bind (run G (events_m s ms Done) c) (run G k)) /\
  (forall ps k c, run G (events_p ps k) c = bind (run G (events_p ps Done) c) (run G k)).
Proof.
  intro G. apply tm_mids_parts; intros;
    try (cbn [events events_m events_p run bind]; reflexivity);
    try (cbn [events run]; rewrite !bind_assoc; apply bind_ext; intros; apply H).
  - (* TText *)
    cbn [events]. destruct cut; cbn [run]; rewrite ?bind_assoc; apply bind_ext; intros a _.
    + rewrite bind_assoc. apply bind_ext. intros; apply H.
    + apply H.
  - (* TBlk *)
    destruct short; cbn [events run].
    + rewrite bind_assoc. apply bind_ext; intros a _. rewrite !bind_assoc. apply bind_ext; intros a1 _.
      rewrite !bind_assoc. apply bind_ext; intros a2 _.
      rewrite H0. rewrite (H0 true (events r Done)). rewrite bind_assoc. apply bind_ext; intros a3 _. apply H1.
    + rewrite bind_assoc. apply bind_ext; intros a _.
      rewrite H. rewrite (H (events_m false ms (Ev _ (events r Done)))). rewrite bind_assoc. apply bind_ext; intros a1 _.
      rewrite H0. rewrite (H0 false (Ev _ (events r Done))). rewrite bind_assoc. apply bind_ext; intros a2 _.
      cbn [run]. rewrite bind_assoc. apply bind_ext; intros; apply H1.
  - (* TReg *)
    destruct short; cbn [events run].
    + rewrite bind_assoc. apply bind_ext; intros a _. rewrite !bind_assoc. apply bind_ext; intros a1 _.
      rewrite !bind_assoc. apply bind_ext; intros; apply H0.
    + rewrite bind_assoc. apply bind_ext; intros a _.
      rewrite H. rewrite (H (Ev _ (events r Done))). rewrite bind_assoc. apply bind_ext; intros a1 _.
      cbn [run]. rewrite bind_assoc. apply bind_ext; intros; apply H0.
  - (* TCall *)
    cbn [events run]. rewrite bind_assoc. apply bind_ext; intros x _. rewrite bind_assoc. apply bind_ext; intros x1 _.
    rewrite H. rewrite (H (events_p more (Ev _ (events r Done)))). rewrite bind_assoc. apply bind_ext; intros a1 _.
    rewrite H0. rewrite (H0 (Ev _ (events r Done))). rewrite bind_assoc. apply bind_ext; intros a2 _.
    cbn [run]. rewrite bind_assoc. apply bind_ext; intros; apply H1.
  - (* TDef *)
    destruct short; cbn [events run].
    + rewrite bind_assoc. apply bind_ext; intros a _. rewrite !bind_assoc. apply bind_ext; intros a1 _.
      rewrite !bind_assoc. apply bind_ext; intros; apply H0.
    + rewrite bind_assoc. apply bind_ext; intros a _.
      rewrite H. rewrite (H (Ev _ (events r Done))). rewrite bind_assoc. apply bind_ext; intros a1 _.
      cbn [run]. rewrite bind_assoc. apply bind_ext; intros; apply H0.
  - (* MCons *)
    destruct s; cbn [events_m run].
    + rewrite bind_assoc. apply bind_ext; intros a _. rewrite !bind_assoc. apply bind_ext; intros a1 _.
      rewrite !bind_assoc. apply bind_ext; intros; apply H0.
    + rewrite bind_assoc. apply bind_ext; intros a _.
      rewrite H. rewrite (H (events_m false r Done)). rewrite bind_assoc. apply bind_ext; intros; apply H0.
  - (* PCons *)
    cbn [events_p run]. rewrite bind_assoc. apply bind_ext; intros x _.
    rewrite H. rewrite (H (events_p r Done)). rewrite bind_assoc. apply bind_ext; intros; apply H0.
Qed.

Lemma run_tm : forall G t k c, run G (events t k) c = bind (run G (events t Done) c) (run G k).
Proof. intro G. apply run_events. Qed.
Lemma run_ms : forall G ms s k c, run G (events_m s ms k) c = bind (run G (events_m s ms Done) c) (run G k).
Proof. intro G. apply run_events. Qed.
Lemma run_ps : forall G ps k c, run G (events_p ps k) c = bind (run G (events_p ps Done) c) (run G k).
Proof. intro G. apply run_events. Qed.

(** ** Cutting the last line *)

Lemma cut_line_idem : forall s, cut_line (cut_line s) = cut_line s.
Proof.
  intro s. destruct (Gen_Proofs.split_exists s) as (a & w & -> & A & W).
  rewrite (Gen_Proofs.cut_line_split a w A W).
  rewrite <- (app_nil_r a) at 1. apply Gen_Proofs.cut_line_split; [exact A|split; intros []].
Qed.

Lemma strip_ws_nil : forall m, m_pend m = [] -> strip_ws m = m.
Proof. intros [n l p b ca cl cp fi re] H. cbn in H. subst p. reflexivity. Qed.

Lemma strip_ws_idem : forall m, strip_ws (strip_ws m) = strip_ws m.
Proof.
  intros [n l p b ca cl cp fi re]. unfold strip_ws. cbn [m_pend set_pend].
  destruct p as [|s p]; [reflexivity|]. rewrite !Gen_Proofs.handle_ws_cut, cut_line_idem. reflexivity.
Qed.

Definition cutting (G : gset) (b : bool) (c : cs) : res gerr cs := if b then step G EStrip c else Ok c.

(** ** What a step leaves as it is *)

(** The same open directives and settings; the same methods are active, but the first one may have grown. *)
Definition like (c c1 : cs) : Prop :=
  s_open c1 = s_open c /\ s_sl c1 = s_sl c /\ s_sl0 c1 = s_sl0 c /\ exists m, s_act c1 = m :: tl (s_act c).
(** No text is pending. *)
Definition flat (c : cs) : Prop := exists m r, s_act c = m :: r /\ m_pend m = [].
Definition clears (f : mcomp -> res gerr mcomp) : Prop := forall m m', f m = Ok m' -> m_pend m' = [].

Lemma like_trans : forall a b c, like a b -> like b c -> like a c.
Proof.
  intros a b c (A1 & A2 & A3 & m & A4) (B1 & B2 & B3 & m' & B4).
  unfold like. rewrite B1, B2, B3. rewrite A4 in B4. cbn [tl] in B4. split; [exact A1|split; [exact A2|split; [exact A3|]]].
  exists m'. exact B4.
Qed.

Lemma like_refl : forall c, s_act c <> [] -> like c c.
Proof. intros c H. destruct (s_act c) as [|m r] eqn:Hc; [congruence|]. unfold like. rewrite Hc. eauto 6. Qed.

Lemma like_act : forall c c1, like c c1 -> s_act c1 <> [].
Proof. intros c c1 (_ & _ & _ & m & H). rewrite H. discriminate. Qed.

Lemma like_defs : forall c c1, like c c1 -> open_defs c1 = open_defs c.
Proof. intros c c1 (H & _). unfold open_defs. rewrite H. reflexivity. Qed.

Lemma on_top_inv : forall f c c1, on_top f c = Ok c1 ->
  exists m m' r, s_act c = m :: r /\ f m = Ok m' /\ c1 = set_act (m' :: r) c.
Proof.
  intros f c c1 H. unfold on_top in H. destruct (s_act c) as [|m r] eqn:A; [discriminate|].
  apply bind_inv in H as (m' & H1 & H2). injection H2 as <-. exists m, m', r. auto.
Qed.

Lemma on_top_like : forall f c c1, on_top f c = Ok c1 -> like c c1.
Proof.
  intros f c c1 H. apply on_top_inv in H as (m & m' & r & A & _ & ->). unfold like. rewrite A. cbn. eauto 6.
Qed.

Lemma on_top_flat : forall f c c1, clears f -> on_top f c = Ok c1 -> flat c1.
Proof.
  intros f c c1 F H. apply on_top_inv in H as (m & m' & r & A & H & ->). exists m', r. split; [reflexivity|].
  apply (F m m' H).
Qed.

Lemma cutting_ok : forall G b c, s_act c <> [] -> exists c1, cutting G b c = Ok c1 /\ like c c1.
Proof.
  intros G b c H. destruct b; cbn [cutting].
  - destruct (s_act c) as [|m r] eqn:A; [congruence|]. eexists. split; [cbn [step]; unfold on_top; rewrite A; reflexivity|].
    unfold like. rewrite A. cbn. eauto 6.
  - exists c. split; [reflexivity|]. apply like_refl. exact H.
Qed.

Lemma cutting_like : forall G b c c1, s_act c <> [] -> cutting G b c = Ok c1 -> like c c1.
Proof. intros G b c c1 A H. destruct (cutting_ok G b c A) as (c2 & H1 & H2). congruence. Qed.

Lemma add_gl_pend : forall g m, m_pend (add_gl g m) = [].
Proof.
  intros g m. unfold add_gl. cbn [set_body m_pend]. unfold commit. destruct (m_pend m) as [|p0 ps] eqn:P; [exact P|].
  destruct (concat (rev (p0 :: ps))); reflexivity.
Qed.
Lemma add_pend : forall l m, m_pend (add l m) = [].
Proof. intros. apply add_gl_pend. Qed.
Lemma commit_pend : forall m, m_pend (commit m) = [].
Proof.
  intros m. unfold commit. destruct (m_pend m) as [|p0 ps] eqn:P; [exact P|]. destruct (concat (rev (p0 :: ps))); reflexivity.
Qed.
Lemma note_pend : forall s m, m_pend (append_note s m) = m_pend m.
Proof. intros s m. unfold append_note. destruct (rev (m_body m)); reflexivity. Qed.
Lemma dedent_pend : forall m m', dedent m = Ok m' -> m_pend m' = m_pend m.
Proof. intros m m' H. unfold dedent in H. destruct (m_lev m); [discriminate|]. injection H as <-. reflexivity. Qed.
Lemma fold_pend : forall l m, m_pend m = [] -> m_pend (fold_left (fun m l => add l m) l m) = [].
Proof. induction l as [|x l IH]; intros m H; [exact H|]. cbn [fold_left]. apply IH. apply add_pend. Qed.
Lemma fold_pend1 : forall x l m, m_pend (fold_left (fun m l => add l m) (x :: l) m) = [].
Proof. intros. cbn [fold_left]. apply fold_pend. apply add_pend. Qed.
Lemma suite_pend : forall h l m m', add_suite h l m = Ok m' -> m_pend m' = [].
Proof.
  intros h l m m' H. unfold add_suite in H. apply dedent_pend in H. rewrite H. apply fold_pend.
  unfold indent. cbn [set_lev m_pend]. apply add_gl_pend.
Qed.
Lemma indenting_pend : forall h lc m, m_pend (add_indenting h lc m) = [].
Proof. intros h [p|] m; unfold add_indenting, indent; cbn [set_lev m_pend]; rewrite ?note_pend; apply add_gl_pend. Qed.
Lemma filtered_pend : forall G x fa raw lc m, m_pend (add_filtered G x fa raw lc m) = [].
Proof.
  intros G x fa raw lc m. unfold add_filtered. destruct (g_alwaysNone G).
  - destruct (g_useFilters G); apply add_pend.
  - destruct (g_useFilters G); apply add_pend.
Qed.

Lemma place_clears : forall G x fa raw lc sil, clears (add_placeholder G x fa raw lc sil).
Proof.
  intros G x fa raw lc sil m m' H. unfold add_placeholder in H. apply bind_inv in H as (m1 & H1 & H2).
  injection H2 as <-.
  assert (K : m_pend m1 = []).
  { destruct sil; [|injection H1 as <-; apply filtered_pend].
    apply bind_inv in H1 as (m2 & _ & H1). injection H1 as <-. apply add_gl_pend. }
  destruct (g_rowcol G); [rewrite note_pend|]; exact K.
Qed.

Lemma reindenting_clears : forall h d lc, clears (add_reindenting h d lc).
Proof.
  intros h d lc m m' H. unfold add_reindenting in H. apply bind_inv in H as (m1 & _ & H). injection H as <-.
  apply indenting_pend.
Qed.

Lemma bop_clears : forall G o id lc, clears (open_code G (bop_open o) id lc).
Proof. intros G [] id lc m m' H; cbn in H; injection H as <-; apply indenting_pend. Qed.

Lemma bop_id : forall G o id id' lc m, open_code G (bop_open o) id lc m = open_code G (bop_open o) id' lc m.
Proof. intros G [] id id' lc m; reflexivity. Qed.

Lemma call_clears : forall G fn a id lc, clears (open_code G (OCall fn a) id lc).
Proof. intros G fn a id lc m m' H. cbn [open_code] in H. injection H as <-. apply fold_pend1. Qed.

Lemma arg_clears : forall n, clears (set_call_arg n).
Proof.
  intros n m m' H. unfold set_call_arg in H. destruct (m_call m) as [|d st]; [discriminate|]. injection H as <-.
  destruct (cd_cur d) as [cur|]; [|apply add_pend]. change (m_pend (set_call ?l ?x)) with (m_pend x).
  unfold end_call_arg. apply fold_pend1.
Qed.

Lemma bind_P : forall A B (x : res gerr A) (f : A -> res gerr B) (P : B -> Prop), (forall a b, f a = Ok b -> P b) ->
  forall b, bind x f = Ok b -> P b.
Proof. intros A B [a|e] f P H b K; [exact (H a b K)|discriminate K]. Qed.
Lemma cache_clears : forall G ci id lc, clears (open_code G (OCache ci) id lc).
Proof.
  intros G ci id lc m. change (forall m', start_cache G ci id lc m = Ok m' -> m_pend m' = []). unfold start_cache.
  do 7 (cbv zeta; refine (bind_P _ _ _ _ _ _); clear m; intro m).
  cbv zeta. intros m' H. injection H as <-. destruct (ci_interval ci); apply add_pend.
Qed.

Lemma filter_clears : forall G f k id lc, clears (open_code G (OFilter f k) id lc).
Proof.
  intros G f k id lc m m' H. cbn [open_code] in H. unfold set_filter in H. cbv zeta in H.
  destruct k; [injection H as <-; apply add_pend|]. destruct (str_eqb (lower f) (L "none")); [injection H as <-; apply add_pend|].
  apply bind_inv in H as (m1 & _ & H). apply (suite_pend _ _ _ _ H).
Qed.

Lemma capture_clears : forall G v id lc, clears (open_code G (OCapture v) id lc).
Proof. intros G v id lc m m' H. cbn [open_code] in H. injection H as <-. apply fold_pend1. Qed.

Lemma dedent_clears : clears (fun m => dedent (commit m)).
Proof. intros m m' H. apply dedent_pend in H. rewrite H. apply commit_pend. Qed.

Lemma close_clears : forall G name,
  In name (map L ["capture"; "filter"; "cache"; "call"; "while"; "for"; "if"; "try"; "repeat"; "unless"]%string) ->
  clears (close_code G name).
Proof.
  intros G name I. cbn [map In] in I.
  destruct I as [<-|[<-|[<-|[<-|[<-|[<-|[<-|[<-|[<-|[<-|[]]]]]]]]]]]; try exact dedent_clears; intros m m' H.
  - change (close_code G (L "capture") m) with (end_capture m) in H.
    unfold end_capture in H. destruct (m_capt m) as [|[id v] st]; [discriminate|]. injection H as <-. apply add_pend.
  - change (close_code G (L "filter") m) with (close_filter m) in H.
    unfold close_filter in H. destruct (m_filt m) as [|id st]; [discriminate|]. injection H as <-. apply add_pend.
  - change (close_code G (L "cache") m) with (end_cache m) in H.
    unfold end_cache in H. destruct (m_cache m) as [|id st]; [discriminate|]. apply bind_inv in H as (m1 & _ & H). injection H as <-. apply add_pend.
  - change (close_code G (L "call") m) with (end_call G m) in H.
    unfold end_call in H. destruct (m_call m) as [|d st]; [discriminate|]. injection H as <-. cbn [set_call m_pend]. apply add_pend.
Qed.

(** ** Steps *)

(** Opening directives that stay in the method. *)
Definition inner (o : opener) : bool := match o with ODef _ _ _ | OBlock _ _ _ | OClosure _ _ _ => false | _ => true end.

Lemma open_inner : forall G o id lc c c1, inner o = true -> clears (open_code G o id lc) ->
  open_long G o id lc c = Ok c1 -> like (set_open (oname o :: s_open c) c) c1 /\ flat c1.
Proof.
  intros G o id lc c c1 I CL H.
  assert (K : on_top (open_code G o id lc) (set_open (oname o :: s_open c) c) = Ok c1)
    by (destruct o; try discriminate I; exact H).
  split; [apply (on_top_like _ _ _ K)|apply (on_top_flat _ _ _ CL K)].
Qed.

Lemma end_inner : forall G name c c1 o,
  In name (map L ["capture"; "filter"; "cache"; "call"; "while"; "for"; "if"; "try"; "repeat"; "unless"]%string) ->
  s_open c = name :: o -> end_long G name c = Ok c1 -> like (set_open o c) c1 /\ flat c1.
Proof.
  intros G name c c1 o I SO H.
  assert (K : on_top (close_code G name) (set_open o c) = Ok c1).
  { unfold end_long in H. cbn [map In] in I.
    destruct I as [<-|[<-|[<-|[<-|[<-|[<-|[<-|[<-|[<-|[<-|[]]]]]]]]]]];
      match type of H with context [mem_str ?n closeable] => change (mem_str n closeable) with true in H end; cbv iota in H;
      unfold pop_open in H; rewrite SO in H; rewrite str_eqb_refl in H; cbn [bind] in H; exact H. }
  split; [apply (on_top_like _ _ _ K)|apply (on_top_flat _ _ _ (close_clears G name I) K)].
Qed.
