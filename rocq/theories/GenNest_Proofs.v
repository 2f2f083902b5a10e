(** Proofs about the nesting of directives. *)
From Verif Require Import Base PyStr Alist Gen_Model Gen_Spec Gen_Proofs GenLayout_Proofs.

(** ** The stack as a function of the brackets *)
Fixpoint scan (l : list bracket) (st : list pystr) : res gerr (list pystr) :=
  match l with
  | [] => Ok st
  | BOpen n :: r => scan r (n :: st)
  | BClose n :: r =>
      match st with
      | [] => Raise PNothing
      | x :: st' => if str_eqb x n then scan r st' else Raise (PMismatch n x)
      end
  end.

Lemma scan_app a : forall b st, scan (a ++ b) st = bind (scan a st) (scan b).
Proof.
  induction a as [|[n|n] a IH]; intros b st; cbn [app scan]; [reflexivity|apply IH|].
  destruct st as [|x st]; [reflexivity|]. destruct (str_eqb x n); [apply IH|reflexivity].
Qed.

Lemma scan_balanced l : balanced l -> forall st, scan l st = Ok st.
Proof.
  induction 1 as [|a b Ha IHa Hb IHb|n l Hl IH]; intros st.
  - reflexivity.
  - rewrite scan_app, IHa. apply IHb.
  - cbn [scan]. rewrite scan_app, IH. cbn [bind scan]. rewrite str_eqb_refl. reflexivity.
Qed.

Lemma scan_leaves l st : leaves l st -> scan l [] = Ok st.
Proof.
  induction 1 as [l H|l st n b Hl IH Hb].
  - apply scan_balanced; exact H.
  - rewrite scan_app, IH. cbn [bind scan]. apply scan_balanced; exact Hb.
Qed.

Lemma leaves_app l st b : leaves l st -> balanced b -> leaves (l ++ b) st.
Proof.
  intros [l0 H0|l0 st0 n b0 H0 B0] Hb.
  - apply lv_bal. apply bal_cat; assumption.
  - rewrite <- app_assoc. cbn [app]. apply lv_open; [exact H0|]. apply bal_cat; assumption.
Qed.

Lemma leaves_scan l : forall st, scan l [] = Ok st -> leaves l st.
Proof.
  induction l as [|x l IH] using rev_ind; intros st H.
  - injection H as <-. apply lv_bal, bal_nil.
  - rewrite scan_app in H. destruct (scan l []) as [st1|e] eqn:E; [|discriminate].
    cbn [bind] in H. specialize (IH st1 eq_refl). destruct x as [n|n]; cbn [scan] in H.
    + injection H as <-. apply lv_open; [exact IH|apply bal_nil].
    + destruct st1 as [|y st1]; [discriminate|]. destruct (str_eqb y n) eqn:Ey; [|discriminate].
      injection H as <-. apply str_eqb_eq in Ey. subst y.
      inversion IH as [|l0 st0 n0 b0 H0 B0]; subst.
      rewrite <- app_assoc. cbn [app]. apply (leaves_app l0 st1 (BOpen n :: b0 ++ [BClose n])); [exact H0|].
      apply bal_wrap; exact B0.
Qed.

Lemma balanced_scan l : balanced l <-> scan l [] = Ok [].
Proof.
  split; [intros H; apply scan_balanced; exact H|].
  intros H. apply leaves_scan in H. inversion H; subst; assumption.
Qed.

(** Where the scan fails. *)
Lemma scan_fails l : forall st e, scan l st = Raise e ->
  exists a n b st1, l = a ++ BClose n :: b /\ scan a st = Ok st1
    /\ ((st1 = [] /\ e = PNothing) \/ exists x st2, st1 = x :: st2 /\ x <> n /\ e = PMismatch n x).
Proof.
  induction l as [|[n|n] l IH]; intros st e H; cbn [scan] in H; [discriminate| |].
  - destruct (IH _ _ H) as (a & n' & b & st1 & -> & Ha & R).
    exists (BOpen n :: a), n', b, st1. auto.
  - destruct st as [|x st].
    + exists [], n, l, []. split; [reflexivity|]. split; [reflexivity|]. left. split; congruence.
    + destruct (str_eqb x n) eqn:E.
      * destruct (IH _ _ H) as (a & n' & b & st1 & -> & Ha & R).
        exists (BClose n :: a), n', b, st1. split; [reflexivity|]. split; [|exact R].
        cbn [scan]. rewrite E. exact Ha.
      * exists [], n, l, (x :: st). split; [reflexivity|]. split; [reflexivity|]. right.
        exists x, st. split; [reflexivity|]. split; [apply str_eqb_neq; exact E|congruence].
Qed.

(** ** Functions of the method compiler raise no [ParseError] *)
Definition soft (e : gerr) : Prop := e = EDedent \/ e = ECrash.
Definition softly {A} (x : res gerr A) : Prop := forall e, x = Raise e -> soft e.

Lemma softly_ok {A} (a : A) : softly (Ok a).
Proof. intros e H; discriminate. Qed.
Lemma softly_bind {A B} (x : res gerr A) (f : A -> res gerr B) :
  softly x -> (forall a, softly (f a)) -> softly (bind x f).
Proof. intros Hx Hf e H. destruct x as [a|e']; [apply (Hf a e H)|]. injection H as <-. apply Hx. reflexivity. Qed.
Lemma softly_dedent m : softly (dedent m).
Proof. unfold dedent. intros e H. destruct (m_lev m); [|discriminate]. injection H as <-. left; reflexivity. Qed.
Lemma softly_crash {A} : softly (A := A) (Raise ECrash).
Proof. intros e H. injection H as <-. right; reflexivity. Qed.

Ltac soft := repeat first
  [ apply softly_ok | apply softly_crash | apply softly_dedent
  | apply softly_bind; [|intros ?]
  | match goal with |- softly (match ?x with _ => _ end) => destruct x end
  | match goal with |- softly (if ?x then _ else _) => destruct x end ].

Lemma softly_suite h l m : softly (add_suite h l m).
Proof. unfold add_suite. soft. Qed.
Ltac soft' := repeat first [apply softly_suite | progress soft].

Lemma softly_end_cache m : softly (end_cache m).
Proof. unfold end_cache. soft'. Qed.
Lemma softly_end_call G m : softly (end_call G m).
Proof. unfold end_call. soft'. Qed.
Lemma softly_close G n m : softly (close_code G n m).
Proof. unfold close_code, end_capture, close_filter. repeat first [apply softly_end_cache|apply softly_end_call|progress soft']. Qed.
Lemma softly_open G o id lc m : softly (open_code G o id lc m).
Proof. unfold open_code, start_cache, set_filter. cbv zeta. destruct o; soft'. Qed.
Lemma softly_on_top f c : (forall m, softly (f m)) -> softly (on_top f c).
Proof. intros H. unfold on_top. soft'. apply H. Qed.
Lemma softly_cleanup G m : softly (cleanup G m).
Proof. unfold cleanup. repeat first [apply softly_end_cache|apply softly_end_call|progress soft']. Qed.
Lemma softly_swallow G m c : softly (swallow G m c).
Proof. unfold swallow. apply softly_bind; [apply softly_cleanup|intros; soft]. Qed.
Lemma softly_close_def G c : softly (close_def G c).
Proof. unfold close_def. destruct (s_act c); [soft|apply softly_swallow]. Qed.
Lemma softly_close_block G c : softly (close_block G c).
Proof.
  unfold close_block. destruct (s_act c); [apply softly_crash|]. cbv zeta.
  apply softly_bind; [apply softly_swallow|]. intros c'. apply softly_on_top. intros; soft.
Qed.
Lemma softly_marker G n c : softly (start_marker G n c).
Proof. unfold start_marker. soft'. apply softly_on_top; intros; soft. Qed.
Lemma softly_short G o mem c : softly (close_short G o mem c).
Proof.
  unfold close_short. destruct o; try (apply softly_on_top; intros; apply softly_close).
  - apply softly_on_top; intros; soft.
  - destruct (fst mem); [apply softly_on_top; intros; soft|apply softly_close_def].
  - destruct (fst mem); [apply softly_crash|]. apply softly_bind; [apply softly_marker|].
    intros; apply softly_close_block.
Qed.
Lemma softly_open_short G o id lc c : softly (open_short G o id lc c).
Proof.
  unfold open_short. cbv zeta.
  destruct o; try (apply softly_bind; [apply softly_on_top; intros; apply softly_open|intros; soft]);
    soft'. apply softly_on_top; intros; apply softly_open.
Qed.
Lemma softly_open_long G o id lc c : softly (open_long G o id lc c).
Proof.
  unfold open_long. cbv zeta.
  destruct o; try (apply softly_on_top; intros; apply softly_open).
  - destruct (nested_long G _); [apply softly_on_top; intros; apply softly_open|soft].
  - apply softly_marker.
Qed.

(** What happens to the stack in one step. *)
Lemma on_top_open f c c' : on_top f c = Ok c' -> s_open c' = s_open c.
Proof.
  unfold on_top. destruct (s_act c) as [|m r]; [discriminate|]. unfold bind.
  destruct (f m); [|discriminate]. intros H; injection H as <-. reflexivity.
Qed.
Lemma swallow_open G m c c' : swallow G m c = Ok c' -> s_open c' = s_open c.
Proof. unfold swallow, bind. destruct (cleanup G m); [|discriminate]. intros H; injection H as <-. reflexivity. Qed.
Lemma close_def_open G c c' : close_def G c = Ok c' -> s_open c' = s_open c.
Proof. unfold close_def. destruct (s_act c); [discriminate|]. intros H. apply swallow_open in H. exact H. Qed.
Lemma close_block_open G c c' : close_block G c = Ok c' -> s_open c' = s_open c.
Proof.
  unfold close_block. destruct (s_act c); [discriminate|]. cbv zeta. unfold bind at 1.
  destruct (swallow G _ _) as [c1|] eqn:E; [|discriminate]. intros H.
  apply on_top_open in H. apply swallow_open in E. rewrite H, E. reflexivity.
Qed.
Lemma marker_open G n c c' : start_marker G n c = Ok c' -> s_open c' = s_open c.
Proof.
  unfold start_marker. destruct (g_markers G) as [[[? ?] ?]|].
  - apply on_top_open.
  - intros H; injection H as <-; reflexivity.
Qed.
Lemma open_long_open G o id lc c c' : open_long G o id lc c = Ok c' -> s_open c' = oname o :: s_open c.
Proof.
  unfold open_long. cbv zeta. intros H.
  destruct o; try (apply on_top_open in H; exact H).
  - destruct (nested_long G _); [apply on_top_open in H; exact H|]. injection H as <-. reflexivity.
  - apply marker_open in H. exact H.
Qed.
Lemma open_short_open G o id lc c c' mem : open_short G o id lc c = Ok (c', mem) -> s_open c' = s_open c.
Proof.
  unfold open_short. cbv zeta. intros H.
  assert (Q : forall f c0, bind (on_top f c0) (fun c => Ok (c, (nested_short G c, s_sl c))) = Ok (c', mem) -> True) by auto.
  clear Q.
  assert (Q : forall f c0 mm, bind (on_top f c0) (fun c => Ok (c, mm)) = Ok (c', mem) -> s_open c' = s_open c0).
  { intros f c0 mm. unfold bind. destruct (on_top f c0) as [c1|] eqn:E; [|discriminate].
    intros K. injection K as <- _. apply on_top_open in E. exact E. }
  destruct o; try (apply Q in H; exact H).
  - destruct (nested_short G c); [apply Q in H; exact H|]. injection H as <- _. reflexivity.
  - injection H as <- _. reflexivity.
Qed.
Lemma close_short_open G o mem c c' : close_short G o mem c = Ok c' -> s_open c' = s_open c.
Proof.
  unfold close_short. intros H. destruct o; try (apply on_top_open in H; exact H).
  - destruct (fst mem); [apply on_top_open in H; exact H|apply close_def_open in H; exact H].
  - destruct (fst mem); [discriminate|]. unfold bind in H.
    destruct (start_marker G name c) as [c1|] eqn:E; [|discriminate].
    apply close_block_open in H. apply marker_open in E. congruence.
Qed.

(** One event and the stack. *)
Definition ev_brackets (e : ev) : list bracket :=
  match e with
  | EOpen o _ _ => [BOpen (oname o)]
  | EEnd n => if str_eqb n (L "errorCatcher") then [] else [BClose n]
  | _ => []
  end.

Definition agrees (x : res gerr cs) (y : res gerr (list pystr)) : Prop :=
  match x with
  | Ok c' => y = Ok (s_open c')
  | Raise e => soft e \/ y = Raise e
  end.

Lemma agrees_top f c : (forall m, softly (f m)) -> agrees (on_top f c) (Ok (s_open c)).
Proof.
  intros H. unfold agrees. destruct (on_top f c) as [c'|e] eqn:E.
  - apply on_top_open in E. congruence.
  - left. apply (softly_on_top f c H e E).
Qed.

Lemma known_end_mem n : known_end n = true -> mem_str n closeable = true.
Proof. unfold known_end. intros H. apply andb_true_iff in H. apply H. Qed.

Lemma step_agrees G e c : plain_ev e -> agrees (step G e c) (scan (ev_brackets e) (s_open c)).
Proof.
  intros Hp. destruct e; cbn [step ev_brackets scan].
  - apply agrees_top. intros; soft.
  - apply agrees_top. intros; soft.
  - apply agrees_top. intros; soft.
  - apply agrees_top. intros; soft.
  - apply agrees_top. intros m. unfold add_placeholder. soft.
  - rewrite (expr_push_ok e c) by exact Hp. cbn [bind]. apply agrees_top; intros; soft.
  - apply agrees_top. intros; soft.
  - apply agrees_top. intros m. unfold add_ternary. soft.
  - unfold agrees. destruct (open_long G o id lc c) as [c'|e] eqn:E.
    + apply open_long_open in E. congruence.
    + left. apply (softly_open_long G o id lc c e E).
  - apply agrees_top. intros x. unfold add_reindenting. soft.
  - apply agrees_top. intros x. unfold set_call_arg. soft.
  - destruct Hp as [Hk| ->].
    + assert (Hn : str_eqb name (L "errorCatcher") = false).
      { destruct (str_eqb name (L "errorCatcher")) eqn:E; [|reflexivity].
        apply str_eqb_eq in E. subst. discriminate Hk. }
      rewrite Hn. cbn [scan]. unfold end_long. rewrite (known_end_mem _ Hk). unfold pop_open.
      destruct (s_open c) as [|x st] eqn:Eo; [right; reflexivity|].
      destruct (str_eqb x name) eqn:Ex; [|right; reflexivity].
      cbn [bind].
      set (c1 := set_open st c).
      assert (S1 : s_open c1 = st) by reflexivity. clearbody c1.
      assert (W : forall y, softly y -> (forall c', y = Ok c' -> s_open c' = st) -> agrees y (Ok st)).
      { intros y Sy Oy. unfold agrees. destruct y as [c'|e]; [rewrite (Oy c' eq_refl); reflexivity|].
        left. apply Sy. reflexivity. }
      destruct (str_eqb name (L "def")); [|destruct (str_eqb name (L "block")); [|destruct (str_eqb name (L "closure"))]].
      * destruct (nested_short G c1).
        -- apply W; [apply softly_on_top; intros; soft|]. intros c' H. apply on_top_open in H. rewrite H. exact S1.
        -- apply W; [apply softly_close_def|]. intros c' H. apply close_def_open in H. congruence.
      * apply W; [apply softly_close_block|]. intros c' H. apply close_block_open in H. congruence.
      * apply W.
        -- apply softly_bind; [apply softly_on_top; intros; apply softly_close|intros; soft].
        -- intros c' H. unfold bind in H. destruct (on_top _ c1) as [c2|] eqn:E; [|discriminate].
           injection H as <-. apply on_top_open in E. cbn [set_sl s_open]. congruence.
      * apply W; [apply softly_on_top; intros; apply softly_close|].
        intros c' H. apply on_top_open in H. congruence.
    + change (end_long G (L "errorCatcher") c) with (on_top (close_code G (L "errorCatcher")) c).
      apply agrees_top. intros; apply softly_close.
  - apply agrees_top. intros m. unfold add_psp. soft.
Qed.

(** No [#echo] or the like with a directive's name, only known ends. *)
Lemma agrees_bind x y f g :
  agrees x y -> (forall c, x = Ok c -> agrees (f c) (g (s_open c))) -> agrees (bind x f) (bind y g).
Proof.
  intros A H. destruct x as [c|e]; cbn [agrees bind] in *.
  - rewrite A. cbn [bind]. apply H. reflexivity.
  - destruct A as [S| ->]; [left; exact S|right; reflexivity].
Qed.

Lemma run_agrees G : forall l c, plain_evs l -> agrees (run G l c) (scan (brackets l) (s_open c)).
Proof.
  induction l as [|e r IH|o id lc b IHb r IHr|m lc b IHb r IHr]; intros c Hp; cbn [run brackets].
  - reflexivity.
  - destruct Hp as [He Hr]. fold (ev_brackets e). rewrite scan_app.
    apply agrees_bind; [apply step_agrees; exact He|]. intros c1 _. apply IH. exact Hr.
  - destruct Hp as [Hb Hr]. rewrite scan_app.
    destruct (open_short G o id lc c) as [[c1 mem]|e] eqn:E; cbn [bind fst snd].
    + assert (E1 := open_short_open _ _ _ _ _ _ _ E). rewrite <- E1.
      apply agrees_bind; [apply IHb; exact Hb|]. intros c2 _.
      destruct (close_short G o mem c2) as [c3|e] eqn:E3; cbn [bind].
      * rewrite <- (close_short_open _ _ _ _ _ E3). apply IHr. exact Hr.
      * left. apply (softly_short G o mem c2 e E3).
    + left. apply (softly_open_short G o id lc c e E).
  - destruct Hp as [Hb Hr]. rewrite scan_app.
    destruct (on_top (add_reindenting (mid_head m) false lc) c) as [c1|e] eqn:E; cbn [bind].
    + rewrite <- (on_top_open _ _ _ E).
      apply agrees_bind; [apply IHb; exact Hb|]. intros c2 _.
      destruct (on_top (fun m0 => dedent (commit m0)) c2) as [c3|e] eqn:E3; cbn [bind].
      * rewrite <- (on_top_open _ _ _ E3). apply IHr. exact Hr.
      * left. assert (Q := softly_on_top (fun m0 => dedent (commit m0)) c2). apply Q; [intros; soft|exact E3].
    + left. assert (Q := softly_on_top (add_reindenting (mid_head m) false lc) c).
      apply Q; [intros; unfold add_reindenting; soft|exact E].
Qed.

Lemma softly_close_all G : forall act c, softly (close_all G act c).
Proof.
  induction act as [|m r IH]; intros c; cbn [close_all]; [soft|].
  apply softly_bind; [apply softly_swallow|]. exact IH.
Qed.

Lemma compile_agrees G main l : plain_evs l ->
  match compile G main l with
  | Ok _ => balanced (brackets l)
  | Raise PNothing => exists a n b, brackets l = a ++ BClose n :: b /\ balanced a
  | Raise (PMismatch n x) => exists a b st, brackets l = a ++ BClose n :: b /\ leaves a (x :: st) /\ n <> x
  | Raise (PUnclosed st) => leaves (brackets l) st /\ st <> []
  | Raise _ => True
  end.
Proof.
  intros Hp. pose proof (run_agrees G l (start G main) Hp) as A. unfold compile.
  change (s_open (start G main)) with (@nil pystr) in A.
  destruct (run G l (start G main)) as [c|e]; cbn [bind agrees] in *.
  - destruct (s_open c) as [|n st] eqn:E.
    + destruct (close_all G (s_act c) (set_act [] c)) as [c'|e] eqn:E2; cbn [bind].
      * apply balanced_scan. exact A.
      * destruct (softly_close_all G _ _ _ E2) as [->| ->]; exact I.
    + split; [apply leaves_scan; exact A|discriminate].
  - destruct A as [[->| ->]|A]; [exact I|exact I|].
    destruct (scan_fails _ _ _ A) as (a & n & b & st1 & E & Ea & [(-> & ->)|(x & st2 & -> & N & ->)]).
    + exists a, n, b. split; [exact E|]. apply balanced_scan. exact Ea.
    + exists a, b, st2. split; [exact E|]. split; [apply leaves_scan; exact Ea|congruence].
Qed.

(** ** Regular sequences never fail otherwise *)

(** What of a method compiler decides whether an operation fails. *)
Record sk := mkK { k_lev : nat; k_ca : nat; k_cl : nat; k_cp : nat; k_fi : nat }.
Definition skel (m : mcomp) : sk :=
  mkK (m_lev m) (length (m_cache m)) (length (m_call m)) (length (m_capt m)) (length (m_filt m)).

Inductive kind := QLev | QCache | QCall | QCapt | QFilt | QMeth | QNone.
Definition kind_of (nest : bool) (n : pystr) : kind :=
  if mem_str n (map L ["while"; "for"; "if"; "try"; "repeat"; "unless"; "closure"]%string) then QLev
  else if str_eqb n (L "cache") then QCache
  else if str_eqb n (L "call") then QCall
  else if str_eqb n (L "capture") then QCapt
  else if str_eqb n (L "filter") then QFilt
  else if str_eqb n (L "block") then QMeth
  else if str_eqb n (L "def") then (if nest then QLev else QMeth)
  else QNone.

Definition nest_of (G : gset) (open : list pystr) : bool :=
  g_nested G && (0 <? length (filter (str_eqb (L "def")) open))%nat.

Definition opened (k : kind) (a b : sk) : Prop :=
  match k with
  | QLev => k_lev a = S (k_lev b) /\ k_ca a = k_ca b /\ k_cl a = k_cl b /\ k_cp a = k_cp b /\ k_fi a = k_fi b
  | QCache => k_lev a = S (k_lev b) /\ k_ca a = S (k_ca b) /\ k_cl a = k_cl b /\ k_cp a = k_cp b /\ k_fi a = k_fi b
  | QCall => k_lev a = k_lev b /\ k_ca a = k_ca b /\ k_cl a = S (k_cl b) /\ k_cp a = k_cp b /\ k_fi a = k_fi b
  | QCapt => k_lev a = k_lev b /\ k_ca a = k_ca b /\ k_cl a = k_cl b /\ k_cp a = S (k_cp b) /\ k_fi a = k_fi b
  | QFilt => k_lev a = k_lev b /\ k_ca a = k_ca b /\ k_cl a = k_cl b /\ k_cp a = k_cp b /\ k_fi a = S (k_fi b)
  | _ => False
  end.

(** The method on top and the ones below fit the open directives. *)
Fixpoint fits (G : gset) (ob : list pystr) (base : list sk) (st : list pystr) (acts : list sk) : Prop :=
  match st with
  | [] => acts = base
  | n :: st' =>
      match kind_of (nest_of G (st' ++ ob)) n with
      | QMeth => exists r, acts = mkK (g_lev G) 0 0 0 0 :: r /\ r <> [] /\ fits G ob base st' r
      | k => exists a b r, acts = a :: r /\ opened k a b /\ fits G ob base st' (b :: r)
      end
  end.

Lemma nested_nest G c : nested_short G c = nest_of G (s_open c).
Proof. reflexivity. Qed.

Lemma skel_out X m : skel (out X m) = skel m.
Proof. reflexivity. Qed.

Lemma open_acts G o id lc m : (forall name args rem, o <> OBlock name args rem) ->
  exists m', open_code G o id lc m = Ok m' /\ opened (kind_of true (oname o)) (skel m') (skel m).
Proof.
  intros Hb.
  assert (Bop : forall b, exists m', open_code G (bop_open b) id lc m = Ok m'
                          /\ opened QLev (skel m') (skel m)).
  { intros b. assert (E : open_code G (bop_open b) id lc m = open_code G (bop_open b) [] lc m) by (destruct b; reflexivity).
    rewrite E, open_bop. eexists. split; [reflexivity|]. rewrite skel_out. repeat split. }
  assert (Rop : forall r, exists m', open_code G (rop_open r) id lc m = Ok m'
     /\ opened (kind_of true (oname (rop_open r))) (skel m') (skel m)).
  { intros r. destruct (open_rop G r id lc m) as (X & E & _). rewrite E. eexists. split; [reflexivity|].
    rewrite skel_out. destruct r; repeat split. }
  destruct o.
  - apply (Bop (BIf e)).
  - apply (Bop (BUnless e)).
  - apply (Bop (BFor t e)).
  - apply (Bop (BWhile e)).
  - apply (Bop (BRepeat e)).
  - apply (Bop BTry).
  - apply (Rop (RCache ci)).
  - apply (Rop (RCall fn args)).
  - apply (Rop (RCapture v)).
  - apply (Rop (RFilter f klass)).
  - cbn [open_code]. rewrite add_closure_out. eexists. split; [reflexivity|]. rewrite skel_out. repeat split.
  - cbn [open_code]. rewrite add_closure_out. eexists. split; [reflexivity|]. rewrite skel_out. repeat split.
  - exfalso. apply (Hb name args rem). reflexivity.
Qed.

Lemma sk_eq a b : k_lev a = k_lev b -> k_ca a = k_ca b -> k_cl a = k_cl b -> k_cp a = k_cp b ->
  k_fi a = k_fi b -> a = b.
Proof. destruct a, b; simpl; intros; subst; reflexivity. Qed.

Lemma end_cache_skel m i st lev : m_cache m = i :: st -> m_lev m = S lev ->
  exists m', end_cache m = Ok m' /\ skel m' = mkK lev (length st) (length (m_call m)) (length (m_capt m)) (length (m_filt m)).
Proof.
  intros E El. unfold end_cache. rewrite E. rewrite adds_out by discriminate.
  unfold bind, dedent. rewrite lev_out. cbn [m_lev set_cache]. rewrite El. eexists. split; [reflexivity|].
  rewrite set_lev_out. unfold add. rewrite !add_gl_out', skel_out. reflexivity.
Qed.

Lemma end_call_skel G m d st : m_call m = d :: st ->
  exists m', end_call G m = Ok m' /\ skel m' = mkK (m_lev m) (length (m_cache m)) (length st) (length (m_capt m)) (length (m_filt m)).
Proof.
  intros E. unfold end_call. rewrite E. cbv zeta. eexists. split; [reflexivity|].
  destruct (cd_cur d).
  - unfold end_call_arg. rewrite (adds_out [GKwsSet _ _; _; _; _]) by discriminate. rewrite adds_out'.
    unfold add. rewrite add_filtered_out, !add_gl_out'. reflexivity.
  - rewrite adds_out by discriminate. unfold add. rewrite !add_gl_out', add_filtered_out, !add_gl_out'. reflexivity.
Qed.

Lemma close_acts G n m b : opened (kind_of false n) (skel m) b ->
  exists m', close_code G n m = Ok m' /\ skel m' = b.
Proof.
  unfold kind_of, close_code.
  destruct (mem_str n _) eqn:E1.
  - intros (A1 & A2 & A3 & A4 & A5).
    assert (D : exists m', dedent (commit m) = Ok m' /\ skel m' = b).
    { rewrite commit_out. unfold dedent. rewrite lev_out. cbn [k_lev skel] in A1. rewrite A1.
      eexists. split; [reflexivity|]. apply sk_eq; simpl; auto. }
    destruct (str_eqb n (L "capture")) eqn:E; [apply str_eqb_eq in E; subst; discriminate E1|].
    destruct (str_eqb n (L "cache")) eqn:E2; [apply str_eqb_eq in E2; subst; discriminate E1|].
    destruct (str_eqb n (L "call")) eqn:E3; [apply str_eqb_eq in E3; subst; discriminate E1|].
    destruct (str_eqb n (L "filter")) eqn:E4; [apply str_eqb_eq in E4; subst; discriminate E1|].
    exact D.
  - destruct (str_eqb n (L "cache")) eqn:E2.
    { apply str_eqb_eq in E2; subst. change (str_eqb (L "cache") (L "capture")) with false. cbv iota.
      intros (A1 & A2 & A3 & A4 & A5). cbn [k_ca k_lev skel] in A1, A2.
      destruct (m_cache m) as [|i st] eqn:Ec; [discriminate A2|].
      destruct (end_cache_skel m i st _ Ec A1) as (m' & R & S). exists m'. split; [exact R|].
      rewrite S. cbn [length] in A2. injection A2 as A2. apply sk_eq; simpl; auto. }
    destruct (str_eqb n (L "call")) eqn:E3.
    { apply str_eqb_eq in E3; subst. change (str_eqb (L "call") (L "capture")) with false. cbv iota.
      intros (A1 & A2 & A3 & A4 & A5). cbn [k_cl skel] in A3.
      destruct (m_call m) as [|i st] eqn:Ec; [discriminate A3|].
      destruct (end_call_skel G m i st Ec) as (m' & R & S). exists m'. split; [exact R|].
      rewrite S. cbn [length] in A3. injection A3 as A3. apply sk_eq; simpl; auto. }
    destruct (str_eqb n (L "capture")) eqn:E4.
    { intros (A1 & A2 & A3 & A4 & A5). cbn [k_cp skel] in A4. unfold end_capture.
      destruct (m_capt m) as [|[i v] st] eqn:Ec; [discriminate A4|].
      eexists. split; [reflexivity|]. rewrite adds_out by discriminate. rewrite skel_out.
      cbn [length] in A4. injection A4 as A4. apply sk_eq; simpl; auto. }
    destruct (str_eqb n (L "filter")) eqn:E5.
    { intros (A1 & A2 & A3 & A4 & A5). cbn [k_fi skel] in A5. unfold close_filter.
      destruct (m_filt m) as [|i st] eqn:Ec; [discriminate A5|].
      eexists. split; [reflexivity|]. unfold add. rewrite add_gl_out, skel_out.
      cbn [length] in A5. injection A5 as A5. apply sk_eq; simpl; auto. }
    destruct (str_eqb n (L "block")); [intros []|]. destruct (str_eqb n (L "def")); intros [].
Qed.

(** Kinds of names. *)
Lemma kind_not_def n : str_eqb n (L "def") = false -> kind_of true n = kind_of false n.
Proof. intros E. unfold kind_of. rewrite E. reflexivity. Qed.
Lemma kind_any b n : str_eqb n (L "def") = false -> kind_of b n = kind_of false n.
Proof. intros E. destruct b; [apply kind_not_def; exact E|reflexivity]. Qed.

(** A method in its first state can be closed. *)
Lemma swallow_first G m c : skel m = mkK (g_lev G) 0 0 0 0 -> exists c',
  swallow G m c = Ok c' /\ s_act c' = s_act c /\ s_open c' = s_open c.
Proof.
  intros E. injection E as _ E1 E2 _ _. unfold swallow, cleanup. rewrite commit_out.
  change (m_cache (out _ m)) with (m_cache m). destruct (m_cache m); [|discriminate].
  cbn [bind]. change (m_call (out _ m)) with (m_call m). destruct (m_call m); [|discriminate].
  cbn [bind]. eexists. split; [reflexivity|]. split; reflexivity.
Qed.
Lemma close_def_first G m r c : s_act c = m :: r -> skel m = mkK (g_lev G) 0 0 0 0 -> exists c',
  close_def G c = Ok c' /\ s_act c' = r /\ s_open c' = s_open c.
Proof.
  intros A E. unfold close_def. rewrite A.
  destruct (swallow_first G (commit m) (set_act r c)) as (c' & R & R1 & R2).
  - rewrite commit_out. exact E.
  - exists c'. split; [exact R|]. split; assumption.
Qed.
Lemma close_block_first G m m1 r c : s_act c = m :: m1 :: r -> skel m = mkK (g_lev G) 0 0 0 0 -> exists c',
  close_block G c = Ok c' /\ map skel (s_act c') = skel m1 :: map skel r /\ s_open c' = s_open c.
Proof.
  intros A E. unfold close_block. rewrite A. cbv zeta.
  set (mm := match g_markers G with Some (_, (a, b)) => add_text (a ++ fst (m_head (commit m)) ++ b) (commit m) | None => commit m end).
  destruct (swallow_first G mm (set_act (m1 :: r) c)) as (c' & R & R1 & R2).
  - unfold mm. destruct (g_markers G) as [[? [? ?]]|]; rewrite commit_out; exact E.
  - rewrite R. cbn [bind]. unfold on_top. rewrite R1. cbn [set_act s_act bind].
    eexists. split; [reflexivity|]. cbn [s_act set_act map s_open]. split; [|exact R2].
    unfold add. rewrite add_gl_out, skel_out. reflexivity.
Qed.

Section Prog.
Variable G : gset.
Variable Hlev : (1 <= g_lev G)%nat.

Definition lev_ok (l : list sk) : Prop := Forall (fun s => 1 <= k_lev s)%nat l.

(** State [c] fits: directives [st] are open since the base. *)
Definition inv (ob : list pystr) (base : list sk) (st : list pystr) (c : cs) : Prop :=
  s_open c = st ++ ob /\ fits G ob base st (map skel (s_act c)).

Lemma fits_lev ob base : lev_ok base -> forall st acts, fits G ob base st acts -> lev_ok acts.
Proof.
  intros Hb. induction st as [|n st IH]; intros acts; cbn [fits].
  - intros ->. exact Hb.
  - assert (Q : forall k, (exists a b r, acts = a :: r /\ opened k a b /\ fits G ob base st (b :: r)) -> lev_ok acts).
    { intros k (a & b & r & -> & O & F). specialize (IH _ F). inversion IH; subst. constructor; [|assumption].
      destruct k; cbn [opened] in O; try (destruct O as [O _]; lia); destruct O. }
    destruct (kind_of _ n); intros H; try exact (Q _ H).
    destruct H as (r & -> & _ & F). constructor; [exact Hlev|]. apply IH; exact F.
Qed.

Lemma fits_cons ob base : base <> [] -> forall st acts, fits G ob base st acts -> acts <> [].
Proof.
  intros Hb [|n st] acts; cbn [fits]; [intros ->; exact Hb|].
  destruct (kind_of _ n); intros H; try (destruct H as (a & b & r & -> & _); discriminate).
  destruct H as (r & -> & _); discriminate.
Qed.

(** A step that leaves the skeleton alone. *)
Lemma inv_top ob base st c f : base <> [] -> inv ob base st c ->
  (forall m, (1 <= k_lev (skel m))%nat -> exists m', f m = Ok m' /\ skel m' = skel m) -> lev_ok base ->
  exists c', on_top f c = Ok c' /\ inv ob base st c'.
Proof.
  intros Hb [Ho Hf] Hm Hl. unfold on_top.
  pose proof (fits_cons ob base Hb _ _ Hf) as Hne. pose proof (fits_lev ob base Hl _ _ Hf) as Hlv.
  destruct (s_act c) as [|m r] eqn:A; [contradiction Hne; reflexivity|].
  cbn [map] in Hlv. inversion Hlv; subst. destruct (Hm m) as (m' & E & S); [assumption|].
  rewrite E. cbn [bind]. eexists. split; [reflexivity|]. split; [exact Ho|].
  cbn [s_act set_act map]. rewrite S. exact Hf.
Qed.

(** Opening in a method that stays. *)
Lemma fits_push ob base st n k a b r :
  kind_of (nest_of G (st ++ ob)) n = k -> opened k a b -> fits G ob base st (b :: r) ->
  fits G ob base (n :: st) (a :: r).
Proof.
  intros K O F. cbn [fits]. rewrite K. destruct k; try (destruct O; fail); exists a, b, r; auto.
Qed.
Lemma fits_meth ob base st n r :
  kind_of (nest_of G (st ++ ob)) n = QMeth -> r <> [] -> fits G ob base st r ->
  fits G ob base (n :: st) (mkK (g_lev G) 0 0 0 0 :: r).
Proof. intros K N F. cbn [fits]. rewrite K. exists r. auto. Qed.

Lemma top_of ob base st c : base <> [] -> inv ob base st c -> exists m r, s_act c = m :: r.
Proof.
  intros Hb [_ Hf]. pose proof (fits_cons ob base Hb _ _ Hf) as Hne.
  destruct (s_act c) as [|m r]; [contradiction Hne; reflexivity|]. exists m, r. reflexivity.
Qed.

Lemma open_code_top ob base st c o id lc : base <> [] -> inv ob base st c ->
  (forall name args rem, o <> OBlock name args rem) ->
  kind_of (nest_of G (st ++ ob)) (oname o) = kind_of true (oname o) ->
  forall c0, s_act c0 = s_act c ->
  exists c', on_top (open_code G o id lc) c0 = Ok c' /\ s_open c' = s_open c0
    /\ fits G ob base (oname o :: st) (map skel (s_act c')).
Proof.
  intros Hb H Ho K c0 A0. destruct (top_of _ _ _ _ Hb H) as (m & r & A). destruct H as [_ Hf].
  rewrite A in Hf, A0. unfold on_top. rewrite A0.
  destruct (open_acts G o id lc m Ho) as (m' & E & O). rewrite E. cbn [bind].
  eexists. split; [reflexivity|]. split; [reflexivity|]. cbn [s_act set_act map].
  eapply fits_push; [exact K|exact O|exact Hf].
Qed.

Lemma fits_start ob base st c o name : base <> [] -> inv ob base st c ->
  kind_of (nest_of G (st ++ ob)) (oname o) = QMeth ->
  forall c0, s_act c0 = s_act c ->
  fits G ob base (oname o :: st) (map skel (s_act (start_method G name c0))).
Proof.
  intros Hb H K c0 A0. destruct (top_of _ _ _ _ Hb H) as (m & r & A). destruct H as [_ Hf].
  cbn [start_method s_act set_act map]. apply fits_meth; [exact K| |rewrite A0; exact Hf].
  rewrite A0, A. discriminate.
Qed.

Lemma marker_top c0 name m r : s_act c0 = m :: r -> exists c',
  start_marker G name c0 = Ok c' /\ s_open c' = s_open c0 /\ map skel (s_act c') = map skel (s_act c0).
Proof.
  intros A. unfold start_marker. destruct (g_markers G) as [[[a b] ?]|].
  - unfold on_top. rewrite A. cbn [bind]. eexists. split; [reflexivity|]. split; reflexivity.
  - exists c0. auto.
Qed.

Lemma inv_open ob base st c o id lc : base <> [] -> inv ob base st c ->
  exists c', open_long G o id lc c = Ok c' /\ inv ob base (oname o :: st) c'.
Proof.
  intros Hb H. pose proof H as [Ho Hf]. unfold inv. unfold open_long. cbv zeta.
  set (c1 := set_open (oname o :: s_open c) c).
  assert (O1 : s_open c1 = (oname o :: st) ++ ob) by (unfold c1; cbn [s_open set_open app]; rewrite Ho; reflexivity).
  assert (Gen : (forall name args rem, o <> OBlock name args rem) ->
     kind_of (nest_of G (st ++ ob)) (oname o) = kind_of true (oname o) ->
     forall c0, s_act c0 = s_act c -> s_open c0 = s_open c1 ->
     exists c', on_top (open_code G o id lc) c0 = Ok c' /\ s_open c' = (oname o :: st) ++ ob /\ fits G ob base (oname o :: st) (map skel (s_act c'))).
  { intros N K c0 A0 S0. destruct (open_code_top ob base st c o id lc Hb H N K c0 A0) as (c' & E & E1 & E2).
    exists c'. split; [exact E|]. split; [rewrite E1, S0, O1; reflexivity|exact E2]. }
  destruct o; try (apply Gen; [discriminate|reflexivity|reflexivity|reflexivity]).
  - assert (Nl : nested_long G c1 = nest_of G (st ++ ob)).
    { unfold c1. cbn [oname]. rewrite nested_long_push, nested_nest, Ho. reflexivity. }
    rewrite Nl. destruct (nest_of G (st ++ ob)) eqn:En.
    + apply Gen; try reflexivity; discriminate.
    + eexists. split; [reflexivity|]. split; [exact O1|].
      apply (fits_start ob base st c (ODef name args rem) (name, args) Hb H); [rewrite En; reflexivity|reflexivity].
  - destruct (marker_top (start_method G (name, args) c1) name _ _ eq_refl) as (c' & E & E1 & E2).
    exists c'. split; [exact E|]. split; [rewrite E1; exact O1|]. rewrite E2.
    apply (fits_start ob base st c (OBlock name args rem) (name, args) Hb H); reflexivity.
Qed.

(** Closing. *)
Lemma known_kind n b : known_end n = true -> kind_of b n <> QNone.
Proof.
  unfold known_end, mem_str, closeable. cbn [map existsb]. intros H.
  apply andb_true_iff in H as [H D]. rewrite negb_true_iff in D.
  repeat (apply orb_true_iff in H as [H|H]; [apply str_eqb_eq in H; subst n; try discriminate D; destruct b; discriminate|]).
  discriminate H.
Qed.

Lemma close_top ob base st n c : fits G ob base (n :: st) (map skel (s_act c)) ->
  kind_of (nest_of G (st ++ ob)) n = kind_of false n -> kind_of false n <> QMeth ->
  forall c0, s_act c0 = s_act c ->
  exists c', on_top (close_code G n) c0 = Ok c' /\ s_open c' = s_open c0
    /\ fits G ob base st (map skel (s_act c')).
Proof.
  intros F K Nm c0 A0. cbn [fits] in F. rewrite K in F.
  assert (Q : exists a b r, map skel (s_act c) = a :: r /\ opened (kind_of false n) a b /\ fits G ob base st (b :: r)).
  { destruct (kind_of false n); try exact F. contradiction Nm; reflexivity. }
  destruct Q as (a & b & r & E & O & F'). unfold on_top. rewrite A0.
  destruct (s_act c) as [|m ms]; [discriminate E|]. cbn [map] in E. injection E as <- <-.
  destruct (close_acts G n m b O) as (m' & E & S). rewrite E. cbn [bind].
  eexists. split; [reflexivity|]. split; [reflexivity|]. cbn [s_act set_act map]. rewrite S. exact F'.
Qed.

Lemma dedent_top ob base st n c (f : mcomp -> res gerr mcomp) :
  (forall m lev, m_lev m = S lev -> exists m', f m = Ok m' /\ skel m' = skel (set_lev lev m)) ->
  fits G ob base (n :: st) (map skel (s_act c)) ->
  kind_of (nest_of G (st ++ ob)) n = QLev ->
  forall c0, s_act c0 = s_act c ->
  exists c', on_top f c0 = Ok c' /\ s_open c' = s_open c0
    /\ fits G ob base st (map skel (s_act c')).
Proof.
  intros Hfm F K c0 A0. cbn [fits] in F. rewrite K in F. destruct F as (a & b & r & E & O & F').
  unfold on_top. rewrite A0. destruct (s_act c) as [|m ms]; [discriminate E|]. cbn [map] in E. injection E as <- <-.
  destruct O as (A1 & A2 & A3 & A4 & A5). destruct (Hfm m _ A1) as (m' & R & S). rewrite R. cbn [bind].
  eexists. split; [reflexivity|]. split; [reflexivity|]. cbn [s_act set_act map].
  replace (skel m') with b; [exact F'|]. rewrite S. symmetry. apply sk_eq; simpl; auto.
Qed.

Lemma dedent_skel m lev : m_lev m = S lev -> exists m', dedent m = Ok m' /\ skel m' = skel (set_lev lev m).
Proof. intros E. unfold dedent. rewrite E. eexists. split; reflexivity. Qed.
Lemma dedent_commit_skel m lev : m_lev m = S lev ->
  exists m', dedent (commit m) = Ok m' /\ skel m' = skel (set_lev lev m).
Proof. intros E. rewrite commit_out. unfold dedent. rewrite lev_out, E. eexists. split; reflexivity. Qed.

Lemma meth_top ob base st n c : fits G ob base (n :: st) (map skel (s_act c)) ->
  kind_of (nest_of G (st ++ ob)) n = QMeth ->
  exists m m1 r, s_act c = m :: m1 :: r /\ skel m = mkK (g_lev G) 0 0 0 0
    /\ fits G ob base st (skel m1 :: map skel r).
Proof.
  intros F K. cbn [fits] in F. rewrite K in F. destruct F as (r & E & Hr & F).
  destruct (s_act c) as [|m [|m1 ms]]; cbn [map] in E; [discriminate E|inversion E; subst r; contradiction Hr; reflexivity|].
  assert (E1 : skel m = mkK (g_lev G) 0 0 0 0) by congruence.
  assert (E2 : skel m1 :: map skel ms = r) by congruence. subst r. exists m, m1, ms. auto.
Qed.

Lemma inv_end ob base st n c : known_end n = true -> inv ob base (n :: st) c ->
  exists c', end_long G n c = Ok c' /\ inv ob base st c'.
Proof.
  intros Hk [Ho Hf]. unfold end_long. rewrite (known_end_mem _ Hk). cbn [app] in Ho.
  rewrite (pop_same _ _ _ Ho). cbn [bind]. set (c1 := set_open (st ++ ob) c).
  assert (A1 : s_act c1 = s_act c) by reflexivity. assert (O1 : s_open c1 = st ++ ob) by reflexivity.
  clearbody c1. unfold inv.
  destruct (str_eqb n (L "def")) eqn:Ed.
  { apply str_eqb_eq in Ed. subst n. rewrite nested_nest, O1.
    destruct (nest_of G (st ++ ob)) eqn:En.
    - destruct (dedent_top ob base st (L "def") c _ dedent_commit_skel Hf) with (c0 := set_sl (s_sl0 c1) c1)
        as (c' & E & E1 & E2); [rewrite En; reflexivity|exact A1|].
      exists c'. split; [exact E|]. split; [rewrite E1; exact O1|exact E2].
    - destruct (meth_top _ _ _ _ _ Hf) as (m & m1 & r & A & S & F'); [rewrite En; reflexivity|].
      rewrite A in A1. destruct (close_def_first G m (m1 :: r) c1 A1 S) as (c' & E & E1 & E2).
      exists c'. split; [exact E|]. split; [congruence|]. rewrite E1. exact F'. }
  destruct (str_eqb n (L "block")) eqn:Eb.
  { apply str_eqb_eq in Eb. subst n.
    destruct (meth_top _ _ _ _ _ Hf) as (m & m1 & r & A & S & F'); [destruct (nest_of G (st ++ ob)); reflexivity|].
    rewrite A in A1. destruct (close_block_first G m m1 r c1 A1 S) as (c' & E & E1 & E2).
    exists c'. split; [exact E|]. split; [congruence|]. rewrite E1. exact F'. }
  assert (Kf : kind_of (nest_of G (st ++ ob)) n = kind_of false n) by (apply kind_any; exact Ed).
  assert (Nm : kind_of false n <> QMeth).
  { unfold kind_of. rewrite Eb, Ed.
    repeat match goal with |- context [if ?x then _ else _] => destruct x; [discriminate|] end. discriminate. }
  destruct (close_top ob base st n c Hf Kf Nm c1 A1) as (c' & E & E1 & E2).
  destruct (str_eqb n (L "closure")).
  - rewrite E. cbn [bind]. eexists. split; [reflexivity|]. cbn [set_sl s_open s_act].
    split; [rewrite E1; exact O1|exact E2].
  - exists c'. split; [exact E|]. split; [rewrite E1; exact O1|exact E2].
Qed.

(** Short forms. *)
Lemma inv_open_short ob base st c o id lc : base <> [] -> inv ob base st c ->
  exists c', open_short G o id lc c = Ok (c', (nest_of G (st ++ ob), s_sl c)) /\ s_open c' = st ++ ob
    /\ fits G ob base (oname o :: st) (map skel (s_act c')).
Proof.
  intros Hb H. pose proof H as [Ho Hf]. unfold open_short. cbv zeta. rewrite nested_nest, Ho.
  assert (Gen : (forall name args rem, o <> OBlock name args rem) ->
     kind_of (nest_of G (st ++ ob)) (oname o) = kind_of true (oname o) ->
     forall c0, s_act c0 = s_act c -> s_open c0 = s_open c ->
     exists c', bind (on_top (open_code G o id lc) c0)
         (fun c1 => Ok (c1, (nest_of G (st ++ ob), s_sl c))) = Ok (c', (nest_of G (st ++ ob), s_sl c))
       /\ s_open c' = st ++ ob /\ fits G ob base (oname o :: st) (map skel (s_act c'))).
  { intros N K c0 A0 S0. destruct (open_code_top ob base st c o id lc Hb H N K c0 A0) as (c' & E & E1 & E2).
    exists c'. rewrite E. split; [reflexivity|]. split; [rewrite E1, S0; exact Ho|exact E2]. }
  destruct o; try (apply Gen; [discriminate|reflexivity|reflexivity|reflexivity]).
  - destruct (nest_of G (st ++ ob)) eqn:En.
    + apply Gen; try reflexivity; discriminate.
    + eexists. split; [reflexivity|]. split; [exact Ho|].
      apply (fits_start ob base st c (ODef name args rem) (name, args) Hb H); [rewrite En; reflexivity|reflexivity].
  - eexists. split; [reflexivity|]. split; [exact Ho|].
    apply (fits_start ob base st c (OBlock name args rem) (name, args) Hb H); reflexivity.
Qed.

Lemma oname_kind o : kind_of false (oname o) <> QMeth ->
  kind_of (nest_of G []) (oname o) = kind_of false (oname o).
Proof. destruct o; intros H; try reflexivity; contradiction H; reflexivity. Qed.

Lemma inv_close_short ob base st c o sl : base <> [] ->
  match o with OBlock _ _ _ => g_nested G = false | _ => True end ->
  s_open c = st ++ ob -> fits G ob base (oname o :: st) (map skel (s_act c)) ->
  exists c', close_short G o (nest_of G (st ++ ob), sl) c = Ok c' /\ inv ob base st c'.
Proof.
  intros Hb Hr Ho Hf. unfold close_short, inv. cbn [fst snd].
  assert (Gen : kind_of (nest_of G (st ++ ob)) (oname o) = kind_of false (oname o) ->
     kind_of false (oname o) <> QMeth ->
     exists c', on_top (close_code G (oname o)) c = Ok c' /\ s_open c' = st ++ ob /\ fits G ob base st (map skel (s_act c'))).
  { intros K N. destruct (close_top ob base st (oname o) c Hf K N c eq_refl) as (c' & E & E1 & E2).
    exists c'. split; [exact E|]. split; [congruence|exact E2]. }
  destruct o; try (apply Gen; [reflexivity|discriminate]).
  - destruct (dedent_top ob base st _ c _ dedent_skel Hf) with (c0 := set_sl sl c)
      as (c' & E & E1 & E2); [reflexivity|reflexivity|].
    exists c'. split; [exact E|]. split; [rewrite E1; exact Ho|exact E2].
  - destruct (nest_of G (st ++ ob)) eqn:En.
    + destruct (dedent_top ob base st _ c _ dedent_skel Hf) with (c0 := set_sl sl c)
        as (c' & E & E1 & E2); [cbn [oname]; rewrite En; reflexivity|reflexivity|].
      exists c'. split; [exact E|]. split; [rewrite E1; exact Ho|exact E2].
    + destruct (meth_top _ _ _ _ _ Hf) as (m & m1 & r & A & S & F'); [cbn [oname]; rewrite En; reflexivity|].
      destruct (close_def_first G m (m1 :: r) c A S) as (c' & E & E1 & E2).
      exists c'. split; [exact E|]. split; [congruence|]. rewrite E1. exact F'.
  - assert (En : nest_of G (st ++ ob) = false) by (unfold nest_of; rewrite Hr; reflexivity). rewrite En.
    destruct (meth_top _ _ _ _ _ Hf) as (m & m1 & r & A & S & F'); [reflexivity|].
    destruct (marker_top c name m (m1 :: r) A) as (c1 & E & E1 & E2). rewrite E. cbn [bind].
    rewrite A in E2. destruct (s_act c1) as [|x [|y z]] eqn:A1; try discriminate E2. cbn [map] in E2.
    assert (Sx : skel x = mkK (g_lev G) 0 0 0 0) by congruence.
    assert (Sy : skel y :: map skel z = skel m1 :: map skel r) by congruence.
    destruct (close_block_first G x y z c1 A1 Sx) as (c' & R & R1 & R2).
    exists c'. split; [exact R|]. split; [congruence|]. rewrite R1, Sy. exact F'.
Qed.

Lemma ternary_skel a b e lc m : exists m', add_ternary G a b e lc m = Ok m' /\ skel m' = skel m.
Proof.
  unfold add_ternary. rewrite add_indenting_out, add_filtered_out. unfold dedent at 1.
  rewrite lev_out. cbn [m_lev set_lev]. unfold bind.
  rewrite set_lev_out, set_lev_twice, set_lev_same.
  rewrite add_indenting_out, ptext_out, lev_out.
  rewrite set_lev_out, out_out, add_filtered_out. unfold dedent. rewrite lev_out. cbn [m_lev set_lev].
  rewrite set_lev_out, set_lev_twice, set_lev_same. eexists. split; reflexivity.
Qed.
Lemma mid_skel h lc m : (1 <= k_lev (skel m))%nat ->
  exists m', add_reindenting h true lc m = Ok m' /\ skel m' = skel m.
Proof.
  cbn [skel k_lev]. intros Hl. unfold add_reindenting. rewrite commit_out. unfold dedent. rewrite lev_out.
  destruct (m_lev m) as [|lev] eqn:E; [lia|]. cbn [bind].
  rewrite add_indenting_out. eexists. split; [reflexivity|]. rewrite skel_out. unfold skel. simpl. rewrite E. reflexivity.
Qed.
Lemma mid_short_skel h lc m :
  exists m', add_reindenting h false lc m = Ok m' /\ opened QLev (skel m') (skel m).
Proof.
  unfold add_reindenting. rewrite commit_out. cbn [bind].
  rewrite add_indenting_out. eexists. split; [reflexivity|]. rewrite skel_out. repeat split.
Qed.

(** The main lemma. *)
Lemma run_inv : forall l ob base st c, regular G l -> base <> [] -> lev_ok base -> inv ob base st c ->
  (forall st', scan (brackets l) st = Ok st' -> exists c', run G l c = Ok c' /\ inv ob base st' c')
  /\ (ob = [] -> forall e, scan (brackets l) st = Raise e -> run G l c = Raise e).
Proof.
  induction l as [|e r IH|o id lc b IHb r IHr|m lc b IHb r IHr]; intros ob base st c Hr Hb Hl Hi.
  - cbn [brackets scan run]. split; [|discriminate]. intros st' E. injection E as <-. exists c. auto.
  - cbn [regular] in Hr. destruct Hr as [He Hr].
    change (brackets (Ev e r)) with (ev_brackets e ++ brackets r). cbn [run].
    assert (Top : forall f, (forall m, (1 <= k_lev (skel m))%nat -> exists m', f m = Ok m' /\ skel m' = skel m) ->
       step G e c = on_top f c -> ev_brackets e = [] ->
       (forall st', scan (ev_brackets e ++ brackets r) st = Ok st' -> exists c', bind (step G e c) (run G r) = Ok c' /\ inv ob base st' c')
       /\ (ob = [] -> forall e', scan (ev_brackets e ++ brackets r) st = Raise e' -> bind (step G e c) (run G r) = Raise e')).
    { intros f Hf Hs E0. rewrite E0, Hs. cbn [app].
      destruct (inv_top ob base st c f Hb Hi Hf Hl) as (c1 & E & Hi1). rewrite E. cbn [bind].
      apply IH; assumption. }
    destruct e as [s| |s| |x fa raw lc sil|k x|glob lv op rv|a b d lc|o id lc|m lc|n|n|s]; cbn [regular] in He.
    + eapply Top; [|reflexivity|reflexivity]. intros m _. eexists. split; reflexivity.
    + eapply Top; [|reflexivity|reflexivity]. intros m _. eexists. split; reflexivity.
    + eapply Top; [|reflexivity|reflexivity]. intros m _. eexists. split; [reflexivity|].
      unfold add. rewrite add_gl_out. reflexivity.
    + eapply Top; [|reflexivity|reflexivity]. intros m _. eexists. split; [reflexivity|].
      rewrite commit_out. reflexivity.
    + eapply Top; [|reflexivity|reflexivity]. intros m _.
      destruct (placeholder_out G x fa raw lc sil m) as (X & E & _). rewrite E. eexists. split; reflexivity.
    + eapply Top; [|cbn [step]; rewrite (expr_push_ok x c He); reflexivity|reflexivity].
      intros m _. eexists. split; [reflexivity|].
      destruct k; [rewrite add_filtered_pend; reflexivity|..]; unfold add; rewrite add_gl_out; reflexivity.
    + eapply Top; [|reflexivity|reflexivity]. intros m _. eexists. split; [reflexivity|].
      unfold add. rewrite add_gl_out. reflexivity.
    + eapply Top; [|reflexivity|reflexivity]. intros m _. apply ternary_skel.
    + cbn [ev_brackets app scan step].
      destruct (inv_open ob base st c o id lc Hb Hi) as (c1 & E & Hi1). rewrite E. cbn [bind].
      apply IH; assumption.
    + eapply Top; [|reflexivity|reflexivity]. intros mm Hm. apply mid_skel; exact Hm.
    + destruct He.
    + cbn [step]. assert (Ee : ev_brackets (EEnd n) = [BClose n]).
      { cbn [ev_brackets]. destruct (str_eqb n (L "errorCatcher")) eqn:E; [|reflexivity].
        apply str_eqb_eq in E. subst n. discriminate He. }
      rewrite Ee. cbn [app scan]. destruct st as [|x st].
      * split; [discriminate|]. intros -> e' E. injection E as <-. destruct Hi as [Ho _].
        unfold end_long. rewrite (known_end_mem _ He). unfold pop_open. rewrite Ho. reflexivity.
      * destruct (str_eqb x n) eqn:Ex.
        -- apply str_eqb_eq in Ex. subst x.
           destruct (inv_end ob base st n c He Hi) as (c1 & E & Hi1). rewrite E. cbn [bind].
           apply IH; assumption.
        -- split; [discriminate|]. intros -> e' E. injection E as <-. destruct Hi as [Ho _].
           unfold end_long. rewrite (known_end_mem _ He). unfold pop_open. rewrite Ho.
           cbn [app]. rewrite Ex. reflexivity.
    + destruct He.
  - cbn [regular] in Hr. destruct Hr as (Ho & Hrb & Hbal & Hrr). cbn [brackets run].
    rewrite scan_app, (scan_balanced _ Hbal). cbn [bind].
    destruct (inv_open_short ob base st c o id lc Hb Hi) as (c1 & E & O1 & F1).
    rewrite E. cbn [bind fst snd].
    pose proof (fits_cons _ _ Hb _ _ F1) as N1. pose proof (fits_lev _ _ Hl _ _ F1) as L1.
    destruct (IHb (st ++ ob) (map skel (s_act c1)) [] c1 Hrb N1 L1 (conj O1 eq_refl)) as [Rb _].
    destruct (Rb [] (scan_balanced _ Hbal [])) as (c2 & E2 & O2 & F2). rewrite E2. cbn [bind].
    cbn [fits] in F2. rewrite <- F2 in F1.
    destruct (inv_close_short ob base st c2 o (s_sl c) Hb Ho O2 F1) as (c3 & E3 & Hi3). rewrite E3. cbn [bind].
    apply IHr; assumption.
  - cbn [regular] in Hr. destruct Hr as (Hrb & Hbal & Hrr). cbn [brackets run].
    rewrite scan_app, (scan_balanced _ Hbal). cbn [bind].
    destruct (top_of _ _ _ _ Hb Hi) as (mm & ms & A). destruct Hi as [Ho Hf].
    unfold on_top at 1 3. rewrite A. destruct (mid_short_skel (mid_head m) lc mm) as (m1 & E & O). rewrite E. cbn [bind].
    set (c1 := set_act (m1 :: ms) c).
    assert (F1 : fits G ob base (L "if" :: st) (map skel (s_act c1))).
    { unfold c1. cbn [s_act set_act map]. rewrite A in Hf. eapply fits_push; [reflexivity|exact O|exact Hf]. }
    assert (O1 : s_open c1 = [] ++ st ++ ob) by exact Ho.
    pose proof (fits_cons _ _ Hb _ _ F1) as N1. pose proof (fits_lev _ _ Hl _ _ F1) as L1.
    destruct (IHb (st ++ ob) (map skel (s_act c1)) [] c1 Hrb N1 L1 (conj O1 eq_refl)) as [Rb _].
    destruct (Rb [] (scan_balanced _ Hbal [])) as (c2 & E2 & O2 & F2). rewrite E2. cbn [bind].
    cbn [fits] in F2. rewrite <- F2 in F1.
    destruct (dedent_top ob base st _ c2 _ dedent_commit_skel F1) with (c0 := c2)
      as (c3 & E3 & E4 & E5); [reflexivity|reflexivity|]. rewrite E3. cbn [bind].
    apply IHr; try assumption. split; [rewrite E4; exact O2|exact E5].
Qed.

Lemma compile_nesting main l : regular G l ->
  (balanced (brackets l) -> exists ms, compile G main l = Ok ms)
  /\ (~ balanced (brackets l) -> exists e, compile G main l = Raise e /\ parse_error e).
Proof.
  intros Hr.
  assert (Hl : lev_ok [skel (new_meth G (main, []))]) by (constructor; [exact Hlev|constructor]).
  destruct (run_inv l [] [skel (new_meth G (main, []))] [] (start G main) Hr ltac:(discriminate) Hl (conj eq_refl eq_refl))
    as [R1 R2].
  unfold compile. destruct (scan (brackets l) []) as [st|e] eqn:Es.
  - destruct (R1 st eq_refl) as (c' & E & Ho & Hf). rewrite E. cbn [bind]. rewrite app_nil_r in Ho.
    split.
    + intros Hb. apply balanced_scan in Hb. rewrite Hb in Es. injection Es as <-. rewrite Ho.
      cbn [fits] in Hf. destruct (s_act c') as [|m [|? ?]]; try discriminate Hf. cbn [map] in Hf.
      destruct (swallow_first G m (set_act [] c')) as (c2 & E2 & _).
      { change (skel (new_meth G (main, []))) with (mkK (g_lev G) 0 0 0 0) in Hf. congruence. }
      cbn [close_all]. rewrite E2. cbn [bind close_all]. eexists. reflexivity.
    + intros Hn. rewrite Ho. destruct st as [|x st].
      * exfalso. apply Hn. apply balanced_scan. exact Es.
      * eexists. split; [reflexivity|exact I].
  - rewrite (R2 eq_refl e eq_refl). cbn [bind]. split.
    + intros Hb. apply balanced_scan in Hb. rewrite Hb in Es. discriminate Es.
    + intros _. exists e. split; [reflexivity|].
      destruct (scan_fails _ _ _ Es) as (? & ? & ? & ? & _ & _ & [(_ & ->)|(? & ? & _ & _ & ->)]); exact I.
Qed.
End Prog.
