(** Proof that the generator lays out exactly the program of the template. *)
From Verif Require Import Base PyStr Alist Gen_Model Gen_Spec Gen_Proofs.

(** [m] after the program of a template whose code is [X] was added, with [p] pending. *)
Definition after (m : mcomp) (X : list chunk) (p : list pystr) (n : nat) : mcomp :=
  set_rep n (set_pend p (set_body (m_body m ++ X) m)).

Definition flat (G : gset) (l : list (mhead * code)) : list (mhead * list chunk) :=
  map (fun p => (fst p, layout (g_lev G) (snd p))) l.
Lemma flat_app G a b : flat G (a ++ b) = flat G a ++ flat G b.
Proof. apply map_app. Qed.

Lemma after_after m X p n Y p' n' : after (after m X p n) Y p' n' = after m (X ++ Y) p' n'.
Proof. unfold after, set_rep, set_pend, set_body; simpl. rewrite app_assoc. reflexivity. Qed.
Lemma out_after X m : out X m = after m X [] (m_rep m).
Proof. reflexivity. Qed.
Lemma ptext_after m X p n : ptext (after m X p n) = concat (rev p).
Proof. reflexivity. Qed.
Lemma after_set_pend m p : set_pend p m = after m [] p (m_rep m).
Proof. destruct m; unfold after, set_rep, set_pend, set_body; simpl. rewrite app_nil_r. reflexivity. Qed.

Lemma m_ext a b : m_head a = m_head b -> m_lev a = m_lev b -> m_pend a = m_pend b ->
  m_body a = m_body b -> m_cache a = m_cache b -> m_call a = m_call b -> m_capt a = m_capt b ->
  m_filt a = m_filt b -> m_rep a = m_rep b -> a = b.
Proof. destruct a, b; simpl; intros; subst; reflexivity. Qed.

Ltac fields := cbn [m_head m_lev m_pend m_body m_cache m_call m_capt m_filt m_rep
  out after set_rep set_pend set_body set_lev set_cache set_call set_capt set_filt].
Ltac mext := apply m_ext; fields; try reflexivity.

Ltac same_m := match goal with |- run _ _ (mkS (?a :: _) _ _ _ _) = run _ _ (mkS (?b :: _) _ _ _ _) =>
  replace a with b; [reflexivity|symmetry] end.

Section Lay.
Variable G : gset.

Definition at_m (c : cs) (m : mcomp) (rest : list mcomp) (d : bool) : Prop :=
  s_act c = m :: rest /\ nested_short G c = d.

(** The whole claim for a template. *)
Definition P (t : tm) : Prop := forall d c m rest k,
  sane G d t = true -> at_m c m rest d ->
  exists X p sl sl0,
    run G (events t k) c
    = run G k (mkS (after m X p (m_rep m + reps d t) :: rest)
                   (s_fin c ++ flat G (meths G d t)) (s_open c) sl sl0)
    /\ (forall q, layout (m_lev m) (prog G d (m_rep m) (ptext m) t q)
                  = X ++ wr (m_lev m) (concat (rev p)) ++ layout (m_lev m) q)
    /\ concat (rev p) = tail_text d (ptext m) t.

Definition Pm (ms : mids) : Prop :=
  (forall d c m rest k lev,
    sane_m G d ms = true -> at_m c m rest d -> m_lev m = S lev ->
    exists X p sl sl0,
      run G (events_m false ms k) c
      = run G k (mkS (after m X p (m_rep m + reps_m d ms) :: rest)
                     (s_fin c ++ flat G (meths_m G d ms)) (s_open c) sl sl0)
      /\ (forall q, wr (S lev) (ptext m) ++ layout lev (prog_m G d (m_rep m) ms q)
                    = X ++ wr (S lev) (concat (rev p)) ++ layout lev q))
  /\ (forall d c m rest k,
    sane_m G d ms = true -> at_m c m rest d -> m_pend m = [] ->
    exists X sl sl0,
      run G (events_m true ms k) c
      = run G k (mkS (after m X [] (m_rep m + reps_m d ms) :: rest)
                     (s_fin c ++ flat G (meths_m G d ms)) (s_open c) sl sl0)
      /\ (forall q, layout (m_lev m) (prog_m G d (m_rep m) ms q)
                    = X ++ layout (m_lev m) q)).

Definition Pp (ps : parts) : Prop := forall d c m rest k cd st cur,
  sane_p G d ps = true -> at_m c m rest d ->
  m_call m = cd :: st -> cd_cur cd = Some cur ->
  exists X p sl sl0 cur',
    run G (events_p ps k) c
    = run G k (mkS (set_call (mkCall (cd_id cd) (cd_fn cd) (cd_args cd) (cd_lc cd) (Some cur') :: st)
                     (after m X p (m_rep m + reps_p d ps)) :: rest)
                   (s_fin c ++ flat G (meths_p G d ps)) (s_open c) sl sl0)
    /\ (forall q, wr (m_lev m) (ptext m) ++ layout (m_lev m) (prog_p G d (m_rep m) (cd_id cd) cur ps q)
                  = X ++ wr (m_lev m) (concat (rev p))
                    ++ layout (m_lev m) (arg_next (cd_id cd) cur' q)).

Lemma on_top_ok f c m rest m' : s_act c = m :: rest -> f m = Ok m' ->
  on_top f c = Ok (mkS (m' :: rest) (s_fin c) (s_open c) (s_sl c) (s_sl0 c)).
Proof. intros A F. unfold on_top. rewrite A, F. reflexivity. Qed.

Lemma on_top_mk f m rest fi op sl sl0 : on_top f (mkS (m :: rest) fi op sl sl0)
  = bind (f m) (fun m' => Ok (mkS (m' :: rest) fi op sl sl0)).
Proof. reflexivity. Qed.

(** A statement that only adds to the active method. *)
Lemma simple_step (r : tm) e d c m rest k f m1 X :
  P r -> sane G d r = true -> at_m c m rest d ->
  step G e c = on_top f c -> f m = Ok m1 -> m1 = out (wr (m_lev m) (ptext m) ++ X) m ->
  exists Y p sl sl0,
    run G (Ev e (events r k)) c
    = run G k (mkS (after m (wr (m_lev m) (ptext m) ++ X ++ Y) p (m_rep m + reps d r) :: rest)
                   (s_fin c ++ flat G (meths G d r)) (s_open c) sl sl0)
    /\ (forall q, layout (m_lev m) (prog G d (m_rep m) [] r q)
                  = Y ++ wr (m_lev m) (concat (rev p)) ++ layout (m_lev m) q)
    /\ concat (rev p) = tail_text d [] r.
Proof.
  intros IH Hr [A N] St Fm ->. cbn [run]. rewrite St.
  rewrite (on_top_ok _ _ _ _ _ A Fm). cbn [bind].
  match goal with |- context [run G (events r k) ?c1] =>
    destruct (IH d c1 _ _ k Hr (conj eq_refl N)) as (Y & p & sl & sl0 & R & Q & T) end.
  rewrite R. exists Y, p, sl, sl0. split; [|split].
  - cbn [s_fin s_open]. rewrite out_after, after_after, <- app_assoc. reflexivity.
  - exact Q.
  - exact T.
Qed.

Lemma nested_ext c c' : s_open c' = s_open c -> nested_short G c' = nested_short G c.
Proof. intros E. unfold nested_short, open_defs. rewrite E. reflexivity. Qed.

Lemma nested_push c n : n <> L "def" ->
  nested_short G (set_open (n :: s_open c) c) = nested_short G c.
Proof.
  intros H. unfold nested_short, open_defs. cbn [s_open set_open filter].
  destruct (str_eqb (L "def") n) eqn:E; [|reflexivity].
  apply str_eqb_eq in E. subst. congruence.
Qed.

Lemma bop_not_def o : oname (bop_open o) <> L "def".
Proof. destruct o; discriminate. Qed.
Lemma rop_not_def o : oname (rop_open o) <> L "def".
Proof. destruct o; discriminate. Qed.

(** Opening a block directive. *)
Lemma open_bop o lc m :
  open_code G (bop_open o) [] lc m
  = Ok (out (hd_chunks (m_lev m) (ptext m) (bop_head (m_rep m) o) (bop_note o lc))
            (set_lev (S (m_lev m)) (set_rep (m_rep m + bop_count o) m))).
Proof.
  assert (E : set_rep (m_rep m + 0) m = m) by (destruct m; unfold set_rep; simpl; rewrite Nat.add_0_r; reflexivity).
  destruct o; cbn [bop_open open_code bop_count bop_head bop_note]; rewrite add_indenting_out, ?E;
    try reflexivity.
  cbn [m_lev set_rep]. rewrite Nat.add_1_r. reflexivity.
Qed.

Lemma open_long_bop o lc c m rest : s_act c = m :: rest ->
  open_long G (bop_open o) [] lc c
  = Ok (mkS (out (hd_chunks (m_lev m) (ptext m) (bop_head (m_rep m) o) (bop_note o lc))
                 (set_lev (S (m_lev m)) (set_rep (m_rep m + bop_count o) m)) :: rest)
            (s_fin c) (oname (bop_open o) :: s_open c) (s_sl c) (s_sl0 c)).
Proof.
  intros A.
  assert (E : open_long G (bop_open o) [] lc c
              = on_top (open_code G (bop_open o) [] lc) (set_open (oname (bop_open o) :: s_open c) c))
    by (destruct o; reflexivity).
  rewrite E. erewrite on_top_ok; [|exact A|apply open_bop]. reflexivity.
Qed.

Lemma open_short_bop o lc c m rest : s_act c = m :: rest -> exists mem,
  open_short G (bop_open o) [] lc c
  = Ok (mkS (out (hd_chunks (m_lev m) (ptext m) (bop_head (m_rep m) o) (bop_note o lc))
                 (set_lev (S (m_lev m)) (set_rep (m_rep m + bop_count o) m)) :: rest)
            (s_fin c) (s_open c) (s_sl c) (s_sl0 c), mem).
Proof.
  intros A. exists (nested_short G c, s_sl c).
  assert (E : open_short G (bop_open o) [] lc c
              = bind (on_top (open_code G (bop_open o) [] lc) c)
                     (fun c' => Ok (c', (nested_short G c, s_sl c))))
    by (destruct o; reflexivity).
  rewrite E. erewrite on_top_ok; [|exact A|apply open_bop]. reflexivity.
Qed.

Lemma close_bop o m lev : m_lev m = S lev ->
  close_code G (oname (bop_open o)) m = Ok (set_lev lev (out (wr (S lev) (ptext m)) m)).
Proof.
  intros E. assert (C : close_code G (oname (bop_open o)) m = dedent (commit m)) by (destruct o; reflexivity).
  rewrite C, commit_out. unfold dedent. rewrite lev_out, E. reflexivity.
Qed.

Lemma pop_same n c st : s_open c = n :: st -> pop_open n c = Ok (set_open st c).
Proof. intros E. unfold pop_open. rewrite E, str_eqb_refl. reflexivity. Qed.

Lemma end_bop o c m rest st lev : s_act c = m :: rest -> s_open c = oname (bop_open o) :: st ->
  m_lev m = S lev ->
  end_long G (oname (bop_open o)) c
  = Ok (mkS (set_lev lev (out (wr (S lev) (ptext m)) m) :: rest) (s_fin c) st (s_sl c) (s_sl0 c)).
Proof.
  intros A O E.
  assert (D : end_long G (oname (bop_open o)) c
              = bind (pop_open (oname (bop_open o)) c) (fun c => on_top (close_code G (oname (bop_open o))) c))
    by (destruct o; reflexivity).
  rewrite D, (pop_same _ _ _ O). cbn [bind].
  erewrite on_top_ok; [|exact A|apply close_bop; exact E]. reflexivity.
Qed.

(** Opening a region. *)
Definition in_region (o : rop) (id : pystr) (lc : N * N) (m : mcomp) : mcomp :=
  match o with
  | RCache ci => set_lev (S (m_lev m)) (set_cache (cid ci id :: m_cache m) m)
  | RCall fn args => set_call (mkCall id fn args lc None :: m_call m) m
  | RCapture v => set_capt ((id, v) :: m_capt m) m
  | RFilter _ _ => set_filt (id :: m_filt m) m
  end.

Lemma open_rop o id lc m : exists X,
  open_code G (rop_open o) id lc m = Ok (out (wr (m_lev m) (ptext m) ++ X) (in_region o id lc m))
  /\ forall b k, layout (m_lev m) (region_start G o id lc b k)
       = X ++ layout (m_lev (in_region o id lc m)) b
         ++ match o with RCache _ => layout (m_lev m) k | _ => [] end.
Proof.
  destruct o; cbn [rop_open open_code in_region].
  - destruct (start_cache_out G ci id lc m) as (X & E & F). exists X. rewrite E. split; [reflexivity|].
    exact F.
  - eexists. rewrite start_call_out. split; [reflexivity|]. intros b k. unfold region_start.
    rewrite !layout_lines. cbn [layout m_lev set_call]. rewrite !app_nil_r. reflexivity.
  - eexists. rewrite start_capture_out. split; [reflexivity|]. intros b k. unfold region_start.
    rewrite !layout_lines. cbn [layout m_lev set_capt]. rewrite !app_nil_r. reflexivity.
  - eexists. rewrite set_filter_out. split; [reflexivity|]. intros b k. unfold region_start.
    cbn [m_lev set_filt]. rewrite app_nil_r.
    destruct klass; [reflexivity|]. destruct (str_eqb (lower f) (L "none")); reflexivity.
Qed.

(** Closing a region that was opened in [m] and in which only code was added. *)
Lemma close_rop o id lc m X p n : exists Y,
  close_code G (oname (rop_open o)) (after (in_region o id lc m) X p n)
  = Ok (after m (X ++ wr (m_lev (in_region o id lc m)) (concat (rev p)) ++ Y) [] n)
  /\ forall k, match o with
               | RCache _ => layout (m_lev (in_region o id lc m)) (region_end G o id lc k)
                             ++ layout (m_lev m) (region_after o id k)
               | _ => layout (m_lev m) (region_end G o id lc k)
               end = Y ++ layout (m_lev m) k.
Proof.
  destruct o; cbn [rop_open oname in_region].
  - set (i := cid ci id).
    exists (map (ch (S (m_lev m))) [GRestTrans i; GWriteTrans; GData i; GSetData i; GWriteData; GDelData;
             GDel TgCache i; GDel TgOrig i]
            ++ map (ch (m_lev m)) [GComment (L "## END CACHE REGION: " ++ i); GBlank]).
    split.
    + change (close_code G (L "cache")) with end_cache. unfold end_cache.
      cbn [m_cache after set_rep set_pend set_body set_lev set_cache].
      rewrite adds_out by discriminate. unfold bind, dedent. rewrite lev_out.
      cbn [m_lev after set_rep set_pend set_body set_lev set_cache].
      rewrite set_lev_out. unfold add. rewrite !add_gl_out'.
      cbn [m_lev after set_rep set_pend set_body set_lev set_cache].
      apply f_equal. mext. unfold ptext. fields.
      repeat (rewrite <- app_assoc; cbn [app map]). reflexivity.
    + intros k. unfold region_end, region_after. fold (cid ci id). fold i. cbv zeta.
      rewrite !layout_lines. cbn [layout m_lev set_lev]. rewrite app_nil_r, app_assoc. reflexivity.
  - eexists. split.
    + change (close_code G (L "call")) with (end_call G). unfold end_call.
      cbn [m_call after set_rep set_pend set_body set_call cd_id cd_cur cd_fn cd_args cd_lc].
      rewrite adds_out by discriminate. unfold add. rewrite !add_gl_out', add_filtered_out, !add_gl_out'.
      apply f_equal. mext. unfold ptext. fields.
      repeat rewrite <- app_assoc. reflexivity.
    + intros k. unfold region_end, call_reset. rewrite !layout_lines, layout_show. cbn [layout].
      unfold call_tail. rewrite layout_lines. repeat (rewrite <- app_assoc; cbn [app map]).
      reflexivity.
  - eexists. split.
    + change (close_code G (L "capture")) with end_capture. unfold end_capture.
      cbn [m_capt after set_rep set_pend set_body set_capt].
      rewrite adds_out by discriminate.
      apply f_equal. mext. unfold ptext. fields.
      repeat rewrite <- app_assoc. reflexivity.
    + intros k. unfold region_end. rewrite layout_lines. reflexivity.
  - exists [ch (m_lev m) (GFiltRest id)]. split.
    + change (close_code G (L "filter")) with close_filter. unfold close_filter.
      cbn [m_filt after set_rep set_pend set_body set_filt]. unfold add. rewrite add_gl_out.
      apply f_equal. mext. unfold ptext. fields.
      repeat rewrite <- app_assoc. reflexivity.
    + reflexivity.
Qed.

Lemma cs_eta c m rest : s_act c = m :: rest ->
  c = mkS (m :: rest) (s_fin c) (s_open c) (s_sl c) (s_sl0 c).
Proof. destruct c; simpl. intros ->. reflexivity. Qed.

Lemma after_id m : after m [] (m_pend m) (m_rep m + 0) = m.
Proof.
  destruct m; unfold after, set_rep, set_pend, set_body; simpl.
  rewrite app_nil_r, Nat.add_0_r. reflexivity.
Qed.

Lemma P_nil : P TNil.
Proof.
  intros d c m rest k _ [A N]. exists [], (m_pend m), (s_sl c), (s_sl0 c).
  cbn [events reps meths flat map prog tail_text]. rewrite after_id, app_nil_r.
  split; [rewrite <- (cs_eta c m rest A); reflexivity|]. split; [|reflexivity].
  intros q. rewrite layout_flush. reflexivity.
Qed.

Lemma P_text s cut r : P r -> P (TText s cut r).
Proof.
  intros IH d c m rest k Hs [A N]. cbn [sane] in Hs.
  assert (R0 : run G (events (TText s cut r) k) c
    = run G (events r k) (set_act (set_pend (text_of s cut :: m_pend m) m :: rest) c)).
  { cbn [events run step]. rewrite (on_top_ok (fun m => Ok (add_text s m)) c m rest _ A eq_refl). cbn [bind].
    destruct cut; cbn [text_of].
    - cbn [run step]. rewrite on_top_mk. cbn [bind].
      unfold strip_ws, add_text. cbn [m_pend set_pend]. rewrite handle_ws_cut. reflexivity.
    - reflexivity. }
  rewrite R0.
  destruct (IH d (set_act (set_pend (text_of s cut :: m_pend m) m :: rest) c) _ rest k Hs
              (conj eq_refl N)) as (X & p & sl & sl0 & R & Q & T).
  exists X, p, sl, sl0. rewrite R.
  assert (Ep : ptext (set_pend (text_of s cut :: m_pend m) m) = ptext m ++ text_of s cut).
  { unfold ptext. cbn [m_pend set_pend]. apply concat_rev_cons. }
  split; [reflexivity|]. cbn [prog tail_text]. split.
  - intros q. rewrite <- Ep. exact (Q q).
  - rewrite T, Ep. reflexivity.
Qed.

Lemma P_rem s r : P r -> P (TRem s r).
Proof.
  intros IH d c m rest k Hs H. cbn [sane] in Hs. cbn [events].
  destruct (simple_step r (EComment s) d c m rest k _ _
              [ch (m_lev m) (GComment (L "#" ++ repeat 32%N (g_offset G) ++ s))]
              IH Hs H eq_refl eq_refl (add_gl_out _ m)) as (Y & p & sl & sl0 & R & Q & T).
  eexists _, p, sl, sl0. split; [exact R|]. split; [|exact T].
  intros q. cbn [prog reps]. rewrite layout_flush. cbn [layout]. rewrite Q.
  repeat (rewrite <- app_assoc; cbn [app]). reflexivity.
Qed.

Lemma P_slurp r : P r -> P (TSlurp r).
Proof.
  intros IH d c m rest k Hs H. cbn [sane] in Hs. cbn [events].
  assert (C : commit m = out (wr (m_lev m) (ptext m) ++ []) m) by (rewrite app_nil_r; apply commit_out).
  destruct (simple_step r ESlurp d c m rest k (fun m => Ok (commit m)) _ []
              IH Hs H eq_refl eq_refl C) as (Y & p & sl & sl0 & R & Q & T).
  eexists _, p, sl, sl0. split; [exact R|]. split; [|exact T].
  intros q. cbn [prog reps]. rewrite layout_flush. rewrite Q.
  repeat (rewrite <- app_assoc; cbn [app]). reflexivity.
Qed.

Lemma placeholder_out e fa raw lc sil m : exists X,
  add_placeholder G e fa raw lc sil m = Ok (out (wr (m_lev m) (ptext m) ++ X) m)
  /\ forall k,
     layout (m_lev m)
      (let tail := if g_rowcol G then L " # from " ++ at_lc lc ++ L "." else [] in
       if sil then CPart HTry [] (show_code G (XUser e) fa raw (Some lc) [] CNil)
                     (CPart HNotFound tail CNil k)
       else show_code G (XUser e) fa raw (Some lc) tail k) = X ++ layout (m_lev m) k.
Proof.
  unfold add_placeholder. destruct sil.
  - eexists. split.
    + rewrite add_gl_out. unfold indent. rewrite set_lev_out, add_filtered_out.
      cbn [m_lev set_lev out set_pend set_body]. unfold dedent. rewrite lev_out. cbn [m_lev set_lev].
      unfold bind. rewrite set_lev_out, set_lev_twice, set_lev_same, add_gl_out'.
      instantiate (1 := mkC (m_lev m) (Hd HTry) [] :: layout (S (m_lev m))
             (show_code G (XUser e) fa raw (Some lc) [] CNil)
             ++ [mkC (m_lev m) (Hd HNotFound) (if g_rowcol G then L " # from " ++ at_lc lc ++ L "." else [])]).
      destruct (g_rowcol G); [rewrite note_out|]; repeat (rewrite <- app_assoc; cbn [app]); reflexivity.
    + intros k. cbn [layout]. cbv zeta. cbn [layout app]. rewrite <- app_assoc. reflexivity.
  - exists (layout (m_lev m) (show_code G (XUser e) fa raw (Some lc)
              (if g_rowcol G then L " # from " ++ at_lc lc ++ L "." else []) CNil)).
    rewrite add_filtered_pend. unfold bind. split.
    + destruct (g_rowcol G); [rewrite show_note|]; reflexivity.
    + intros k. cbv zeta. rewrite layout_show. reflexivity.
Qed.

Lemma P_place e fa raw lc sil r : P r -> P (TPlace e fa raw lc sil r).
Proof.
  intros IH d c m rest k Hs H. cbn [sane] in Hs. cbn [events].
  destruct (placeholder_out e fa raw lc sil m) as (X & E & F).
  destruct (simple_step r (EPlace e fa raw lc sil) d c m rest k _ _ X
              IH Hs H eq_refl E eq_refl) as (Y & p & sl & sl0 & R & Q & T).
  eexists _, p, sl, sl0. split; [exact R|]. split; [|exact T].
  intros q. cbn [prog reps]. cbv zeta. rewrite layout_flush. cbv zeta in F. rewrite F, Q.
  repeat (rewrite <- app_assoc; cbn [app]). reflexivity.
Qed.

Lemma expr_push_ok e c : word_ok e = true -> expr_push e c = Ok c.
Proof.
  unfold word_ok, expr_push. destruct (split_ws (strip e)) as [|w l]; [discriminate|].
  intros H. apply negb_true_iff in H. rewrite H. reflexivity.
Qed.

Lemma P_expr x e r : P r -> P (TExpr x e r).
Proof.
  intros IH d c m rest k Hs H. cbn [sane] in Hs. apply andb_true_iff in Hs as [W Hs].
  cbn [events].
  set (f := fun m => Ok (E := gerr)
        (match x with
         | KEcho => add_filtered G (XUser e) [] [] None m
         | KStop => add GStop m
         | _ => add (GStmt e) m
         end)).
  assert (St : step G (EExpr x e) c = on_top f c).
  { cbn [step]. rewrite (expr_push_ok e c W). reflexivity. }
  set (C := fun k => match x with
               | KEcho => show_code G (XUser e) [] [] None [] k
               | KStop => CLine GStop [] k
               | _ => CLine (GStmt e) [] k
               end).
  assert (F : f m = Ok (out (wr (m_lev m) (ptext m) ++ layout (m_lev m) (C CNil)) m)).
  { unfold f, C. destruct x; rewrite ?add_filtered_pend; unfold add; rewrite ?add_gl_out; reflexivity. }
  destruct (simple_step r _ d c m rest k f _ _ IH Hs H St F eq_refl) as (Y & p & sl & sl0 & R & Q & T).
  eexists _, p, sl, sl0. split; [exact R|]. split; [|exact T].
  intros q. cbn [prog reps]. cbv zeta. rewrite layout_flush.
  change (wr (m_lev m) (ptext m) ++ layout (m_lev m) (C (prog G d (m_rep m) [] r q))
          = (wr (m_lev m) (ptext m) ++ layout (m_lev m) (C CNil) ++ Y) ++ wr (m_lev m) (concat (rev p)) ++ layout (m_lev m) q).
  assert (E : layout (m_lev m) (C (prog G d (m_rep m) [] r q))
              = layout (m_lev m) (C CNil) ++ layout (m_lev m) (prog G d (m_rep m) [] r q)).
  { unfold C. destruct x; try reflexivity. apply layout_show. }
  rewrite E, Q. repeat (rewrite <- app_assoc; cbn [app]). reflexivity.
Qed.

Lemma P_set g lv op rv r : P r -> P (TSet g lv op rv r).
Proof.
  intros IH d c m rest k Hs H. cbn [sane] in Hs. cbn [events].
  destruct (simple_step r (ESet g lv op rv) d c m rest k _ _ [ch (m_lev m) _]
              IH Hs H eq_refl eq_refl (add_gl_out _ m)) as (Y & p & sl & sl0 & R & Q & T).
  eexists _, p, sl, sl0. split; [exact R|]. split; [|exact T].
  intros q. cbn [prog reps]. rewrite layout_flush. cbn [layout]. rewrite Q.
  repeat (rewrite <- app_assoc; cbn [app]). reflexivity.
Qed.

Lemma P_tern a b e lc r : P r -> P (TTern a b e lc r).
Proof.
  intros IH d c m rest k Hs H. cbn [sane] in Hs. cbn [events].
  set (X := mkC (m_lev m) (Hd (HIf false a)) (gen_from lc)
            :: layout (S (m_lev m)) (show_code G (XUser b) [] [] None [] CNil)
            ++ mkC (m_lev m) (Hd HElse) []
            :: layout (S (m_lev m)) (show_code G (XUser e) [] [] None [] CNil)).
  assert (F : add_ternary G a b e lc m = Ok (out (wr (m_lev m) (ptext m) ++ X) m)).
  { unfold add_ternary. rewrite add_indenting_out, add_filtered_out. unfold dedent at 1.
    rewrite lev_out. cbn [m_lev set_lev]. unfold bind.
    rewrite set_lev_out, set_lev_twice, set_lev_same.
    rewrite add_indenting_out, ptext_out, lev_out. unfold hd_chunks. rewrite wr_nil.
    rewrite set_lev_out, out_out, add_filtered_out. unfold dedent. rewrite lev_out. cbn [m_lev set_lev].
    rewrite set_lev_out, set_lev_twice, set_lev_same. unfold X.
    repeat (rewrite <- app_assoc; cbn [app]). reflexivity. }
  destruct (simple_step r (ETern a b e lc) d c m rest k _ _ X IH Hs H eq_refl F eq_refl)
    as (Y & p & sl & sl0 & R & Q & T).
  eexists _, p, sl, sl0. split; [exact R|]. split; [|exact T].
  intros q. cbn [prog reps]. rewrite layout_flush. cbn [layout]. rewrite Q. unfold X.
  repeat (rewrite <- app_assoc; cbn [app]). reflexivity.
Qed.

(** ** Blocks *)

Lemma P_blk short o lc b ms r : P b -> Pm ms -> P r -> P (TBlk short o lc b ms r).
Proof.
  intros IHb [IHl IHs] IHr d c m rest k Hs [A N]. cbn [sane] in Hs.
  apply andb_true_iff in Hs as [Hs Hr]. apply andb_true_iff in Hs as [Hb Hm].
  set (n1 := (m_rep m + bop_count o)%nat).
  set (H0 := hd_chunks (m_lev m) (ptext m) (bop_head (m_rep m) o) (bop_note o lc)).
  set (m1 := out H0 (set_lev (S (m_lev m)) (set_rep n1 m))).
  destruct short; cbn [events run].
  - destruct (open_short_bop o lc c m rest A) as (mem & E). rewrite E. clear E. cbn [bind fst snd].
    fold n1. fold H0. fold m1.
    destruct (IHb d (mkS (m1 :: rest) (s_fin c) (s_open c) (s_sl c) (s_sl0 c)) m1 rest Done Hb
                (conj eq_refl (eq_trans (nested_ext c _ eq_refl) N)))
      as (Xb & pb & sl & sl0 & Rb & Qb & _).
    rewrite Rb. cbn [run bind]. clear Rb.
    set (m2 := after m1 Xb pb (m_rep m1 + reps d b)).
    assert (Cl : forall c', s_act c' = m2 :: rest -> close_short G (bop_open o) mem c'
       = Ok (mkS (set_lev (m_lev m) (out (wr (S (m_lev m)) (ptext m2)) m2) :: rest)
                 (s_fin c') (s_open c') (s_sl c') (s_sl0 c'))).
    { intros c' A'.
      assert (D : close_short G (bop_open o) mem c' = on_top (close_code G (oname (bop_open o))) c')
        by (destruct o; reflexivity).
      rewrite D. erewrite on_top_ok; [|exact A'|apply close_bop; reflexivity]. reflexivity. }
    rewrite Cl by reflexivity. cbn [bind s_fin s_open s_sl s_sl0].
    set (m3 := set_lev (m_lev m) (out (wr (S (m_lev m)) (ptext m2)) m2)).
    match goal with |- context [run G (events_m true ms ?k) ?c1] =>
      destruct (IHs d c1 m3 rest k Hm (conj eq_refl (eq_trans (nested_ext c _ eq_refl) N)) eq_refl)
        as (Xm & sl1 & sl2 & Rm & Qm) end.
    rewrite Rm. clear Rm. cbn [s_fin s_open].
    match goal with |- context [run G (events r k) ?c1] =>
      destruct (IHr d c1 _ rest k Hr (conj eq_refl (eq_trans (nested_ext c _ eq_refl) N)))
        as (Xr & pr & sl3 & sl4 & Rr & Qr & Tr) end.
    rewrite Rr. clear Rr.
    exists (H0 ++ (Xb ++ wr (S (m_lev m)) (concat (rev pb))) ++ Xm ++ Xr), pr, sl3, sl4.
    split; [|split].
    + cbn [s_fin s_open meths reps]. rewrite !flat_app, !app_assoc. do 2 f_equal.
      f_equal.
      unfold m3, m2, m1. mext; unfold n1, ptext; fields; [|lia].
      repeat rewrite <- app_assoc. reflexivity.
    + intros q. cbn [prog]. cbv zeta. rewrite layout_flush. cbn [layout].
      fold n1. pose proof (Qb CNil) as Qb'. change (ptext m1) with (@nil BinNums.N) in Qb'.
      change (m_lev m1) with (S (m_lev m)) in Qb'. change (m_rep m1) with n1 in Qb'.
      rewrite Qb'. cbn [layout]. rewrite app_nil_r.
      pose proof (fun q => Qm q) as Qm'. change (m_lev m3) with (m_lev m) in Qm'.
      change (m_rep m3) with (n1 + reps d b)%nat in Qm'. rewrite Qm'.
      pose proof (Qr q) as Qr'. change (ptext (after m3 _ [] _)) with (@nil BinNums.N) in Qr'.
      change (m_lev (after m3 _ [] _)) with (m_lev m) in Qr'.
      change (m_rep (after m3 _ [] _)) with (n1 + reps d b + reps_m d ms)%nat in Qr'.
      rewrite Qr'. unfold H0, hd_chunks.
      repeat (rewrite <- app_assoc; cbn [app]). reflexivity.
    + rewrite Tr. reflexivity.
  - cbn [step]. rewrite (open_long_bop o lc c m rest A). cbn [bind]. fold n1. fold H0. fold m1.
    assert (N1 : forall c', s_open c' = oname (bop_open o) :: s_open c -> nested_short G c' = d).
    { intros c' E. rewrite <- N. rewrite <- (nested_push c _ (bop_not_def o)). apply nested_ext. exact E. }
    match goal with |- context [run G (events b ?k) ?c1] =>
      destruct (IHb d c1 m1 rest k Hb (conj eq_refl (N1 c1 eq_refl)))
        as (Xb & pb & sl & sl0 & Rb & Qb & _) end.
    rewrite Rb. clear Rb. cbn [s_fin s_open].
    set (m2 := after m1 Xb pb (m_rep m1 + reps d b)).
    match goal with |- context [run G (events_m false ms ?k) ?c1] =>
      destruct (IHl d c1 m2 rest k (m_lev m) Hm (conj eq_refl (N1 c1 eq_refl)) eq_refl)
        as (Xm & pm & sl1 & sl2 & Rm & Qm) end.
    rewrite Rm. clear Rm. cbn [s_fin s_open run step].
    set (m3 := after m2 Xm pm (m_rep m2 + reps_m d ms)).
    match goal with |- context [end_long G _ ?c1] =>
      rewrite (end_bop o c1 m3 rest (s_open c) (m_lev m) eq_refl eq_refl eq_refl) end.
    cbn [bind s_fin s_open s_sl s_sl0].
    match goal with |- context [run G (events r k) ?c1] =>
      destruct (IHr d c1 _ rest k Hr (conj eq_refl (eq_trans (nested_ext c _ eq_refl) N)))
        as (Xr & pr & sl3 & sl4 & Rr & Qr & Tr) end.
    rewrite Rr. clear Rr.
    exists (H0 ++ Xb ++ Xm ++ wr (S (m_lev m)) (concat (rev pm)) ++ Xr), pr, sl3, sl4.
    split; [|split].
    + cbn [s_fin s_open meths reps]. rewrite !flat_app, !app_assoc. do 2 f_equal.
      f_equal.
      unfold m3, m2, m1. mext; unfold n1, ptext; fields; [|lia].
      repeat rewrite <- app_assoc. reflexivity.
    + intros q. cbn [prog]. cbv zeta. rewrite layout_flush. cbn [layout].
      fold n1. pose proof (Qb CNil) as Qb'. change (ptext m1) with (@nil BinNums.N) in Qb'.
      change (m_lev m1) with (S (m_lev m)) in Qb'. change (m_rep m1) with n1 in Qb'.
      rewrite Qb'. cbn [layout]. rewrite app_nil_r.
      change (concat (rev pb)) with (ptext m2).
      pose proof (fun q => Qm q) as Qm'. change (m_rep m2) with (n1 + reps d b)%nat in Qm'.
      rewrite <- (app_assoc Xb). rewrite Qm'.
      pose proof (Qr q) as Qr'. change (ptext (set_lev _ (out _ m3))) with (@nil BinNums.N) in Qr'.
      change (m_lev (set_lev _ (out _ m3))) with (m_lev m) in Qr'.
      change (m_rep (set_lev _ (out _ m3))) with (n1 + reps d b + reps_m d ms)%nat in Qr'.
      rewrite Qr'. unfold H0, hd_chunks.
      repeat (rewrite <- app_assoc; cbn [app]). reflexivity.
    + rewrite Tr. reflexivity.
Qed.

Lemma Pm_nil : Pm MNil.
Proof.
  split.
  - intros d c m rest k lev _ [A N] E. exists [], (m_pend m), (s_sl c), (s_sl0 c).
    cbn [events_m reps_m meths_m flat map prog_m]. rewrite after_id, app_nil_r.
    split; [rewrite <- (cs_eta c m rest A); reflexivity|]. reflexivity.
  - intros d c m rest k _ [A N] E. exists [], (s_sl c), (s_sl0 c).
    cbn [events_m reps_m meths_m flat map prog_m]. rewrite <- E, after_id, app_nil_r.
    split; [rewrite <- (cs_eta c m rest A); reflexivity|]. reflexivity.
Qed.

Lemma Pm_cons x lc b ms : P b -> Pm ms -> Pm (MCons x lc b ms).
Proof.
  intros IHb [IHl IHs]. split.
  - intros d c m rest k lev Hs [A N] E. cbn [sane_m] in Hs. apply andb_true_iff in Hs as [Hb Hm].
    cbn [events_m run step].
    set (m1 := out (wr (S lev) (ptext m) ++ [mkC lev (Hd (mid_head x)) (gen_from lc)]) m).
    assert (F : add_reindenting (mid_head x) true lc m = Ok m1).
    { unfold add_reindenting. rewrite commit_out. unfold dedent. rewrite lev_out, E.
      unfold bind. rewrite add_indenting_out. rewrite set_lev_out, ptext_out.
      cbn [m_lev set_lev out set_pend set_body]. unfold hd_chunks. rewrite wr_nil.
      unfold m1. rewrite set_lev_out, out_out, set_lev_twice, <- E, set_lev_same. reflexivity. }
    rewrite (on_top_ok _ c m rest m1 A F). cbn [bind].
    match goal with |- context [run G (events b ?k) ?c1] =>
      destruct (IHb d c1 m1 rest k Hb (conj eq_refl (eq_trans (nested_ext c _ eq_refl) N)))
        as (Xb & pb & sl & sl0 & Rb & Qb & _) end.
    rewrite Rb. clear Rb. cbn [s_fin s_open].
    set (m2 := after m1 Xb pb (m_rep m1 + reps d b)).
    match goal with |- context [run G (events_m false ms ?k) ?c1] =>
      destruct (IHl d c1 m2 rest k lev Hm (conj eq_refl (eq_trans (nested_ext c _ eq_refl) N)) E)
        as (Xm & pm & sl1 & sl2 & Rm & Qm) end.
    rewrite Rm. clear Rm. cbn [s_fin s_open].
    exists (wr (S lev) (ptext m) ++ [mkC lev (Hd (mid_head x)) (gen_from lc)] ++ Xb ++ Xm), pm, sl1, sl2.
    split.
    + cbn [reps_m meths_m]. rewrite flat_app, (app_assoc (s_fin c)). same_m.
      unfold m2, m1. rewrite out_after, !after_after. cbn [m_rep after set_rep].
      rewrite Nat.add_assoc. repeat rewrite <- app_assoc. reflexivity.
    + intros q. cbn [prog_m layout].
      change (m_rep m) with (m_rep m1).
      change (m_rep m1 + reps d b)%nat with (m_rep m2).
      assert (E1 : m_lev m1 = S lev) by exact E.
      pose proof (Qb CNil) as Qb'. rewrite E1 in Qb'. change (ptext m1) with (@nil BinNums.N) in Qb'.
      rewrite Qb'. cbn [layout]. rewrite app_nil_r.
      change (concat (rev pb)) with (ptext m2).
      repeat (rewrite <- app_assoc; cbn [app]). rewrite (Qm q). reflexivity.
  - intros d c m rest k Hs [A N] E. cbn [sane_m] in Hs. apply andb_true_iff in Hs as [Hb Hm].
    cbn [events_m run step].
    set (m1 := out [mkC (m_lev m) (Hd (mid_head x)) (gen_from lc)] (set_lev (S (m_lev m)) m)).
    assert (F : add_reindenting (mid_head x) false lc m = Ok m1).
    { unfold add_reindenting. rewrite commit_out. unfold bind. rewrite add_indenting_out, ptext_out.
      cbn [m_lev out set_pend set_body]. unfold hd_chunks, ptext. rewrite wr_nil, E. cbn [rev concat].
      rewrite wr_nil.
      unfold m1. rewrite set_lev_out, out_out. reflexivity. }
    rewrite (on_top_ok _ c m rest m1 A F). cbn [bind].
    match goal with |- context [run G (events b ?k) ?c1] =>
      destruct (IHb d c1 m1 rest k Hb (conj eq_refl (eq_trans (nested_ext c _ eq_refl) N)))
        as (Xb & pb & sl & sl0 & Rb & Qb & _) end.
    rewrite Rb. clear Rb. cbn [s_fin s_open run bind].
    set (m2 := after m1 Xb pb (m_rep m1 + reps d b)).
    assert (F2 : dedent (commit m2) = Ok (set_lev (m_lev m) (out (wr (S (m_lev m)) (ptext m2)) m2))).
    { rewrite commit_out. reflexivity. }
    rewrite on_top_mk. cbv beta. rewrite F2. cbn [bind s_fin s_open s_sl s_sl0].
    set (m3 := set_lev (m_lev m) (out (wr (S (m_lev m)) (ptext m2)) m2)).
    match goal with |- context [run G (events_m true ms ?k) ?c1] =>
      destruct (IHs d c1 m3 rest k Hm (conj eq_refl (eq_trans (nested_ext c _ eq_refl) N)) eq_refl)
        as (Xm & sl1 & sl2 & Rm & Qm) end.
    rewrite Rm. clear Rm. cbn [s_fin s_open].
    exists ([mkC (m_lev m) (Hd (mid_head x)) (gen_from lc)] ++ (Xb ++ wr (S (m_lev m)) (ptext m2)) ++ Xm), sl1, sl2.
    split.
    + cbn [reps_m meths_m]. rewrite flat_app, (app_assoc (s_fin c)). same_m.
      unfold m3, m2, m1. mext; unfold ptext; fields; [|lia].
      repeat rewrite <- app_assoc. reflexivity.
    + intros q. cbn [prog_m layout].
      change (m_rep m) with (m_rep m1).
      pose proof (Qb CNil) as Qb'. change (ptext m1) with (@nil BinNums.N) in Qb'.
      cbn [m_lev m1 out set_lev set_pend set_body] in Qb'.
      rewrite Qb'. cbn [layout]. rewrite app_nil_r.
      change (concat (rev pb)) with (ptext m2).
      change (m_rep m1 + reps d b)%nat with (m_rep m3).
      pose proof (Qm q) as Qm'. cbn [m_lev m3 set_lev] in Qm'. rewrite Qm'.
      repeat (rewrite <- app_assoc; cbn [app]). reflexivity.
Qed.

(** ** Arguments of a call *)

Lemma Pp_nil : Pp PNil.
Proof.
  intros d c m rest k cd st cur _ [A N] Ec Eu.
  exists [], (m_pend m), (s_sl c), (s_sl0 c), cur.
  cbn [events_p reps_p meths_p flat map prog_p]. rewrite after_id, app_nil_r.
  split; [|intros q; reflexivity].
  assert (E : set_call (mkCall (cd_id cd) (cd_fn cd) (cd_args cd) (cd_lc cd) (Some cur) :: st) m = m).
  { rewrite <- Eu. destruct cd, m. simpl in Ec. subst. reflexivity. }
  rewrite E, <- (cs_eta c m rest A). reflexivity.
Qed.

Lemma Pp_cons a b ps : P b -> Pp ps -> Pp (PCons a b ps).
Proof.
  intros IHb IHp d c m rest k cd st cur Hs [A N] Ec Eu. cbn [sane_p] in Hs.
  apply andb_true_iff in Hs as [Hb Hp]. cbn [events_p run step].
  set (Xa := map (ch (m_lev m)) [GKwsSet (cd_id cd) cur; GDel TgCall (cd_id cd);
               GCollect TgCall (cd_id cd); GWriteTo TgCall (cd_id cd)]).
  set (m1 := set_call (mkCall (cd_id cd) (cd_fn cd) (cd_args cd) (cd_lc cd) (Some a) :: st)
               (out (wr (m_lev m) (ptext m) ++ Xa) m)).
  assert (F : set_call_arg a m = Ok m1).
  { unfold set_call_arg. rewrite Ec, Eu. unfold end_call_arg. rewrite adds_out by discriminate.
    reflexivity. }
  rewrite (on_top_ok _ c m rest m1 A F). cbn [bind].
  match goal with |- context [run G (events b ?k) ?c1] =>
    destruct (IHb d c1 m1 rest k Hb (conj eq_refl (eq_trans (nested_ext c _ eq_refl) N)))
      as (Xb & pb & sl & sl0 & Rb & Qb & _) end.
  rewrite Rb. clear Rb. cbn [s_fin s_open].
  set (m2 := after m1 Xb pb (m_rep m1 + reps d b)).
  match goal with |- context [run G (events_p ps ?k) ?c1] =>
    destruct (IHp d c1 m2 rest k _ _ a Hp (conj eq_refl (eq_trans (nested_ext c _ eq_refl) N)) eq_refl eq_refl)
      as (Xp & pp & sl1 & sl2 & cur' & Rp & Qp) end.
  rewrite Rp. clear Rp. cbn [s_fin s_open cd_id cd_fn cd_args cd_lc] in *.
  exists ((wr (m_lev m) (ptext m) ++ Xa) ++ Xb ++ Xp), pp, sl1, sl2, cur'.
  split.
  - cbn [reps_p meths_p]. rewrite flat_app, (app_assoc (s_fin c)). same_m.
    unfold m2, m1. mext; [|lia].
    repeat rewrite <- app_assoc. reflexivity.
  - intros q. cbn [prog_p]. unfold arg_next at 1. rewrite layout_lines. fold Xa.
    pose proof (Qb (prog_p G d (m_rep m2) (cd_id cd) a ps q)) as Qb'.
    change (ptext m1) with (@nil BinNums.N) in Qb'. change (m_lev m1) with (m_lev m) in Qb'.
    change (m_rep m1) with (m_rep m) in Qb'.
    change (m_rep m + reps d b)%nat with (m_rep m2).
    rewrite Qb'.
    change (concat (rev pb)) with (ptext m2).
    pose proof (Qp q) as Qp'. change (m_lev m2) with (m_lev m) in Qp'. rewrite Qp'.
    repeat (rewrite <- app_assoc; cbn [app]). reflexivity.
Qed.

(** ** Regions *)

Lemma open_long_rop o id lc c :
  open_long G (rop_open o) id lc c
  = on_top (open_code G (rop_open o) id lc) (set_open (oname (rop_open o) :: s_open c) c).
Proof. destruct o; reflexivity. Qed.
Lemma end_long_rop o c :
  end_long G (oname (rop_open o)) c
  = bind (pop_open (oname (rop_open o)) c) (fun c => on_top (close_code G (oname (rop_open o))) c).
Proof. destruct o; reflexivity. Qed.

Lemma layout_region o id lc m Xo Y b bodyX :
  (forall b k, layout (m_lev m) (region_start G o id lc b k)
       = Xo ++ layout (m_lev (in_region o id lc m)) b
         ++ match o with RCache _ => layout (m_lev m) k | _ => [] end) ->
  (forall k, match o with
               | RCache _ => layout (m_lev (in_region o id lc m)) (region_end G o id lc k)
                             ++ layout (m_lev m) (region_after o id k)
               | _ => layout (m_lev m) (region_end G o id lc k)
               end = Y ++ layout (m_lev m) k) ->
  (forall q, layout (m_lev (in_region o id lc m)) (b q)
             = bodyX ++ layout (m_lev (in_region o id lc m)) q) ->
  forall k, layout (m_lev m) (region_start G o id lc (b (region_end G o id lc (region_after o id k)))
              (region_after o id k))
            = Xo ++ bodyX ++ Y ++ layout (m_lev m) k.
Proof.
  intros F E B k. rewrite F, B. f_equal. rewrite <- app_assoc. f_equal.
  destruct o; cbn [region_after] in *; try (rewrite app_nil_r; exact (E k)).
  rewrite <- (E k). f_equal.
Qed.

Lemma P_reg short o id lc b r : P b -> P r -> P (TReg short o id lc b r).
Proof.
  intros IHb IHr d c m rest k Hs [A N]. cbn [sane] in Hs. apply andb_true_iff in Hs as [Hb Hr].
  destruct (open_rop o id lc m) as (Xo & Fo & Lo).
  set (m1 := out (wr (m_lev m) (ptext m) ++ Xo) (in_region o id lc m)).
  assert (R1 : exists Xb pb fin' Y,
      (forall q, layout (m_lev (in_region o id lc m)) (prog G d (m_rep m) [] b q)
               = (Xb ++ wr (m_lev (in_region o id lc m)) (concat (rev pb)))
                 ++ layout (m_lev (in_region o id lc m)) q)
      /\ (forall k, match o with
               | RCache _ => layout (m_lev (in_region o id lc m)) (region_end G o id lc k)
                             ++ layout (m_lev m) (region_after o id k)
               | _ => layout (m_lev m) (region_end G o id lc k)
               end = Y ++ layout (m_lev m) k)
      /\ fin' = s_fin c ++ flat G (meths G d b)
      /\ exists sl sl0, run G (events (TReg short o id lc b r) k) c
         = run G (events r k)
             (mkS (after m (wr (m_lev m) (ptext m) ++ Xo
                            ++ (Xb ++ wr (m_lev (in_region o id lc m)) (concat (rev pb))) ++ Y) []
                         (m_rep m + reps d b) :: rest) fin' (s_open c) sl sl0)).
  { destruct short; cbn [events run].
    - assert (E : open_short G (rop_open o) id lc c
              = bind (on_top (open_code G (rop_open o) id lc) c)
                     (fun c' => Ok (c', (nested_short G c, s_sl c))))
        by (destruct o; reflexivity).
      rewrite E. clear E. rewrite (on_top_ok _ c m rest m1 A Fo). cbn [bind fst snd].
      match goal with |- context [run G (events b Done) ?c1] =>
        destruct (IHb d c1 m1 rest Done Hb (conj eq_refl (eq_trans (nested_ext c _ eq_refl) N)))
          as (Xb & pb & sl & sl0 & Rb & Qb & _) end.
      rewrite Rb. clear Rb. cbn [run bind s_fin s_open].
      destruct (close_rop o id lc m ((wr (m_lev m) (ptext m) ++ Xo) ++ Xb) pb (m_rep m + reps d b)) as (Y & Fc & Lc).
      exists Xb, pb, (s_fin c ++ flat G (meths G d b)), Y.
      split; [|split; [exact Lc|split; [reflexivity|]]].
      { intros q. pose proof (Qb q) as Qb'. change (ptext m1) with (@nil BinNums.N) in Qb'.
        change (m_lev m1) with (m_lev (in_region o id lc m)) in Qb'.
        assert (Er : m_rep m1 = m_rep m) by (destruct o; reflexivity). rewrite Er in Qb'.
        rewrite Qb'. apply app_assoc. }
      assert (E : forall mem c', close_short G (rop_open o) mem c' = on_top (close_code G (oname (rop_open o))) c')
        by (intros; destruct o; reflexivity).
      rewrite E. clear E.
      exists sl, sl0.
      assert (Fc' : close_code G (oname (rop_open o)) (after m1 Xb pb (m_rep m1 + reps d b))
         = Ok (after m (((wr (m_lev m) (ptext m) ++ Xo) ++ Xb) ++
                wr (m_lev (in_region o id lc m)) (concat (rev pb)) ++ Y) [] (m_rep m + reps d b))).
      { rewrite <- Fc. f_equal. unfold m1. rewrite out_after, after_after.
        assert (Er : m_rep (in_region o id lc m) = m_rep m) by (destruct o; reflexivity).
        cbn [m_rep after set_rep]. rewrite Er. reflexivity. }
      rewrite on_top_mk, Fc'. cbn [bind s_fin s_open s_sl s_sl0].
      repeat rewrite <- app_assoc. reflexivity.
    - cbn [step]. rewrite open_long_rop.
      rewrite (on_top_ok _ (set_open (oname (rop_open o) :: s_open c) c) m rest m1 A Fo). cbn [bind s_fin s_open set_open].
      assert (N1 : forall c', s_open c' = oname (rop_open o) :: s_open c -> nested_short G c' = d).
      { intros c' E. rewrite <- N. rewrite <- (nested_push c _ (rop_not_def o)). apply nested_ext. exact E. }
      match goal with |- context [run G (events b ?k) ?c1] =>
        destruct (IHb d c1 m1 rest k Hb (conj eq_refl (N1 c1 eq_refl)))
          as (Xb & pb & sl & sl0 & Rb & Qb & _) end.
      rewrite Rb. clear Rb. cbn [run step bind s_fin s_open].
      destruct (close_rop o id lc m ((wr (m_lev m) (ptext m) ++ Xo) ++ Xb) pb (m_rep m + reps d b)) as (Y & Fc & Lc).
      exists Xb, pb, (s_fin c ++ flat G (meths G d b)), Y.
      split; [|split; [exact Lc|split; [reflexivity|]]].
      { intros q. pose proof (Qb q) as Qb'. change (ptext m1) with (@nil BinNums.N) in Qb'.
        change (m_lev m1) with (m_lev (in_region o id lc m)) in Qb'.
        assert (Er : m_rep m1 = m_rep m) by (destruct o; reflexivity). rewrite Er in Qb'.
        rewrite Qb'. apply app_assoc. }
      rewrite end_long_rop.
      match goal with |- context [pop_open _ ?c1] => rewrite (pop_same _ c1 (s_open c) eq_refl) end. unfold set_open. cbn [bind s_act s_fin s_open s_sl s_sl0].
      exists sl, sl0.
      assert (Fc' : close_code G (oname (rop_open o)) (after m1 Xb pb (m_rep m1 + reps d b))
         = Ok (after m (((wr (m_lev m) (ptext m) ++ Xo) ++ Xb) ++
                wr (m_lev (in_region o id lc m)) (concat (rev pb)) ++ Y) [] (m_rep m + reps d b))).
      { rewrite <- Fc. f_equal. unfold m1. rewrite out_after, after_after.
        assert (Er : m_rep (in_region o id lc m) = m_rep m) by (destruct o; reflexivity).
        cbn [m_rep after set_rep]. rewrite Er. reflexivity. }
      rewrite on_top_mk, Fc'. cbn [bind s_fin s_open s_sl s_sl0].
      repeat rewrite <- app_assoc. reflexivity. }
  destruct R1 as (Xb & pb & fin' & Y & Qb & Lc & -> & sl & sl0 & R1). rewrite R1. clear R1.
  match goal with |- context [run G (events r k) ?c1] =>
    destruct (IHr d c1 _ rest k Hr (conj eq_refl (eq_trans (nested_ext c _ eq_refl) N)))
      as (Xr & pr & sl3 & sl4 & Rr & Qr & Tr) end.
  rewrite Rr. clear Rr.
  eexists _, pr, sl3, sl4. split; [|split].
  - cbn [s_fin s_open meths reps]. rewrite flat_app, (app_assoc (s_fin c)), after_after.
    cbn [m_rep after set_rep]. rewrite Nat.add_assoc. reflexivity.
  - intros q. cbn [prog]. cbv zeta. rewrite layout_flush.
    rewrite (layout_region o id lc m Xo Y _ _ Lo Lc Qb).
    pose proof (Qr q) as Qr'. change (ptext (after m _ [] _)) with (@nil BinNums.N) in Qr'.
    cbn [m_rep m_lev after set_rep set_pend set_body] in Qr'.
    rewrite Qr'. repeat (rewrite <- app_assoc; cbn [app]). reflexivity.
  - rewrite Tr. reflexivity.
Qed.

(** ** [#call] with arguments *)

Lemma end_call_kw id fn args lc cur m X p n : exists Y,
  end_call G (set_call (mkCall id fn args lc (Some cur) :: m_call m) (after m X p n))
  = Ok (after m (X ++ wr (m_lev m) (concat (rev p)) ++ Y) [] n)
  /\ forall k, layout (m_lev m)
       (arg_next id cur (call_reset id (show_code G (XCallKw fn args id) [] [] None []
          (CLine (GDel TgKws id) [] (call_tail fn id lc k)))))
     = Y ++ layout (m_lev m) k.
Proof.
  eexists. split.
  - unfold end_call. cbn [m_call set_call cd_id cd_cur cd_fn cd_args cd_lc].
    unfold end_call_arg.
    rewrite (adds_out [GKwsSet id cur; GDel TgCall id; GCollect TgCall id; GWriteTo TgCall id])
      by discriminate. rewrite adds_out'.
    unfold add. rewrite add_filtered_out, !add_gl_out'.
    apply f_equal. mext. unfold ptext. fields. repeat rewrite <- app_assoc. reflexivity.
  - intros k. unfold arg_next, call_reset. rewrite !layout_lines, layout_show. cbn [layout].
    unfold call_tail. rewrite layout_lines. repeat (rewrite <- app_assoc; cbn [app map]).
    reflexivity.
Qed.

Lemma P_call fn args id lc a b more r : P b -> Pp more -> P r -> P (TCall fn args id lc a b more r).
Proof.
  intros IHb IHp IHr d c m rest k Hs [A N]. cbn [sane] in Hs.
  apply andb_true_iff in Hs as [Hs Hr]. apply andb_true_iff in Hs as [Hb Hp].
  destruct (open_rop (RCall fn args) id lc m) as (Xo & Fo & Lo).
  set (m1 := out (wr (m_lev m) (ptext m) ++ Xo) (in_region (RCall fn args) id lc m)).
  cbn [events run step].
  change (open_long G (OCall fn args) id lc c) with (open_long G (rop_open (RCall fn args)) id lc c).
  rewrite open_long_rop.
  rewrite (on_top_ok _ (set_open (oname (rop_open (RCall fn args)) :: s_open c) c) m rest m1 A Fo).
  cbn [bind s_fin s_open set_open s_sl s_sl0]. rewrite on_top_mk.
  set (Xa := map (ch (m_lev m)) [GKwsNew id; GArgName id a]).
  set (m2 := set_call (mkCall id fn args lc (Some a) :: m_call m) (out ((wr (m_lev m) (ptext m) ++ Xo) ++ Xa) m)).
  assert (F : set_call_arg a m1 = Ok m2).
  { unfold set_call_arg. change (m_call m1) with (mkCall id fn args lc None :: m_call m).
    cbn [cd_cur cd_id cd_fn cd_args cd_lc]. unfold add, m1. rewrite !add_gl_out'.
    apply f_equal. unfold m2. mext. repeat rewrite <- app_assoc. reflexivity. }
  rewrite F. cbn [bind].
  assert (N1 : forall c', s_open c' = oname (rop_open (RCall fn args)) :: s_open c -> nested_short G c' = d).
  { intros c' E. rewrite <- N. rewrite <- (nested_push c _ (rop_not_def (RCall fn args))). apply nested_ext. exact E. }
  match goal with |- context [run G (events b ?k) ?c1] =>
    destruct (IHb d c1 m2 rest k Hb (conj eq_refl (N1 c1 eq_refl)))
      as (Xb & pb & sl & sl0 & Rb & Qb & _) end.
  rewrite Rb. clear Rb. cbn [s_fin s_open].
  set (m3 := after m2 Xb pb (m_rep m2 + reps d b)).
  match goal with |- context [run G (events_p more ?k) ?c1] =>
    destruct (IHp d c1 m3 rest k _ _ a Hp (conj eq_refl (N1 c1 eq_refl)) eq_refl eq_refl)
      as (Xp & pp & sl1 & sl2 & cur' & Rp & Qp) end.
  rewrite Rp. clear Rp. cbn [s_fin s_open cd_id cd_fn cd_args cd_lc run step] in *.
  change (L "call") with (oname (rop_open (RCall fn args))). rewrite end_long_rop.
  match goal with |- context [pop_open _ ?c1] => rewrite (pop_same _ c1 (s_open c) eq_refl) end.
  unfold set_open. cbn [bind s_act s_fin s_open s_sl s_sl0]. rewrite on_top_mk.
  set (n3 := (m_rep m + reps d b + reps_p d more)%nat).
  destruct (end_call_kw id fn args lc cur' m (((wr (m_lev m) (ptext m) ++ Xo) ++ Xa) ++ Xb ++ Xp) pp n3)
    as (Y & Fe & Le).
  change (close_code G (oname (rop_open (RCall fn args)))) with (end_call G).
  match goal with |- context [end_call G ?mm] => replace mm with
    (set_call (mkCall id fn args lc (Some cur') :: m_call m)
       (after m (((wr (m_lev m) (ptext m) ++ Xo) ++ Xa) ++ Xb ++ Xp) pp n3)) end.
  2: { unfold m3, m2. mext. repeat rewrite <- app_assoc. reflexivity. }
  rewrite Fe. cbn [bind].
  match goal with |- context [run G (events r k) ?c1] =>
    destruct (IHr d c1 _ rest k Hr (conj eq_refl (eq_trans (nested_ext c _ eq_refl) N)))
      as (Xr & pr & sl3 & sl4 & Rr & Qr & Tr) end.
  rewrite Rr. clear Rr.
  eexists _, pr, sl3, sl4. split; [|split].
  - cbn [s_fin s_open meths reps]. rewrite !flat_app, !(app_assoc (s_fin c)), after_after.
    rewrite !app_assoc. cbn [m_rep after set_rep]. unfold n3. rewrite !Nat.add_assoc. reflexivity.
  - intros q. cbn [prog]. cbv zeta. rewrite layout_flush, Lo, app_nil_r, layout_lines.
    change (m_lev (in_region (RCall fn args) id lc m)) with (m_lev m). fold Xa.
    match goal with |- context [prog G d (m_rep m) [] b ?x] => pose proof (Qb x) as Qb' end.
    change (ptext m2) with (@nil BinNums.N) in Qb'. change (m_rep m2) with (m_rep m) in Qb'.
    change (m_lev m2) with (m_lev m) in Qb'. rewrite Qb'. clear Qb'.
    change (concat (rev pb)) with (ptext m3).
    match goal with |- context [prog_p G d _ id a more ?x] => pose proof (Qp x) as Qp' end.
    change (m_rep m3) with (m_rep m + reps d b)%nat in Qp'.
    change (m_lev m3) with (m_lev m) in Qp'. rewrite Qp'. clear Qp'.
    rewrite Le.
    pose proof (Qr q) as Qr'. change (ptext (after m _ [] _)) with (@nil BinNums.N) in Qr'.
    cbn [m_rep m_lev after set_rep set_pend set_body] in Qr'. fold n3.
    rewrite Qr'. repeat (rewrite <- app_assoc; cbn [app]). reflexivity.
  - rewrite Tr. reflexivity.
Qed.

(** ** Definitions *)

Lemma add_closure_out name args rem m :
  add_closure name args rem m
  = out (hd_chunks (m_lev m) (ptext m) (HDef name args) [] ++ [ch (S (m_lev m)) (GComment (L "#" ++ rem))])
        (set_lev (S (m_lev m)) m).
Proof. unfold add_closure, add. rewrite add_indenting_out, add_gl_out'. reflexivity. Qed.

(** Closing a method of its own. *)
Lemma swallow_new name X p n c :
  swallow G (after (new_meth G name) X p n) c
  = Ok (mkS (s_act c) (s_fin c ++ [(name, X ++ wr (g_lev G) (concat (rev p)))]) (s_open c) (s_sl c) (s_sl0 c)).
Proof.
  unfold swallow, cleanup. rewrite commit_out. reflexivity.
Qed.

Lemma commit_after m X p n : commit (after m X p n) = after m (X ++ wr (m_lev m) (concat (rev p))) [] n.
Proof. rewrite commit_out, out_after, after_after. reflexivity. Qed.

Lemma close_def_new name X p n c m rest : s_act c = after (new_meth G name) X p n :: m :: rest ->
  close_def G c
  = Ok (mkS (m :: rest) (s_fin c ++ [(name, X ++ wr (g_lev G) (concat (rev p)))]) (s_open c) (s_sl c) (s_sl0 c)).
Proof.
  intros A. unfold close_def. rewrite A. rewrite commit_after, swallow_new. cbn [rev concat].
  rewrite wr_nil, app_nil_r. reflexivity.
Qed.

Lemma close_block_new name args X p n c m rest : s_act c = after (new_meth G (name, args)) X p n :: m :: rest ->
  close_block G c
  = Ok (mkS (out (wr (m_lev m) (ptext m) ++ [ch (m_lev m) (GCallBlock name)]) m :: rest)
            (s_fin c ++ [((name, args), X ++ wr (g_lev G) (concat (rev p)) ++ wr (g_lev G) (mark_end G name))])
            (s_open c) (s_sl c) (s_sl0 c)).
Proof.
  intros A. unfold close_block. rewrite A. rewrite commit_after. cbv zeta.
  change (m_head (after (new_meth G (name, args)) _ [] n)) with (name, args). cbn [fst].
  assert (E : match g_markers G with
     | Some (_, (a, b)) => add_text (a ++ name ++ b) (after (new_meth G (name, args)) (X ++ wr (m_lev (new_meth G (name, args))) (concat (rev p))) [] n)
     | None => after (new_meth G (name, args)) (X ++ wr (m_lev (new_meth G (name, args))) (concat (rev p))) [] n
     end = after (new_meth G (name, args)) (X ++ wr (m_lev (new_meth G (name, args))) (concat (rev p)))
             (match g_markers G with Some _ => [mark_end G name] | None => [] end) n).
  { unfold mark_end. destruct (g_markers G) as [[[? ?] [a b]]|]; reflexivity. }
  rewrite E. rewrite swallow_new. unfold bind.
  assert (W : concat (rev (match g_markers G with Some _ => [mark_end G name] | None => [] end)) = mark_end G name).
  { unfold mark_end. destruct (g_markers G) as [[[? ?] [a b]]|]; cbn [rev app concat]; [apply app_nil_r|reflexivity]. }
  rewrite W. unfold on_top. cbn [s_act set_act s_fin s_open s_sl s_sl0]. cbv beta iota. unfold add.
  rewrite add_gl_out. rewrite <- app_assoc. reflexivity.
Qed.

Lemma layout_meth d o name b X p : 
  (forall q, layout (g_lev G) (prog G d 0 (match o with DBlock => mark_start G name | _ => [] end) b q)
     = X ++ wr (g_lev G) (concat (rev p)) ++ layout (g_lev G) q) ->
  layout (g_lev G) (meth_code G d o name b)
  = X ++ wr (g_lev G) (concat (rev p)) ++ match o with DBlock => wr (g_lev G) (mark_end G name) | _ => [] end.
Proof.
  intros Q. unfold meth_code. destruct o; rewrite Q; reflexivity.
Qed.


Definition dd (d short : bool) (o : dop) : bool :=
  match o with DDef => d || (g_nested G && negb short) | _ => d end.

Lemma nested_long_push c : nested_long G (set_open (L "def" :: s_open c) c) = nested_short G c.
Proof. unfold nested_long, nested_short, open_defs. cbn [s_open set_open filter].
  change (str_eqb (L "def") (L "def")) with true. cbn [length]. f_equal.
Qed.

Lemma nested_true c : nested_short G c = true -> g_nested G = true.
Proof. unfold nested_short. destruct (g_nested G); [reflexivity|discriminate]. Qed.

Lemma nested_push_def c c' : s_open c' = L "def" :: s_open c ->
  nested_short G c' = nested_short G c || (g_nested G && true).
Proof.
  intros E. unfold nested_short, open_defs. rewrite E. cbn [filter].
  change (str_eqb (L "def") (L "def")) with true. cbn [length].
  destruct (g_nested G); [|reflexivity]. simpl. rewrite orb_true_r. reflexivity.
Qed.

(** Definitions that become nested functions. *)
Lemma P_nested short o name args rem b r : P b -> P r -> forall d c m rest k,
  own_method d o = false ->
  sane G d (TDef short o name args rem b r) = true -> at_m c m rest d ->
  exists X p sl sl0,
    run G (events (TDef short o name args rem b r) k) c
    = run G k (mkS (after m X p (m_rep m + reps d (TDef short o name args rem b r)) :: rest)
                   (s_fin c ++ flat G (meths G d (TDef short o name args rem b r))) (s_open c) sl sl0)
    /\ (forall q, layout (m_lev m) (prog G d (m_rep m) (ptext m) (TDef short o name args rem b r) q)
                  = X ++ wr (m_lev m) (concat (rev p)) ++ layout (m_lev m) q)
    /\ concat (rev p) = tail_text d (ptext m) (TDef short o name args rem b r).
Proof.
  intros IHb IHr d c m rest k O Hs [A N]. cbn [sane] in Hs.
  apply andb_true_iff in Hs as [Hs Hr]. apply andb_true_iff in Hs as [Hb Ht].
  fold (dd d short o) in Hb.
  assert (Ed : dd d short o = d).
  { destruct o; cbn [own_method dd] in *; try reflexivity. apply negb_false_iff in O. rewrite O. reflexivity. }
  rewrite Ed in Hb.
  set (H0 := hd_chunks (m_lev m) (ptext m) (HDef name args) [] ++ [ch (S (m_lev m)) (GComment (L "#" ++ rem))]).
  set (m1 := out H0 (set_lev (S (m_lev m)) m)).
  assert (R1 : exists Xb pb X2 p2 sl sl0,
     (forall q, layout (S (m_lev m)) (prog G d (m_rep m) [] b q)
         = Xb ++ wr (S (m_lev m)) (concat (rev pb)) ++ layout (S (m_lev m)) q)
     /\ X2 = Xb ++ wr (S (m_lev m)) (concat (rev pb)) /\ concat (rev p2) = []
     /\ run G (events (TDef short o name args rem b r) k) c
        = run G (events r k) (mkS (after m (H0 ++ X2) p2 (m_rep m + reps d b) :: rest)
              (s_fin c ++ flat G (meths G d b)) (s_open c) sl sl0)).
  { destruct short; cbn [events run].
    - assert (Op : exists sl1, open_short G (dop_open o name args rem) [] (0, 0)%N c
                = Ok (mkS (m1 :: rest) (s_fin c) (s_open c) sl1 (s_sl0 c), (nested_short G c, s_sl c))).
      { destruct o; cbn [own_method] in O; try discriminate O; unfold open_short, dop_open; cbv zeta.
        - apply negb_false_iff in O. rewrite N, O. unfold on_top. cbn [s_act set_sl]. rewrite A.
          unfold open_code, bind. rewrite add_closure_out. eexists. reflexivity.
        - unfold on_top. cbn [s_act set_sl]. rewrite A.
          unfold open_code, bind. rewrite add_closure_out. eexists. reflexivity. }
      destruct Op as (sl1 & Op). rewrite Op. clear Op. cbn [bind fst snd].
      match goal with |- context [run G (events b ?k) ?c1] =>
        destruct (IHb d c1 m1 rest k Hb (conj eq_refl (eq_trans (nested_ext c _ eq_refl) N)))
          as (Xb & pb & sl & sl0 & Rb & Qb & Tb) end.
      rewrite Rb. clear Rb. cbn [run bind s_fin s_open].
      change (ptext m1) with (@nil BinNums.N) in Tb, Qb.
      assert (Tn : tail_text d [] b = []).
      { destruct o; cbn [own_method] in *; try discriminate O.
        - rewrite O in Ht. cbn [orb] in Ht. destruct (tail_text d [] b); [reflexivity|discriminate].
        - cbn [orb] in Ht. destruct (tail_text d [] b); [reflexivity|discriminate]. }
      rewrite Tn in Tb.
      assert (Cl : forall c', s_act c' = after m1 Xb pb (m_rep m1 + reps d b) :: rest ->
         exists sl2, close_short G (dop_open o name args rem) (nested_short G c, s_sl c) c'
         = Ok (mkS (set_lev (m_lev m) (after m1 Xb pb (m_rep m1 + reps d b)) :: rest)
                   (s_fin c') (s_open c') sl2 (s_sl0 c'))).
      { intros c' A'. destruct o; cbn [own_method] in O; try discriminate O; unfold close_short, dop_open.
        - apply negb_false_iff in O. assert (N' : nested_short G c = true) by (rewrite N; exact O).
          rewrite N'. cbn [fst snd]. unfold on_top. cbn [s_act set_sl]. rewrite A'.
          eexists. reflexivity.
        - cbn [fst snd]. unfold on_top. cbn [s_act set_sl]. rewrite A'. eexists. reflexivity. }
      match goal with |- context [close_short G _ _ ?c1] => destruct (Cl c1 eq_refl) as (sl2 & Cl') end.
      rewrite Cl'. cbn [bind s_fin s_open s_sl s_sl0].
      exists Xb, pb, Xb, pb, sl2, sl0. split; [exact Qb|]. split; [|split; [exact Tb|]].
      + transitivity (Xb ++ []); [symmetry; apply app_nil_r|].
        f_equal. symmetry. exact (f_equal (wr (S (m_lev m))) Tb).
      + same_m. unfold m1. mext. rewrite <- app_assoc. reflexivity.
    - cbn [step].
      assert (Op : exists sl1 sl2, open_long G (dop_open o name args rem) [] (0, 0)%N c
                = Ok (mkS (m1 :: rest) (s_fin c) (oname (dop_open o name args rem) :: s_open c) sl1 sl2)).
      { destruct o; cbn [own_method] in O; try discriminate O; unfold open_long, dop_open; cbv zeta.
        - apply negb_false_iff in O. cbn [oname]. rewrite nested_long_push, N, O. unfold on_top.
          cbn [s_act set_sl save_sl set_open]. rewrite A.
          unfold open_code, bind. rewrite add_closure_out. eexists _, _. reflexivity.
        - unfold on_top. cbn [s_act set_sl save_sl set_open]. rewrite A.
          unfold open_code, bind. rewrite add_closure_out. eexists _, _. reflexivity. }
      destruct Op as (sl1 & sl2 & Op). rewrite Op. clear Op. cbn [bind].
      assert (N1 : forall c', s_open c' = oname (dop_open o name args rem) :: s_open c -> nested_short G c' = d).
      { intros c' E. destruct o; cbn [own_method] in O; try discriminate O; cbn [dop_open oname] in E.
        - apply negb_false_iff in O. rewrite (nested_push_def c c' E), N, O. reflexivity.
        - rewrite <- N. rewrite <- (nested_push c (L "closure")) by discriminate. apply nested_ext. exact E. }
      match goal with |- context [run G (events b ?k) ?c1] =>
        destruct (IHb d c1 m1 rest k Hb (conj eq_refl (N1 c1 eq_refl)))
          as (Xb & pb & sl & sl0 & Rb & Qb & Tb) end.
      rewrite Rb. clear Rb. cbn [run step s_fin s_open].
      change (ptext m1) with (@nil BinNums.N) in Qb.
      assert (Cl : forall c', s_act c' = after m1 Xb pb (m_rep m1 + reps d b) :: rest ->
         s_open c' = oname (dop_open o name args rem) :: s_open c ->
         exists sl2, end_long G (oname (dop_open o name args rem)) c'
         = Ok (mkS (set_lev (m_lev m) (out (wr (S (m_lev m)) (concat (rev pb))) (after m1 Xb pb (m_rep m1 + reps d b))) :: rest)
                   (s_fin c') (s_open c) sl2 (s_sl0 c'))).
      { intros c' A' O'. unfold end_long. 
        destruct o; cbn [own_method] in O; try discriminate O; cbn [dop_open oname] in *.
        - apply negb_false_iff in O.
          change (mem_str (L "def") closeable) with true. cbv iota. rewrite (pop_same _ _ _ O').
          unfold bind at 1. change (str_eqb (L "def") (L "def")) with true. cbv iota.
          assert (N' : nested_short G c = true) by (rewrite N; exact O).
          rewrite (nested_ext c (set_open (s_open c) c') eq_refl), N'. unfold on_top.
          cbn [s_act set_sl set_open]. rewrite A'.
          rewrite commit_out. eexists. reflexivity.
        - change (mem_str (L "closure") closeable) with true. cbv iota. rewrite (pop_same _ _ _ O').
          unfold bind at 1. change (str_eqb (L "closure") (L "def")) with false.
          change (str_eqb (L "closure") (L "block")) with false.
          change (str_eqb (L "closure") (L "closure")) with true. cbv iota.
          unfold on_top. cbn [s_act set_sl set_open]. rewrite A'.
          change (close_code G (L "closure")) with (fun m => dedent (commit m)). cbv beta.
          rewrite commit_out. eexists. reflexivity. }
      match goal with |- context [end_long G _ ?c1] => destruct (Cl c1 eq_refl eq_refl) as (sl3 & Cl') end.
      rewrite Cl'. cbn [bind s_fin s_open s_sl s_sl0].
      exists Xb, pb, (Xb ++ wr (S (m_lev m)) (concat (rev pb))), [], sl3, sl0.
      split; [exact Qb|]. split; [reflexivity|]. split; [reflexivity|].
      same_m. unfold m1. mext. repeat rewrite <- app_assoc. reflexivity. }
  destruct R1 as (Xb & pb & X2 & p2 & sl & sl0 & Qb & -> & E2 & R1). rewrite R1. clear R1.
  match goal with |- context [run G (events r k) ?c1] =>
    destruct (IHr d c1 _ rest k Hr (conj eq_refl (eq_trans (nested_ext c _ eq_refl) N)))
      as (Xr & pr & sl3 & sl4 & Rr & Qr & Tr) end.
  rewrite Rr. clear Rr.
  assert (Ep : forall X n, ptext (after m X p2 n) = []) by (intros; exact E2).
  rewrite Ep in Qr, Tr.
  eexists _, pr, sl3, sl4. split; [|split].
  - cbn [s_fin s_open meths reps]. cbv zeta. fold (dd d short o). rewrite Ed, O. cbn [app].
    rewrite !flat_app, !(app_assoc (s_fin c)), after_after.
    cbn [m_rep after set_rep]. rewrite !Nat.add_assoc. reflexivity.
  - intros q. cbn [prog]. cbn [m_rep m_lev after set_rep set_pend set_body] in Qr.
    assert (Pr : match o with
                 | DBlock => flush (ptext m) (CLine (GCallBlock name) [] (prog G d (m_rep m) [] r q))
                 | _ => if own_method d o then prog G d (m_rep m) (ptext m) r q
                        else flush (ptext m) (CPart (HDef name args) []
                               (CLine (GComment (L "#" ++ rem)) [] (prog G d (m_rep m) [] b CNil))
                               (prog G d (m_rep m + reps d b) [] r q))
                 end = flush (ptext m) (CPart (HDef name args) []
                               (CLine (GComment (L "#" ++ rem)) [] (prog G d (m_rep m) [] b CNil))
                               (prog G d (m_rep m + reps d b) [] r q))).
    { rewrite O. destruct o; [reflexivity|reflexivity|discriminate O]. }
    rewrite Pr. rewrite layout_flush. cbn [layout]. rewrite Qb, Qr. cbn [layout]. unfold H0, hd_chunks.
    rewrite app_nil_r. repeat (rewrite <- app_assoc; cbn [app]). reflexivity.
  - rewrite Tr. cbn [tail_text]. destruct o; cbn [own_method] in O |- *; rewrite ?O; try reflexivity; discriminate O.
Qed.

(** Definitions that become methods. *)
Lemma P_own short o name args rem b r : P b -> P r -> forall d c m rest k,
  own_method d o = true ->
  sane G d (TDef short o name args rem b r) = true -> at_m c m rest d ->
  exists X p sl sl0,
    run G (events (TDef short o name args rem b r) k) c
    = run G k (mkS (after m X p (m_rep m + reps d (TDef short o name args rem b r)) :: rest)
                   (s_fin c ++ flat G (meths G d (TDef short o name args rem b r))) (s_open c) sl sl0)
    /\ (forall q, layout (m_lev m) (prog G d (m_rep m) (ptext m) (TDef short o name args rem b r) q)
                  = X ++ wr (m_lev m) (concat (rev p)) ++ layout (m_lev m) q)
    /\ concat (rev p) = tail_text d (ptext m) (TDef short o name args rem b r).
Proof.
  intros IHb IHr d c m rest k O Hs [A N]. cbn [sane] in Hs.
  apply andb_true_iff in Hs as [Hs Hr]. apply andb_true_iff in Hs as [Hb Ht].
  fold (dd d short o) in Hb. set (d' := dd d short o) in *.
  set (m' := match o with
             | DBlock => out (wr (m_lev m) (ptext m) ++ [ch (m_lev m) (GCallBlock name)]) m
             | _ => m
             end).
  assert (R1 : exists sl sl0,
     run G (events (TDef short o name args rem b r) k) c
        = run G (events r k) (mkS (m' :: rest)
              (s_fin c ++ flat G (meths G d' b ++ [((name, args), meth_code G d' o name b)])) (s_open c) sl sl0)).
  { set (p0 := match o with DBlock => (if short then [] else
                 match g_markers G with Some _ => [mark_start G name] | None => [] end) | _ => [] end).
    set (m0 := after (new_meth G (name, args)) [] p0 0).
    assert (P0 : ptext m0 = match o with DBlock => mark_start G name | _ => [] end).
    { unfold m0. rewrite ptext_after. unfold p0. destruct o; try reflexivity.
      destruct short.
      - apply andb_true_iff in Ht as [_ Ht]. unfold mark_start.
        destruct (g_markers G) as [[[? ?] ?]|]; [discriminate|reflexivity].
      - unfold mark_start. destruct (g_markers G) as [[[? ?] ?]|]; [|reflexivity].
        cbn [rev app concat]. apply app_nil_r. }
    destruct short; cbn [events run].
    - assert (Op : open_short G (dop_open o name args rem) [] (0, 0)%N c
                = Ok (mkS (m0 :: m :: rest) (s_fin c) (s_open c) (s_sl c) (s_sl0 c), (d, s_sl c))).
      { destruct o; cbn [own_method] in O; try discriminate O; unfold open_short, dop_open; cbv zeta.
        - rewrite N. destruct d; [discriminate O|].
          unfold start_method, set_act. rewrite A. reflexivity.
        - rewrite N. unfold start_method, set_act. rewrite A. reflexivity. }
      rewrite Op. clear Op. cbn [bind fst snd].
      assert (Nd : nested_short G c = d').
      { unfold d', dd. rewrite N. destruct o; try reflexivity. cbn [negb]. rewrite andb_false_r, orb_false_r. reflexivity. }
      match goal with |- context [run G (events b ?k) ?c1] =>
        destruct (IHb d' c1 m0 (m :: rest) k Hb (conj eq_refl (eq_trans (nested_ext c _ eq_refl) Nd)))
          as (Xb & pb & sl & sl0 & Rb & Qb & Tb) end.
      rewrite Rb. clear Rb. cbn [run bind s_fin s_open].
      change (m_rep m0) with 0%nat in *. rewrite P0 in Qb. change (m_lev m0) with (g_lev G) in Qb.
      assert (Em : after m0 Xb pb (0 + reps d' b) = after (new_meth G (name, args)) Xb pb (0 + reps d' b)) by reflexivity.
      rewrite Em. pose proof (layout_meth d' o name b Xb pb Qb) as LM.
      exists sl, sl0. unfold close_short.
      destruct o; cbn [own_method] in O; try discriminate O; cbn [dop_open].
      + destruct d; [discriminate O|]. cbn [fst].
        match goal with |- context [close_def G ?c1] =>
          rewrite (close_def_new (name, args) Xb pb _ c1 m rest eq_refl) end.
        cbn [bind s_fin s_open s_sl s_sl0]. rewrite flat_app, (app_assoc (s_fin c)). cbn [flat map fst snd].
        rewrite LM, app_nil_r. reflexivity.
      + apply andb_true_iff in Ht as [Hd Hm]. destruct d; [discriminate Hd|]. cbn [fst].
        assert (Sm : forall c, start_marker G name c = Ok c).
        { intros c'. unfold start_marker. destruct (g_markers G); [discriminate Hm|reflexivity]. }
        rewrite Sm. cbn [bind].
        match goal with |- context [close_block G ?c1] =>
          rewrite (close_block_new name args Xb pb _ c1 m rest eq_refl) end.
        cbn [bind s_fin s_open s_sl s_sl0]. rewrite flat_app, (app_assoc (s_fin c)). cbn [flat map fst snd].
        rewrite LM. reflexivity.
    - cbn [step].
      assert (Op : open_long G (dop_open o name args rem) [] (0, 0)%N c
                = Ok (mkS (m0 :: m :: rest) (s_fin c) (oname (dop_open o name args rem) :: s_open c) (s_sl c) (s_sl0 c))).
      { destruct o; cbn [own_method] in O; try discriminate O; unfold open_long, dop_open; cbv zeta; cbn [oname].
        - rewrite nested_long_push, N. destruct d; [discriminate O|].
          unfold start_method, set_act, set_open. cbn [s_act s_fin s_open s_sl s_sl0]. rewrite A. reflexivity.
        - unfold start_marker, m0, p0, mark_start.
          destruct (g_markers G) as [[[a1 a2] ?]|];
            unfold start_method, set_act, set_open; cbn [s_act s_fin s_open s_sl s_sl0]; rewrite A; reflexivity. }
      rewrite Op. clear Op. cbn [bind].
      assert (N1 : forall c', s_open c' = oname (dop_open o name args rem) :: s_open c -> nested_short G c' = d').
      { intros c' E. unfold d', dd. destruct o; cbn [own_method] in O; try discriminate O; cbn [dop_open oname] in E.
        - rewrite (nested_push_def c c' E), N. reflexivity.
        - rewrite <- N. rewrite <- (nested_push c (L "block")) by discriminate. apply nested_ext. exact E. }
      match goal with |- context [run G (events b ?k) ?c1] =>
        destruct (IHb d' c1 m0 (m :: rest) k Hb (conj eq_refl (N1 c1 eq_refl)))
          as (Xb & pb & sl & sl0 & Rb & Qb & Tb) end.
      rewrite Rb. clear Rb. cbn [run step s_fin s_open].
      change (m_rep m0) with 0%nat in *. rewrite P0 in Qb. change (m_lev m0) with (g_lev G) in Qb.
      assert (Em : after m0 Xb pb (0 + reps d' b) = after (new_meth G (name, args)) Xb pb (0 + reps d' b)) by reflexivity.
      rewrite Em. pose proof (layout_meth d' o name b Xb pb Qb) as LM.
      exists sl, sl0. unfold end_long.
      destruct o; cbn [own_method] in O; try discriminate O; cbn [dop_open oname].
      + change (mem_str (L "def") closeable) with true. cbv iota.
        match goal with |- context [pop_open _ ?c1] => rewrite (pop_same _ c1 (s_open c) eq_refl) end.
        unfold set_open. cbn [bind s_act s_fin s_open s_sl s_sl0].
        change (str_eqb (L "def") (L "def")) with true. cbv iota.
        match goal with |- context [nested_short G ?c1] =>
          rewrite (nested_ext c c1 eq_refl), N end.
        destruct d; [discriminate O|].
        match goal with |- context [close_def G ?c1] =>
          rewrite (close_def_new (name, args) Xb pb _ c1 m rest eq_refl) end.
        cbn [bind s_fin s_open s_sl s_sl0]. rewrite flat_app, (app_assoc (s_fin c)). cbn [flat map fst snd].
        rewrite LM, app_nil_r. reflexivity.
      + change (mem_str (L "block") closeable) with true. cbv iota.
        match goal with |- context [pop_open _ ?c1] => rewrite (pop_same _ c1 (s_open c) eq_refl) end.
        unfold set_open. cbn [bind s_act s_fin s_open s_sl s_sl0].
        change (str_eqb (L "block") (L "def")) with false.
        change (str_eqb (L "block") (L "block")) with true. cbv iota.
        match goal with |- context [close_block G ?c1] =>
          rewrite (close_block_new name args Xb pb _ c1 m rest eq_refl) end.
        cbn [bind s_fin s_open s_sl s_sl0]. rewrite flat_app, (app_assoc (s_fin c)). cbn [flat map fst snd].
        rewrite LM. reflexivity. }
  destruct R1 as (sl & sl0 & R1). rewrite R1. clear R1.
  match goal with |- context [run G (events r k) ?c1] =>
    destruct (IHr d c1 m' rest k Hr (conj eq_refl (eq_trans (nested_ext c _ eq_refl) N)))
      as (Xr & pr & sl3 & sl4 & Rr & Qr & Tr) end.
  rewrite Rr. clear Rr.
  exists (match o with DBlock => wr (m_lev m) (ptext m) ++ [ch (m_lev m) (GCallBlock name)] | _ => [] end ++ Xr), pr, sl3, sl4.
  split; [|split].
  - cbn [s_fin s_open meths reps]. cbv zeta. fold (dd d short o). fold d'. rewrite O.
    rewrite !flat_app, !app_assoc. same_m. unfold m'. destruct o.
    + mext.
    + mext.
    + rewrite out_after, after_after. cbn [m_rep after set_rep]. rewrite Nat.add_0_l. reflexivity.
  - intros q. pose proof (Qr q) as Qr'. cbn [prog]. unfold m' in Qr'. 
    destruct o; cbn [own_method] in O; try discriminate O.
    + unfold own_method. rewrite O. exact Qr'.
    + rewrite layout_flush. cbn [layout].
      change (ptext (out _ m)) with (@nil BinNums.N) in Qr'.
      cbn [m_lev m_rep out set_pend set_body] in Qr'. rewrite Qr'.
      repeat (rewrite <- app_assoc; cbn [app]). reflexivity.
  - rewrite Tr. cbn [tail_text]. unfold m'. destruct o; cbn [own_method] in O |- *; try discriminate O.
    + rewrite O. reflexivity.
    + reflexivity.
Qed.

Lemma P_def short o name args rem b r : P b -> P r -> P (TDef short o name args rem b r).
Proof.
  intros IHb IHr d c m rest k Hs H. destruct (own_method d o) eqn:O.
  - apply P_own; assumption.
  - apply P_nested; assumption.
Qed.

Lemma P_all : (forall t, P t) /\ (forall ms, Pm ms) /\ (forall ps, Pp ps).
Proof.
  apply tm_mids_parts; intros.
  - apply P_nil.
  - apply P_text; assumption.
  - apply P_rem; assumption.
  - apply P_slurp; assumption.
  - apply P_place; assumption.
  - apply P_expr; assumption.
  - apply P_set; assumption.
  - apply P_tern; assumption.
  - apply P_blk; assumption.
  - apply P_reg; assumption.
  - apply P_call; assumption.
  - apply P_def; assumption.
  - apply Pm_nil.
  - apply Pm_cons; assumption.
  - apply Pp_nil.
  - apply Pp_cons; assumption.
Qed.

(** The generated methods are the laid out programs. *)
Lemma compile_layout main t : sane G false t = true ->
  compile G main (events t Done)
  = Ok (flat G (meths G false t ++ [((main, []), prog G false 0 [] t CNil)])).
Proof.
  intros Hs. unfold compile.
  assert (N0 : nested_short G (start G main) = false).
  { unfold nested_short. simpl. apply andb_false_r. }
  destruct (proj1 P_all t false (start G main) (new_meth G (main, [])) [] Done Hs (conj eq_refl N0))
    as (X & p & sl & sl0 & R & Q & _).
  rewrite R. cbn [run bind s_open start s_act set_act s_fin s_sl s_sl0 close_all app].
  rewrite swallow_new. cbn [bind s_fin]. rewrite flat_app. cbn [flat map fst snd].
  pose proof (Q CNil) as Q'. change (m_lev (new_meth G (main, []))) with (g_lev G) in Q'.
  change (m_rep (new_meth G (main, []))) with 0%nat in Q'. change (ptext (new_meth G (main, []))) with (@nil N) in Q'.
  rewrite Q', app_nil_r. reflexivity.
Qed.
End Lay.
