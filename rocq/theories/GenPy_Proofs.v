(** Layout can be read back, and the code of legal templates is grammatical Python. *)
From Verif Require Import Base PyStr StrConst_Model Gen_Model Gen_Spec Gen_Proofs GenLayout_Proofs.

(** ** Reading back *)

Lemma layout_deep c : forall n x, In x (layout n c) -> (n <= c_lev x)%nat.
Proof.
  induction c as [|l nt r IH|h nt b IHb r IHr]; intros n x; cbn [layout In].
  - intros [].
  - intros [<-|H]; [apply le_n|apply IH; exact H].
  - intros [<-|H]; [apply le_n|]. apply in_app_or in H as [H|H].
    + apply IHb in H. lia.
    + apply IHr; exact H.
Qed.

(** The deeper part in front is where the suite ends. *)
Lemma split_deep n (a b : list chunk) : forall a' b',
  Forall (fun x => S n <= c_lev x)%nat a -> Forall (fun x => S n <= c_lev x)%nat a' ->
  (forall x r, b = x :: r -> c_lev x = n) -> (forall x r, b' = x :: r -> c_lev x = n) ->
  a ++ b = a' ++ b' -> a = a' /\ b = b'.
Proof.
  induction a as [|x a IH]; intros a' b' Ha Ha' Hb Hb' E.
  - destruct a' as [|y a']; [auto|]. cbn [app] in E. specialize (Hb y _ E). inversion Ha'; subst. lia.
  - destruct a' as [|y a'].
    + cbn [app] in E. specialize (Hb' x _ (eq_sym E)). inversion Ha; subst. lia.
    + cbn [app] in E. inversion Ha; inversion Ha'; subst.
      assert (E1 : x = y) by congruence. assert (E2 : a ++ b = a' ++ b') by congruence.
      destruct (IH a' b') as [-> ->]; auto. subst. auto.
Qed.

Lemma layout_first n c x r : layout n c = x :: r -> c_lev x = n.
Proof. destruct c; cbn [layout]; [discriminate|..]; intros E; assert (E1 := f_equal (hd x) E);
  cbn [hd] in E1; subst x; reflexivity. Qed.

Lemma layout_inj c : forall n c', layout n c = layout n c' -> c = c'.
Proof.
  induction c as [|l nt r IH|h nt b IHb r IHr]; intros n [|l' nt' r'|h' nt' b' r'] E; cbn [layout] in E;
    try discriminate E; try reflexivity.
  - injection E as -> -> E. f_equal. apply (IH n); exact E.
  - injection E as -> -> E.
    destruct (split_deep n (layout (S n) b) (layout n r) (layout (S n) b') (layout n r')) as [E1 E2].
    + apply Forall_forall. intros x Hx. apply (layout_deep b); exact Hx.
    + apply Forall_forall. intros x Hx. apply (layout_deep b'); exact Hx.
    + intros x q Hq. apply (layout_first n r _ _ Hq).
    + intros x q Hq. apply (layout_first n r' _ _ Hq).
    + exact E.
    + rewrite (IHb _ _ E1), (IHr _ _ E2). reflexivity.
Qed.

(** ** Indentation in the text *)
Lemma indentation_length G n : length (indentation G n) = (n * length (g_step G))%nat.
Proof.
  unfold indentation. induction n as [|n IH]; [reflexivity|]. cbn [repeat concat].
  rewrite app_length, IH. reflexivity.
Qed.

(** ** Grammar *)

Lemma has_flush p k : has_stmt (flush p k) = negb (no_text p) || has_stmt k.
Proof. destruct p; reflexivity. Qed.
Lemma has_show G x fa raw lc tail k : has_stmt (show_code G x fa raw lc tail k) = true.
Proof. unfold show_code. destruct (g_alwaysNone G), (g_useFilters G); reflexivity. Qed.

Lemma has_prog G d t : forall n p k, some_stmt d p t = true -> has_stmt (prog G d n p t k) = true.
Proof.
  induction t; intros n p kk H; cbn [some_stmt] in H; cbn [prog]; cbv zeta; try rewrite has_flush.
  - rewrite H. reflexivity.
  - apply IHt; exact H.
  - apply orb_true_iff in H as [H|H]; [apply orb_true_iff; left; exact H|].
    apply orb_true_iff; right. cbn [has_stmt]. apply IHt; exact H.
  - apply orb_true_iff in H as [H|H]; [apply orb_true_iff; left; exact H|].
    apply orb_true_iff; right. apply IHt; exact H.
  - apply orb_true_iff; right. destruct silent; [reflexivity|apply has_show].
  - apply orb_true_iff; right. destruct k; try reflexivity. apply has_show.
  - apply orb_true_iff; right. reflexivity.
  - apply orb_true_iff; right. reflexivity.
  - apply orb_true_iff; right. reflexivity.
  - apply orb_true_iff; right. destruct o; reflexivity.
  - apply orb_true_iff; right. reflexivity.
  - destruct o.
    + destruct d; cbn [own_method negb].
      * rewrite has_flush. apply orb_true_iff; right. reflexivity.
      * cbn [andb negb] in H. rewrite orb_false_r in H. apply IHt2; exact H.
    + cbn [own_method]. rewrite has_flush. apply orb_true_iff; right. reflexivity.
    + rewrite has_flush. apply orb_true_iff; right. reflexivity.
Qed.

(** Code that may follow anything finished. *)
Definition fine (k : code) : Prop := forall g, may_stop g = true -> py_ok g k = true.

Lemma fine_nil : fine CNil.
Proof. intros g H. exact H. Qed.
Lemma fine_line l nt k : fine k -> fine (CLine l nt k).
Proof. intros H g Hg. cbn [py_ok]. destruct l; try (rewrite Hg; apply H; reflexivity); apply H; exact Hg. Qed.
Lemma fine_lines l k : fine k -> fine (lines l k).
Proof. intros H. induction l as [|x l IH]; [exact H|]. apply fine_line; exact IH. Qed.
Lemma fine_flush p k : fine k -> fine (flush p k).
Proof. intros H. destruct p; [exact H|apply fine_line; exact H]. Qed.
Lemma fine_show G x fa raw lc tail k : fine k -> fine (show_code G x fa raw lc tail k).
Proof. intros H. unfold show_code. destruct (g_alwaysNone G); repeat apply fine_line; exact H. Qed.
Lemma fine_no k : fine k -> py_ok GNo k = true.
Proof. intros H. apply H. reflexivity. Qed.
Lemma fine_if k : fine k -> py_ok GIf k = true.
Proof. intros H. apply H. reflexivity. Qed.

Lemma fine_if_part h nt b k : 
  (match h with HIf _ _ | HHasFilter _ | HIsNew _ | HExpired _ | HFresh _ | HStale _ => True | _ => False end) ->
  has_stmt b = true -> py_ok GNo b = true -> py_ok GIf k = true -> fine (CPart h nt b k).
Proof.
  intros Hh H1 H2 H3 g Hg. destruct h; try destruct Hh; cbn [py_ok]; rewrite H1, H2, Hg, H3; reflexivity.
Qed.

Lemma fine_region_start G o id lc b k : fine b -> fine k -> has_stmt b = true ->
  match o with RCache _ => b = b | _ => True end -> fine (region_start G o id lc b k).
Proof.
  intros Hb Hk Hs _. destruct o; unfold region_start.
  - cbv zeta. set (i := match ci_id ci with Some (c :: r) => c :: r | _ => id end). apply fine_lines.
    apply fine_if_part; [exact I|reflexivity|reflexivity|]. apply fine_if. apply fine_line.
    apply fine_if_part; [exact I|reflexivity|reflexivity|]. apply fine_if.
    assert (F : fine (CPart (HFresh i) [] (CPart HTry [] (CLine (GRender i) [] CNil)
               (CPart HKeyErr [] (CLine (GRecache i true) [] CNil)
               (CPart HElse [] (lines [GWriteOut; GDelOut] CNil) CNil)))
              (CPart (HStale i) [] (lines ([GSaveTrans i; GCollect TgCache i; GWriteTo TgCache i]
                 ++ match ci_interval ci with Some n => [GExpiry i n] | None => [] end) b) k))).
    { apply fine_if_part; [exact I|reflexivity|reflexivity|]. apply fine_if.
      apply fine_if_part; [exact I|reflexivity| |apply fine_if; exact Hk].
      apply fine_no. apply fine_lines. exact Hb. }
    destruct (ci_test ci) as [[|c r]|]; [exact F| |exact F].
    apply fine_if_part; [exact I|reflexivity|reflexivity|]. apply fine_if. exact F.
  - apply fine_lines. exact Hb.
  - apply fine_lines. exact Hb.
  - apply fine_line. destruct klass; [apply fine_line; exact Hb|].
    destruct (str_eqb (lower f) (L "none")); [apply fine_line; exact Hb|]. apply fine_line.
    apply fine_if_part; [exact I|reflexivity|reflexivity|]. cbn [py_ok has_stmt may_stop andb].
    apply fine_no. exact Hb.
Qed.

Lemma fine_region_end G o id lc k : fine k -> fine (region_end G o id lc k).
Proof.
  intros H. destruct o; unfold region_end, call_reset, call_tail.
  - cbv zeta. apply fine_lines. apply fine_nil.
  - apply fine_lines, fine_lines, fine_show, fine_line, fine_lines. exact H.
  - apply fine_lines. exact H.
  - apply fine_line. exact H.
Qed.
Lemma has_region_end G o id lc k : has_stmt (region_end G o id lc k) = true.
Proof. destruct o; reflexivity. Qed.
Lemma fine_region_after o id k : fine k -> fine (region_after o id k).
Proof. intros H. destruct o; exact H. Qed.

Lemma has_prog_k G d t : forall n p k, has_stmt k = true -> has_stmt (prog G d n p t k) = true.
Proof.
  induction t; intros n p kk H; cbn [prog]; cbv zeta; try rewrite has_flush;
    try (apply orb_true_iff; right).
  - exact H.
  - apply IHt; exact H.
  - cbn [has_stmt]. apply IHt; exact H.
  - apply IHt; exact H.
  - destruct silent; [reflexivity|apply has_show].
  - destruct k; try reflexivity. apply has_show.
  - reflexivity.
  - reflexivity.
  - reflexivity.
  - destruct o; reflexivity.
  - reflexivity.
  - destruct o.
    + destruct d; cbn [own_method negb].
      * rewrite has_flush. apply orb_true_iff; right. reflexivity.
      * apply IHt2; exact H.
    + cbn [own_method]. rewrite has_flush. apply orb_true_iff; right. reflexivity.
    + rewrite has_flush. apply orb_true_iff; right. reflexivity.
Qed.

Section Legal.
Variable G : gset.

Definition Q (t : tm) : Prop := forall d n p k, legal G d t = true -> fine k -> fine (prog G d n p t k).
Definition Qm (ms : mids) : Prop := forall d g n k, legal_m G d g ms = true -> fine k ->
  py_ok g (prog_m G d n ms k) = true.
Definition Qp (ps : parts) : Prop := forall d n id cur k, legal_p G d ps = true -> fine k ->
  fine (prog_p G d n id cur ps k).

Lemma mid_part g m g' nt b k : mid_state g m = Some g' -> has_stmt b = true -> py_ok GNo b = true ->
  py_ok g (CPart (mid_head m) nt b k) = py_ok g' k.
Proof.
  intros E H1 H2. destruct m, g; try discriminate E; injection E as <-; cbn [mid_head py_ok];
    rewrite H1, H2; reflexivity.
Qed.

Lemma bop_part o n nt b k : has_stmt b = true -> py_ok GNo b = true -> py_ok (bop_state o) k = true ->
  fine (CPart (bop_head n o) nt b k).
Proof.
  intros H1 H2 H3 g Hg. destruct o; cbn [bop_head py_ok bop_state] in *; rewrite H1, H2, Hg, H3; reflexivity.
Qed.

Lemma legal_fine : (forall t, Q t) /\ (forall ms, Qm ms) /\ (forall ps, Qp ps).
Proof.
  apply tm_mids_parts; unfold Q, Qm, Qp.
  - intros d n p k _ Hk. apply fine_flush; exact Hk.
  - intros s cut r IH d n p k Hl Hk. cbn [legal prog] in *. apply IH; assumption.
  - intros s r IH d n p k Hl Hk. cbn [legal prog] in *. apply fine_flush, fine_line, IH; assumption.
  - intros r IH d n p k Hl Hk. cbn [legal prog] in *. apply fine_flush, IH; assumption.
  - intros e fa raw lc sil r IH d n p k Hl Hk. cbn [legal prog] in *. apply fine_flush.
    assert (F := IH d n [] k Hl Hk). destruct sil; [|apply fine_show; exact F].
    intros g Hg. cbn [py_ok]. rewrite has_show, Hg.
    rewrite (fine_no _ (fine_show _ _ _ _ _ _ _ fine_nil)). cbn [andb may_stop]. apply F. reflexivity.
  - intros x e r IH d n p k Hl Hk. cbn [legal prog] in *. cbv zeta. apply fine_flush.
    destruct x; [apply fine_show|apply fine_line..]; apply IH; assumption.
  - intros g lv op rv r IH d n p k Hl Hk. cbn [legal prog] in *. apply fine_flush, fine_line, IH; assumption.
  - intros c a b lc r IH d n p k Hl Hk. cbn [legal prog] in *. apply fine_flush.
    apply fine_if_part; [exact I|apply has_show|apply fine_no, fine_show, fine_nil|].
    cbn [py_ok]. rewrite has_show, (fine_no _ (fine_show _ _ _ _ _ _ _ fine_nil)). cbn [andb].
    apply fine_no, IH; assumption.
  - intros short o lc b IHb ms IHm r IHr d n p k Hl Hk. cbn [legal prog] in *. cbv zeta.
    apply andb_true_iff in Hl as [Hl Hr]. apply andb_true_iff in Hl as [Hl Hm].
    apply andb_true_iff in Hl as [Hs Hb].
    apply fine_flush, bop_part; [apply has_prog; exact Hs|apply fine_no, IHb; [exact Hb|apply fine_nil]|].
    apply IHm; [exact Hm|]. apply IHr; assumption.
  - intros short o id lc b IHb r IHr d n p k Hl Hk. cbn [legal prog] in *. cbv zeta.
    apply andb_true_iff in Hl as [Hb Hr]. apply fine_flush.
    assert (F : fine (region_after o id (prog G d (n + reps d b) [] r k))).
    { apply fine_region_after, IHr; assumption. }
    apply fine_region_start; [apply IHb; [exact Hb|apply fine_region_end; exact F]|exact F| |destruct o; auto].
    apply has_prog_k, has_region_end.
  - intros fn args id lc a b IHb more IHp r IHr d n p k Hl Hk. cbn [legal prog] in *. cbv zeta.
    apply andb_true_iff in Hl as [Hl Hr]. apply andb_true_iff in Hl as [Hb Hm].
    apply fine_flush, fine_region_start; [|apply fine_nil|reflexivity|exact I].
    apply fine_lines, IHb; [exact Hb|]. apply IHp; [exact Hm|]. unfold call_reset, call_tail.
    apply fine_lines, fine_show, fine_line, fine_lines, IHr; assumption.
  - intros short o name args rem b IHb r IHr d n p k Hl Hk. cbn [legal prog] in *. cbv zeta in Hl.
    apply andb_true_iff in Hl as [Hl Hr]. apply andb_true_iff in Hl as [Hs Hb].
    assert (F : forall n' p', fine (prog G d n' p' r k)) by (intros; apply IHr; assumption).
    assert (D : forall n', (match o with DDef => d | _ => d end) = d /\
       (own_method d o = false -> fine (CPart (HDef name args) [] (CLine (GComment (L "#" ++ rem)) [] (prog G d n [] b CNil)) (prog G d n' [] r k)))).
    { intros n'. split; [destruct o; reflexivity|]. intros Ho. rewrite Ho in Hs. cbn [orb] in Hs.
      assert (Ed : (match o with DDef => d || g_nested G && negb short | _ => d end) = d).
      { destruct o; try reflexivity. cbn [own_method] in Ho. destruct d; [reflexivity|discriminate Ho]. }
      rewrite Ed in Hs, Hb. intros g Hg. cbn [py_ok has_stmt].
      rewrite (has_prog _ _ _ _ _ _ Hs), Hg. cbn [andb].
      rewrite (fine_no _ (IHb d n [] CNil Hb fine_nil)). cbn [andb]. apply fine_no, F. }
    destruct o.
    + destruct (own_method d DDef) eqn:Ho; [apply F|]. apply fine_flush. apply (D _). reflexivity.
    + apply fine_flush. apply (D _). reflexivity.
    + apply fine_flush, fine_line, F.
  - intros d g n k Hl Hk. cbn [legal_m prog_m] in *. apply Hk; exact Hl.
  - intros m lc b IHb r IHr d g n k Hl Hk. cbn [legal_m prog_m] in *.
    apply andb_true_iff in Hl as [Hl Hr]. apply andb_true_iff in Hl as [Hs Hb].
    destruct (mid_state g m) as [g'|] eqn:E; [|discriminate Hr].
    rewrite (mid_part g m g' _ _ _ E); [apply IHr; assumption|apply has_prog; exact Hs|].
    apply fine_no, IHb; [exact Hb|apply fine_nil].
  - intros d n id cur k _ Hk. cbn [prog_p]. unfold arg_next. apply fine_lines; exact Hk.
  - intros a b IHb r IHr d n id cur k Hl Hk. cbn [legal_p prog_p] in *.
    apply andb_true_iff in Hl as [Hb Hr]. unfold arg_next. apply fine_lines, IHb; [exact Hb|].
    apply IHr; assumption.
Qed.

(** Every method of its own. *)
Lemma legal_meths : 
  (forall t d, legal G d t = true -> Forall (fun p => py_ok GNo (snd p) = true) (meths G d t))
  /\ (forall ms d g, legal_m G d g ms = true -> Forall (fun p => py_ok GNo (snd p) = true) (meths_m G d ms))
  /\ (forall ps d, legal_p G d ps = true -> Forall (fun p => py_ok GNo (snd p) = true) (meths_p G d ps)).
Proof.
  destruct legal_fine as [LF _].
  apply tm_mids_parts; intros; cbn [legal legal_m legal_p meths meths_m meths_p] in *; cbv zeta in *;
    try (constructor; fail); eauto;
    repeat match goal with
    | H : _ && _ = true |- _ => apply andb_true_iff in H as [? ?]
    end; repeat (apply Forall_app; split); eauto.
  - destruct (own_method d o) eqn:Ho; [|constructor]. constructor; [|constructor]. cbn [snd].
    apply fine_no. unfold meth_code. destruct o; apply LF; try assumption; try apply fine_nil.
    apply fine_flush, fine_nil.
  - destruct (mid_state g m); [eauto|discriminate].
Qed.
End Legal.
