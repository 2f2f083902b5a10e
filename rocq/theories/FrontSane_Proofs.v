(** Proofs: the structure of a template that can be written down has code. *)
From Verif Require Import Base PyStr Lex_Model Expr_Model Front_Model Front_Spec.
From Verif Require Import Gen_Model Gen_Spec.
From Verif Require GenLayout_Proofs.

Section Sane.
Variable E : env.
Local Notation G := (e_G E).

Lemma text_sane : forall d s c r, sane G d (text s c r) = sane G d r.
Proof. intros d [|a s] c r; reflexivity. Qed.

Lemma rems_sane : forall d c r, sane G d (rems c r) = sane G d r.
Proof. intros d c r. unfold rems. induction (Names_Model.splitlines c) as [|l ls IH]; [reflexivity|exact IH]. Qed.

Lemma block_word : forall x, no_block x -> word_ok x = true.
Proof.
  intros x H. unfold no_block, word_ok in *. destruct (split_ws (strip x)) as [|w l]; [contradiction|]. rewrite H. reflexivity.
Qed.

Lemma dir_sane : forall lc d x r, dir_ok E x -> sane G d (dir_tm lc x r) = sane G d r.
Proof.
  intros lc d [e|e|w|w e|g lv op e|ci tt ff] r H; cbn [dir_tm sane dir_ok] in *.
  - rewrite block_word by apply H. reflexivity.
  - rewrite block_word by apply H. reflexivity.
  - assert (K : word_ok w = true).
    { unfold words in H. cbn [map] in H. repeat (destruct H as [<-|H]; [reflexivity|]). contradiction. }
    rewrite K. reflexivity.
  - rewrite block_word by apply H. reflexivity.
  - reflexivity.
  - reflexivity.
Qed.

Lemma elab_m_cons : forall p m kc b r k l, elab_m E p (SMCons m kc b r) k l
  = MCons (mid_tm m) (e_lc E (length p))
      (elab E (p ++ show_mid m ++ show_close kc) b (print_m r ++ k) (cut_next ((p ++ show_mid m ++ show_close kc) ++ print b) r k l))
      (elab_m E ((p ++ show_mid m ++ show_close kc) ++ print b) r k l).
Proof. reflexivity. Qed.

Lemma elab_n_cons : forall p m b r, elab_n E p (SNCons m b r)
  = MCons (mid_tm m) (e_lc E (length p)) (elab E (p ++ show_mid m ++ L ": ") b [] false)
      (elab_n E ((p ++ show_mid m ++ L ": ") ++ print b) r).
Proof. reflexivity. Qed.

Lemma elab_blk : forall p s o kc b ms ke r k l, elab E p (SBlk s o kc b ms ke r) k l
  = let p0 := p ++ s in
      let p1 := p0 ++ show_blk o ++ show_close kc in
      let p2 := p1 ++ print b in
      let p3 := p2 ++ print_m ms in
      let k3 := print r ++ k in
      let e := show_end (blk_name o) ++ show_close ke in
      text s (cut p0 kc (print b ++ print_m ms ++ e ++ k3))
        (TBlk false (blk_bop o) (e_lc E (length p0))
           (elab E p1 b (print_m ms ++ e ++ k3) (cut_next p2 ms (e ++ k3) (cut p3 ke k3)))
           (elab_m E p2 ms (e ++ k3) (cut p3 ke k3))
           (elab E (p3 ++ e) r k l)).
Proof. reflexivity. Qed.

Lemma elab_one : forall p s o b ms r k l, elab E p (SOne s o b ms r) k l
  = let p0 := p ++ s in
      let p1 := p0 ++ show_blk o ++ L ": " in
      let p2 := p1 ++ print b in
      text s false
        (TBlk true (blk_bop o) (e_lc E (length p0)) (elab E p1 b [] false) (elab_n E p2 ms) (elab E (p2 ++ print_n ms) r k l)).
Proof. reflexivity. Qed.

Lemma elab_call : forall p s fn a kc ps ke r k l, elab E p (SCall s fn a kc ps ke r) k l
  = let p0 := p ++ s in
      let p1 := p0 ++ show_reg (ICall fn a) ++ show_close kc in
      let p2 := p1 ++ print_p ps in
      let k3 := print r ++ k in
      let e := show_end (L "call") ++ show_close ke in
      text s (cut p0 kc (print_p ps ++ e ++ k3))
        (called (x_code fn) (match a with Some x => x_code x | None => [] end) (e_id E (length p0)) (e_lc E (length p0))
           (elab_p E p1 ps (e ++ k3) (cut p2 ke k3)) (elab E (p2 ++ e) r k l)).
Proof. reflexivity. Qed.

Lemma elab_p_cons : forall p n kc b r k l, elab_p E p (SPCons n kc b r) k l
  = Gen_Spec.PCons n (elab E (p ++ show_part n ++ show_close kc) b (print_p r ++ k) (cut_arg r l))
      (elab_p E ((p ++ show_part n ++ show_close kc) ++ print b) r k l).
Proof. reflexivity. Qed.

Lemma called_sane : forall fn args id lc ps r d, sane G d (called fn args id lc ps r) = sane_p G d ps && sane G d r.
Proof. intros fn args id lc [|n b more] r d; [reflexivity|]. cbn [called sane sane_p]. reflexivity. Qed.

Hypothesis NM : g_markers G = None.

Lemma wf_sane : (forall t ind p k last d, (ind = false -> d = false) -> wf E ind p t k -> sane G d (elab E p t k last) = true)
  /\ (forall ms ind p k last d, (ind = false -> d = false) -> wf_m E ind p ms k -> sane_m G d (elab_m E p ms k last) = true)
  /\ (forall ms ind p k d, (ind = false -> d = false) -> wf_n E ind p ms k -> sane_m G d (elab_n E p ms) = true)
  /\ (forall ps ind p k last d, (ind = false -> d = false) -> wf_p E ind p ps k -> sane_p G d (elab_p E p ps k last) = true).
Proof.
  apply stm_smids.
  - intros s ind p k last d D H. cbn [elab]. rewrite text_sane. reflexivity.
  - intros s h r IR ind p k last d D H. cbn [elab wf] in *. cbv zeta in *. rewrite text_sane. cbn [sane]. apply (IR _ _ _ _ _ D). apply H.
  - intros s c kc r IR ind p k last d D H. cbn [elab wf] in *. cbv zeta in *. rewrite text_sane. cbn [sane]. apply (IR _ _ _ _ _ D). apply H.
  - intros s c u nl r IR ind p k last d D H. cbn [elab wf] in *. cbv zeta in *. rewrite text_sane, rems_sane. apply (IR _ _ _ _ _ D). apply H.
  - intros s b w nl r IR ind p k last d D H. cbn [elab wf] in *. cbv zeta in *. rewrite text_sane. cbn [sane]. apply (IR _ _ _ _ _ D). apply H.
  - intros s kc body w ke r IR ind p k last d D H. cbn [elab wf] in *. cbv zeta in *. rewrite text_sane. cbn [sane]. apply (IR _ _ _ _ _ D). apply H.
  - intros s u r IR ind p k last d D H. cbn [elab wf] in *. cbv zeta in *. rewrite text_sane. cbn [sane]. apply (IR _ _ _ _ _ D). apply H.
  - intros s x kc r IR ind p k last d D H. cbn [elab wf] in *. cbv zeta in *. rewrite text_sane. rewrite dir_sane by apply H.
    apply (IR _ _ _ _ _ D). apply H.
  - intros s o kc b IB ms IM ke r IR ind p k last d D H. rewrite elab_blk. cbn [wf] in H. cbv zeta in *.
    destruct H as (_ & _ & _ & _ & HB & _ & HM & _ & _ & HR). rewrite text_sane.
    cbn [sane]. apply andb_true_intro. split; [apply andb_true_intro; split|].
    + apply (IB _ _ _ _ _ D HB).
    + apply (IM _ _ _ _ _ D HM).
    + apply (IR _ _ _ _ _ D HR).
  - intros s o kc b IB ke r IR ind p k last d D H. cbn [elab wf] in *. cbv zeta in *.
    destruct H as (_ & _ & _ & _ & HB & _ & _ & HR). rewrite text_sane. cbn [sane].
    rewrite (IB _ _ _ _ _ D HB), (IR _ _ _ _ _ D HR). reflexivity.
  - intros s fn a kc ps IP ke r IR ind p k last d D H. rewrite elab_call. cbn [wf] in H. cbv zeta in *.
    destruct H as (_ & _ & _ & _ & _ & HP & _ & _ & HR). rewrite text_sane, called_sane.
    rewrite (IP _ _ _ _ _ D HP), (IR _ _ _ _ _ D HR). reflexivity.
  - intros s o n a kc b IB ke r IR ind p k last d D H. cbn [elab wf] in *. cbv zeta in *.
    destruct H as (_ & _ & _ & _ & _ & _ & HB & _ & _ & HR). rewrite text_sane. cbn [sane]. cbv zeta.
    assert (D' : match o with IDef => true | IBlock => ind end = false -> match def_dop o with DDef => d || (g_nested G && negb false) | _ => d end = false)
      by (destruct o; cbn [def_dop]; [discriminate|exact D]).
    rewrite (IB _ _ _ _ _ D' HB), (IR _ _ _ _ _ D HR). reflexivity.
  - intros s o b IB ms IM r IR ind p k last d D H. rewrite elab_one. cbn [wf] in H. cbv zeta in *.
    destruct H as (_ & _ & _ & _ & HB & HM & HR). rewrite text_sane. cbn [sane].
    apply andb_true_intro. split; [apply andb_true_intro; split|].
    + apply (IB _ _ _ _ _ D HB).
    + apply (IM _ _ _ _ D HM).
    + apply (IR _ _ _ _ _ D HR).
  - intros s o b IB r IR ind p k last d D H. cbn [elab wf] in *. cbv zeta in *.
    destruct H as (_ & _ & _ & _ & HB & HR). rewrite text_sane. cbn [sane].
    rewrite (IB _ _ _ _ _ D HB), (IR _ _ _ _ _ D HR). reflexivity.
  - intros s o n a b IB ke r IR ind p k last d D H. cbn [elab wf] in *. cbv zeta in *.
    destruct H as (_ & _ & _ & _ & I & _ & HB & _ & _ & HR). rewrite text_sane. cbn [sane]. cbv zeta.
    specialize (D I). subst d ind.
    assert (D' : match def_dop o with DDef => false || (g_nested G && negb true) | _ => false end = false)
      by (destruct o; cbn [def_dop]; [apply andb_false_r|reflexivity]).
    rewrite D', (IB _ _ _ _ _ (fun _ => eq_refl) HB), (IR _ _ _ _ _ (fun _ => eq_refl) HR).
    destruct o; cbn [def_dop]; [reflexivity|rewrite NM; reflexivity].
  - reflexivity.
  - intros m kc b IB r IR ind p k last d D H. rewrite elab_m_cons. cbn [wf_m] in H. cbv zeta in *.
    destruct H as (_ & _ & HB & _ & HR). cbn [sane_m]. apply andb_true_intro. split.
    + apply (IB _ _ _ _ _ D HB).
    + apply (IR _ _ _ _ _ D HR).
  - reflexivity.
  - intros m b IB r IR ind p k d D H. rewrite elab_n_cons. cbn [wf_n] in H. cbv zeta in *.
    destruct H as (_ & _ & _ & HB & HR). cbn [sane_m]. apply andb_true_intro. split.
    + apply (IB _ _ _ _ _ D HB).
    + apply (IR _ _ _ _ D HR).
  - reflexivity.
  - intros n kc b IB r IR ind p k last d D H. rewrite elab_p_cons. cbn [wf_p] in H. cbv zeta in *.
    destruct H as (_ & _ & HB & _ & HR). cbn [sane_p]. apply andb_true_intro. split.
    + apply (IB _ _ _ _ _ D HB).
    + apply (IR _ _ _ _ _ D HR).
Qed.

(** A template adds its methods to the finished ones, whatever is before it. *)
Lemma fin_same : forall t c c1, sane G false t = true -> s_act c <> [] -> open_defs c = 0 ->
  run G (events t Done) c = Ok c1 -> s_fin c1 = s_fin c ++ GenLayout_Proofs.flat G (meths G false t).
Proof.
  intros t c c1 S A O R. destruct (s_act c) as [|m rest] eqn:AC; [congruence|].
  assert (AT : GenLayout_Proofs.at_m G c m rest false).
  { split; [exact AC|]. unfold nested_short. rewrite O. apply andb_false_r. }
  destruct (proj1 (GenLayout_Proofs.P_all G) t false c m rest Done S AT) as (X & p & sl & sl0 & Q & _).
  rewrite Q in R. injection R as <-. reflexivity.
Qed.

Lemma runs : forall t c, sane G false t = true -> s_act c <> [] -> open_defs c = 0 ->
  exists c1, run G (events t Done) c = Ok c1.
Proof.
  intros t c S A O. destruct (s_act c) as [|m rest] eqn:AC; [congruence|].
  assert (AT : GenLayout_Proofs.at_m G c m rest false).
  { split; [exact AC|]. unfold nested_short. rewrite O. apply andb_false_r. }
  destruct (proj1 (GenLayout_Proofs.P_all G) t false c m rest Done S AT) as (X & p & sl & sl0 & Q & _).
  rewrite Q. eexists. reflexivity.
Qed.
End Sane.
