(** Proofs about loading a template by its path. *)
From Verif Require Import Base PyStr Alist Names_Model Owner_Model Owner_Spec Owner_Proofs Load_Model Load_Spec.
From Verif Require Tree_Model Tree_Proofs.
Local Open Scope list_scope.

(** ** Paths *)

Definition ne (d : pystr) : bool := match d with [] => false | _ => true end.
Definition nf (s : pystr) : list pystr := filter ne (split_char 47 s).

Lemma nf_app : forall a b, nf (a ++ 47%N :: b) = nf a ++ nf b.
Proof. intros a b. unfold nf. rewrite Tree_Proofs.split_char_app_gen, filter_app. reflexivity. Qed.

Lemma nf_part : forall d, part d -> nf d = [d].
Proof. intros d (H1 & H2). unfold nf. rewrite split_char_word by exact H2. cbn. destruct d; [congruence|reflexivity]. Qed.

Lemma nf_slashes : forall k s, nf (repeat 47%N k ++ s) = nf s.
Proof.
  induction k as [|k IH]; intros s; [reflexivity|]. cbn [repeat app].
  change (47%N :: repeat 47%N k ++ s) with ([] ++ 47%N :: (repeat 47%N k ++ s)). rewrite nf_app, IH. reflexivity.
Qed.

Lemma nf_dirs : forall ds d, Forall (fun x => part (fst x)) ds -> part d ->
  nf (flat_map (fun d => fst d ++ repeat 47%N (S (snd d))) ds ++ d) = map fst ds ++ [d].
Proof.
  induction ds as [|[x k] ds IH]; intros d H Hd; [apply nf_part; exact Hd|].
  inversion H as [|? ? Hx Hr]; subst. cbn [flat_map fst snd map app].
  rewrite <- !app_assoc. change (repeat 47%N (S k)) with (47%N :: repeat 47%N k). cbn [app]. rewrite nf_app, nf_slashes, (IH d Hr Hd), (nf_part x Hx). reflexivity.
Qed.

Lemma split_last_slash_app : forall a b, ~ In 47%N b -> Tree_Model.split_last_slash (a ++ 47%N :: b) = Some (a ++ [47%N], b).
Proof.
  induction a as [|c a IH]; intros b Hb.
  - cbn [app Tree_Model.split_last_slash]. destruct (Tree_Model.split_last_slash b) as [[x y]|] eqn:E; [|reflexivity].
    destruct (Tree_Proofs.split_last_slash_some b x y E) as (a' & Hx & Hy & _). exfalso. apply Hb. rewrite Hy, Hx.
    apply in_or_app. left. apply in_or_app. right. left. reflexivity.
  - cbn [app Tree_Model.split_last_slash]. rewrite (IH b Hb). reflexivity.
Qed.

Lemma split_last_slash_word : forall b, ~ In 47%N b -> Tree_Model.split_last_slash b = None.
Proof.
  intros b Hb. destruct (Tree_Model.split_last_slash b) as [[x y]|] eqn:E; [|reflexivity].
  destruct (Tree_Proofs.split_last_slash_some b x y E) as (a' & Hx & Hy & _). exfalso. apply Hb. rewrite Hy, Hx.
  apply in_or_app. left. apply in_or_app. right. left. reflexivity.
Qed.

Lemma rstrip_slash_snoc : forall s, Tree_Model.rstrip_slash (s ++ [47%N]) = Tree_Model.rstrip_slash s.
Proof. induction s as [|c s IH]; [reflexivity|]. cbn [app Tree_Model.rstrip_slash]. rewrite IH. reflexivity. Qed.

Lemma rstrip_slash_repeat : forall k s, Tree_Model.rstrip_slash (s ++ repeat 47%N k) = Tree_Model.rstrip_slash s.
Proof.
  induction k as [|k IH]; intros s; [cbn; rewrite app_nil_r; reflexivity|].
  replace (s ++ repeat 47%N (S k)) with ((s ++ [47%N]) ++ repeat 47%N k) by (rewrite <- app_assoc; reflexivity).
  rewrite IH. apply rstrip_slash_snoc.
Qed.

Lemma rstrip_slash_end : forall s d, part d -> Tree_Model.rstrip_slash (s ++ d) = s ++ d.
Proof.
  intros s d (Hd & Hn). induction s as [|c s IH].
  - cbn [app]. revert Hd Hn. induction d as [|c d IH]; intros Hd Hn; [congruence|]. cbn [Tree_Model.rstrip_slash].
    destruct d as [|c' d'].
    + cbn [Tree_Model.rstrip_slash]. destruct (N.eqb_spec c 47) as [->|_]; [exfalso; apply Hn; left; reflexivity|reflexivity].
    + rewrite IH; [reflexivity|discriminate|]. intros H. apply Hn. right. exact H.
  - cbn [app Tree_Model.rstrip_slash]. rewrite IH. destruct (s ++ d) as [|x r] eqn:E; [|reflexivity].
    apply app_eq_nil in E. destruct E. congruence.
Qed.

Lemma split_last_dot_word : forall b, ~ In 46%N b -> split_last_dot b = None.
Proof.
  induction b as [|c b IH]; intros Hb; [reflexivity|]. cbn [split_last_dot]. rewrite IH by (intros H; apply Hb; right; exact H).
  destruct (N.eqb_spec c 46) as [->|_]; [exfalso; apply Hb; left; reflexivity|reflexivity].
Qed.

Lemma split_last_dot_app : forall a b, ~ In 46%N b -> split_last_dot (a ++ 46%N :: b) = Some (a, 46%N :: b).
Proof.
  induction a as [|c a IH]; intros b Hb; cbn [app split_last_dot].
  - rewrite split_last_dot_word by exact Hb. reflexivity.
  - rewrite IH by exact Hb. reflexivity.
Qed.

Lemma splitext_plain : forall n e, plain_name n -> extension e -> splitext (n ++ e) = (n, e).
Proof.
  intros n e (Hn & _ & Hd) He. unfold splitext. destruct He as [->|(w & -> & _ & Hw)].
  - rewrite app_nil_r, split_last_dot_word by exact Hd. reflexivity.
  - rewrite split_last_dot_app by exact Hw. destruct n as [|c n]; [congruence|]. cbn [forallb].
    destruct (N.eqb_spec 46 c) as [E|_]; [exfalso; apply Hd; left; symmetry; exact E|reflexivity].
Qed.

Lemma file_no_slash : forall n e, plain_name n -> extension e -> ~ In 47%N (n ++ e).
Proof.
  intros n e (_ & Hn & _) He H. apply in_app_or in H. destruct H as [H|H]; [exact (Hn H)|].
  destruct He as [->|(w & -> & Hw & _)]; [exact H|]. destruct H as [H|H]; [discriminate H|exact (Hw H)].
Qed.

Lemma split_char_first : forall d s, part d -> exists r, split_char 47 (d ++ 47%N :: s) = d :: r.
Proof. intros d s (_ & H). rewrite split_char_app by exact H. eexists. reflexivity. Qed.

Lemma drop_empty_first : forall l, ne (hd [] l) = true -> drop_empty l = filter ne l.
Proof. intros [|d r] H; [reflexivity|]. cbn in H. cbn [drop_empty filter]. rewrite H. reflexivity. Qed.

Lemma locate_local : forall n e, plain_name n -> extension e -> locate (n ++ e) = ([], n, e).
Proof.
  intros n e Hn He. unfold locate, Tree_Model.path_split. rewrite split_last_slash_word by (apply file_no_slash; assumption).
  rewrite splitext_plain by assumption. reflexivity.
Qed.

Lemma locate_dirs : forall pre ds n e, ds <> [] -> Forall (fun x => part (fst x)) ds -> plain_name n -> extension e ->
  locate (shown pre ds ++ n ++ e) = (tidy pre ds, n, e).
Proof.
  intros pre ds n e Hne Hds Hn He.
  destruct (exists_last Hne) as (ds' & (d & k) & E). subst ds.
  apply Forall_app in Hds. destruct Hds as (Hds & Hd). inversion Hd as [|? ? Hd' _]; subst. cbn in Hd'. clear Hd Hne.
  set (X := repeat 47%N pre ++ flat_map (fun d => fst d ++ repeat 47%N (S (snd d))) ds').
  assert (Es : shown pre (ds' ++ [(d, k)]) = (X ++ d ++ repeat 47%N k) ++ [47%N]).
  { unfold shown, X. rewrite flat_map_app. cbn [flat_map fst snd]. rewrite app_nil_r.
    replace (repeat 47%N (S k)) with (repeat 47%N k ++ [47%N]) by (symmetry; apply repeat_cons).
    rewrite <- !app_assoc. reflexivity. }
  unfold locate, Tree_Model.path_split. rewrite Es. rewrite <- (app_assoc _ [47%N]). cbn [app].
  rewrite split_last_slash_app by (apply file_no_slash; assumption).
  rewrite rstrip_slash_snoc. rewrite (app_assoc X d). rewrite rstrip_slash_repeat, rstrip_slash_end by exact Hd'.
  rewrite splitext_plain by assumption.
  assert (Hx : X ++ d <> []) by (intros H; apply app_eq_nil in H; destruct H as (_ & H); destruct Hd' as (H' & _); congruence).
  destruct (X ++ d) as [|c r] eqn:Ex; [congruence|]. rewrite <- Ex. clear c r Ex Hx.
  assert (G : join [47%N] (drop_empty (split_char 47 (X ++ d))) = tidy pre (ds' ++ [(d, k)])).
  { assert (Hnf : nf (X ++ d) = map fst ds' ++ [d]) by (unfold X; rewrite <- app_assoc, nf_slashes; apply nf_dirs; assumption).
    unfold tidy. rewrite map_app. cbn [map fst].
    destruct pre as [|pre].
    - cbn [Nat.eqb app]. rewrite drop_empty_first; [change (filter ne (split_char 47 (X ++ d))) with (nf (X ++ d)); rewrite Hnf; reflexivity|].
      unfold X. change (repeat 47%N 0) with (@nil N). cbn [app]. destruct ds' as [|[x j] ds''].
      + cbn [flat_map app]. rewrite split_char_word by (apply Hd'). cbn. destruct Hd' as (H & _). destruct d; [congruence|reflexivity].
      + inversion Hds as [|? ? Hx _]; subst. cbn in Hx. cbn [flat_map fst snd]. rewrite <- !app_assoc. change (repeat 47%N (S j)) with (47%N :: repeat 47%N j). cbn [app].
        rewrite split_char_app by (apply Hx). cbn. destruct Hx as (H & _). destruct x; [congruence|reflexivity].
    - cbn [Nat.eqb app].
      assert (Es2 : split_char 47 (X ++ d) = [] :: split_char 47 (repeat 47%N pre ++ flat_map (fun d => fst d ++ repeat 47%N (S (snd d))) ds' ++ d)).
      { unfold X. change (repeat 47%N (S pre)) with (47%N :: repeat 47%N pre). rewrite <- app_assoc. cbn [app].
        change (47%N :: repeat 47%N pre ++ flat_map (fun d0 => fst d0 ++ repeat 47%N (S (snd d0))) ds' ++ d)
          with ([] ++ 47%N :: (repeat 47%N pre ++ flat_map (fun d0 => fst d0 ++ repeat 47%N (S (snd d0))) ds' ++ d)).
        rewrite split_char_app by (intros []). reflexivity. }
      rewrite Es2. cbn [drop_empty].
      change (filter _ (split_char 47 ?s)) with (nf s). rewrite nf_slashes, nf_dirs by assumption.
      destruct (map fst ds' ++ [d]) as [|y ys] eqn:Ey; [destruct (map fst ds'); discriminate Ey|]. reflexivity. }
  rewrite G. reflexivity.
Qed.

(** ** Loading *)

Section WithU.
Variable u : setup.
Let T := u_tools u.

(** The directory that is looked at. *)
Definition place (dir : pystr) : pystr := match dir with [] => u_cwd u | _ => dir end.

Lemma no_module_none : forall path nm s, no_module T path nm s -> dir_getmod T path nm s = (Ok None, s).
Proof.
  intros path nm s (H1 & H2). destruct (dir_getmod T path nm s) as [r s'] eqn:E.
  destruct (proj2 (dir_choice T path nm s r s' E)) as (-> & ->); [|reflexivity].
  intros b pkg H. inversion H; subst; [exact (H2 H3) | exact (H1 H3)].
Qed.

Lemma load_template_code : forall path dir n ext x s mt t code co,
  locate path = (dir, n, ext) -> (match ext with [] => u_exts u | _ => [ext] end) = [x] ->
  is_dir (place dir) (l_fs s) = true -> no_module T (place dir) n (l_fs s) ->
  aget (pjoin (place dir) (n ++ x)) (files (l_fs s)) = Some (NFile mt t) ->
  o_template T n t = Some code -> o_compile T (code ++ [10%N]) = Some co -> u_runs u co = true ->
  exists file f', load_module u path s = (Ok (n, FMod co file None), mkL f' (aset n (MLoaded (FMod co file None)) (l_mods s))).
Proof.
  intros path dir n ext x s mt t code co Hl He Hd Hm Hf Ht Hc Hr.
  unfold load_module. rewrite Hl. unfold find_mod. change (match dir with [] => u_cwd u | _ => dir end) with (place dir).
  rewrite Hd. cbn [negb]. rewrite He. unfold getmod. fold T. rewrite (no_module_none _ _ _ Hm).
  cbn [try_templates]. unfold ahas. rewrite Hf. unfold t_compile. cbv zeta. rewrite Hf, Ht.
  destruct (put T _ code (l_fs s)) as [f1|] eqn:Ep; rewrite Hc, Hr; do 2 eexists; reflexivity.
Qed.

Lemma load_missing : forall path dir n ext s,
  locate path = (dir, n, ext) -> is_dir (place dir) (l_fs s) = true -> no_module T (place dir) n (l_fs s) ->
  (forall x, In x (match ext with [] => u_exts u | _ => [ext] end) -> aget (pjoin (place dir) (n ++ x)) (files (l_fs s)) = None) ->
  load_module u path s = (Raise Missing, s).
Proof.
  intros path dir n ext s Hl Hd Hm Hf.
  unfold load_module. rewrite Hl. unfold find_mod. change (match dir with [] => u_cwd u | _ => dir end) with (place dir).
  rewrite Hd. cbn [negb]. unfold getmod. fold T. rewrite (no_module_none _ _ _ Hm).
  assert (G : forall xs, (forall x, In x xs -> aget (pjoin (place dir) (n ++ x)) (files (l_fs s)) = None) ->
    try_templates T (u_cache u) (place dir) n xs (l_fs s) = (Ok None, l_fs s)).
  { induction xs as [|x xs IH]; intros H; [reflexivity|]. cbn [try_templates]. unfold ahas. rewrite (H x) by (left; reflexivity).
    apply IH. intros y Hy. apply H. right. exact Hy. }
  rewrite G by exact Hf. destruct s; reflexivity.
Qed.

Lemma load_others : forall path s r s', load_module u path s = (r, s') ->
  forall k, k <> snd (fst (locate path)) -> aget k (l_mods s') = aget k (l_mods s).
Proof.
  intros path s r s' H k Hk. unfold load_module in H. destruct (locate path) as [[dir n] ext]. cbn in Hk.
  destruct (find_mod u dir n ext (l_fs s)) as [[[m|]|e] f].
  - destruct m as [p|co file pkg]; [|destruct (u_runs u co)]; injection H as _ <-; cbn [l_mods]; rewrite aget_aset;
      (destruct (str_eqb_spec k n) as [E|E]; [contradiction|reflexivity]).
  - injection H as _ <-. reflexivity.
  - injection H as _ <-. reflexivity.
Qed.

Lemma load_registered : forall path s n m s', load_module u path s = (Ok (n, m), s') ->
  n = snd (fst (locate path)) /\ aget n (l_mods s') = Some (MLoaded m) /\ exists co file pkg, m = FMod co file pkg /\ u_runs u co = true.
Proof.
  intros path s n m s' H. unfold load_module in H. destruct (locate path) as [[dir n0] ext].
  destruct (find_mod u dir n0 ext (l_fs s)) as [[[m0|]|e] f]; try discriminate H.
  destruct m0 as [p|co file pkg]; [discriminate H|]. destruct (u_runs u co) eqn:E; [|discriminate H].
  injection H as <- <- <-. split; [reflexivity|]. cbn [l_mods]. rewrite aget_aset.
  destruct (str_eqb_spec n0 n0) as [_|E']; [|congruence]. split; [reflexivity|]. do 3 eexists. split; [reflexivity|exact E].
Qed.

Lemma load_failed : forall path s e s', load_module u path s = (Raise e, s') ->
  e <> NoCode -> e <> Running -> l_mods s' = l_mods s.
Proof.
  intros path s e s' H H1 H2. unfold load_module in H. destruct (locate path) as [[dir n0] ext].
  destruct (find_mod u dir n0 ext (l_fs s)) as [[[m0|]|x] f]; [|injection H as _ <-; reflexivity|injection H as _ <-; reflexivity].
  destruct m0 as [p|co file pkg]; [injection H as <- _; congruence|]. destruct (u_runs u co); [discriminate H|injection H as <- _; congruence].
Qed.

Lemma load_no_dir : forall path dir n ext s, locate path = (dir, n, ext) -> is_dir (place dir) (l_fs s) = false ->
  load_module u path s = (Raise NoDir, s).
Proof.
  intros path dir n ext s Hl Hd. unfold load_module. rewrite Hl. unfold find_mod.
  change (match dir with [] => u_cwd u | _ => dir end) with (place dir). rewrite Hd. destruct s; reflexivity.
Qed.

Lemma load_same : forall p q dir n x s, locate p = (dir, n, []) -> locate q = (dir, n, x) -> x <> [] -> u_exts u = [x] ->
  load_module u p s = load_module u q s.
Proof.
  intros p q dir n x s Hp Hq Hx He. unfold load_module. rewrite Hp, Hq. unfold find_mod. rewrite He.
  destruct x; [congruence|reflexivity].
Qed.
End WithU.

Lemma locate_all : forall pre ds n e, named pre ds -> plain_name n -> extension e ->
  locate (shown pre ds ++ n ++ e) = (tidy pre ds, n, e).
Proof.
  intros pre ds n e (H & Hds) Hn He. destruct ds as [|x ds].
  - destruct H as [H| ->]; [congruence|]. exact (locate_local n e Hn He).
  - apply locate_dirs; try assumption. discriminate.
Qed.

(** The directory of a path does not depend on the file. *)
Lemma shown_end : forall pre ds, shown pre ds = [] \/ exists P, shown pre ds = P ++ [47%N].
Proof.
  intros pre ds. unfold shown. destruct ds as [|x ds] using rev_ind.
  - cbn [flat_map]. rewrite app_nil_r. destruct pre as [|pre]; [left; reflexivity|right; exists (repeat 47%N pre)].
    cbn [repeat]. apply repeat_cons.
  - right. clear IHds. exists (repeat 47%N pre ++ flat_map (fun d => fst d ++ repeat 47%N (S (snd d))) ds ++ fst x ++ repeat 47%N (snd x)).
    rewrite flat_map_app. cbn [flat_map]. rewrite app_nil_r. cbn [repeat]. rewrite repeat_cons, <- !app_assoc. reflexivity.
Qed.
Lemma locate_file : forall pre ds x, named pre ds -> ~ In 47%N x ->
  locate (shown pre ds ++ x) = (tidy pre ds, fst (splitext x), snd (splitext x)).
Proof.
  intros pre ds x H Hx.
  assert (A : locate (shown pre ds ++ L "a" ++ []) = (tidy pre ds, L "a", [])).
  { apply locate_all; [exact H| |left; reflexivity]. split; [discriminate|]. split; intros [K|[]]; discriminate K. }
  rewrite app_nil_r in A. unfold locate, Tree_Model.path_split in *.
  destruct (shown_end pre ds) as [E|(P & E)]; rewrite E in *.
  - cbn [app] in *. rewrite split_last_slash_word by exact Hx.
    rewrite split_last_slash_word in A by (intros [K|[]]; discriminate K). destruct (splitext x) as [n e]. destruct (splitext (L "a")). inversion A. reflexivity.
  - rewrite <- !app_assoc in *. cbn [app] in *. rewrite split_last_slash_app by exact Hx.
    rewrite split_last_slash_app in A by (intros [K|[]]; discriminate K). destruct (splitext x) as [n e]. destruct (splitext (L "a")). inversion A. reflexivity.
Qed.
Lemma splitext_dots : forall k n e, plain_name n -> extension e -> splitext ((repeat 46%N k ++ n) ++ e) = (repeat 46%N k ++ n, e).
Proof.
  intros k n e (Hn & Hs & Hd) He. destruct He as [->|(w & -> & _ & Hw)].
  - rewrite app_nil_r. unfold splitext. destruct k as [|k].
    + cbn [repeat app]. rewrite split_last_dot_word by exact Hd. reflexivity.
    + assert (E : repeat 46%N (S k) ++ n = repeat 46%N k ++ 46%N :: n) by (cbn [repeat]; rewrite repeat_cons, <- app_assoc; reflexivity).
      rewrite E, split_last_dot_app by exact Hd.
      replace (forallb (N.eqb 46) (repeat 46%N k)) with true; [reflexivity|]. clear. induction k; [reflexivity|exact IHk].
  - unfold splitext. rewrite split_last_dot_app by exact Hw. rewrite forallb_app. destruct n as [|c n]; [congruence|].
    cbn [forallb]. destruct (N.eqb_spec 46 c) as [E|_]; [exfalso; apply Hd; left; symmetry; exact E|]. rewrite andb_false_r. reflexivity.
Qed.
Lemma locate_hidden : forall pre ds k n e, named pre ds -> plain_name n -> extension e ->
  locate (shown pre ds ++ (repeat 46%N k ++ n) ++ e) = (tidy pre ds, repeat 46%N k ++ n, e).
Proof.
  intros pre ds k n e H Hn He. rewrite locate_file; [rewrite splitext_dots by assumption; reflexivity|exact H|].
  intro K. rewrite <- app_assoc in K. apply in_app_or in K as [K|K].
  - apply repeat_spec in K. discriminate K.
  - exact (file_no_slash n e Hn He K).
Qed.

Lemma meant_place : forall u pre ds, named pre ds -> place u (tidy pre ds) = meant (u_cwd u) pre ds.
Proof.
  intros u pre ds (H & Hds). destruct ds as [|[d k] ds].
  - destruct H as [H| ->]; [congruence|reflexivity].
  - unfold meant, place. destruct (tidy pre ((d, k) :: ds)) as [|c r] eqn:E; [|reflexivity]. exfalso.
    inversion Hds as [|? ? (Hd & _) _]; subst. cbn in Hd. unfold tidy in E. apply app_eq_nil in E. destruct E as (_ & E).
    cbn [map fst join] in E. destruct (map fst ds); [congruence|]. apply app_eq_nil in E. destruct E. congruence.
Qed.

Lemma template_loaded : forall u pre ds n e x s mt t code co,
  named pre ds -> plain_name n -> extension e -> (e = x \/ e = [] /\ u_exts u = [x]) -> x <> [] ->
  is_dir (meant (u_cwd u) pre ds) (l_fs s) = true -> no_module (u_tools u) (meant (u_cwd u) pre ds) n (l_fs s) ->
  aget (pjoin (meant (u_cwd u) pre ds) (n ++ x)) (files (l_fs s)) = Some (NFile mt t) ->
  o_template (u_tools u) n t = Some code -> o_compile (u_tools u) (code ++ [10%N]) = Some co -> u_runs u co = true ->
  exists file s', load_module u (shown pre ds ++ n ++ e) s = (Ok (n, FMod co file None), s')
    /\ aget n (l_mods s') = Some (MLoaded (FMod co file None))
    /\ (In n (u_names u co) -> load_class u (shown pre ds ++ n ++ e) s = (Ok (co, n), s')).
Proof.
  intros u pre ds n e x s mt t code co Hnm Hn He Hx Hx0 Hd Hm Hf Ht Hc Hr.
  rewrite <- meant_place in Hd, Hm, Hf by exact Hnm.
  destruct (load_template_code u (shown pre ds ++ n ++ e) (tidy pre ds) n e x s mt t code co) as (file & f' & E); try assumption.
  - apply locate_all; assumption.
  - destruct Hx as [->|(-> & Hx)]; [destruct x; [congruence|reflexivity]|exact Hx].
  - do 2 eexists. split; [exact E|]. destruct (load_registered u _ _ _ _ _ E) as (_ & H & _). split; [exact H|].
    intros Hi. unfold load_class. rewrite E.
    assert (B : existsb (str_eqb n) (u_names u co) = true) by (apply existsb_exists; exists n; split; [exact Hi|destruct (str_eqb_spec n n); congruence]).
    rewrite B. reflexivity.
Qed.
