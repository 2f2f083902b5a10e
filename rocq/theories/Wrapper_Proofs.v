(** Proofs about output files. *)
From Coq Require Import Permutation.
From Verif Require Import Wrapper_Model Wrapper_Spec.

(** ** Collisions *)
Lemma sinsert_perm : forall x l, Permutation (sinsert x l) (x :: l).
Proof.
  intros x l. induction l as [|y l IH]; cbn [sinsert]; [apply Permutation_refl|].
  destruct (str_ltb x y); [apply Permutation_refl|]. rewrite IH. apply perm_swap.
Qed.
Lemma ssort_perm : forall l, Permutation (ssort l) l.
Proof.
  induction l as [|x l IH]; [apply Permutation_refl|]. cbn [ssort]. rewrite sinsert_perm, IH.
  apply Permutation_refl.
Qed.

Lemma sources_cons : forall dst s d bs,
  sources_of dst ((s, d) :: bs) = (if str_eqb d dst then [s] else []) ++ sources_of dst bs.
Proof.
  intros. unfold sources_of. cbn [filter snd]. destruct (str_eqb d dst); reflexivity.
Qed.

Lemma dstSources_get : forall bs d dst,
  aget dst (dstSources bs d)
  = match aget dst d with
    | Some l => Some (l ++ sources_of dst bs)
    | None => match sources_of dst bs with [] => None | l => Some l end
    end.
Proof.
  induction bs as [|[s e] bs IH]; intros d dst.
  - cbn. destruct (aget dst d); [rewrite app_nil_r|]; reflexivity.
  - cbn [dstSources]. rewrite sources_cons.
    destruct (aget e d) as [l|] eqn:Ee; rewrite IH, aget_aset; destruct (str_eqb_spec dst e) as [E|E].
    + subst e. rewrite str_eqb_refl, Ee, <- app_assoc. reflexivity.
    + destruct (str_eqb_spec e dst) as [F|_]; [congruence|]. reflexivity.
    + subst e. rewrite str_eqb_refl, Ee. reflexivity.
    + destruct (str_eqb_spec e dst) as [F|_]; [congruence|]. reflexivity.
Qed.

Lemma In_collisions : forall bs dst ss,
  In (dst, ss) (collisions bs) <-> 2 <= length (sources_of dst bs) /\ ss = ssort (sources_of dst bs).
Proof.
  intros bs dst ss. unfold collisions. rewrite in_flat_map. 
  assert (G : forall d, aget d (dstSources bs []) = match sources_of d bs with [] => None | l => Some l end)
    by (intro d; rewrite dstSources_get; reflexivity).
  split.
  - intros (d & _ & Hd). rewrite G in Hd.
    destruct (sources_of d bs) as [|a [|b l]] eqn:E; try (destruct Hd; fail).
    destruct Hd as [Hd|[]]. injection Hd as <- <-. rewrite E. split; [cbn; lia|reflexivity].
  - intros [Hl ->]. exists dst. split.
    + apply (Permutation_in dst (Permutation_sym (ssort_perm _))). apply aget_In_keys. rewrite G.
      destruct (sources_of dst bs); [cbn in Hl; lia|eexists; reflexivity].
    + rewrite G. destruct (sources_of dst bs) as [|a [|b l]]; cbn in Hl; try lia. left. reflexivity.
Qed.

Lemma sources_nil : forall bs dst, ~ In dst (map snd bs) -> sources_of dst bs = [].
Proof.
  induction bs as [|[s d] bs IH]; intros dst H; [reflexivity|]. rewrite sources_cons.
  destruct (str_eqb_spec d dst) as [E|E]; [exfalso; apply H; left; exact E|].
  apply IH. intro F. apply H. right. exact F.
Qed.

Lemma sources_in : forall bs dst, In dst (map snd bs) -> 1 <= length (sources_of dst bs).
Proof.
  induction bs as [|[s d] bs IH]; intros dst H; [destruct H|]. rewrite sources_cons, app_length.
  destruct H as [H|H].
  - cbn in H. subst d. rewrite str_eqb_refl. cbn. lia.
  - pose proof (IH dst H). lia.
Qed.

Lemma nodup_sources : forall bs, NoDup (map snd bs) <-> forall dst, length (sources_of dst bs) <= 1.
Proof.
  induction bs as [|[s d] bs IH]; [split; [intros _ dst; cbn; lia|constructor]|].
  cbn [map snd]. rewrite NoDup_cons_iff, IH. split.
  - intros [Hn Hl] dst. rewrite sources_cons, app_length. destruct (str_eqb_spec d dst) as [E|E].
    + subst dst. rewrite (sources_nil bs d Hn). cbn. lia.
    + cbn. apply Hl.
  - intro H. split.
    + intro F. apply sources_in in F. pose proof (H d) as G. rewrite sources_cons, app_length, str_eqb_refl in G.
      cbn in G. lia.
    + intro dst. pose proof (H dst) as G. rewrite sources_cons, app_length in G. lia.
Qed.

Lemma no_collisions : forall bs, collisions bs = [] <-> NoDup (map snd bs).
Proof.
  intro bs. rewrite nodup_sources. split.
  - intros H dst. destruct (le_lt_dec (length (sources_of dst bs)) 1) as [L|L]; [exact L|].
    exfalso. assert (F : In (dst, ssort (sources_of dst bs)) (collisions bs)).
    { apply In_collisions. split; [lia|reflexivity]. }
    rewrite H in F. exact F.
  - intro H. destruct (collisions bs) as [|[dst ss] l] eqn:E; [reflexivity|]. exfalso.
    assert (F : In (dst, ss) (collisions bs)) by (rewrite E; left; reflexivity).
    apply In_collisions in F as [F _]. specialize (H dst). lia.
Qed.

Lemma getBundles_fst : forall o srcs bs, getBundles o srcs = Some (Ok bs) ->
  map fst bs = srcs /\ Forall (fun b => bundle_dst o (fst b) = Some (Ok (snd b))) bs.
Proof.
  intros o srcs. induction srcs as [|s r IH]; intros bs H; cbn [getBundles] in H.
  - injection H as <-. split; [reflexivity|constructor].
  - destruct (bundle_dst o s) as [[d|e]|] eqn:Ed; try discriminate.
    destruct (getBundles o r) as [[l|e]|]; try discriminate. injection H as <-.
    destruct (IH l eq_refl) as [H1 H2]. split; [cbn; f_equal; exact H1|]. constructor; [exact Ed|exact H2].
Qed.

Lemma flat_dst : forall o src, w_flat o = true -> exists d, bundle_dst o src = Some (Ok d).
Proof. intros o src H. unfold bundle_dst. rewrite H. eexists. reflexivity. Qed.

Lemma flat_bundles : forall o srcs, w_flat o = true -> exists bs, getBundles o srcs = Some (Ok bs).
Proof.
  intros o srcs H. induction srcs as [|s r [bs IH]]; [exists []; reflexivity|]. cbn [getBundles].
  destruct (flat_dst o s H) as [d ->]. rewrite IH. eexists. reflexivity.
Qed.

Lemma flat_run : forall o srcs, w_flat o = true ->
  exists bs, map fst bs = srcs /\ Forall (fun b => bundle_dst o (fst b) = Some (Ok (snd b))) bs
  /\ ((NoDup (map snd bs) /\ run_wrapper o srcs = Some (Processed bs))
      \/ (~ NoDup (map snd bs) /\ exists ws, run_wrapper o srcs = Some (Aborted ws)
          /\ forall dst ss, In (dst, ss) ws <->
               2 <= length (sources_of dst bs) /\ ss = ssort (sources_of dst bs))).
Proof.
  intros o srcs H. destruct (flat_bundles o srcs H) as [bs E]. exists bs.
  destruct (getBundles_fst o srcs bs E) as [H1 H2]. split; [exact H1|]. split; [exact H2|].
  unfold run_wrapper. rewrite E, H. pose proof (no_collisions bs) as N.
  destruct (collisions bs) as [|w ws] eqn:Ec.
  - left. split; [apply N; reflexivity|reflexivity].
  - right. split; [intro F; apply N in F; discriminate|]. exists (w :: ws). split; [reflexivity|].
    intros dst ss. rewrite <- Ec. apply In_collisions.
Qed.

(** ** Without --flat *)
Lemma starts_with_app : forall p s, starts_with p (p ++ s) = true.
Proof. intros. apply starts_with_iff. exists s. reflexivity. Qed.

Lemma ends_with_app : forall e s, ends_with e (s ++ e) = true.
Proof. intros. unfold ends_with. rewrite rev_app_distr. apply starts_with_app. Qed.

Lemma bundle_base_plain : forall o rel,
  bundle_base o ((match w_idir o with [] => [] | d => d ++ [47%N] end) ++ rel ++ w_iext o) = rel.
Proof.
  intros o rel. unfold bundle_base. cbv zeta.
  match goal with |- match w_iext o with [] => ?b | _ => _ end = _ =>
    assert (B : b = rel ++ w_iext o) end.
  { destruct (w_idir o) as [|c d]; [reflexivity|]. rewrite starts_with_app.
    rewrite skipn_app, skipn_all, Nat.sub_diag. reflexivity. }
  rewrite !B. clear B. destruct (w_iext o) as [|c e] eqn:Ee; [apply app_nil_r|].
  rewrite ends_with_app. rewrite app_length, Nat.add_sub.
  rewrite firstn_app, firstn_all, Nat.sub_diag. cbn. apply app_nil_r.
Qed.

Lemma dst_plain : forall o rel, w_flat o = false ->
  (w_odir o <> [] -> match rel ++ w_oext o with c :: _ => c <> 47%N | [] => True end) ->
  bundle_dst o ((match w_idir o with [] => [] | d => d ++ [47%N] end) ++ rel ++ w_iext o)
  = Some (Ok (match w_odir o with [] => rel ++ w_oext o | d => path_join d (rel ++ w_oext o) end)).
Proof.
  intros o rel Hf Hr. unfold bundle_dst. rewrite Hf, bundle_base_plain.
  destruct (w_odir o) as [|c d] eqn:Ed.
  - unfold os_join. destruct (rel ++ w_oext o) as [|x l]; [reflexivity|]. destruct (x =? 47)%N; reflexivity.
  - assert (J : os_join (c :: d) (rel ++ w_oext o) = path_join (c :: d) (rel ++ w_oext o)).
    { unfold os_join. specialize (Hr ltac:(discriminate)). destruct (rel ++ w_oext o) as [|x l]; [reflexivity|].
      destruct (N.eqb_spec x 47); [congruence|reflexivity]. }
    destruct rel as [|x rel]; [rewrite J; reflexivity|].
    specialize (Hr ltac:(discriminate)). cbn in Hr.
    assert (M : forall {A} (a b : A), match x with 47%N => a | _ => b end = b).
    { intros A a b. destruct x as [|p]; [reflexivity|].
      do 6 (destruct p as [p|p|]; try reflexivity). congruence. }
    rewrite M, J. reflexivity.
Qed.

Lemma path_join_inj : forall d a b, path_join d a = path_join d b -> a = b.
Proof.
  intros d a b H. unfold path_join in H. destruct (rev d) as [|c r]; [exact H|].
  destruct (c =? 47)%N; apply app_inv_head in H; [exact H|]. injection H as H. exact H.
Qed.

Lemma plain_distinct : forall o a b da db, w_flat o = false -> plain_source o a -> plain_source o b ->
  bundle_dst o a = Some (Ok da) -> bundle_dst o b = Some (Ok db) -> da = db -> a = b.
Proof.
  intros o a b da db Hf (ra & -> & Ha) (rb & -> & Hb) Ea Eb E.
  rewrite dst_plain in Ea, Eb by assumption. injection Ea as <-. injection Eb as <-.
  assert (R : ra ++ w_oext o = rb ++ w_oext o).
  { destruct (w_odir o); [exact E|]. exact (path_join_inj _ _ _ E). }
  apply app_inv_tail in R. subst rb. reflexivity.
Qed.

Lemma plain_run : forall o srcs, w_flat o = false -> NoDup srcs -> (forall s, In s srcs -> plain_source o s) ->
  exists bs, run_wrapper o srcs = Some (Processed bs) /\ map fst bs = srcs /\ NoDup (map snd bs).
Proof.
  intros o srcs Hf Hn Hp.
  assert (G : exists bs, getBundles o srcs = Some (Ok bs)).
  { clear Hn. induction srcs as [|s r IH]; [exists []; reflexivity|]. cbn [getBundles].
    destruct (Hp s (or_introl eq_refl)) as (rel & -> & Hr). rewrite dst_plain by assumption.
    destruct IH as [bs ->]; [intros x Hx; apply Hp; right; exact Hx|]. eexists. reflexivity. }
  destruct G as [bs G]. exists bs. destruct (getBundles_fst o srcs bs G) as [H1 H2].
  split; [unfold run_wrapper; rewrite G, Hf; reflexivity|]. split; [exact H1|].
  subst srcs. clear G. induction bs as [|[s d] bs IH]; [constructor|]. cbn [map snd fst] in *.
  apply NoDup_cons_iff in Hn as [Hn1 Hn2]. inversion H2 as [|? ? D1 D2]; subst. cbn [fst snd] in D1.
  constructor; [|apply IH; [intros x Hx; apply Hp; right; exact Hx|exact Hn2|exact D2]].
  intro F. apply in_map_iff in F as ([s2 d2] & E & Hin). cbn in E. subst d2.
  apply Hn1. apply in_map_iff. exists (s2, d). split; [|exact Hin]. cbn.
  rewrite Forall_forall in D2. pose proof (D2 _ Hin) as D3. cbn [fst snd] in D3.
  apply (plain_distinct o s2 s d d Hf).
  - apply Hp. right. apply in_map_iff. exists (s2, d). split; [reflexivity|exact Hin].
  - apply Hp. left. reflexivity.
  - exact D3.
  - exact D1.
  - reflexivity.
Qed.

(** ** Writing *)
Lemma fapply_app : forall a b f, fapply_all f (a ++ b) = fapply_all (fapply_all f a) b.
Proof. intros a b f. unfold fapply_all. apply fold_left_app. Qed.

Definition target (o : fop) : pystr := match o with Create p | Append p _ => p end.

Lemma fapply_other : forall ops f p, (forall o, In o ops -> target o <> p) ->
  aget p (fapply_all f ops) = aget p f.
Proof.
  induction ops as [|o ops IH]; intros f p H; [reflexivity|]. cbn [fapply_all fold_left].
  change (aget p (fapply_all (fapply f o) ops) = aget p f).
  rewrite IH by (intros x Hx; apply H; right; exact Hx).
  pose proof (H o (or_introl eq_refl)) as N. destruct o as [q|q s]; cbn [fapply target] in *.
  - apply aget_aset_other. congruence.
  - destruct (aget q f); apply aget_aset_other; congruence.
Qed.

Lemma append_all : forall p pieces f t, aget p f = Some t ->
  aget p (fapply_all f (map (Append p) pieces)) = Some (t ++ concat pieces).
Proof.
  induction pieces as [|s r IH]; intros f t H; cbn [map concat].
  - rewrite app_nil_r. exact H.
  - cbn [fapply_all fold_left fapply]. rewrite H.
    change (aget p (fapply_all (aset p (t ++ s) f) (map (Append p) r)) = Some (t ++ s ++ concat r)).
    rewrite (IH _ (t ++ s)) by apply aget_aset_same. rewrite app_assoc. reflexivity.
Qed.

Lemma write_all : forall p pieces f, aget p (fapply_all f (write_ops p pieces)) = Some (concat pieces).
Proof.
  intros p pieces f. unfold write_ops. cbn [fapply_all fold_left fapply].
  change (aget p (fapply_all (aset p [] f) (map (Append p) pieces)) = Some (concat pieces)).
  rewrite (append_all p pieces _ []) by apply aget_aset_same. reflexivity.
Qed.

Lemma write_targets : forall p pieces o, In o (write_ops p pieces) -> target o = p.
Proof.
  intros p pieces o [<-|H]; [reflexivity|]. apply in_map_iff in H as (s & <- & _). reflexivity.
Qed.

Lemma bak_ne : forall dst, bak_of dst <> dst.
Proof.
  intros dst F. apply (f_equal (@length N)) in F. unfold bak_of in F. rewrite app_length in F. cbn in F. lia.
Qed.

Lemma backup_safe : forall {E} f dst to_stdout (compiled : res E pystr) old bp op ops k,
  aget dst f = Some old -> concat bp = old ->
  bundle_ops f dst false to_stdout compiled bp op = Ok ops ->
  aget dst (fapply_all f (firstn k ops)) = Some old
  \/ aget (bak_of dst) (fapply_all f (firstn k ops)) = Some old.
Proof.
  intros E f dst to_stdout compiled old bp op ops k Hd Hb H. unfold bundle_ops in H.
  destruct compiled as [output|e]; [|discriminate]. cbv zeta in H.
  match type of H with context [match ?x with Some _ => _ | None => _ end] =>
    replace x with (Some old) in H by (symmetry; exact Hd) end.
  assert (Eo : ops = write_ops (bak_of dst) bp ++ (if to_stdout then [] else write_ops dst op)) by congruence.
  clear H. subst ops. rewrite firstn_app, fapply_app.
  destruct (le_lt_dec (length (write_ops (bak_of dst) bp)) k) as [L|L].
  - right. rewrite firstn_all2 by exact L.
    rewrite fapply_other; [rewrite write_all, Hb; reflexivity|].
    intros o Ho. destruct to_stdout; [rewrite firstn_nil in Ho; destruct Ho|].
    assert (In o (write_ops dst op)).
    { rewrite <- (firstn_skipn (k - length (write_ops (bak_of dst) bp)) (write_ops dst op)).
      apply in_app_iff. left. exact Ho. }
    rewrite (write_targets dst op o H). intro F. exact (bak_ne dst (eq_sym F)).
  - left. replace (k - length (write_ops (bak_of dst) bp)) with 0 by lia. cbn [firstn].
    change (aget dst (fapply_all f (firstn k (write_ops (bak_of dst) bp))) = Some old).
    rewrite fapply_other; [exact Hd|]. intros o Ho.
    assert (In o (write_ops (bak_of dst) bp)).
    { rewrite <- (firstn_skipn k (write_ops (bak_of dst) bp)). apply in_app_iff. left. exact Ho. }
    rewrite (write_targets _ _ o H). apply bak_ne.
Qed.

Lemma bundle_done : forall {E} f dst nobackup (compiled : res E pystr) bp op ops output,
  compiled = Ok output -> concat op = output ->
  bundle_ops f dst nobackup false compiled bp op = Ok ops ->
  aget dst (fapply_all f ops) = Some output
  /\ (forall old, aget dst f = Some old -> nobackup = false -> concat bp = old ->
        aget (bak_of dst) (fapply_all f ops) = Some old)
  /\ (forall p, p <> dst -> (p <> bak_of dst \/ nobackup = true \/ aget dst f = None) ->
        aget p (fapply_all f ops) = aget p f).
Proof.
  intros E f dst nobackup compiled bp op ops output -> Ho H. unfold bundle_ops in H. cbv zeta in H.
  match type of H with Ok ?x = _ => assert (Eo : ops = x) by congruence end.
  clear H. subst ops. split; [|split].
  - rewrite fapply_app, write_all. exact (f_equal Some Ho).
  - intros old Hd -> Hb.
    match goal with |- context [match ?x with Some _ => _ | None => _ end] =>
      replace x with (Some old) by (symmetry; exact Hd) end.
    rewrite fapply_app. rewrite fapply_other; [rewrite write_all; exact (f_equal Some Hb)|].
    intros o Hin. rewrite (write_targets _ _ _ Hin). intro F. exact (bak_ne dst (eq_sym F)).
  - intros p Hp Hc. apply fapply_other. intros o Hin. apply in_app_iff in Hin as [Hin|Hin].
    + destruct (aget dst f) as [old|]; [|destruct Hin]. destruct nobackup; [destruct Hin|].
      rewrite (write_targets _ _ _ Hin). destruct Hc as [Hc|[Hc|Hc]]; congruence.
    + rewrite (write_targets _ _ _ Hin). congruence.
Qed.

(** ** Destinations *)

Lemma path_join_clean : forall d c n, c <> 47%N -> path_join (d ++ [c]) n = (d ++ [c]) ++ L "/" ++ n.
Proof.
  intros d c n H. unfold path_join. rewrite rev_app_distr. cbn [rev app]. apply N.eqb_neq in H. rewrite H. reflexivity.
Qed.

Lemma destination : forall o d c rel, w_flat o = false -> w_odir o = d ++ [c] -> c <> 47%N ->
  (forall u, rel ++ w_oext o <> 47%N :: u) ->
  bundle_dst o ((match w_idir o with [] => [] | i => i ++ [47%N] end) ++ rel ++ w_iext o)
  = Some (Ok (w_odir o ++ L "/" ++ rel ++ w_oext o)).
Proof.
  intros o d c rel F E Hc Hr. rewrite dst_plain; [|exact F|].
  - rewrite E. destruct (d ++ [c]) as [|x y] eqn:Ed; [destruct d; discriminate Ed|].
    rewrite <- Ed. rewrite path_join_clean by exact Hc. reflexivity.
  - intros _. destruct (rel ++ w_oext o) as [|x u]; [exact I|]. intros ->. exact (Hr u eq_refl).
Qed.

Lemma split_last_none : forall n, ~ In 47%N n -> split_last_slash n = None.
Proof.
  induction n as [|c n IH]; intro H; [reflexivity|]. cbn [split_last_slash]. rewrite IH by (intro; apply H; right; assumption).
  destruct (N.eqb_spec c 47) as [->|]; [exfalso; apply H; left; reflexivity|reflexivity].
Qed.

Lemma split_last_app : forall a n, ~ In 47%N n -> split_last_slash (a ++ 47%N :: n) = Some (a ++ [47%N], n).
Proof.
  induction a as [|c a IH]; intros n H; cbn [app split_last_slash].
  - rewrite (split_last_none n H). reflexivity.
  - rewrite (IH n H). reflexivity.
Qed.

Lemma path_split_name : forall dir n, (dir = [] \/ exists a, dir = a ++ [47%N]) -> ~ In 47%N n ->
  snd (path_split (dir ++ n)) = n.
Proof.
  intros dir n [->|(a & ->)] H; unfold path_split.
  - cbn [app]. rewrite (split_last_none n H). reflexivity.
  - rewrite <- app_assoc. cbn [app]. rewrite split_last_app by exact H. reflexivity.
Qed.

Lemma flat_destination : forall o d c dir n, w_flat o = true -> w_odir o = d ++ [c] -> c <> 47%N ->
  (dir = [] \/ exists a, dir = a ++ [47%N]) -> ~ In 47%N n -> n <> [] ->
  bundle_dst o ((match w_idir o with [] => [] | i => i ++ [47%N] end) ++ (dir ++ n) ++ w_iext o)
  = Some (Ok (w_odir o ++ L "/" ++ n ++ w_oext o)).
Proof.
  intros o d c dir n F E Hc Hd Hn N. unfold bundle_dst. rewrite F, bundle_base_plain, (path_split_name dir n Hd Hn), E.
  f_equal. f_equal. unfold os_join. destruct n as [|x n]; [congruence|]. cbn [app].
  destruct (N.eqb_spec x 47) as [->|]; [exfalso; apply Hn; left; reflexivity|].
  destruct (d ++ [c]) as [|y l] eqn:Ed; [destruct d; discriminate Ed|]. rewrite <- Ed.
  rewrite path_join_clean by exact Hc. reflexivity.
Qed.

Lemma fix_ext_dot : forall e, e <> [] -> exists r, fix_ext e = 46%N :: r /\ (e = r \/ e = 46%N :: r)
  /\ fix_ext (fix_ext e) = fix_ext e /\ (forall u, e = 46%N :: u -> r = u).
Proof.
  intros [|c e] H; [congruence|]. cbn [fix_ext]. destruct (N.eqb_spec c 46) as [->|Hc].
  - exists e. split; [reflexivity|]. split; [right; reflexivity|]. split; [reflexivity|]. intros u E. congruence.
  - exists (c :: e). split; [reflexivity|]. split; [left; reflexivity|]. split; [reflexivity|]. intros u E. congruence.
Qed.
