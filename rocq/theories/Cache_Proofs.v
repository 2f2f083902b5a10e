From Verif Require Import Base PyStr Alist Cache_Model Cache_Spec.
Open Scope Z_scope.

Section P.
Variable md5 : pystr -> pystr.
Variable prefix : N -> pystr.
Variable interval : N -> pystr -> option Z.

Notation key := (item_key prefix).
Notation render := (render md5 prefix interval).
Notation refresh := (refresh md5 prefix).

Definition find_item (w : world) (tid : N) (rid h : pystr) : option item :=
  match aget rid (w_regions w tid) with
  | Some rg => aget h (rg_items rg)
  | None => None
  end.

Definition WF (w : world) : Prop :=
  NoDup (keys (w_store w)) /\
  forall tid rid rg, aget rid (w_regions w tid) = Some rg ->
    NoDup (keys (rg_items rg)) /\ (rg_new rg = true -> rg_items rg = []).

Definition item_dflt (o : option item) : item :=
  match o with Some it => it | None => mkItem None 0 end.

Definition next_expiry (tid : N) (rid : pystr) (old t3 : Z) : Z :=
  match interval tid rid with
  | Some i => if i =? 0 then old else t3 + i
  | None => old
  end.

Definition differs (tid : N) (rid h : pystr) (t' : N) (r' h' : pystr) : Prop :=
  t' <> tid \/ r' <> rid \/ h' <> h.

(** ** Elementary facts *)
Lemma set_regions_get : forall w tid rs t,
  w_regions (set_regions w tid rs) t = if (t =? tid)%N then rs else w_regions w t.
Proof. reflexivity. Qed.

Lemma find_put_region : forall w tid rid rg t r h,
  find_item (put_region w tid rid rg) t r h =
  if ((t =? tid)%N && str_eqb r rid)%bool then aget h (rg_items rg) else find_item w t r h.
Proof.
  intros. unfold find_item, put_region. rewrite set_regions_get.
  destruct (N.eqb_spec t tid) as [->|]; [|reflexivity]. rewrite aget_aset.
  destruct (str_eqb r rid); reflexivity.
Qed.

Lemma get_region_spec : forall w tid rid rg w', get_region w tid rid = (rg, w') ->
  (forall t r h, find_item w' t r h = find_item w t r h) /\ w_store w' = w_store w /\
  aget rid (w_regions w' tid) = Some rg /\ (WF w -> WF w') /\
  (forall h, find_item w tid rid h = aget h (rg_items rg)) /\
  (rg_new rg = false -> aget rid (w_regions w tid) = Some rg).
Proof.
  intros w tid rid rg w' H. unfold get_region in H.
  destruct (aget rid (w_regions w tid)) as [rg0|] eqn:E; inversion H; subst.
  - repeat split; auto; try (intros; unfold find_item; rewrite E; reflexivity).
    + apply H0. + apply (proj2 H0 _ _ _ H1). + apply (proj2 H0 _ _ _ H1).
  - split; [|split; [reflexivity|split; [|split; [|split]]]].
    + intros t r h. fold (put_region w tid rid (mkRegion true [])). rewrite find_put_region.
      destruct (N.eqb_spec t tid) as [->|]; [|reflexivity].
      destruct (str_eqb_spec r rid) as [->|]; [|reflexivity]. simpl. unfold find_item.
      rewrite E. reflexivity.
    + rewrite set_regions_get, N.eqb_refl, aget_aset_same. reflexivity.
    + intros [H1 H2]. split; [exact H1|]. intros t r rg. rewrite set_regions_get.
      destruct (N.eqb_spec t tid) as [->|]; [|apply H2]. rewrite aget_aset.
      destruct (str_eqb r rid); [|apply H2]. intros E2. inversion E2; subst.
      simpl. split; [constructor|reflexivity].
    + intros h. unfold find_item. rewrite E. reflexivity.
    + discriminate.
Qed.

Lemma put_item_spec : forall w tid rid h it, aget rid (w_regions w tid) <> None ->
  (forall t r h', find_item (put_item w tid rid h it) t r h' =
     if (t =? tid)%N && str_eqb r rid && str_eqb h' h then Some it else find_item w t r h')
  /\ w_store (put_item w tid rid h it) = w_store w
  /\ aget rid (w_regions (put_item w tid rid h it) tid) <> None.
Proof.
  intros w tid rid h it H. unfold put_item.
  destruct (aget rid (w_regions w tid)) as [rg|] eqn:E; [|congruence]. split; [|split].
  - intros t r h'. rewrite find_put_region. simpl.
    destruct (N.eqb_spec t tid) as [->|]; [|reflexivity].
    destruct (str_eqb_spec r rid) as [->|]; [|reflexivity]. simpl.
    rewrite aget_aset. unfold find_item. rewrite E. reflexivity.
  - reflexivity.
  - unfold put_region. rewrite set_regions_get, N.eqb_refl, aget_aset_same. discriminate.
Qed.

Lemma WF_put_item : forall w tid rid h it, WF w -> find_item w tid rid h <> None ->
  WF (put_item w tid rid h it).
Proof.
  intros w tid rid h it [H1 H2] Hf. unfold put_item, find_item in *.
  destruct (aget rid (w_regions w tid)) as [rg|] eqn:E; [|split; assumption].
  split; [exact H1|]. intros t r rg'. unfold put_region. rewrite set_regions_get.
  destruct (N.eqb_spec t tid) as [->|]; [|apply H2]. rewrite aget_aset.
  destruct (str_eqb r rid); [|apply H2]. intros E2. inversion E2; subst. simpl.
  destruct (H2 _ _ _ E) as [H3 H4]. split; [apply NoDup_aset; assumption|].
  intros Hn. rewrite (H4 Hn) in Hf. simpl in Hf. congruence.
Qed.

Lemma get_item_spec : forall w tid rid rg vid h it w',
  aget rid (w_regions w tid) = Some rg ->
  get_item md5 w tid rid rg vid = (Ok (h, it), w') ->
  is_ascii vid = true /\ h = md5 vid /\ it = item_dflt (find_item w tid rid h) /\
  find_item w' tid rid h = Some it /\ w_store w' = w_store w /\ (WF w -> WF w') /\
  aget rid (w_regions w' tid) <> None /\
  (forall t r h', differs tid rid h t r h' -> find_item w' t r h' = find_item w t r h').
Proof.
  intros w tid rid rg vid h it w' Hr H. unfold get_item in H.
  destruct (is_ascii vid) eqn:Ha; [|discriminate].
  assert (Hf : find_item w tid rid (md5 vid) = aget (md5 vid) (rg_items rg))
    by (unfold find_item; rewrite Hr; reflexivity).
  destruct (aget (md5 vid) (rg_items rg)) as [i|] eqn:E; inversion H; subst.
  - rewrite Hf. repeat split; auto. + apply H0. + apply (proj2 H0 _ _ _ H1). + apply (proj2 H0 _ _ _ H1).
    + rewrite Hr; discriminate.
  - rewrite Hf. repeat split; auto.
    + rewrite find_put_region, N.eqb_refl, str_eqb_refl. simpl. apply aget_aset_same.
    + apply H0.
    + destruct H0 as [_ H2]. unfold put_region in H1. rewrite set_regions_get in H1.
      destruct (N.eqb_spec tid0 tid) as [->|]; [|eapply H2; eauto].
      rewrite aget_aset in H1. destruct (str_eqb_spec rid0 rid) as [->|]; [|eapply H2; eauto].
      inversion H1; subst. simpl. apply NoDup_aset. eapply H2; eauto.
    + destruct H0 as [_ H2]. unfold put_region in H1. rewrite set_regions_get in H1.
      destruct (N.eqb_spec tid0 tid) as [->|]; [|eapply H2; eauto].
      rewrite aget_aset in H1. destruct (str_eqb_spec rid0 rid) as [->|]; [|eapply H2; eauto].
      inversion H1; subst. simpl. discriminate.
    + unfold put_region. rewrite set_regions_get, N.eqb_refl, aget_aset_same. discriminate.
    + intros t r h' Hd. rewrite find_put_region.
      destruct (N.eqb_spec t tid) as [->|]; [|reflexivity].
      destruct (str_eqb_spec r rid) as [->|]; [|reflexivity]. simpl.
      rewrite aget_aset_other; [unfold find_item; rewrite Hr; reflexivity|].
      destruct Hd as [?|[?|?]]; congruence.
Qed.

Definition store_after (d : store) (k : pystr) (t2 : Z) (d' : store) : Prop :=
  d' = d \/ (exists o e, aget k d = Some (o, e) /\ e <> 0 /\ t2 > e /\ d' = adel k d).

Definition reason_exec (w : world) tid rid h (it : item) (test : bool) t1 t2 : Prop :=
  test = true \/ find_item w tid rid h = None \/ has_expired it t1 = true \/ refresh_truth it = false
  \/ aget (key tid rid h) (w_store w) = None
  \/ (exists o e, aget (key tid rid h) (w_store w) = Some (o, e) /\ e <> 0 /\ t2 > e).

(** ** What one rendering does *)
Lemma render_spec : forall w tid rid vid test body t1 t2 t3 t4 oc w',
  WF w -> render w tid rid vid test body t1 t2 t3 t4 = (oc, w') ->
  WF w' /\
  ((is_ascii vid = false /\ (exists e, oc = Failed e) /\ w_store w' = w_store w /\
    forall t r h, find_item w' t r h = find_item w t r h)
   \/
   (is_ascii vid = true /\
    let h := md5 vid in
    let it := item_dflt (find_item w tid rid h) in
    (forall t r h', differs tid rid h t r h' -> find_item w' t r h' = find_item w t r h') /\
    ((exists o e, oc = Served o /\ test = false /\ find_item w' tid rid h = Some it /\ refresh_truth it = true
        /\ has_expired it t1 = false
        /\ aget (key tid rid h) (w_store w) = Some (o, e) /\ (e = 0 \/ t2 <= e)
        /\ w_store w' = w_store w)
     \/ (exists o d, oc = Executed o /\ body = Some o /\ reason_exec w tid rid h it test t1 t2
        /\ store_after (w_store w) (key tid rid h) t2 d
        /\ find_item w' tid rid h = Some (mkItem (Some t4) (next_expiry tid rid (it_expiry it) t3))
        /\ w_store w' = aset (key tid rid h) (o, next_expiry tid rid (it_expiry it) t3) d)
     \/ (oc = Failed BodyError /\ body = None /\ reason_exec w tid rid h it test t1 t2
        /\ store_after (w_store w) (key tid rid h) t2 (w_store w')
        /\ find_item w' tid rid h = Some (mkItem (it_refresh it) (next_expiry tid rid (it_expiry it) t3)))))).
Proof.
  intros w tid rid vid test body t1 t2 t3 t4 oc w' HW H. unfold Cache_Model.render in H.
  destruct (get_region w tid rid) as [rg w1] eqn:E1.
  destruct (get_region_spec _ _ _ _ _ E1) as [F1 [S1 [R1 [W1 [FI1 RN1]]]]]. specialize (W1 HW).
  destruct (get_item md5 w1 tid rid rg vid) as [[[h it]|e] w2] eqn:E2.
  2:{ inversion H; subst. unfold get_item in E2.
      destruct (is_ascii vid) eqn:Ha; [destruct (aget (md5 vid) (rg_items rg)); discriminate|].
      inversion E2; subst. split; [assumption|]. left. repeat split; auto.
      exists UnicodeEncodeError; reflexivity. }
  destruct (get_item_spec _ _ _ _ _ _ _ _ R1 E2) as [Ha [Hh [Hit [F2 [S2 [W2 [R2 D2]]]]]]].
  specialize (W2 W1). rewrite F1 in Hit. subst h.
  set (h := md5 vid) in *. set (k := key tid rid h) in *.
  assert (Sst : w_store w2 = w_store w) by congruence.
  (* the region is new only when the item is new *)
  assert (Hnew : rg_new rg = true -> find_item w tid rid h = None).
  { intros Hn. destruct (proj2 W1 _ _ _ R1) as [_ Hn2]. rewrite FI1, (Hn2 Hn). reflexivity. }
  assert (Dall : forall t r h', differs tid rid h t r h' -> find_item w2 t r h' = find_item w t r h').
  { intros. rewrite D2 by assumption. apply F1. }
  (* the execution part *)
  assert (HEX : forall d,
     reason_exec w tid rid h it test t1 t2 -> store_after (w_store w) k t2 d ->
     (let it' := match interval tid rid with
                 | Some i => if i =? 0 then it else mkItem (it_refresh it) (t3 + i)
                 | None => it end in
      let w := put_item (set_store w2 d) tid rid h it' in
      match body with
      | None => (Failed BodyError, w)
      | Some o =>
          let w := put_item w tid rid h (mkItem (Some t4) (it_expiry it')) in
          (Executed o, set_store w (st_set (w_store w) k o (it_expiry it')))
      end) = (oc, w') ->
     WF w' /\
     (forall t r h', differs tid rid h t r h' -> find_item w' t r h' = find_item w t r h') /\
     ((exists o d, oc = Executed o /\ body = Some o /\ reason_exec w tid rid h it test t1 t2
        /\ store_after (w_store w) k t2 d
        /\ find_item w' tid rid h = Some (mkItem (Some t4) (next_expiry tid rid (it_expiry it) t3))
        /\ w_store w' = aset k (o, next_expiry tid rid (it_expiry it) t3) d)
     \/ (oc = Failed BodyError /\ body = None /\ reason_exec w tid rid h it test t1 t2
        /\ store_after (w_store w) k t2 (w_store w')
        /\ find_item w' tid rid h = Some (mkItem (it_refresh it) (next_expiry tid rid (it_expiry it) t3))))).
  { intros d Hre Hsa HH. cbv zeta in HH.
    set (it' := match interval tid rid with
                | Some i => if i =? 0 then it else mkItem (it_refresh it) (t3 + i)
                | None => it end) in *.
    assert (Eexp : it_expiry it' = next_expiry tid rid (it_expiry it) t3)
      by (unfold it', next_expiry; destruct (interval tid rid) as [i|]; [destruct (i =? 0)|]; reflexivity).
    assert (Eref : it_refresh it' = it_refresh it)
      by (unfold it'; destruct (interval tid rid) as [i|]; [destruct (i =? 0)|]; reflexivity).
    assert (Wd : WF (set_store w2 d)).
    { split; [|exact (proj2 W2)]. simpl.
      destruct Hsa as [->|[o [e [_ [_ [_ ->]]]]]]; [apply HW|apply NoDup_adel; apply HW]. }
    assert (Fd : find_item (set_store w2 d) tid rid h <> None).
    { change (find_item w2 tid rid h <> None). rewrite F2. discriminate. }
    assert (Rd : aget rid (w_regions (set_store w2 d) tid) <> None) by exact R2.
    pose proof (WF_put_item _ _ _ _ it' Wd Fd) as Wp.
    destruct (put_item_spec (set_store w2 d) tid rid h it' Rd) as [P1 [P2 P3]].
    destruct body as [o|]; inversion HH; subst oc w'; clear HH.
    - set (wp := put_item (set_store w2 d) tid rid h it') in *.
      destruct (put_item_spec wp tid rid h (mkItem (Some t4) (it_expiry it')) P3) as [Q1 [Q2 Q3]].
      assert (Fp : find_item wp tid rid h <> None)
        by (rewrite P1, N.eqb_refl, !str_eqb_refl; discriminate).
      pose proof (WF_put_item _ _ _ _ (mkItem (Some t4) (it_expiry it')) Wp Fp) as Wq.
      split; [|split].
      + split; [|exact (proj2 Wq)]. simpl. apply NoDup_aset. apply (proj1 Wq).
      + intros t r h' Hd.
        change (find_item (put_item wp tid rid h (mkItem (Some t4) (it_expiry it'))) t r h' = find_item w t r h').
        rewrite Q1, P1.
        destruct (N.eqb_spec t tid), (str_eqb_spec r rid), (str_eqb_spec h' h); simpl;
          try (apply Dall; assumption). exfalso. destruct Hd as [?|[?|?]]; congruence.
      + left. exists o, d. repeat split; auto.
        * change (find_item (put_item wp tid rid h (mkItem (Some t4) (it_expiry it'))) tid rid h
                  = Some (mkItem (Some t4) (next_expiry tid rid (it_expiry it) t3))).
          rewrite Q1, N.eqb_refl, !str_eqb_refl. simpl. rewrite Eexp. reflexivity.
        * simpl. unfold st_set. rewrite Q2, P2, Eexp. reflexivity.
    - split; [exact Wp|split].
      + intros t r h' Hd. rewrite P1.
        destruct (N.eqb_spec t tid), (str_eqb_spec r rid), (str_eqb_spec h' h); simpl;
          try (apply Dall; assumption). exfalso. destruct Hd as [?|[?|?]]; congruence.
      + right. split; [reflexivity|]. split; [reflexivity|]. split; [assumption|].
        split; [rewrite P2; assumption|].
        rewrite P1, N.eqb_refl, !str_eqb_refl. simpl. rewrite <- Eexp, <- Eref. destruct it'; reflexivity. }
  (* the decision *)
  cbv zeta in H.
  destruct (negb (rg_new rg || has_expired it t1 || test) && refresh_truth it) eqn:Edec.
  - apply andb_true_iff in Edec as [Edec Hrt].
    apply negb_true_iff, orb_false_iff in Edec as [Edec Htest].
    apply orb_false_iff in Edec as [Hn Hexp].
    destruct (st_get (w_store w2) k t2) as [[o|e] d] eqn:Eg.
    + rewrite Hrt in H. simpl in H. inversion H; subst oc w'. clear H.
      unfold st_get in Eg. rewrite Sst in Eg. fold k in Eg.
      destruct (aget k (w_store w)) as [[v e]|] eqn:Ek; [|discriminate].
      destruct (negb (e =? 0) && (t2 >? e)) eqn:Ee; inversion Eg; subst v d.
      split; [split; [simpl; apply HW|exact (proj2 W2)]|]. right. split; [assumption|].
      cbv zeta; fold h; fold k; rewrite <- Hit. split; [exact Dall|]. left. exists o, e. repeat split; auto.
      destruct (Z.eqb_spec e 0); [auto|]. right. simpl in Ee. lia.
    + rewrite Hrt in H. simpl in H.
      assert (Hsa : store_after (w_store w) k t2 d /\ reason_exec w tid rid h it test t1 t2).
      { unfold st_get in Eg. rewrite Sst in Eg. fold k in Eg.
        destruct (aget k (w_store w)) as [[v e']|] eqn:Ek.
        - destruct (negb (e' =? 0) && (t2 >? e')) eqn:Ee; inversion Eg; subst.
          apply andb_true_iff in Ee as [Ee1 Ee2]. apply negb_true_iff, Z.eqb_neq in Ee1.
          split; [right; exists v, e'; repeat split; auto; lia|].
          do 5 right. exists v, e'. repeat split; auto; lia.
        - inversion Eg; subst. split; [left; reflexivity|]. do 4 right. left. assumption. }
      destruct Hsa as [Hsa Hre]. specialize (HEX d Hre Hsa H) as [HW' [HD HC]].
      split; [assumption|]. right. split; [assumption|]. cbv zeta; fold h; fold k; rewrite <- Hit.
      split; [exact HD|]. right. exact HC.
  - destruct ((rg_new rg || has_expired it t1 || test) || negb (refresh_truth it)) eqn:Edo.
    + assert (Hre : reason_exec w tid rid h it test t1 t2).
      { apply orb_true_iff in Edo as [Edo|Edo]; [apply orb_true_iff in Edo as [Edo|Edo];
          [apply orb_true_iff in Edo as [Edo|Edo]|]|].
        - right; left. auto.
        - right; right; left. assumption.
        - left. assumption.
        - do 3 right. left. apply negb_true_iff. assumption. }
      assert (Hsa : store_after (w_store w) k t2 (w_store w2)) by (left; assumption).
      assert (Hw2 : set_store w2 (w_store w2) = w2) by (destruct w2; reflexivity).
      specialize (HEX (w_store w2) Hre Hsa). rewrite Hw2 in HEX. specialize (HEX H).
      destruct HEX as [HW' [HD HC]]. split; [assumption|]. right. split; [assumption|].
      cbv zeta; fold h; fold k; rewrite <- Hit. split; [exact HD|]. right. exact HC.
    + exfalso. destruct (rg_new rg), (has_expired it t1), test, (refresh_truth it); simpl in *; discriminate.
Qed.

(** ** What clearing does *)
(** the hashes in use *)
Variable G : pystr -> Prop.
Definition hashes_in (w : world) : Prop := forall t r h, find_item w t r h <> None -> G h.

Definition shrinks (d d' : store) (P : pystr -> Prop) : Prop :=
  forall k, (~ P k -> aget k d' = aget k d) /\ (aget k d' = aget k d \/ aget k d' = None).

Lemma clear_items_spec : forall tid rid hs items d e items' d',
  NoDup (keys d) -> NoDup (keys items) ->
  clear_items prefix tid rid hs items d = (e, items', d') ->
  NoDup (keys d') /\ NoDup (keys items') /\
  shrinks d d' (fun k => exists h, In h hs /\ k = key tid rid h) /\
  (forall h, (aget h items' = aget h items \/ aget h items' = None) /\
             (~ In h hs -> aget h items' = aget h items) /\
             (e = None -> In h hs -> aget h items' = None)).
Proof.
  intros tid rid. induction hs as [|h0 hs IH]; intros items d e items' d' Nd Ni H; simpl in H.
  - inversion H; subst. split; [assumption|]. split; [assumption|].
    split; [intros k; auto|]. intros h. split; [auto|]. split; [auto|]. intros _ [].
  - unfold st_delete in H. destruct (ahas (key tid rid h0) d).
    + apply IH in H as [N1 [N2 [S1 I1]]]; [|apply NoDup_adel; assumption..].
      split; [assumption|]. split; [assumption|]. split.
      * intros k. destruct (S1 k) as [S2 S3]. rewrite aget_adel in * by assumption.
        destruct (str_eqb_spec k (key tid rid h0)) as [Ek|Hk]; [subst k|].
        -- split; [intros Hn; exfalso; apply Hn; exists h0; split; [left; reflexivity|reflexivity]|].
           right. destruct S3; assumption.
        -- split; [|assumption]. intros Hn. apply S2. intros [h [Hh Eh]]. apply Hn. exists h. split; [right|]; assumption.
      * intros h. destruct (I1 h) as [I2 [I3 I4]]. rewrite aget_adel in * by assumption.
        destruct (str_eqb_spec h h0) as [Eh|Hh]; [subst h|].
        -- assert (aget h0 items' = None) by (destruct I2; assumption).
           split; [right; assumption|]. split; [intros Hn; exfalso; apply Hn; left; reflexivity|auto].
        -- split; [assumption|]. split; [intros Hn; apply I3; intro; apply Hn; right; assumption|].
           intros He [?|?]; [congruence|auto].
    + inversion H; subst. split; [assumption|]. split; [assumption|].
      split; [intros k; auto|]. intros h. split; [auto|]. split; [auto|]. discriminate.
Qed.

Definition was_reset (w w' : world) (t : N) (r h : pystr) : Prop :=
  match find_item w' t r h with
  | Some it => it_refresh it = None /\
      (it_expiry it = 0 \/ exists it0, find_item w t r h = Some it0 /\ it_expiry it = it_expiry it0)
  | None => True
  end.

(** effect of a refresh on everything that can be looked up *)
Definition shrink_world (w w' : world) (inscope : N -> pystr -> pystr -> Prop) : Prop :=
  (forall t r h, (~ inscope t r h -> find_item w' t r h = find_item w t r h) /\
     (find_item w' t r h = find_item w t r h \/ was_reset w w' t r h)) /\
  (forall k, (aget k (w_store w') = aget k (w_store w) \/ aget k (w_store w') = None) /\
     (aget k (w_store w') <> aget k (w_store w) -> exists t r h, inscope t r h /\ G h /\ k = key t r h)).

Definition all_clear (w : world) (inscope : N -> pystr -> pystr -> Prop) : Prop :=
  forall t r h, inscope t r h -> match find_item w t r h with Some it => it_refresh it = None | None => True end.

Lemma clear_region_spec : forall w tid rid e w', WF w -> hashes_in w ->
  clear_region prefix w tid rid = (e, w') ->
  WF w' /\ hashes_in w' /\ (e = None -> forall h, find_item w' tid rid h = None) /\
  (forall t r h, find_item w' t r h <> None -> find_item w' t r h = find_item w t r h) /\ shrink_world w w' (fun t r h => t = tid /\ r = rid) /\
  (e = None -> all_clear w' (fun t r h => t = tid /\ r = rid)) /\
  keys (w_regions w' tid) = keys (w_regions w tid).
Proof.
  intros w tid rid e w' [Nd Nr] HG H. unfold clear_region in H.
  destruct (aget rid (w_regions w tid)) as [rg|] eqn:E.
  - destruct (clear_items prefix tid rid (keys (rg_items rg)) (rg_items rg) (w_store w)) as [[e0 items] d] eqn:C.
    inversion H; subst e0 w'. clear H. destruct (Nr _ _ _ E) as [Ni Hnew].
    apply clear_items_spec in C as [N1 [N2 [S1 I1]]]; [|assumption..].
    assert (FP : forall t r h, find_item (set_store (put_region w tid rid (mkRegion (rg_new rg) items)) d) t r h
             = if ((t =? tid)%N && str_eqb r rid)%bool then aget h items else find_item w t r h).
    { intros. change (find_item (put_region w tid rid (mkRegion (rg_new rg) items)) t r h
             = if ((t =? tid)%N && str_eqb r rid)%bool then aget h items else find_item w t r h).
      rewrite find_put_region. reflexivity. }
    assert (FE : forall t r h,
      find_item (set_store (put_region w tid rid (mkRegion (rg_new rg) items)) d) t r h <> None ->
      find_item (set_store (put_region w tid rid (mkRegion (rg_new rg) items)) d) t r h = find_item w t r h).
    { intros t r h. rewrite FP. destruct (N.eqb_spec t tid) as [->|]; simpl; [|reflexivity].
      destruct (str_eqb_spec r rid) as [->|]; simpl; [|reflexivity].
      destruct (I1 h) as [[I2|I2] _]; rewrite I2; [|congruence].
      intros _. unfold find_item. rewrite E. reflexivity. }
    split; [|split; [|split; [|split; [exact FE|split; [|split]]]]].
    2:{ intros t r h Hne. rewrite (FE t r h Hne) in Hne. exact (HG _ _ _ Hne). }
    2:{ intros He h. rewrite FP, N.eqb_refl, str_eqb_refl. simpl. destruct (I1 h) as [_ [I3 I4]].
        destruct (in_dec str_eq_dec h (keys (rg_items rg))) as [Hi|Hi]; [auto|].
        rewrite (I3 Hi). apply aget_None_keys. assumption. }
    + split; [exact N1|]. intros t r rg'. simpl.
      destruct (N.eqb_spec t tid) as [->|]; [|apply Nr]. rewrite aget_aset.
      destruct (str_eqb r rid); [|apply Nr]. intros E2; inversion E2; subst. simpl.
      split; [assumption|]. intros Hn. specialize (Hnew Hn). rewrite Hnew in *.
      destruct items as [|[k v] items]; [reflexivity|].
      destruct (I1 k) as [[I2|I2] _]; simpl in I2; rewrite str_eqb_refl in I2; discriminate.
    + split.
      * intros t r h. rewrite FP.
        destruct (N.eqb_spec t tid) as [->|]; simpl; [|split; [reflexivity|left; reflexivity]].
        destruct (str_eqb_spec r rid) as [->|]; simpl; [|split; [reflexivity|left; reflexivity]].
        split; [intros Hn; exfalso; apply Hn; auto|].
        destruct (I1 h) as [[I2|I2] _]; rewrite I2.
        -- left. unfold find_item. rewrite E. reflexivity.
        -- right. unfold was_reset. rewrite FP, N.eqb_refl, str_eqb_refl. simpl. rewrite I2. exact I.
      * intros k. simpl. destruct (S1 k) as [S2 S3]. split; [assumption|].
        intros Hne.
        destruct (in_dec str_eq_dec k (map (key tid rid) (keys (rg_items rg)))) as [Hi|Hi].
        -- apply in_map_iff in Hi as [h [Eh Hh]]. exists tid, rid, h. repeat split; auto.
           apply (HG tid rid h). unfold find_item. rewrite E. apply aget_In_keys in Hh as [x Hx]. congruence.
        -- exfalso. apply Hne. apply S2. intros [h [Hh Eh]]. apply Hi. apply in_map_iff. eauto.
    + intros He t r h [-> ->]. rewrite FP, N.eqb_refl, str_eqb_refl. simpl.
      destruct (I1 h) as [_ [I3 I4]].
      destruct (in_dec str_eq_dec h (keys (rg_items rg))) as [Hi|Hi].
      * rewrite I4; auto.
      * rewrite (I3 Hi). apply aget_None_keys in Hi. rewrite Hi. exact I.
    + simpl. rewrite N.eqb_refl, keys_aset. unfold ahas. rewrite E. reflexivity.
  - inversion H; subst. split; [split; assumption|]. split; [assumption|]. split.
    { intros _ h. unfold find_item. rewrite E. reflexivity. }
    split; [reflexivity|]. split; [|split; [|reflexivity]].
    + split; [intros; auto|]. intros k. split; [auto|]. congruence.
    + intros _ t r h [-> ->]. unfold find_item. rewrite E. exact I.
Qed.

Lemma shrink_trans : forall w1 w2 w3 (P Q R : N -> pystr -> pystr -> Prop),
  (forall t r h, P t r h -> R t r h) -> (forall t r h, Q t r h -> R t r h) ->
  shrink_world w1 w2 P -> shrink_world w2 w3 Q -> shrink_world w1 w3 R.
Proof.
  intros w1 w2 w3 P Q R HP HQ [A1 A2] [B1 B2]. split.
  - intros t r h. destruct (A1 t r h) as [A3 A4], (B1 t r h) as [B3 B4]. split.
    + intros Hn. rewrite B3, A3; auto.
    + destruct B4 as [B4|B4].
      * rewrite B4. destruct A4 as [A4|A4]; [auto|]. right. unfold was_reset in *. rewrite B4. assumption.
      * right. unfold was_reset in *. destruct (find_item w3 t r h) as [i|]; [|exact I].
        destruct B4 as [B5 [B6|[i0 [B6 B7]]]]; [auto|]. split; [assumption|]. rewrite B6 in A4.
        destruct A4 as [A4|[_ [A5|[i1 [A5 A6]]]]].
        -- right. exists i0. auto.
        -- left. congruence.
        -- right. exists i1. split; [assumption|congruence].
  - intros k. destruct (A2 k) as [A3 A4], (B2 k) as [B3 B4]. split.
    + destruct B3 as [B3|B3]; [rewrite B3; assumption|auto].
    + intros Hne.
      assert (D : {aget k (w_store w2) = aget k (w_store w1)} + {aget k (w_store w2) <> aget k (w_store w1)}).
      { repeat decide equality; apply N.eq_dec. }
      destruct D as [D|D].
      * destruct B4 as [t [r [h [H1 H2]]]]; [congruence|]. exists t, r, h. auto.
      * destruct (A4 D) as [t [r [h [H1 H2]]]]. exists t, r, h. auto.
Qed.

Lemma all_clear_shrink : forall w w' P Q, all_clear w P -> shrink_world w w' Q -> all_clear w' P.
Proof.
  intros w w' P Q H [S _] t r h Hp. destruct (S t r h) as [_ [E|E]].
  - rewrite E. apply H. assumption.
  - unfold was_reset in E. destruct (find_item w' t r h); tauto.
Qed.

Lemma clear_regions_spec : forall rids w tid e w', WF w -> hashes_in w ->
  clear_regions prefix w tid rids = (e, w') ->
  WF w' /\ hashes_in w' /\ (e = None -> forall r h, In r rids -> find_item w' tid r h = None) /\
  (forall t r h, find_item w' t r h <> None -> find_item w' t r h = find_item w t r h) /\ shrink_world w w' (fun t r h => t = tid /\ In r rids) /\
  (e = None -> all_clear w' (fun t r h => t = tid /\ In r rids)).
Proof.
  induction rids as [|rid rids IH]; intros w tid e w' HW HG H; simpl in H.
  - inversion H; subst. split; [assumption|]. split; [assumption|]. split; [intros _ r h []|].
    split; [reflexivity|]. split.
    + split; [intros; auto|]. intros k. split; [auto|congruence].
    + intros _ t r h [_ []].
  - destruct (clear_region prefix w tid rid) as [[e1|] w1] eqn:C.
    + inversion H; subst. apply clear_region_spec in C as [HW' [HG' [_ [FE [S1 _]]]]]; [|assumption..].
      split; [assumption|]. split; [assumption|]. split; [discriminate|]. split; [assumption|].
      split; [|discriminate].
      eapply (shrink_trans _ _ w' _ (fun t r h => False)); [| |exact S1|].
      * intros t r h [-> ->]. split; [reflexivity|left; reflexivity].
      * intros t r h [].
      * split; [intros; auto|]. intros k. split; [auto|congruence].
    + apply clear_region_spec in C as [HW' [HG' [N1 [FE [S1 [C1 _]]]]]]; [|assumption..].
      apply IH in H as [HW'' [HG'' [N2 [FE2 [S2 C2]]]]]; [|assumption..]. split; [assumption|].
      split; [assumption|]. split.
      { intros He r h [<-|Hr]; [|auto]. destruct (find_item w' tid rid h) eqn:X; [|reflexivity].
        rewrite FE2 in X by congruence. rewrite N1 in X by reflexivity. discriminate. }
      split.
      { intros t r h Hn. pose proof (FE2 t r h Hn) as E2. rewrite E2 in *. apply FE. assumption. }
      split.
      * eapply shrink_trans; [| |exact S1|exact S2].
        -- intros t r h [-> ->]. split; [reflexivity|left; reflexivity].
        -- intros t r h [-> ?]. split; [reflexivity|right; assumption].
      * intros He t r h [-> [<-|Hr]].
        -- eapply (all_clear_shrink w1 w'); [apply C1; reflexivity|exact S2|split; reflexivity].
        -- apply (C2 He). auto.
Qed.

Definition ref_scope (tid : N) (r0 v0 : pystr) (t : N) (r h : pystr) : Prop :=
  t = tid /\ match r0 with
             | [] => True
             | _ => r = r0 /\ match v0 with [] => True | _ => h = md5 v0 end
             end.

Lemma refresh_spec : forall w tid r0 v0 e w', WF w -> hashes_in w -> G (md5 v0) ->
  refresh w tid r0 v0 = (e, w') ->
  WF w' /\ hashes_in w' /\
  (v0 = [] -> (forall t r h, find_item w' t r h <> None -> find_item w' t r h = find_item w t r h) /\
     (e = None -> forall t r h, ref_scope tid r0 v0 t r h -> find_item w' t r h = None)) /\ shrink_world w w' (ref_scope tid r0 v0) /\ (e = None -> all_clear w' (ref_scope tid r0 v0)).
Proof.
  intros w tid r0 v0 e w' HW HG Gv H. unfold Cache_Model.refresh in H.
  assert (Triv : forall P, shrink_world w w P)
    by (intros P; split; [intros; auto|intros k; split; [auto|congruence]]).
  destruct r0 as [|c r0].
  - apply clear_regions_spec in H as [HW' [HG' [N1 [FE [S C]]]]]; [|assumption..].
    split; [assumption|]. split; [assumption|]. split.
    { intros _. split; [assumption|]. intros He t r h [-> _].
      destruct (in_dec str_eq_dec r (keys (w_regions w tid))) as [Hi|Hi]; [auto|].
      destruct S as [S _]. destruct (S tid r h) as [S1 _]. rewrite S1 by tauto.
      unfold find_item. apply aget_None_keys in Hi. rewrite Hi. reflexivity. }
    split.
    + eapply (shrink_trans _ _ w' _ (fun t r h => False)); [| |exact S|].
      * intros t r h [-> _]. split; [reflexivity|exact I].
      * intros t r h [].
      * split; [intros; auto|intros k; split; [auto|congruence]].
    + intros He t r h [-> _].
      destruct (in_dec str_eq_dec r (keys (w_regions w tid))) as [Hi|Hi]; [apply (C He); auto|].
      destruct S as [S _]. destruct (S tid r h) as [S1 _]. rewrite S1 by tauto.
      unfold find_item. apply aget_None_keys in Hi. rewrite Hi. exact I.
  - remember (c :: r0) as rr eqn:Err.
    destruct (aget rr (w_regions w tid)) as [rg|] eqn:E.
    2:{ inversion H; subst e w'. split; [assumption|]. split; [assumption|]. split.
        { intros _. split; [reflexivity|]. intros _ t r h. unfold ref_scope. rewrite Err. intros [-> [-> _]].
          unfold find_item. rewrite <- Err, E. reflexivity. }
        split; [apply Triv|].
        intros _ t r h. unfold ref_scope. rewrite Err. intros [-> [-> _]]. unfold find_item.
        rewrite <- Err, E. exact I. }
    destruct v0 as [|c0 v0].
    + apply clear_region_spec in H as [HW' [HG' [N1 [FE [S [C _]]]]]]; [|assumption..].
      split; [assumption|]. split; [assumption|]. split.
      { intros _. split; [assumption|]. intros He t r h. unfold ref_scope. rewrite Err. intros [-> [-> _]].
        rewrite <- Err. auto. }
      split.
      * eapply (shrink_trans _ _ w' _ (fun t r h => False)); [| |exact S|].
        -- intros t r h [-> ->]. unfold ref_scope. rewrite Err. auto.
        -- intros t r h [].
        -- split; [intros; auto|intros k; split; [auto|congruence]].
      * intros He t r h. unfold ref_scope. rewrite Err. intros [-> [-> _]]. rewrite <- Err.
        apply (C He). auto.
    + remember (c0 :: v0) as vv eqn:Evv.
      assert (Escope : forall t r h, ref_scope tid rr vv t r h <-> t = tid /\ r = rr /\ h = md5 vv)
        by (intros; unfold ref_scope; rewrite Err, Evv; tauto).
      destruct (get_item md5 w tid rr rg vv) as [[[h it]|e1] w1] eqn:GI.
      2:{ inversion H; subst e w'. unfold get_item in GI. destruct (is_ascii vv).
          - destruct (aget (md5 vv) (rg_items rg)); discriminate.
          - inversion GI; subst. split; [assumption|]. split; [assumption|]. split; [discriminate|].
            split; [apply Triv|discriminate]. }
      destruct (get_item_spec _ _ _ _ _ _ _ _ E GI) as [Ha [Hh [Hit [F [S [W1 [R1 D]]]]]]].
      specialize (W1 HW).
      assert (SW : shrink_world w w1 (ref_scope tid rr vv)).
      { split.
        - intros t r h'. rewrite Escope.
          destruct (N.eq_dec t tid) as [->|]; [|rewrite D by (left; assumption); auto].
          destruct (str_eq_dec r rr) as [->|]; [|rewrite D by (right; left; assumption); auto].
          destruct (str_eq_dec h' h) as [->|]; [|rewrite D by (right; right; assumption); auto].
          split; [intros Hn; exfalso; apply Hn; auto|].
          unfold was_reset. rewrite F. destruct (find_item w tid rr h) as [i|]; simpl in Hit; subst it; auto.
        - intros k. rewrite S. split; [auto|congruence]. }
      assert (HG1 : hashes_in w1).
      { intros t r h' Hn. destruct (str_eq_dec h' h) as [->|]; [rewrite Hh; exact Gv|].
        rewrite D in Hn by (right; right; assumption). exact (HG _ _ _ Hn). }
      unfold st_delete in H. destruct (ahas (key tid rr h) (w_store w1)) eqn:Hk.
      * inversion H; subst e w'. clear H. set (d := adel (key tid rr h) (w_store w1)) in *.
        destruct (put_item_spec (set_store w1 d) tid rr h (mkItem None (it_expiry it)) R1) as [P1 [P2 P3]].
        assert (Wd : WF (set_store w1 d)) by (split; [apply NoDup_adel; apply W1|exact (proj2 W1)]).
        split; [|split; [|split; [rewrite Evv; discriminate|split]]].
        2:{ intros t r h' Hn. rewrite P1 in Hn. destruct (str_eqb_spec h' h) as [Ehh|]; [rewrite Ehh, Hh; exact Gv|].
            rewrite andb_false_r in Hn. exact (HG1 _ _ _ Hn). }
        -- apply WF_put_item; [assumption|]. change (find_item w1 tid rr h <> None). rewrite F. discriminate.
        -- eapply (shrink_trans w w1 _ (ref_scope tid rr vv) (ref_scope tid rr vv)); auto. split.
           ++ intros t r h'. rewrite P1, Escope.
              destruct (N.eqb_spec t tid) as [->|]; [|auto].
              destruct (str_eqb_spec r rr) as [->|]; [|auto].
              destruct (str_eqb_spec h' h) as [->|]; [|auto]. simpl.
              split; [intros Hn; exfalso; apply Hn; auto|]. right. unfold was_reset.
              rewrite P1, N.eqb_refl, !str_eqb_refl. simpl. split; [reflexivity|]. right. exists it. auto.
           ++ intros k. rewrite P2. simpl. unfold d. rewrite aget_adel by apply W1.
              destruct (str_eqb_spec k (key tid rr h)) as [->|].
              ** split; [auto|]. intros _. exists tid, rr, h. rewrite Escope. repeat split; auto.
                 rewrite Hh. exact Gv.
              ** split; [auto|congruence].
        -- intros _ t r h'. rewrite Escope. intros [-> [-> ->]]. rewrite P1, N.eqb_refl, str_eqb_refl, <- Hh, str_eqb_refl.
           reflexivity.
      * inversion H; subst e w'. split; [assumption|]. split; [assumption|].
        split; [rewrite Evv; discriminate|]. split; [assumption|discriminate].
Qed.

End P.

Section Q.
Variable md5 : pystr -> pystr.
Variable prefix : N -> pystr.
Variable interval : N -> pystr -> option Z.
Notation key := (item_key prefix).
Notation render := (render md5 prefix interval).
Notation refresh := (refresh md5 prefix).
Notation next_expiry := (next_expiry interval).
Notation ref_scope := (ref_scope md5).
(** ** Keys *)
Lemma app_inv_suffix : forall (a b c d : pystr), length b = length d -> a ++ b = c ++ d -> a = c /\ b = d.
Proof.
  induction a as [|x a IH]; destruct c as [|y c]; simpl; intros d Hl E.
  - auto.
  - subst b. simpl in Hl. rewrite app_length in Hl. lia.
  - subst d. simpl in Hl. rewrite app_length in Hl. lia.
  - inversion E; subst. destruct (IH b c d) as [-> ->]; auto.
Qed.

Lemma colon_split : forall (a b c d : pystr), ~ In 58%N a -> ~ In 58%N c ->
  a ++ 58%N :: b = c ++ 58%N :: d -> a = c /\ b = d.
Proof.
  induction a as [|x a IH]; destruct c as [|y c]; simpl; intros d Ha Hc E; inversion E; subst; auto.
  - exfalso; apply Hc; auto.
  - exfalso; apply Ha; auto.
  - destruct (IH b c d) as [-> ->]; auto.
Qed.

Lemma key_inj : forall l t r v t' r' v', md5_ok md5 l -> prefix_ok prefix -> In v l -> In v' l ->
  key t r (md5 v) = key t' r' (md5 v') -> t = t' /\ r = r' /\ v = v'.
Proof.
  intros l t r v t' r' v' [Hi Hl] [Hp1 Hp2] Hv Hv' E. unfold item_key in E.
  change (L ":") with [58%N] in E. simpl in E. apply colon_split in E as [E1 E2]; auto.
  apply Hp2 in E1. split; [assumption|].
  apply (app_inv_suffix (r) (58%N :: md5 v) r' (58%N :: md5 v')) in E2 as [E3 E4].
  - split; [assumption|]. inversion E4. apply Hi; assumption.
  - simpl. f_equal. apply Hl; assumption.
Qed.

(** ** The invariant *)
Variable dom : list pystr.
Hypothesis Hmd5 : md5_ok md5 dom.
Hypothesis Hpre : prefix_ok prefix.
Definition G (h : pystr) : Prop := exists v, In v dom /\ h = md5 v.
Notation hashes_in := (hashes_in G).

Definition exp_of (tid : N) (rid : pystr) (s : Z) : Z := next_expiry tid rid 0 s.

Definition Inv (evs : list cev) (w : world) : Prop :=
  WF w /\ hashes_in w /\
  (forall t r h it, find_item w t r h = Some it ->
     match interval t r with Some i => i = 0 -> it_expiry it = 0 | None => it_expiry it = 0 end) /\
  (forall t r v it, In v dom -> find_item w t r (md5 v) = Some it -> it_refresh it <> None ->
     exists o s, last_exec evs t r v = Some (o, s) /\
       (aget (key t r (md5 v)) (w_store w) = None \/
        aget (key t r (md5 v)) (w_store w) = Some (o, exp_of t r s))).

Lemma next_expiry_exp : forall t r old s, 
  match interval t r with Some i => i = 0 -> old = 0 | None => old = 0 end ->
  next_expiry t r old s = exp_of t r s.
Proof.
  intros t r old s H. unfold exp_of, next_expiry. destruct (interval t r) as [i|]; [|assumption].
  destruct (Z.eqb_spec i 0); auto.
Qed.

Lemma Inv_init : Inv [] init_world.
Proof.
  split; [split; [constructor|discriminate]|]. split; [intros t r h H; exfalso; apply H; reflexivity|].
  split; intros; discriminate.
Qed.

Lemma differs_of : forall t r v t' r' v', In v dom -> In v' dom ->
  ~ (t' = t /\ r' = r /\ v' = v) -> differs t r (md5 v) t' r' (md5 v').
Proof.
  intros t r v t' r' v' Hv Hv' Hn. unfold differs.
  destruct (N.eq_dec t' t) as [->|]; [|auto]. destruct (str_eq_dec r' r) as [->|]; [|auto].
  right; right. intro E. apply Hn. repeat split; auto. apply (proj1 Hmd5); auto.
Qed.

Lemma key_other : forall t r v t' r' v', In v dom -> In v' dom ->
  ~ (t' = t /\ r' = r /\ v' = v) -> key t' r' (md5 v') <> key t r (md5 v).
Proof.
  intros t r v t' r' v' Hv Hv' Hn E. apply Hn. eapply key_inj; eauto.
Qed.

Lemma same_item_spec : forall t r v t' r' v', reflect (t' = t /\ r' = r /\ v' = v) (same_item t r v t' r' v').
Proof.
  intros. unfold same_item. destruct (N.eqb_spec t t'), (str_eqb_spec r r'), (str_eqb_spec v v'); simpl;
    constructor; intuition congruence.
Qed.

Lemma affects_spec : forall r0 v0 tid t r v, In v0 dom -> In v dom ->
  ((tid =? t)%N && affects r0 v0 r v = true <-> ref_scope tid r0 v0 t r (md5 v)).
Proof.
  intros r0 v0 tid t r v Hv0 Hv. unfold affects, ref_scope. rewrite andb_true_iff, N.eqb_eq.
  destruct r0 as [|c r0]; [intuition|]. rewrite andb_true_iff, str_eqb_eq.
  destruct v0 as [|c0 v0]; [intuition|]. rewrite str_eqb_eq.
  split; intros [-> [-> H]]; repeat split; auto.
  - congruence.
  - symmetry. apply (proj1 Hmd5); auto.
Qed.

Lemma store_after_other : forall d k t2 d' k', NoDup (keys d) -> store_after d k t2 d' -> k' <> k ->
  aget k' d' = aget k' d.
Proof.
  intros d k t2 d' k' Hn [->|[o [e [_ [_ [_ ->]]]]]] Hk; [reflexivity|].
  rewrite aget_adel by assumption. destruct (str_eqb_spec k' k); congruence.
Qed.

Lemma store_after_same : forall d k t2 d', NoDup (keys d) -> store_after d k t2 d' ->
  aget k d' = aget k d \/ aget k d' = None.
Proof.
  intros d k t2 d' Hn [->|[o [e [_ [_ [_ ->]]]]]]; [left; reflexivity|].
  right. rewrite aget_adel by assumption. rewrite str_eqb_refl. reflexivity.
Qed.

Lemma Inv_step : forall evs w op e w', Inv evs w -> incl (op_ids op) dom ->
  cstep md5 prefix interval w op = (e, w') -> Inv (e :: evs) w'.
Proof.
  intros evs w op e w' [HW [HG [HE HI]]] Hids H. destruct op as [tid rid vid test body t1 t2 t3 t4|tid r0 v0]; simpl in H.
  - assert (Hvid : In vid dom) by (apply Hids; left; reflexivity).
    destruct (render w tid rid vid test body t1 t2 t3 t4) as [oc w0] eqn:R.
    pose proof (render_spec _ _ _ _ _ _ _ _ _ _ _ _ _ _ _ HW R) as [HW' RS].
    assert (w0 = w') by (destruct oc; inversion H; reflexivity). subst w0.
    assert (EX0 : forall h, match interval tid rid with
                        | Some i => i = 0 -> it_expiry (item_dflt (find_item w tid rid h)) = 0
                        | None => it_expiry (item_dflt (find_item w tid rid h)) = 0 end).
    { intros h. destruct (find_item w tid rid h) as [i|] eqn:F; simpl.
      - exact (HE _ _ _ _ F).
      - destruct (interval tid rid); auto. }
    destruct RS as [[Ha [[e0 ->] [Sst Fst]]]|[Ha [D RS]]].
    { inversion H; subst e. split; [assumption|]. split; [intros t r h; rewrite Fst; apply HG|]. split.
      - intros t r h it. rewrite Fst. apply HE.
      - intros t r v it Hv. rewrite Fst, Sst. simpl. apply HI. assumption. }
    cbv zeta in RS, D. set (h := md5 vid) in *. set (it0 := item_dflt (find_item w tid rid h)) in *.
    assert (HG' : hashes_in w').
    { intros t r h' Hn. destruct (str_eq_dec h' h) as [->|]; [exists vid; auto|].
      rewrite D in Hn by (right; right; assumption). exact (HG _ _ _ Hn). }
    assert (HE' : forall it', find_item w' tid rid h = Some it' ->
        (it_expiry it' = it_expiry it0 \/ it_expiry it' = next_expiry tid rid (it_expiry it0) t3) ->
        forall t r h' it, find_item w' t r h' = Some it ->
        match interval t r with Some i => i = 0 -> it_expiry it = 0 | None => it_expiry it = 0 end).
    { intros it' F' Hx t r h' it F.
      destruct (N.eq_dec t tid) as [->|]; [|rewrite D in F by (left; assumption); exact (HE _ _ _ _ F)].
      destruct (str_eq_dec r rid) as [->|]; [|rewrite D in F by (right; left; assumption); exact (HE _ _ _ _ F)].
      destruct (str_eq_dec h' h) as [->|]; [|rewrite D in F by (right; right; assumption); exact (HE _ _ _ _ F)].
      rewrite F' in F. inversion F; subst it. specialize (EX0 h). fold it0 in EX0.
      destruct Hx as [->| ->]; [assumption|]. unfold next_expiry.
      destruct (interval tid rid) as [i|]; [|assumption]. destruct (Z.eqb_spec i 0); [assumption|tauto]. }
    destruct RS as [[o [ex [-> [Ht [F [Hrt [Hexp [Hk [Hlive Sst]]]]]]]]]|
                    [[o [d [-> [Hb [Hre [Hsa [F Sst]]]]]]]|[-> [Hb [Hre [Hsa F]]]]]].
    + (* served *)
      inversion H; subst e. split; [assumption|]. split; [assumption|]. split; [eapply HE'; eauto|].
      intros t r v it Hv. simpl.
      destruct (same_item_spec tid rid vid t r v) as [[-> [-> ->]]|Hn].
      * fold h. rewrite F. intros E Hr. inversion E; subst it. rewrite Sst.
        apply (HI tid rid vid it0 Hvid); [|assumption]. fold h. unfold it0.
        destruct (find_item w tid rid h) eqn:FF; [reflexivity|].
        unfold it0, item_dflt in Hr; try rewrite FF in Hr; simpl in Hr; congruence.
      * rewrite D by (apply differs_of; auto). rewrite Sst. apply HI. assumption.
    + (* executed *)
      inversion H; subst e. split; [assumption|]. split; [assumption|]. split; [eapply HE'; [exact F|right; reflexivity]|].
      intros t r v it Hv. simpl.
      destruct (same_item_spec tid rid vid t r v) as [[-> [-> ->]]|Hn].
      * intros _ _. exists o, t3. split; [reflexivity|]. right. fold h. rewrite Sst, aget_aset_same.
        do 2 f_equal. apply next_expiry_exp. apply EX0.
      * rewrite D by (apply differs_of; auto). intros Fi Hr.
        rewrite Sst, aget_aset_other by (apply key_other; auto).
        rewrite (store_after_other _ _ _ _ _ (proj1 HW) Hsa) by (apply key_other; auto).
        eapply HI; eauto.
    + (* body raised *)
      inversion H; subst e. split; [assumption|]. split; [assumption|]. split; [eapply HE'; [exact F|right; reflexivity]|].
      intros t r v it Hv. simpl.
      destruct (same_item_spec tid rid vid t r v) as [[-> [-> ->]]|Hn].
      * fold h. rewrite F. intros E Hr. inversion E; subst it. simpl in Hr.
        destruct (HI tid rid vid it0 Hvid) as [o [s [L1 L2]]]; [|assumption|].
        { fold h. unfold it0. destruct (find_item w tid rid h) eqn:FF; [reflexivity|].
          unfold it0, item_dflt in Hr; try rewrite FF in Hr; simpl in Hr; congruence. }
        exists o, s. split; [assumption|]. fold h in L2.
        destruct (store_after_same _ _ _ _ (proj1 HW) Hsa) as [->| ->]; auto.
      * rewrite D by (apply differs_of; auto). intros Fi Hr.
        rewrite (store_after_other _ _ _ _ _ (proj1 HW) Hsa) by (apply key_other; auto).
        eapply HI; eauto.
  - assert (Hv0 : In v0 dom) by (apply Hids; left; reflexivity).
    destruct (refresh w tid r0 v0) as [oe w0] eqn:R.
    assert (Gv : G (md5 v0)) by (exists v0; auto).
    pose proof (refresh_spec md5 prefix interval G _ _ _ _ _ _ HW HG Gv R) as [HW' [HG' [_ [[S1 S2] C]]]].
    assert (w0 = w') by (destruct oe; inversion H; reflexivity). subst w0.
    split; [assumption|]. split; [assumption|]. split.
    { intros t r h it F. destruct (S1 t r h) as [_ [E|E]].
      - rewrite E in F. exact (HE _ _ _ _ F).
      - unfold was_reset in E. rewrite F in E. destruct E as [_ [E|[i0 [E1 E2]]]].
        + rewrite E. destruct (interval t r); auto.
        + rewrite E2. exact (HE _ _ _ _ E1). }
    intros t r v it Hv F Hr.
    assert (F0 : find_item w t r (md5 v) = Some it).
    { destruct (S1 t r (md5 v)) as [_ [E|E]]; [congruence|].
      unfold was_reset in E. rewrite F in E. tauto. }
    destruct (HI t r v it Hv F0 Hr) as [o [s [L1 L2]]]. exists o, s.
    assert (Sc : oe = None -> ((tid =? t)%N && affects r0 v0 r v) = false).
    { intros ->. destruct ((tid =? t)%N && affects r0 v0 r v) eqn:A; [|reflexivity].
      apply affects_spec in A; [|assumption..]. specialize (C eq_refl _ _ _ A). rewrite F in C. congruence. }
    split.
    + destruct oe; inversion H; subst e; simpl; [assumption|]. rewrite Sc by reflexivity. assumption.
    + destruct (S2 (key t r (md5 v))) as [[E|E] _]; rewrite E; auto.
Qed.

Notation crun := (crun md5 prefix interval).
Notation cstep := (cstep md5 prefix interval).

Lemma crun_snoc : forall ops op,
  crun (ops ++ [op]) = let (e, w) := cstep (snd (crun ops)) op in (e :: fst (crun ops), w).
Proof. intros. unfold Cache_Model.crun. rewrite fold_left_app. reflexivity. Qed.

Lemma ids_app : forall a b, ids (a ++ b) = ids a ++ ids b.
Proof. intros. unfold ids. apply flat_map_app. Qed.

Lemma Inv_run : forall ops, incl (ids ops) dom -> Inv (fst (crun ops)) (snd (crun ops)).
Proof.
  intros ops. induction ops as [|op ops IH] using rev_ind; intros Hi; [apply Inv_init|].
  rewrite ids_app in Hi. simpl in Hi. rewrite app_nil_r in Hi.
  rewrite crun_snoc. destruct (cstep (snd (crun ops)) op) as [e w] eqn:E. simpl.
  eapply Inv_step; [apply IH| |exact E].
  - intros x Hx. apply Hi. apply in_or_app. left; assumption.
  - intros x Hx. apply Hi. apply in_or_app. right; assumption.
Qed.

(** ** Soundness: what is served was produced by the last execution of the same item *)
Lemma served_sound : forall evs w tid rid vid test body t1 t2 t3 t4 o w',
  Inv evs w -> In vid dom ->
  render w tid rid vid test body t1 t2 t3 t4 = (Served o, w') ->
  exists s, last_exec evs tid rid vid = Some (o, s) /\ (exp_of tid rid s = 0 \/ t2 <= exp_of tid rid s).
Proof.
  intros evs w tid rid vid test body t1 t2 t3 t4 o w' [HW [HG [HE HI]]] Hv R.
  pose proof (render_spec _ _ _ _ _ _ _ _ _ _ _ _ _ _ _ HW R) as [_ [[_ [[e E] _]]|[_ [_ RS]]]]; [discriminate|].
  cbv zeta in RS.
  destruct RS as [[o' [ex [Eo [Ht [F [Hrt [Hexp [Hk [Hlive Sst]]]]]]]]]|
                  [[o' [d [Eo _]]]|[Eo _]]]; try discriminate.
  inversion Eo; subst o'.
  destruct (find_item w tid rid (md5 vid)) as [it|] eqn:Fi; simpl in *; [|discriminate].
  destruct (HI tid rid vid it Hv Fi) as [o' [s [L1 L2]]].
  { unfold refresh_truth in Hrt. destruct (it_refresh it); congruence. }
  rewrite Hk in L2. destruct L2 as [L2|L2]; [discriminate|]. inversion L2; subst.
  exists s. auto.
Qed.

(** ** Liveness *)
Definition interval_ok : Prop := forall t r i, interval t r = Some i -> 0 < i.
Hypothesis Hint : interval_ok.

Lemma exp_of_pos : forall t r s, 1 <= s ->
  match interval t r with Some i => exp_of t r s = s + i /\ s + i <> 0 | None => exp_of t r s = 0 end.
Proof.
  intros t r s Hs. unfold exp_of, Cache_Proofs.next_expiry. destruct (interval t r) as [i|] eqn:E; [|reflexivity].
  apply Hint in E. destruct (Z.eqb_spec i 0); lia.
Qed.

Definition Inv2 (m : Z) (evs : list cev) (w : world) : Prop :=
  1 <= m /\
  (forall t r v o s, last_exec evs t r v = Some (o, s) -> 1 <= s) /\
  (forall t r v o s, In v dom -> last_sure evs t r v = Some (o, s) ->
     is_ascii v = true /\ 1 <= s <= m /\
     exists it, find_item w t r (md5 v) = Some it /\ refresh_truth it = true /\
       (it_expiry it = 0 \/ exp_of t r s <= it_expiry it) /\
       (aget (key t r (md5 v)) (w_store w) = Some (o, exp_of t r s) \/
        (exp_of t r s <> 0 /\ exp_of t r s < m))).

Fixpoint last_reading (m : Z) (l : list Z) : Z :=
  match l with [] => m | t :: r => last_reading t r end.

Lemma monotone_last : forall l m, monotone_from m l -> m <= last_reading m l.
Proof. induction l as [|t l IH]; simpl; intros m H; [lia|]. destruct H as [H1 H2]. apply IH in H2. lia. Qed.

Lemma monotone_app : forall a b m, monotone_from m (a ++ b) <->
  monotone_from m a /\ monotone_from (last_reading m a) b.
Proof.
  induction a as [|t a IH]; simpl; intros b m; [tauto|]. rewrite IH. tauto.
Qed.

Lemma last_reading_app : forall a b m, last_reading m (a ++ b) = last_reading (last_reading m a) b.
Proof. induction a; simpl; intros; auto. Qed.

Lemma Inv2_step : forall m evs w op e w', Inv evs w -> Inv2 m evs w -> incl (op_ids op) dom ->
  monotone_from m (readings op) -> cstep w op = (e, w') -> Inv2 (last_reading m (readings op)) (e :: evs) w'.
Proof.
  intros m evs w op e w' HInv [Hm [HX HL]] Hids Hmon H.
  pose proof HInv as [HW [HG [HE HI]]].
  destruct op as [tid rid vid test body t1 t2 t3 t4|tid r0 v0]; simpl in H, Hmon.
  - assert (Hvid : In vid dom) by (apply Hids; left; reflexivity).
    simpl. destruct Hmon as [M1 [M2 [M3 [M4 _]]]].
    destruct (render w tid rid vid test body t1 t2 t3 t4) as [oc w0] eqn:R.
    pose proof (render_spec _ _ _ _ _ _ _ _ _ _ _ _ _ _ _ HW R) as [HW' RS].
    assert (w0 = w') by (destruct oc; inversion H; reflexivity). subst w0.
    split; [lia|].
    destruct RS as [[Ha [[e0 ->] [Sst Fst]]]|[Ha [D RS]]].
    { inversion H; subst e. split; [simpl; exact HX|].
      intros t r v o s Hv Hl. simpl in Hl. destruct (HL t r v o s Hv Hl) as [A [B [it [C1 [C2 [C3 C4]]]]]].
      split; [assumption|]. split; [lia|]. exists it. rewrite Fst, Sst. repeat split; auto.
      destruct C4 as [C4|C4]; [auto|]. right. lia. }
    cbv zeta in RS, D. set (h := md5 vid) in *. set (it0 := item_dflt (find_item w tid rid h)) in *.
    destruct RS as [[o [ex [-> [Ht [F [Hrt [Hexp [Hk [Hlive Sst]]]]]]]]]|
                    [[o [d [-> [Hb [Hre [Hsa [F Sst]]]]]]]|[-> [Hb [Hre [Hsa F]]]]]].
    + inversion H; subst e. split; [simpl; exact HX|].
      intros t r v o' s Hv Hl. simpl in Hl. destruct (HL t r v o' s Hv Hl) as [A [B [it [C1 [C2 [C3 C4]]]]]].
      split; [assumption|]. split; [lia|]. exists it. rewrite Sst. split; [|repeat split; auto].
      * destruct (same_item_spec tid rid vid t r v) as [[-> [-> ->]]|Hn].
        -- fold h in C1 |- *. rewrite F. unfold it0. rewrite C1. reflexivity.
        -- rewrite D by (apply differs_of; auto). assumption.
      * destruct C4 as [C4|C4]; [auto|]. right. lia.
    + inversion H; subst e. split.
      { intros t r v o' s. simpl. destruct (same_item tid rid vid t r v); [|apply HX].
        intros E; inversion E; subst. lia. }
      intros t r v o' s Hv Hl. simpl in Hl.
      destruct (same_item_spec tid rid vid t r v) as [[-> [-> ->]]|Hn].
      * inversion Hl; subst o' s. split; [assumption|]. split; [lia|].
        assert (Hne : next_expiry tid rid (it_expiry it0) t3 = exp_of tid rid t3).
        { apply next_expiry_exp. unfold it0. destruct (find_item w tid rid h) as [i|] eqn:FF; simpl.
          - exact (HE _ _ _ _ FF). - destruct (interval tid rid); auto. }
        rewrite Hne in *. exists (mkItem (Some t4) (exp_of tid rid t3)). fold h.
        split; [assumption|]. split; [unfold refresh_truth; simpl; lia|]. simpl. split; [right; lia|].
        left. rewrite Sst. apply aget_aset_same.
      * destruct (HL t r v o' s Hv Hl) as [A [B [it [C1 [C2 [C3 C4]]]]]].
        split; [assumption|]. split; [lia|]. exists it. split; [rewrite D by (apply differs_of; auto); assumption|].
        repeat split; auto. rewrite Sst, aget_aset_other by (apply key_other; auto).
        rewrite (store_after_other _ _ _ _ _ (proj1 HW) Hsa) by (apply key_other; auto).
        destruct C4 as [C4|C4]; [auto|]. right. lia.
    + inversion H; subst e. split; [simpl; exact HX|].
      intros t r v o' s Hv Hl. simpl in Hl. destruct (HL t r v o' s Hv Hl) as [A [B [it [C1 [C2 [C3 C4]]]]]].
      split; [assumption|]. split; [lia|].
      destruct (same_item_spec tid rid vid t r v) as [[-> [-> ->]]|Hn].
      * fold h in C1, C4 |- *. unfold it0 in F. rewrite C1 in F. simpl in F.
        eexists. split; [exact F|]. split; [exact C2|]. simpl. split.
        -- unfold Cache_Proofs.next_expiry. destruct (interval tid rid) as [i|] eqn:Ei; [|exact C3].
           destruct (i =? 0); [exact C3|]. right.
           pose proof (exp_of_pos tid rid s ltac:(lia)) as HP. rewrite Ei in HP. destruct HP as [-> _]. lia.
        -- destruct Hsa as [->|[o1 [e1 [K1 [K2 [K3 ->]]]]]].
           ++ destruct C4 as [C4|C4]; [auto|]. right. lia.
           ++ destruct C4 as [C4|C4]; [|right; lia].
              rewrite C4 in K1. inversion K1; subst. right. lia.
      * exists it. split; [rewrite D by (apply differs_of; auto); assumption|]. repeat split; auto.
        rewrite (store_after_other _ _ _ _ _ (proj1 HW) Hsa) by (apply key_other; auto).
        destruct C4 as [C4|C4]; [auto|]. right. lia.
  - assert (Hv0 : In v0 dom) by (apply Hids; left; reflexivity).
    simpl. destruct (refresh w tid r0 v0) as [oe w0] eqn:R.
    assert (Gv : G (md5 v0)) by (exists v0; auto).
    pose proof (refresh_spec md5 prefix interval G _ _ _ _ _ _ HW HG Gv R) as [HW' [HG' [_ [[S1 S2] C]]]].
    assert (w0 = w') by (destruct oe; inversion H; reflexivity). subst w0.
    split; [assumption|]. split.
    { intros t r v o s. destruct oe; inversion H; subst e; simpl; [apply HX|].
      destruct (_ && _); [discriminate|apply HX]. }
    intros t r v o s Hv Hl.
    assert (Hl' : (tid =? t)%N && affects r0 v0 r v = false /\ last_sure evs t r v = Some (o, s)).
    { destruct oe; inversion H; subst e; simpl in Hl; destruct (_ && _); auto; discriminate. }
    destruct Hl' as [Hna Hl2].
    assert (Hns : ~ ref_scope tid r0 v0 t r (md5 v)).
    { intro A. apply affects_spec in A; [|assumption..]. congruence. }
    destruct (HL t r v o s Hv Hl2) as [A [B [it [C1 [C2 [C3 C4]]]]]].
    split; [assumption|]. split; [assumption|]. exists it.
    split; [rewrite (proj1 (S1 t r (md5 v))) by assumption; assumption|].
    repeat split; auto.
    destruct (S2 (key t r (md5 v))) as [[E|E] K]; rewrite E; [assumption|].
    destruct (aget (key t r (md5 v)) (w_store w)) eqn:Z0.
    + exfalso. destruct K as [t' [r' [h' [K1 [[v' [K2 ->]] K3]]]]]; [rewrite E; discriminate|].
      destruct (key_inj dom _ _ _ _ _ _ Hmd5 Hpre Hv K2 K3) as [<- [<- <-]]. contradiction.
    + assumption.
Qed.

Lemma Inv2_run : forall ops t0, 1 <= t0 -> incl (ids ops) dom ->
  monotone_from t0 (flat_map readings ops) ->
  Inv2 (last_reading t0 (flat_map readings ops)) (fst (crun ops)) (snd (crun ops)).
Proof.
  intros ops t0 Ht0. induction ops as [|op ops IH] using rev_ind; intros Hi Hm.
  - split; [exact Ht0|]. split; intros; discriminate.
  - pose proof Hi as Hi0. rewrite ids_app in Hi. simpl in Hi. rewrite app_nil_r in Hi.
    rewrite flat_map_app in *. simpl in *. rewrite app_nil_r in *.
    apply monotone_app in Hm as [Hm1 Hm2]. rewrite last_reading_app.
    assert (I1 : incl (ids ops) dom) by (intros x Hx; apply Hi; apply in_or_app; left; assumption).
    rewrite crun_snoc. destruct (cstep (snd (crun ops)) op) as [e w] eqn:E. simpl.
    eapply Inv2_step; [apply Inv_run; assumption|apply IH; assumption| |exact Hm2|exact E].
    intros x Hx. apply Hi. apply in_or_app. right; assumption.
Qed.

Lemma served_live : forall m evs w tid rid vid body t1 t2 t3 t4 o s,
  Inv evs w -> Inv2 m evs w -> In vid dom -> m <= t1 <= t2 ->
  last_sure evs tid rid vid = Some (o, s) -> fresh (interval tid rid) s t2 ->
  fst (render w tid rid vid false body t1 t2 t3 t4) = Served o.
Proof.
  intros m evs w tid rid vid body t1 t2 t3 t4 o s [HW [HG [HE HI]]] [Hm [HX HL]] Hv Ht Hl Hf.
  destruct (render w tid rid vid false body t1 t2 t3 t4) as [oc w'] eqn:R. simpl.
  destruct (HL _ _ _ _ _ Hv Hl) as [A [B [it [C1 [C2 [C3 C4]]]]]].
  pose proof (render_spec _ _ _ _ _ _ _ _ _ _ _ _ _ _ _ HW R) as [_ RS].
  destruct RS as [[Ha _]|[Ha [D RS]]]; [congruence|]. cbv zeta in RS. rewrite C1 in RS. simpl in RS.
  pose proof (exp_of_pos tid rid s ltac:(lia)) as HP.
  assert (Hlate : exp_of tid rid s <> 0 -> t2 <= exp_of tid rid s).
  { intros Hne. unfold fresh in Hf. destruct (interval tid rid) as [i|]; [|congruence]. lia. }
  assert (HC4 : aget (key tid rid (md5 vid)) (w_store w) = Some (o, exp_of tid rid s)).
  { destruct C4 as [C4|[C4 C5]]; [assumption|]. specialize (Hlate C4). lia. }
  assert (Hno : reason_exec prefix w tid rid (md5 vid) it false t1 t2 -> False).
  { intros [Q|[Q|[Q|[Q|[Q|[o' [e [Q1 [Q2 Q3]]]]]]]]]; try congruence.
    - unfold has_expired in Q. apply andb_true_iff in Q as [Q1 Q2].
      destruct C3 as [C3|C3]; [rewrite C3 in Q1; discriminate|].
      destruct (interval tid rid) as [i|] eqn:Ei.
      + destruct HP as [HP1 HP2]. rewrite HP1 in *. specialize (Hlate HP2). lia.
      + specialize (HE _ _ _ _ C1). rewrite Ei in HE. rewrite HE in Q1. discriminate.
    - rewrite HC4 in Q1. inversion Q1; subst. specialize (Hlate Q2). lia. }
  destruct RS as [[o' [ex [-> [Ht' [F [Hrt [Hexp [Hk [Hlive Sst]]]]]]]]]|
                  [[o' [d [_ [_ [Hre _]]]]]|[_ [_ [Hre _]]]]]; try (exfalso; auto; fail).
  rewrite HC4 in Hk. inversion Hk; reflexivity.
Qed.

(** ** Refreshing never raises when no rendering failed and no single item was refreshed *)
Definition full (w : world) : Prop := forall t r h, find_item w t r h <> None ->
  aget (key t r h) (w_store w) <> None.

Lemma G_key_inj : forall t r h t' r' h', G h -> G h' -> key t r h = key t' r' h' -> t = t' /\ r = r' /\ h = h'.
Proof.
  intros t r h t' r' h' [v [Hv ->]] [v' [Hv' ->]] E.
  destruct (key_inj dom _ _ _ _ _ _ Hmd5 Hpre Hv Hv' E) as [-> [-> ->]]. auto.
Qed.

Lemma clear_items_ok : forall tid rid hs items d, NoDup (keys d) -> NoDup hs -> Forall G hs ->
  (forall h, In h hs -> aget (key tid rid h) d <> None) ->
  fst (fst (clear_items prefix tid rid hs items d)) = None.
Proof.
  induction hs as [|h hs IH]; intros items d Nd Nh HGs Hd; [reflexivity|]. simpl.
  unfold st_delete, ahas. destruct (aget (key tid rid h) d) eqn:E.
  - inversion Nh; inversion HGs; subst. apply IH; auto; [apply NoDup_adel; assumption|].
    intros h' Hh'. rewrite aget_adel by assumption. destruct (str_eqb_spec (key tid rid h') (key tid rid h)) as [Ek|].
    + rewrite Forall_forall in *. apply G_key_inj in Ek as [_ [_ ->]]; auto; contradiction.
    + apply Hd. right; assumption.
  - exfalso. apply (Hd h); [left; reflexivity|assumption].
Qed.

Lemma clear_region_ok : forall w tid rid, WF w -> hashes_in w -> full w ->
  fst (clear_region prefix w tid rid) = None.
Proof.
  intros w tid rid [Nd Nr] HG HF. unfold clear_region.
  destruct (aget rid (w_regions w tid)) as [rg|] eqn:E; [|reflexivity].
  assert (HFi : forall h, In h (keys (rg_items rg)) -> find_item w tid rid h <> None).
  { intros h Hh. unfold find_item. rewrite E. apply aget_In_keys in Hh as [x Hx]. congruence. }
  pose proof (clear_items_ok tid rid (keys (rg_items rg)) (rg_items rg) (w_store w) Nd
    (proj1 (Nr _ _ _ E))) as OK.
  destruct (clear_items prefix tid rid (keys (rg_items rg)) (rg_items rg) (w_store w)) as [[e its] d].
  simpl in *. apply OK.
  - apply Forall_forall. intros h Hh. exact (HG _ _ _ (HFi h Hh)).
  - intros h Hh. apply HF. apply HFi. assumption.
Qed.

Lemma full_shrink : forall w w' P, hashes_in w -> full w -> shrink_world prefix G w w' P ->
  (forall t r h, find_item w' t r h <> None -> find_item w' t r h = find_item w t r h) ->
  (forall t r h, P t r h -> find_item w' t r h = None) -> full w'.
Proof.
  intros w w' P HG HF [_ S2] FE HN t r h Hn.
  pose proof (FE t r h Hn) as E. destruct (S2 (key t r h)) as [[E2|E2] K].
  - rewrite E2. apply HF. congruence.
  - destruct (aget (key t r h) (w_store w)) eqn:Z0.
    + destruct K as [t' [r' [h' [K1 [K2 K3]]]]]; [congruence|].
      apply G_key_inj in K3 as [<- [<- <-]]; auto; try (apply (HG t r h); congruence).
    + exfalso. apply (HF t r h); congruence.
Qed.

Lemma clear_regions_ok : forall rids w tid, WF w -> hashes_in w -> full w ->
  fst (clear_regions prefix w tid rids) = None.
Proof.
  induction rids as [|rid rids IH]; intros w tid HW HG HF; [reflexivity|]. simpl.
  pose proof (clear_region_ok w tid rid HW HG HF) as OK.
  destruct (clear_region prefix w tid rid) as [e w'] eqn:C. simpl in OK. subst e.
  apply (clear_region_spec prefix G) in C as [HW' [HG' [N1 [FE [S1 [C1 _]]]]]]; [|assumption..].
  apply IH; auto. eapply full_shrink; [exact HG|exact HF|exact S1|exact FE|].
  intros t r h [-> ->]. apply N1. reflexivity.
Qed.

Lemma refresh_ok : forall w tid r0, WF w -> hashes_in w -> full w -> G (md5 []) ->
  exists w', refresh w tid r0 [] = (None, w') /\ full w'.
Proof.
  intros w tid r0 HW HG HF Gv.
  assert (OK : fst (refresh w tid r0 []) = None).
  { unfold Cache_Model.refresh. destruct r0 as [|c r0]; [apply clear_regions_ok; assumption|].
    destruct (aget (c :: r0) (w_regions w tid)); [|reflexivity]. apply clear_region_ok; assumption. }
  destruct (refresh w tid r0 []) as [e w'] eqn:R. simpl in OK. subst e.
  exists w'. split; [reflexivity|].
  pose proof (refresh_spec md5 prefix interval G _ _ _ _ _ _ HW HG Gv R) as [_ [_ [N [S _]]]].
  destruct (N eq_refl) as [N1 N2]. eapply full_shrink; [exact HG|exact HF|exact S|exact N1|auto].
Qed.

Definition no_item_refresh (op : cop) : Prop :=
  match op with ORefresh _ _ v => v = [] | _ => True end.

Definition is_fail (e : cev) : bool := match e with EvFail _ _ _ => true | _ => false end.
Definition refresh_failed (e : cev) : bool := match e with EvRefresh _ _ _ false => true | _ => false end.

Lemma full_step : forall evs w op e w', Inv evs w -> full w -> incl (op_ids op) dom ->
  no_item_refresh op -> cstep w op = (e, w') -> is_fail e = false ->
  full w' /\ refresh_failed e = false.
Proof.
  intros evs w op e w' [HW [HG [HE HI]]] HF Hids Hno H Hnf.
  destruct op as [tid rid vid test body t1 t2 t3 t4|tid r0 v0]; simpl in H.
  - assert (Hvid : In vid dom) by (apply Hids; left; reflexivity).
    destruct (render w tid rid vid test body t1 t2 t3 t4) as [oc w0] eqn:R.
    pose proof (render_spec _ _ _ _ _ _ _ _ _ _ _ _ _ _ _ HW R) as [HW' RS].
    assert (w0 = w') by (destruct oc; inversion H; reflexivity). subst w0.
    destruct RS as [[Ha [[e0 ->] _]]|[Ha [D RS]]]; [inversion H; subst; discriminate|].
    cbv zeta in RS, D. set (h := md5 vid) in *.
    destruct RS as [[o [ex [-> [Ht [F [Hrt [Hexp [Hk [Hlive Sst]]]]]]]]]|
                    [[o [d [-> [Hb [Hre [Hsa [F Sst]]]]]]]|[-> _]]].
    + inversion H; subst e. split; [|reflexivity]. intros t r h' Hn. rewrite Sst.
      destruct (N.eq_dec t tid) as [->|]; [|rewrite D in Hn by (left; assumption); exact (HF _ _ _ Hn)].
      destruct (str_eq_dec r rid) as [->|]; [|rewrite D in Hn by (right; left; assumption); exact (HF _ _ _ Hn)].
      destruct (str_eq_dec h' h) as [->|]; [|rewrite D in Hn by (right; right; assumption); exact (HF _ _ _ Hn)].
      congruence.
    + inversion H; subst e. split; [|reflexivity]. intros t r h' Hn. rewrite Sst, aget_aset.
      destruct (str_eqb_spec (key t r h') (key tid rid h)) as [Ek|Ek]; [discriminate|].
      rewrite (store_after_other _ _ _ _ _ (proj1 HW) Hsa Ek). apply HF.
      rewrite D in Hn; [assumption|]. unfold differs.
      destruct (N.eq_dec t tid) as [->|]; [|auto]. destruct (str_eq_dec r rid) as [->|]; [|auto].
      right; right. congruence.
    + inversion H; subst e. discriminate.
  - simpl in Hno. subst v0. destruct (refresh_ok w tid r0 HW HG HF) as [w1 [R F]].
    { exists []. split; [apply Hids; left; reflexivity|reflexivity]. }
    rewrite R in H. inversion H; subst. auto.
Qed.

Lemma refresh_never_fails : forall ops, incl (ids ops) dom -> Forall no_item_refresh ops ->
  (forall e, In e (fst (crun ops)) -> is_fail e = false) ->
  full (snd (crun ops)) /\ forall e, In e (fst (crun ops)) -> refresh_failed e = false.
Proof.
  intros ops. induction ops as [|op ops IH] using rev_ind; intros Hi Hno Hnf.
  - split; [|intros e []]. intros t r h Hn. exfalso. apply Hn. reflexivity.
  - rewrite ids_app in Hi. simpl in Hi. rewrite app_nil_r in Hi.
    apply Forall_app in Hno as [Hno1 Hno2]. inversion Hno2; subst.
    assert (I1 : incl (ids ops) dom) by (intros x Hx; apply Hi; apply in_or_app; left; assumption).
    rewrite crun_snoc in *. destruct (cstep (snd (crun ops)) op) as [e w] eqn:E. simpl in *.
    destruct IH as [F1 F2]; auto.
    destruct (full_step (fst (crun ops)) _ op e w (Inv_run ops I1) F1) as [G1 G2]; auto.
    + intros x Hx. apply Hi. apply in_or_app. right; assumption.
    + split; [assumption|]. intros x [<-|Hx]; auto.
Qed.
End Q.

(** * The memory store *)
Section Store.
Definition Rel (m : smap) (d : store) (now : Z) : Prop :=
  NoDup (keys d) /\
  forall k, aget k d = m k \/ (aget k d = None /\ exists v e, m k = Some (v, e) /\ expired e now).

Lemma expired_mono : forall e a b, a <= b -> expired e a -> expired e b.
Proof. intros e a b H [H1 H2]. split; lia. Qed.

Lemma Rel_mono : forall m d a b, a <= b -> Rel m d a -> Rel m d b.
Proof.
  intros m d a b H [N R]. split; [assumption|]. intros k. destruct (R k) as [E|[E [v [e [E1 E2]]]]]; [auto|].
  right. split; [assumption|]. exists v, e. split; [assumption|]. eapply expired_mono; eassumption.
Qed.

Lemma expired_dec : forall e now, (negb (e =? 0) && (now >? e) = true) <-> expired e now.
Proof. intros. unfold expired. rewrite andb_true_iff, negb_true_iff. lia. Qed.

Definition supd (m : smap) k x : smap := fun k' => if str_eqb k k' then x else m k'.

Lemma supd_upd : forall m k x, upd m k x (supd m k x).
Proof.
  intros. unfold supd. split; [rewrite str_eqb_refl; reflexivity|]. intros k' H.
  destruct (str_eqb_spec k k'); congruence.
Qed.

Lemma Rel_set : forall m d now k v t, Rel m d now -> Rel (supd m k (Some (v, t))) (aset k (v, t) d) now.
Proof.
  intros m d now k v t [N R]. split; [apply NoDup_aset; assumption|]. intros k'.
  rewrite aget_aset. unfold supd.
  destruct (str_eqb_spec k' k) as [E|E], (str_eqb_spec k k') as [E'|E']; try congruence; auto.
Qed.

Lemma Rel_del : forall m d now k, Rel m d now -> Rel (supd m k None) (adel k d) now.
Proof.
  intros m d now k [N R]. split; [apply NoDup_adel; assumption|]. intros k'.
  rewrite aget_adel by assumption. unfold supd.
  destruct (str_eqb_spec k' k) as [E|E], (str_eqb_spec k k') as [E'|E']; try congruence; auto.
Qed.

Lemma Rel_evict : forall m d now k v e, Rel m d now -> m k = Some (v, e) -> expired e now ->
  Rel m (adel k d) now.
Proof.
  intros m d now k v e [N R] H1 H2. split; [apply NoDup_adel; assumption|]. intros k'.
  rewrite aget_adel by assumption. destruct (str_eqb_spec k' k) as [E|E]; [|auto].
  subst k'. right. split; [reflexivity|]. eauto.
Qed.

Definition next_map (m : smap) (op : sop) (r : sres) : smap :=
  match op, r with
  | SSet k v t, SDone | SAdd k v t, SDone | SReplace k v t, SDone => supd m k (Some (v, t))
  | SDelete k, SDone => supd m k None
  | SClear, SDone => smap_empty
  | _, _ => m
  end.

Lemma step_rel : forall m d now op r d', Rel m d now -> st_step d now op = (r, d') ->
  Rel (next_map m op r) d' now.
Proof.
  intros m d now op r d' R H. destruct op; simpl in H.
  - inversion H; subst. apply Rel_set. assumption.
  - unfold st_add in H. destruct (ahas k d); inversion H; subst; [assumption|]. apply Rel_set. assumption.
  - unfold st_replace in H. destruct (ahas k d); inversion H; subst; [assumption|]. apply Rel_set. assumption.
  - unfold st_delete in H. destruct (ahas k d); inversion H; subst; [|assumption]. apply Rel_del. assumption.
  - unfold st_get in H. destruct (aget k d) as [[v e]|] eqn:E; [|inversion H; subst; assumption].
    destruct (negb (e =? 0) && (now >? e)) eqn:X; inversion H; subst; [|assumption].
    apply expired_dec in X. destruct (proj2 R k) as [Q|[Q _]]; [|congruence].
    simpl. eapply Rel_evict; [assumption| |exact X]. rewrite <- Q, E. reflexivity.
  - inversion H; subst. simpl. split; [constructor|]. intros k. left; reflexivity.
Qed.

Lemma not_present : forall m now k, (forall v e, m k = Some (v, e) -> expired e now) -> ~ present m now k.
Proof. intros m now k H [v [e [E N]]]. apply N. eapply H; eassumption. Qed.

Lemma Rel_absent : forall m d now k, Rel m d now -> aget k d = None -> ~ present m now k.
Proof.
  intros m d now k [_ R] E. apply not_present. intros v e H. destruct (R k) as [Q|[_ [v' [e' [Q1 Q2]]]]];
    [congruence|]. rewrite H in Q1. inversion Q1; subst. assumption.
Qed.

Lemma Rel_in : forall m d now k x, Rel m d now -> aget k d = Some x -> m k = Some x.
Proof. intros m d now k x [_ R] E. destruct (R k) as [Q|[Q _]]; congruence. Qed.

Lemma step_get : forall m d now k r d', Rel m d now -> st_step d now (SGet k) = (r, d') ->
  (exists v, r = SVal v /\ live m now k v) \/ (r = SExn KeyError /\ ~ present m now k).
Proof.
  intros m d now k r d' R H. simpl in H. unfold st_get in H. destruct (aget k d) as [[v e]|] eqn:E.
  - pose proof (Rel_in _ _ _ _ _ R E) as M. pose proof (expired_dec e now) as X.
    destruct (negb (e =? 0) && (now >? e)); inversion H; subst.
    + right. split; [reflexivity|]. apply not_present. intros v' e' M'. rewrite M in M'. inversion M'; subst.
      apply X; reflexivity.
    + left. exists v. split; [reflexivity|]. exists e. split; [assumption|]. intro Y. apply X in Y. discriminate.
  - inversion H; subst. right. split; [reflexivity|]. eapply Rel_absent; eassumption.
Qed.

Lemma step_spec : forall m d now op r d', Rel m d now -> st_step d now op = (r, d') ->
  (forall k v t, op <> SReplace k v t) ->
  (forall k v e, tests_key op k -> m k = Some (v, e) -> ~ expired e now) ->
  spec_step m now op r (next_map m op r).
Proof.
  intros m d now op r d' R H Hr Ht. destruct op.
  - simpl in H. inversion H; subst. simpl. constructor. apply supd_upd.
  - simpl in H. unfold st_add, ahas in H. destruct (aget k d) as [[v0 e0]|] eqn:E; inversion H; subst; simpl.
    + apply spec_add_old; [|intro; reflexivity]. exists v0, e0. split; [eapply Rel_in; eassumption|].
      eapply Ht; [reflexivity|eapply Rel_in; eassumption].
    + apply spec_add_new; [eapply Rel_absent; eassumption|apply supd_upd].
  - exfalso. eapply Hr; reflexivity.
  - simpl in H. unfold st_delete, ahas in H. destruct (aget k d) as [[v0 e0]|] eqn:E; inversion H; subst; simpl.
    + apply spec_delete_old; [|apply supd_upd]. exists v0, e0. split; [eapply Rel_in; eassumption|].
      eapply Ht; [reflexivity|eapply Rel_in; eassumption].
    + apply spec_delete_new; [eapply Rel_absent; eassumption|intro; reflexivity].
  - destruct (step_get _ _ _ _ _ _ R H) as [[v [-> Q]]|[-> Q]]; simpl.
    + apply spec_get_old; [assumption|intro; reflexivity].
    + apply spec_get_new; [assumption|intro; reflexivity].
  - simpl in H. inversion H; subst. simpl. constructor. intro; reflexivity.
Qed.

Lemma next_map_src : forall m op r k v e, next_map m op r k = Some (v, e) ->
  m k = Some (v, e) \/ stores op k e.
Proof.
  intros m op r k v e H. destruct op, r; simpl in *; auto; try discriminate;
    unfold supd in H; destruct (str_eqb_spec k0 k); auto; inversion H; subst; auto.
Qed.

Lemma run_spec : forall ops pre m d t0 rs d', Rel m d t0 -> monotone_from t0 (map fst ops) ->
  st_run d ops = (rs, d') -> no_replace ops -> never_tests_expired (pre ++ ops) ->
  (forall k v e, m k = Some (v, e) -> exists now op, In (now, op) pre /\ stores op k e) ->
  exists m', spec_run m ops rs m'.
Proof.
  induction ops as [|[now op] ops IH]; intros pre m d t0 rs d' R Hm H Hr Ht Hs; simpl in *.
  - inversion H; subst. exists m. constructor.
  - destruct Hm as [H0 Hm]. destruct (st_step d now op) as [r d1] eqn:E.
    destruct (st_run d1 ops) as [rs1 d2] eqn:E2. inversion H; subst.
    pose proof (Rel_mono _ _ _ _ H0 R) as R1.
    destruct (IH (pre ++ [(now, op)]) (next_map m op r) d1 now rs1 d') as [m' Hm']; auto.
    + eapply step_rel; eassumption.
    + intros now0 k v t Hin. eapply Hr. right. exact Hin.
    + rewrite <- app_assoc. exact Ht.
    + intros k v e Q. apply next_map_src in Q as [Q|Q].
      * destruct (Hs _ _ _ Q) as [n [o [Q1 Q2]]]. exists n, o. split; [apply in_or_app; auto|assumption].
      * exists now, op. split; [apply in_or_app; right; left; reflexivity|assumption].
    + exists m'. econstructor; [|exact Hm']. eapply step_spec; [exact R1|exact E| |].
      * intros k v t ->. eapply Hr. left; reflexivity.
      * intros k v e Q1 Q2. destruct (Hs _ _ _ Q2) as [n [o [Q3 Q4]]].
        eapply Ht; [reflexivity|exact Q1|exact Q3|exact Q4].
Qed.

Lemma last_write_next : forall log op r k,
  last_write ((op, r) :: log) k = next_map (last_write log) op r k.
Proof. intros. destruct op, r; reflexivity. Qed.

Lemma Rel_ext : forall m m' d now, (forall k, m k = m' k) -> Rel m d now -> Rel m' d now.
Proof. intros m m' d now E [N R]. split; [assumption|]. intros k. rewrite <- E. apply R. Qed.

Lemma run_last : forall ops log d t0 rs d' now, Rel (last_write log) d t0 ->
  monotone_from t0 (map fst ops ++ [now]) -> st_run d ops = (rs, d') ->
  Rel (last_write (rev (combine (map snd ops) rs) ++ log)) d' now.
Proof.
  induction ops as [|[n op] ops IH]; intros log d t0 rs d' now R Hm H; simpl in *.
  - inversion H; subst. simpl. eapply Rel_mono; [|exact R]. lia.
  - destruct Hm as [H0 Hm]. destruct (st_step d n op) as [r d1] eqn:E.
    destruct (st_run d1 ops) as [rs1 d2] eqn:E2. inversion H; subst. simpl.
    rewrite <- app_assoc. simpl. eapply IH; [|exact Hm|exact E2].
    eapply Rel_ext; [intro k; symmetry; apply last_write_next|].
    eapply step_rel; [|exact E]. eapply Rel_mono; eassumption.
Qed.

Lemma Rel_empty : forall t, Rel smap_empty [] t.
Proof. intros. split; [constructor|]. auto. Qed.
End Store.

(** * Statements about whole histories *)
Section Top.
Variable md5 : pystr -> pystr.
Variable prefix : N -> pystr.
Variable interval : N -> pystr -> option Z.
Notation crun := (crun md5 prefix interval).
Notation render := (render md5 prefix interval).
Notation refresh := (refresh md5 prefix).

Lemma incl_cons_tl : forall (v : pystr) l, incl l (v :: l).
Proof. intros v l x H. right; assumption. Qed.

Lemma top_WF : forall ops, WF (snd (crun ops)).
Proof.
  intros ops. induction ops as [|op ops IH] using rev_ind.
  - split; [constructor|discriminate].
  - rewrite crun_snoc. destruct op as [tid rid vid test body t1 t2 t3 t4|tid r0 v0]; simpl.
    + destruct (render (snd (crun ops)) tid rid vid test body t1 t2 t3 t4) as [oc w] eqn:R.
      pose proof (render_spec _ _ _ _ _ _ _ _ _ _ _ _ _ _ _ IH R) as [HW _].
      destruct oc; exact HW.
    + destruct (refresh (snd (crun ops)) tid r0 v0) as [e w] eqn:R.
      assert (HH : hashes_in (fun _ => True) (snd (crun ops))) by (intros t r h _; exact I).
      destruct (refresh_spec md5 prefix interval (fun _ => True) _ _ _ _ _ _ IH HH I R) as [HW _].
      destruct e; exact HW.
Qed.

Lemma top_outcomes : forall ops tid rid vid test body t1 t2 t3 t4 oc,
  fst (render (snd (crun ops)) tid rid vid test body t1 t2 t3 t4) = oc ->
  (exists o, oc = Served o /\ test = false) \/ (exists o, oc = Executed o /\ body = Some o) \/
  (exists e, oc = Failed e /\ (body = None \/ is_ascii vid = false)).
Proof.
  intros ops tid rid vid test body t1 t2 t3 t4 oc H.
  destruct (render (snd (crun ops)) tid rid vid test body t1 t2 t3 t4) as [oc' w] eqn:R. simpl in H. subst oc'.
  pose proof (render_spec _ _ _ _ _ _ _ _ _ _ _ _ _ _ _ (top_WF ops) R) as [_ RS].
  destruct RS as [[Ha [[e ->] _]]|[Ha [D RS]]]; [right; right; eauto|]. cbv zeta in RS.
  destruct RS as [[o [ex [-> [Ht _]]]]|[[o [d [-> [Hb _]]]]|[-> [Hb _]]]].
  - left; eauto.
  - right; left; eauto.
  - right; right; eauto.
Qed.

Lemma top_sound : forall ops tid rid vid test body t1 t2 t3 t4 o,
  md5_ok md5 (vid :: ids ops) -> prefix_ok prefix -> pos_intervals interval ->
  monotone_from 1 (flat_map readings ops) ->
  fst (render (snd (crun ops)) tid rid vid test body t1 t2 t3 t4) = Served o ->
  exists s, last_exec (fst (crun ops)) tid rid vid = Some (o, s) /\ fresh (interval tid rid) s t2.
Proof.
  intros ops tid rid vid test body t1 t2 t3 t4 o Hm Hp Hi Ho H.
  destruct (render (snd (crun ops)) tid rid vid test body t1 t2 t3 t4) as [oc w] eqn:R. simpl in H. subst oc.
  pose proof (Inv_run md5 prefix interval _ Hm Hp ops (incl_cons_tl _ _)) as I1.
  destruct (served_sound md5 prefix interval _ _ _ _ _ _ _ _ _ _ _ _ _ _ I1 (in_eq _ _) R) as [s [L Hs]].
  destruct (Inv2_run md5 prefix interval _ Hm Hp Hi ops 1 ltac:(lia) (incl_cons_tl _ _) Ho) as [_ [HX _]].
  exists s. split; [assumption|]. apply HX in L. pose proof (exp_of_pos interval Hi tid rid s L) as E.
  unfold fresh. destruct (interval tid rid); [lia|exact I].
Qed.

Lemma top_own : forall ops tid rid vid test body t1 t2 t3 t4 o,
  md5_ok md5 (vid :: ids ops) -> prefix_ok prefix ->
  fst (render (snd (crun ops)) tid rid vid test body t1 t2 t3 t4) = Served o ->
  exists s, last_exec (fst (crun ops)) tid rid vid = Some (o, s).
Proof.
  intros ops tid rid vid test body t1 t2 t3 t4 o Hm Hp H.
  destruct (render (snd (crun ops)) tid rid vid test body t1 t2 t3 t4) as [oc w] eqn:R. simpl in H. subst oc.
  pose proof (Inv_run md5 prefix interval _ Hm Hp ops (incl_cons_tl _ _)) as I1.
  destruct (served_sound md5 prefix interval _ _ _ _ _ _ _ _ _ _ _ _ _ _ I1 (in_eq _ _) R) as [s [L Hs]].
  eauto.
Qed.

Lemma top_live : forall ops tid rid vid body t1 t2 t3 t4 o s,
  md5_ok md5 (vid :: ids ops) -> prefix_ok prefix -> pos_intervals interval ->
  monotone_from 1 (flat_map readings ops ++ [t1; t2]) ->
  last_sure (fst (crun ops)) tid rid vid = Some (o, s) -> fresh (interval tid rid) s t2 ->
  fst (render (snd (crun ops)) tid rid vid false body t1 t2 t3 t4) = Served o.
Proof.
  intros ops tid rid vid body t1 t2 t3 t4 o s Hm Hp Hi Ho L F.
  apply monotone_app in Ho as [Ho1 Ho2]. simpl in Ho2.
  eapply (served_live md5 prefix interval _ Hi); [|eapply Inv2_run| | | |]; try eassumption; try lia.
  - apply Inv_run; auto. apply incl_cons_tl.
  - apply incl_cons_tl.
  - left; reflexivity.
Qed.

Lemma top_refreshed : forall ops tid r0 v0 rid vid test body t1 t2 t3 t4 o,
  md5_ok md5 (vid :: v0 :: ids ops) -> prefix_ok prefix ->
  fst (refresh (snd (crun ops)) tid r0 v0) = None -> affects r0 v0 rid vid = true ->
  fst (render (snd (refresh (snd (crun ops)) tid r0 v0)) tid rid vid test body t1 t2 t3 t4) <> Served o.
Proof.
  intros ops tid r0 v0 rid vid test body t1 t2 t3 t4 o Hm Hp Hr Ha H.
  assert (E : crun (ops ++ [ORefresh tid r0 v0]) =
              (EvRefresh tid r0 v0 true :: fst (crun ops), snd (refresh (snd (crun ops)) tid r0 v0))).
  { rewrite crun_snoc. simpl. destruct (refresh (snd (crun ops)) tid r0 v0) as [e w]. simpl in Hr. subst e. reflexivity. }
  destruct (top_own (ops ++ [ORefresh tid r0 v0]) tid rid vid test body t1 t2 t3 t4 o) as [s L].
  - destruct Hm as [M1 M2].
    assert (Q : incl (vid :: ids (ops ++ [ORefresh tid r0 v0])) (vid :: v0 :: ids ops)).
    { intros x. rewrite ids_app. simpl. rewrite in_app_iff. simpl. tauto. }
    split; intros; [apply M1|apply M2]; auto.
  - assumption.
  - rewrite E. exact H.
  - rewrite E in L. simpl in L. rewrite N.eqb_refl, Ha in L. discriminate.
Qed.

Lemma top_unaffected : forall ops tid r0 v0 tid' rid vid body t1 t2 t3 t4 o s,
  md5_ok md5 (vid :: ids (ops ++ [ORefresh tid r0 v0])) -> prefix_ok prefix -> pos_intervals interval ->
  monotone_from 1 (flat_map readings ops ++ [t1; t2]) ->
  (tid' <> tid \/ affects r0 v0 rid vid = false) ->
  last_sure (fst (crun ops)) tid' rid vid = Some (o, s) -> fresh (interval tid' rid) s t2 ->
  fst (render (snd (crun (ops ++ [ORefresh tid r0 v0]))) tid' rid vid false body t1 t2 t3 t4) = Served o.
Proof.
  intros ops tid r0 v0 tid' rid vid body t1 t2 t3 t4 o s Hm Hp Hi Ho Ha L F.
  eapply top_live; eauto.
  - rewrite flat_map_app. simpl. rewrite app_nil_r. assumption.
  - rewrite crun_snoc. simpl. destruct (refresh (snd (crun ops)) tid r0 v0) as [e w].
    assert (E : (tid =? tid')%N && affects r0 v0 rid vid = false).
    { destruct Ha as [Ha|Ha]; [|rewrite Ha; apply andb_false_r]. destruct (N.eqb_spec tid tid'); [congruence|reflexivity]. }
    destruct e; simpl; rewrite E; assumption.
Qed.

Lemma top_refresh_ok : forall ops, md5_ok md5 (ids ops) -> prefix_ok prefix ->
  Forall region_wide ops -> (forall tid rid vid, ~ In (EvFail tid rid vid) (fst (crun ops))) ->
  forall tid rid vid, ~ In (EvRefresh tid rid vid false) (fst (crun ops)).
Proof.
  intros ops Hm Hp Hw Hf tid rid vid Hin.
  destruct (refresh_never_fails md5 prefix interval _ Hm Hp ops (incl_refl _) Hw) as [_ Q].
  - intros e He. destruct e; try reflexivity. exfalso. eapply Hf; eassumption.
  - specialize (Q _ Hin). discriminate.
Qed.
End Top.

Lemma store_get : forall ops t0 now rs d k,
  monotone_from t0 (map fst ops ++ [now]) -> st_run [] ops = (rs, d) ->
  let m := last_write (rev (combine (map snd ops) rs)) in
  (forall v, fst (st_step d now (SGet k)) = SVal v <-> live m now k v) /\
  (fst (st_step d now (SGet k)) = SExn KeyError <-> ~ present m now k).
Proof.
  intros ops t0 now rs d k Hm H m.
  pose proof (run_last ops [] [] t0 rs d now (Rel_ext _ _ _ _ (fun k => eq_refl) (Rel_empty t0)) Hm H) as R.
  rewrite app_nil_r in R. fold m in R.
  destruct (st_step d now (SGet k)) as [r d'] eqn:E. simpl fst.
  destruct (step_get _ _ _ _ _ _ R E) as [[v [-> Q]]|[-> Q]].
  - split.
    + intros v'. split; [intros X; inversion X; subst; assumption|]. intros [e [Q1 Q2]].
      destruct Q as [e' [Q3 _]]. congruence.
    + split; [discriminate|]. intros X. exfalso. apply X. exists v. assumption.
  - split.
    + intros v'. split; [discriminate|]. intros X. exfalso. apply Q. exists v'. assumption.
    + tauto.
Qed.

Lemma store_refines : forall ops t0 rs d, monotone_from t0 (map fst ops) -> no_replace ops ->
  never_tests_expired ops -> st_run [] ops = (rs, d) -> exists m, spec_run smap_empty ops rs m.
Proof.
  intros ops t0 rs d Hm Hr Ht H. eapply (run_spec ops []); eauto.
  - apply Rel_empty.
  - discriminate.
Qed.
