(** The heap-level merge refines the merge of trees (C18, C19). *)
From Verif Require Import Base Alist Settings_Model Settings_Spec Settings_Proofs.

Scheme rep_mut := Minimality for rep Sort Prop with reps_mut := Minimality for reps Sort Prop.

(** ** Heap basics *)
Lemma upd_length : forall h l d, length (upd h l d) = length h.
Proof. induction h as [|x h IH]; intros [|l] d; simpl; auto. Qed.
Lemma upd_same : forall h l d, l < length h -> nth_error (upd h l d) l = Some d.
Proof. induction h as [|x h IH]; intros [|l] d H; simpl in *; try lia; [reflexivity|]. apply IH. lia. Qed.
Lemma upd_other : forall h l d l', l' <> l -> nth_error (upd h l d) l' = nth_error h l'.
Proof. induction h as [|x h IH]; intros [|l] d [|l'] H; simpl; try reflexivity; try lia. apply IH. lia. Qed.
Lemma hset_length : forall h l k v, length (hset h l k v) = length h.
Proof. intros. unfold hset. destruct (nth_error h l); [apply upd_length|reflexivity]. Qed.
Lemma hset_same : forall h l k v d, nth_error h l = Some d -> nth_error (hset h l k v) l = Some (aset k v d).
Proof.
  intros h l k v d H. unfold hset. rewrite H. apply upd_same. apply nth_error_Some. congruence.
Qed.
Lemma hset_other : forall h l k v l', l' <> l -> nth_error (hset h l k v) l' = nth_error h l'.
Proof. intros h l k v l' H. unfold hset. destruct (nth_error h l); [apply upd_other; assumption|reflexivity]. Qed.
Lemma nth_error_nth' : forall (h : heap) l d, nth_error h l = Some d -> nth l h [] = d.
Proof. intros. apply nth_error_nth. assumption. Qed.

Lemma rep_frame : forall h h' v t fp, rep h v t fp ->
  (forall l, In l fp -> nth_error h' l = nth_error h l) -> rep h' v t fp.
Proof.
  intros h h' v t fp H.
  apply (rep_mut h (fun v t fp => (forall l, In l fp -> nth_error h' l = nth_error h l) -> rep h' v t fp)
                   (fun d ts fp => (forall l, In l fp -> nth_error h' l = nth_error h l) -> reps h' d ts fp)); try assumption.
  - intros. constructor.
  - intros l d ts fp0 Hl Hn _ IH Hf. econstructor; [rewrite Hf by (left; reflexivity); eassumption|assumption|].
    apply IH. intros. apply Hf. right. assumption.
  - intros. constructor.
  - intros k v0 d t0 ts f1 f2 _ IH1 _ IH2 Hf. constructor; [apply IH1|apply IH2];
      intros; apply Hf; apply in_or_app; tauto.
Qed.

(** ** Dictionary entries with their trees and footprints *)
Definition ent := (hval * sval * list nat)%type.
Definition ev (e : ent) := fst (fst e).
Definition et (e : ent) := snd (fst e).
Definition ef (e : ent) := snd e.
Definition mapv {A B} (f : A -> B) (d : list (pystr * A)) : list (pystr * B) := map (fun p => (fst p, f (snd p))) d.

Lemma mapv_keys : forall {A B} (f : A -> B) d, keys (mapv f d) = keys d.
Proof. intros. unfold keys, mapv. rewrite map_map. reflexivity. Qed.
Lemma mapv_aget : forall {A B} (f : A -> B) d k, aget k (mapv f d) = option_map f (aget k d).
Proof.
  intros A B f d k. induction d as [|[k' v] d IH]; [reflexivity|]. simpl. destruct (str_eqb k k'); [reflexivity|assumption].
Qed.
Lemma mapv_aset : forall {A B} (f : A -> B) d k v, mapv f (aset k v d) = aset k (f v) (mapv f d).
Proof.
  intros A B f d k v. induction d as [|[k' v'] d IH]; [reflexivity|]. simpl.
  destruct (str_eqb k k'); [reflexivity|]. simpl. f_equal. assumption.
Qed.
Lemma mapv_nth : forall {A B} (f : A -> B) d i, nth_error (mapv f d) i = option_map (fun p => (fst p, f (snd p))) (nth_error d i).
Proof. intros. unfold mapv. apply nth_error_map. Qed.
Definition foot (G : list (pystr * ent)) : list nat := concat (map (fun p => ef (snd p)) G).

Definition allrep (h : heap) (G : list (pystr * ent)) :=
  forall k e, In (k, e) G -> rep h (ev e) (et e) (ef e).

Lemma reps_ents : forall h d ts fp, reps h d ts fp ->
  exists G, d = mapv ev G /\ ts = mapv et G /\ fp = foot G /\ allrep h G.
Proof.
  intros h d ts fp H. induction H as [|k v d t ts f1 f2 Hr Hs [G [-> [-> [-> Ha]]]]].
  - exists []. repeat split; try reflexivity. intros k e [].
  - exists ((k, (v, t, f1)) :: G). repeat split; try reflexivity.
    intros k' e [E|Hin]; [inversion E; subst; assumption|eauto].
Qed.
Lemma ents_reps : forall h G, allrep h G -> reps h (mapv ev G) (mapv et G) (foot G).
Proof.
  intros h G. induction G as [|[k [[v t] f]] G IH]; intros Ha; [constructor|].
  unfold foot. simpl. constructor.
  - apply (Ha k (v, t, f)). left. reflexivity.
  - apply IH. intros k' e Hin. eapply Ha. right. eassumption.
Qed.
Lemma allrep_aget : forall h G k e, allrep h G -> aget k G = Some e -> rep h (ev e) (et e) (ef e).
Proof. intros h G k e Ha Hg. eapply Ha. apply aget_Some_In. eassumption. Qed.
Lemma allrep_of_aget : forall h G, NoDup (keys G) ->
  (forall k e, aget k G = Some e -> rep h (ev e) (et e) (ef e)) -> allrep h G.
Proof. intros h G Hn H k e Hin. apply (H k). apply In_aget; assumption. Qed.

Lemma foot_in : forall G k e x, aget k G = Some e -> In x (ef e) -> In x (foot G).
Proof.
  intros G k e x Hg Hx. unfold foot. apply in_concat. exists (ef e). split; [|assumption].
  apply in_map_iff. exists (k, e). split; [reflexivity|apply aget_Some_In; assumption].
Qed.
Lemma foot_inv : forall G x, In x (foot G) -> exists k e, In (k, e) G /\ In x (ef e).
Proof.
  intros G x H. unfold foot in H. apply in_concat in H. destruct H as [f [Hf Hx]].
  apply in_map_iff in Hf. destruct Hf as [[k e] [<- Hin]]. eauto.
Qed.
Lemma NoDup_app_inv : forall {A} (a b : list A), NoDup (a ++ b) ->
  NoDup a /\ NoDup b /\ (forall x, In x a -> ~ In x b).
Proof.
  intros A a b. induction a as [|y a IH]; simpl; intros H.
  - repeat split; [constructor|assumption|intros x []].
  - inversion H as [|? ? Hni Hn]; subst. destruct (IH Hn) as [Ha [Hb Hd]]. repeat split.
    + constructor; [|assumption]. intros Hy. apply Hni. apply in_or_app. auto.
    + assumption.
    + intros x [->|Hx] Hxb; [apply Hni; apply in_or_app; auto|]. apply (Hd x); assumption.
Qed.
Lemma foot_sep : forall G, NoDup (foot G) ->
  (forall k e, aget k G = Some e -> NoDup (ef e)) /\
  (forall j k e e', j <> k -> aget j G = Some e -> aget k G = Some e' -> disjoint (ef e) (ef e')).
Proof.
  induction G as [|[k0 e0] G IH]; intros H.
  - split; [discriminate|]. intros j k e e' _ Hd. discriminate.
  - unfold foot in H. simpl in H. apply NoDup_app_inv in H. destruct H as [H0 [HG Hd]].
    destruct (IH HG) as [I1 I2]. split.
    + intros k e. simpl. destruct (str_eqb k k0); [intros [= <-]; assumption|apply I1].
    + intros j k e e' Hjk. simpl. destruct (str_eqb_spec j k0) as [E1|N1]; destruct (str_eqb_spec k k0) as [E2|N2].
      * congruence.
      * intros [= <-] He' x Hx Hx'. apply (Hd x Hx). eapply (foot_in G k e'); eassumption.
      * intros He [= <-] x Hx Hx'. apply (Hd x Hx'). eapply (foot_in G j e); eassumption.
      * intros He He'. apply (I2 j k e e'); assumption.
Qed.

Lemma merge_snoc : forall b a k w,
  merge a (b ++ [(k, w)]) = aset k (over (aget k (merge a b)) w) (merge a b).
Proof. induction b as [|[k' w'] b IH]; intros a k w; simpl; [reflexivity|]. apply IH. Qed.

Lemma NoDup_aset : forall {V} k (v : V) d, NoDup (keys d) -> NoDup (keys (aset k v d)).
Proof.
  intros V k v d H. rewrite keys_aset. destruct (notin (keys d) k) eqn:E; [|assumption].
  apply NoDup_Add with (a := k) (l := keys d).
  - rewrite <- (app_nil_r (keys d)) at 1. apply Add_app.
  - split; [assumption|]. apply notin_spec. assumption.
Qed.

Definition f0 (G0 : list (pystr * ent)) (k : pystr) : list nat :=
  match aget k G0 with Some e => ef e | None => [] end.

(** What one merge does to a heap. *)
Definition merges (h : heap) (l1 l2 : nat) (f1 : list nat) (f2 : list nat) (a b : tree) : Prop :=
  exists N h', (forall fuel, N <= fuel -> merge_in_place fuel h l1 l2 = Some (Ok h')) /\
    same_outside h h' (l1 :: f1) /\ length h' = length h /\
    exists f', rep h' (HRef l1) (SDict (merge a b)) (l1 :: f') /\ incl f' (f1 ++ f2).

Lemma rep_ref_inv : forall h l t fp, rep h (HRef l) t fp ->
  exists G, t = SDict (mapv et G) /\ fp = l :: foot G /\ nth_error h l = Some (mapv ev G) /\
    NoDup (keys G) /\ allrep h G.
Proof.
  intros h l t fp H. inversion H as [|l' d ts f Hl Hn Hs]; subst.
  destruct (reps_ents _ _ _ _ Hs) as [G [-> [-> [-> Ha]]]]. exists G.
  rewrite mapv_keys in Hn. auto.
Qed.
Lemma rep_ref_intro : forall h l G, nth_error h l = Some (mapv ev G) -> NoDup (keys G) -> allrep h G ->
  rep h (HRef l) (SDict (mapv et G)) (l :: foot G).
Proof.
  intros h l G Hl Hn Ha. econstructor; [eassumption|rewrite mapv_keys; assumption|]. apply ents_reps. assumption.
Qed.

Lemma merge_refines : forall t2 h l1 l2 a b f1 g2, t2 = SDict b ->
  rep h (HRef l1) (SDict a) (l1 :: f1) -> NoDup (l1 :: f1) ->
  rep h (HRef l2) t2 g2 -> disjoint (l1 :: f1) g2 ->
  merges h l1 l2 f1 g2 a b.
Proof.
  induction t2 as [n|b0 IH] using sval_ind'; intros h l1 l2 a b f1 g2 Eb Hr1 Hnd Hr2 Hdj; [discriminate|].
  injection Eb as ->.
  destruct (rep_ref_inv _ _ _ _ Hr1) as [G0 [Ea [Ef [Hl1 [Hn0 Ha0]]]]].
  injection Ea as ->. injection Ef as ->.
  destruct (rep_ref_inv _ _ _ _ Hr2) as [G2 [Eb2 [-> [Hl2 [Hn2 Ha2]]]]]. injection Eb2 as ->.
  inversion Hnd as [|? ? Hl1f Hndf]; subst.
  destruct (foot_sep _ Hndf) as [Hnd0 Hsep0].
  assert (Hl12 : l1 <> l2) by (intros ->; apply (Hdj l2); left; reflexivity).
  (* the loop *)
  assert (Loop : forall todo done hi G, G2 = done ++ todo ->
    length hi = length h -> same_outside h hi (l1 :: foot G0) ->
    nth_error hi l1 = Some (mapv ev G) -> NoDup (keys G) -> allrep hi G ->
    mapv et G = merge (mapv et G0) (mapv et done) ->
    (forall k, In k (keys todo) -> aget k G = aget k G0) ->
    (forall k e, aget k G = Some e -> incl (ef e) (f0 G0 k ++ l2 :: foot G2)) ->
    exists N h' G', (forall fuel, N <= fuel ->
        mloop fuel hi l1 l2 (length G2) (length done) = Some (Ok h')) /\
      length h' = length h /\ same_outside h h' (l1 :: foot G0) /\
      nth_error h' l1 = Some (mapv ev G') /\ NoDup (keys G') /\ allrep h' G' /\
      mapv et G' = merge (mapv et G0) (mapv et G2) /\
      (forall k e, aget k G' = Some e -> incl (ef e) (f0 G0 k ++ l2 :: foot G2))).
  { induction todo as [|[k [[v2 t2] g2]] todo IHt]; intros done hi G Ed Hlen Hout Hd1 HnG HaG Ht Htodo Hfoot.
    - exists 1, hi, G. rewrite app_nil_r in Ed. subst done. repeat split; try assumption.
      intros [|fuel] Hf; [lia|]. cbn [mloop].
      rewrite (Hout l2), Hl2, Hd1 by (intros Hin; apply (Hdj l2); [assumption|left; reflexivity]).
      unfold mapv at 1. rewrite map_length, Nat.eqb_refl, mapv_nth.
      rewrite (proj2 (nth_error_None G2 (length G2))) by lia. reflexivity.
    - assert (Hi2 : aget k G2 = Some (v2, t2, g2)).
      { apply In_aget; [assumption|]. rewrite Ed. apply in_or_app. right. left. reflexivity. }
      assert (Hg2 : forall x, In x g2 -> In x (l2 :: foot G2))
        by (intros x Hx; right; eapply (foot_in G2 k); [eassumption|assumption]).
      assert (Hr2' : rep hi v2 t2 g2).
      { eapply rep_frame; [apply (allrep_aget h G2 k _ Ha2 Hi2)|]. intros l Hl. apply Hout.
        intros Hin. apply (Hdj l Hin). apply Hg2. assumption. }
      assert (Hg2l1 : ~ In l1 g2) by (intros Hx; apply (Hdj l1); [left; reflexivity|apply Hg2; assumption]).
      assert (Hk0 : aget k G = aget k G0) by (apply Htodo; left; reflexivity).
      assert (Hndk : ~ In k (keys done) /\ NoDup (keys todo) /\ ~ In k (keys todo)).
      { rewrite Ed in Hn2. unfold keys in Hn2. rewrite map_app in Hn2. simpl in Hn2.
        apply NoDup_remove in Hn2. destruct Hn2 as [Hn2 Hni]. rewrite in_app_iff in Hni.
        destruct (NoDup_app_inv _ _ Hn2) as [_ [Hn3 _]]. unfold keys. tauto. }
      destruct Hndk as [_ [_ Hktodo]].
      (* generic step: heap hm with the entries outside key k intact, new value v with tree/footprint *)
      assert (Step : forall hm v f, length hm = length h -> same_outside h hm (l1 :: foot G0) ->
        nth_error hm l1 = Some (mapv ev G) ->
        (forall j e, j <> k -> aget j G = Some e -> rep hm (ev e) (et e) (ef e)) ->
        rep hm v (over (option_map et (aget k G)) t2) f -> ~ In l1 f ->
        incl f (f0 G0 k ++ l2 :: foot G2) ->
        exists N h' G', (forall fuel, N <= fuel ->
            mloop fuel (hset hm l1 k v) l1 l2 (length G2) (S (length done)) = Some (Ok h')) /\
          length h' = length h /\ same_outside h h' (l1 :: foot G0) /\
          nth_error h' l1 = Some (mapv ev G') /\ NoDup (keys G') /\ allrep h' G' /\
          mapv et G' = merge (mapv et G0) (mapv et G2) /\
          (forall k e, aget k G' = Some e -> incl (ef e) (f0 G0 k ++ l2 :: foot G2))).
      { intros hm v f Hlm Hom Hdm Hother Hv Hl1v Hincl.
        specialize (IHt (done ++ [(k, (v2, t2, g2))]) (hset hm l1 k v)
          (aset k (v, over (option_map et (aget k G)) t2, f) G)).
        rewrite app_length in IHt. simpl length in IHt. rewrite Nat.add_1_r in IHt.
        apply IHt; clear IHt.
        - rewrite Ed, <- app_assoc. reflexivity.
        - rewrite hset_length. assumption.
        - intros l Hl. rewrite hset_other by (intros ->; apply Hl; left; reflexivity). apply Hom. assumption.
        - rewrite (hset_same _ _ _ _ _ Hdm). rewrite mapv_aset. reflexivity.
        - apply NoDup_aset. assumption.
        - apply allrep_of_aget; [apply NoDup_aset; assumption|]. intros j e Hj.
          assert (Fr : forall w t0 f2, rep hm w t0 f2 -> ~ In l1 f2 -> rep (hset hm l1 k v) w t0 f2).
          { intros w t0 f2 Hw Hn. eapply rep_frame; [eassumption|]. intros l Hl. apply hset_other.
            intros ->. contradiction. }
          rewrite aget_aset in Hj. destruct (str_eqb_spec j k) as [->|Njk].
          + injection Hj as <-. apply Fr; assumption.
          + apply Fr; [apply (Hother j); assumption|]. intros Hin. apply (Hfoot j e Hj) in Hin.
            apply in_app_or in Hin. destruct Hin as [Hin|Hin].
            * unfold f0 in Hin. destruct (aget j G0) as [e0|] eqn:Ej; [|contradiction].
              apply Hl1f. eapply foot_in; eassumption.
            * apply (Hdj l1); [left; reflexivity|assumption].
        - rewrite mapv_aset.
          replace (mapv et (done ++ [(k, (v2, t2, g2))])) with (mapv et done ++ [(k, t2)])
            by (unfold mapv; rewrite map_app; reflexivity).
          rewrite merge_snoc, <- Ht, mapv_aget. reflexivity.
        - intros j Hj. rewrite aget_aset_other by (intros ->; contradiction). apply Htodo. right. assumption.
        - intros j e Hj. rewrite aget_aset in Hj. destruct (str_eqb_spec j k) as [->|Njk].
          + injection Hj as <-. assumption.
          + apply Hfoot. assumption. }
      (* which branch *)
      assert (Head : forall fuel, mloop (S fuel) hi l1 l2 (length G2) (length done) =
        match aget k (mapv ev G), v2 with
        | Some (HRef m1), HRef m2 =>
            match mloop fuel hi m1 m2 (length (nth m2 hi [])) 0 with
            | Some (Ok h') => mloop fuel (hset h' l1 k (HRef m1)) l1 l2 (length G2) (S (length done))
            | x => x
            end
        | _, _ => mloop fuel (hset hi l1 k v2) l1 l2 (length G2) (S (length done))
        end).
      { intros fuel. cbn [mloop].
        rewrite (Hout l2), Hl2, Hd1 by (intros Hin; apply (Hdj l2); [assumption|left; reflexivity]).
        unfold mapv at 1. rewrite map_length, Nat.eqb_refl, mapv_nth.
        rewrite Ed at 1. rewrite nth_error_app2, Nat.sub_diag by lia. reflexivity. }
      rewrite mapv_aget in Head.
      assert (Plain : (forall m1 m2, option_map ev (aget k G) = Some (HRef m1) -> v2 <> HRef m2) ->
        exists N h' G', (forall fuel, N <= fuel ->
            mloop fuel hi l1 l2 (length G2) (length done) = Some (Ok h')) /\
          length h' = length h /\ same_outside h h' (l1 :: foot G0) /\
          nth_error h' l1 = Some (mapv ev G') /\ NoDup (keys G') /\ allrep h' G' /\
          mapv et G' = merge (mapv et G0) (mapv et G2) /\
          (forall k e, aget k G' = Some e -> incl (ef e) (f0 G0 k ++ l2 :: foot G2))).
      { intros Hne.
        destruct (Step hi v2 g2) as [N [h' [G' [HN HR]]]]; try assumption.
        - intros j e _ Hj. apply (allrep_aget hi G j); assumption.
        - rewrite over_nondict_cases; [assumption|].
          destruct (aget k G) as [e|] eqn:Ek; [|left; reflexivity].
          assert (He := allrep_aget _ _ _ _ HaG Ek). simpl in Hne |- *.
          destruct (ev e) as [n|m1] eqn:Ev.
          + left. inversion He; subst. reflexivity.
          + right. destruct v2 as [n|m2]; [|exfalso; eapply Hne; reflexivity].
            inversion Hr2'; subst. eexists. reflexivity.
        - intros x Hx. apply in_or_app. right. apply Hg2. assumption.
        - exists (S N), h', G'. split; [|exact HR]. intros [|fuel] Hf; [lia|]. rewrite Head.
          specialize (HN fuel ltac:(lia)). destruct (option_map ev (aget k G)) as [[n|m1]|]; try assumption.
          destruct v2 as [n|m2]; [assumption|]. exfalso. eapply Hne; reflexivity. }
      destruct (aget k G) as [e|] eqn:Ek; [|apply Plain; intros m1 m2 Hx; discriminate].
      destruct (ev e) as [n|m1] eqn:Ev; [apply Plain; simpl; rewrite Ev; intros; discriminate|].
      destruct v2 as [n|m2]; [apply Plain; intros; discriminate|]. clear Plain.
      (* recursive merge *)
      assert (He := allrep_aget _ _ _ _ HaG Ek). rewrite Ev in He.
      assert (He0 : aget k G0 = Some e) by congruence.
      destruct (rep_ref_inv _ _ _ _ He) as [Ge [Ete [Efe [Hme [Hne Hae]]]]].
      destruct (rep_ref_inv _ _ _ _ Hr2') as [G3 [Et3 [Eg3 [Hm3 [Hn3 Ha3]]]]].
      assert (Hfe : forall x, In x (ef e) -> In x (foot G0)) by (intros x Hx; eapply (foot_in G0 k); eassumption).
      destruct (IH k t2) with (h := hi) (l1 := m1) (l2 := m2) (a := mapv et Ge) (b := mapv et G3)
        (f1 := foot Ge) (g2 := g2) as [N1 [h1 [HN1 [Ho1 [Hlen1 [fr [Hrep1 Hincl1]]]]]]].
      { apply (in_map (fun p => (fst p, et (snd p)))) with (x := (k, (HRef m2, t2, g2))).
        apply aget_Some_In. assumption. }
      { exact Et3. }
      { rewrite <- Ete, <- Efe. assumption. }
      { rewrite <- Efe. apply (Hnd0 k). assumption. }
      { assumption. }
      { rewrite <- Efe. intros x Hx Hx2. apply (Hdj x); [right; apply Hfe; assumption|apply Hg2; assumption]. }
      rewrite <- Efe in Ho1.
      assert (Hl1e : ~ In l1 (ef e)) by (intros Hx; apply Hl1f; apply Hfe; assumption).
      destruct (Step h1 (HRef m1) (m1 :: fr)) as [N2 [h2 [G' [HN2 HR]]]].
      + congruence.
      + intros l Hl. rewrite Ho1; [apply Hout; assumption|]. intros Hx. apply Hl. right. apply Hfe. assumption.
      + rewrite Ho1 by assumption. assumption.
      + intros j e' Nj Hj. eapply rep_frame; [apply (allrep_aget hi G j); eassumption|]. intros l Hl. apply Ho1.
        intros Hx. apply (Hfoot j e' Hj) in Hl. apply in_app_or in Hl. destruct Hl as [Hl|Hl].
        * unfold f0 in Hl. destruct (aget j G0) as [ej|] eqn:Ej; [|contradiction].
          apply (Hsep0 j k ej e Nj Ej He0 l Hl Hx).
        * apply (Hdj l); [right; apply Hfe; assumption|assumption].
      + simpl. rewrite Ete, Et3, over_dict. assumption.
      + intros [Hx|Hx]; [apply Hl1e; rewrite Efe; left; congruence|]. apply Hincl1 in Hx. apply in_app_or in Hx.
        destruct Hx as [Hx|Hx]; [apply Hl1e; rewrite Efe; right; assumption|contradiction].
      + intros x Hx. unfold f0. rewrite He0. apply in_or_app. destruct Hx as [<-|Hx].
        * left. rewrite Efe. left. reflexivity.
        * apply Hincl1 in Hx. apply in_app_or in Hx. destruct Hx as [Hx|Hx].
          -- left. rewrite Efe. right. assumption.
          -- right. apply Hg2. assumption.
      + exists (S (Nat.max N1 N2)), h2, G'. split; [|exact HR]. intros [|fuel] Hf; [lia|]. rewrite Head.
        simpl option_map. rewrite Ev. fold (merge_in_place fuel hi m1 m2). rewrite HN1 by lia. apply HN2. lia. }
  destruct (Loop G2 [] h G0) as [N [h' [G' [HN [Hlen [Hout [Hd' [HnG' [HaG' [Ht' Hf']]]]]]]]]].
  - reflexivity.
  - reflexivity.
  - intros l _. reflexivity.
  - assumption.
  - assumption.
  - assumption.
  - reflexivity.
  - intros; reflexivity.
  - intros k e Hk x Hx. unfold f0. rewrite Hk. apply in_or_app. left. assumption.
  - exists N, h'. repeat split; try assumption.
    + intros fuel Hfu. unfold merge_in_place. rewrite (nth_error_nth' _ _ _ Hl2). unfold mapv at 1. rewrite map_length.
      apply HN. assumption.
    + exists (foot G'). split; [rewrite <- Ht'; apply rep_ref_intro; assumption|].
      intros x Hx. apply foot_inv in Hx. destruct Hx as [k [e [Hin Hx]]].
      apply In_aget in Hin; [|assumption]. apply (Hf' k e Hin) in Hx. apply in_app_or in Hx. apply in_or_app.
      destruct Hx as [Hx|Hx]; [|right; assumption]. left. unfold f0 in Hx.
      destruct (aget k G0) as [e0|] eqn:E0; [|contradiction]. eapply foot_in; eassumption.
Qed.

(** ** Deep copy *)
Lemma aset_notin : forall {V} k (v : V) d, ~ In k (keys d) -> aset k v d = d ++ [(k, v)].
Proof.
  intros V k v d. induction d as [|[k' v'] d IH]; intros H; [reflexivity|]. simpl in *.
  destruct (str_eqb_spec k k') as [E|]; [exfalso; apply H; left; congruence|]. f_equal. apply IH. tauto.
Qed.
Lemma rep_bound : forall h v t fp, rep h v t fp -> forall x, In x fp -> x < length h.
Proof.
  intros h.
  apply (rep_mut h (fun v t fp => forall x, In x fp -> x < length h)
                   (fun d ts fp => forall x, In x fp -> x < length h)).
  - intros n x [].
  - intros l d ts f Hl _ _ IH x [<-|Hx]; [apply nth_error_Some; congruence|auto].
  - intros x [].
  - intros k v0 d t0 ts f1 f2 _ IH1 _ IH2 x Hx. apply in_app_or in Hx. destruct Hx; auto.
Qed.
Lemma reps_bound : forall h d ts fp, reps h d ts fp -> forall x, In x fp -> x < length h.
Proof.
  intros h d ts fp H. induction H as [|k v d t ts f1 f2 Hr Hs IH]; intros x Hx; [destruct Hx|].
  apply in_app_or in Hx. destruct Hx as [Hx|Hx]; [eapply rep_bound; eassumption|auto].
Qed.

Definition copies (h0 : heap) (d : hdict) (ts : tree) (fp : list nat) : Prop :=
  forall h memo l' acc,
  (forall x, In x fp -> nth_error h x = nth_error h0 x) -> nth_error h l' = Some acc -> ~ In l' fp ->
  NoDup fp -> (forall x, In x fp -> mfind x memo = None) -> NoDup (keys acc ++ keys d) ->
  exists N h' memo', (forall fuel, N <= fuel -> dcopy fuel h memo l' d = Some (h', memo')) /\
    length h <= length h' /\
    (forall l, l < length h -> l <> l' -> nth_error h' l = nth_error h l) /\
    (forall x, mfind x memo = None -> ~ In x fp -> mfind x memo' = None) /\
    exists d' fp', nth_error h' l' = Some (acc ++ d') /\ reps h' d' ts fp' /\ keys d' = keys d /\
      NoDup fp' /\ forall x, In x fp' -> length h <= x < length h'.
Definition copies1 (h0 : heap) (v : hval) (t : sval) (fp : list nat) : Prop :=
  forall m h memo, v = HRef m ->
  (forall x, In x fp -> nth_error h x = nth_error h0 x) -> (forall x, In x fp -> x < length h) -> NoDup fp ->
  (forall x, In x fp -> mfind x memo = None) ->
  exists N h' memo', (forall fuel, N <= fuel ->
      dcopy fuel (h ++ [[]]) ((m, length h) :: memo) (length h) (nth m h []) = Some (h', memo')) /\
    length h < length h' /\ (forall l, l < length h -> nth_error h' l = nth_error h l) /\
    (forall x, mfind x memo = None -> ~ In x fp -> mfind x memo' = None) /\
    exists fp', rep h' (HRef (length h)) t fp' /\ NoDup fp' /\ forall x, In x fp' -> length h <= x < length h'.

Lemma copies1_dict : forall h0 l d ts fp, nth_error h0 l = Some d -> NoDup (keys d) ->
  copies h0 d ts fp -> copies1 h0 (HRef l) (SDict ts) (l :: fp).
Proof.
  intros h0 l d ts fp Hl Hnd IH m h memo [= <-] Hag Hb Hn Hmemo. inversion Hn as [|? ? Hlf Hnf]; subst.
  assert (Hlen : l < length h) by (apply Hb; left; reflexivity).
  assert (Hld : nth_error h l = Some d) by (rewrite Hag by (left; reflexivity); assumption).
  destruct (IH (h ++ [[]]) ((l, length h) :: memo) (length h) [])
    as [N [h' [memo' [HN [Hle [Hold [Hm [d' [fp' [Hd' [Hs' [Hk' [Hn' Hr']]]]]]]]]]]]].
  - intros x Hx. rewrite nth_error_app1 by (apply Hb; right; assumption). apply Hag. right. assumption.
  - rewrite nth_error_app2, Nat.sub_diag by lia. reflexivity.
  - intros Hx. assert (length h < length h) by (apply Hb; right; assumption). lia.
  - assumption.
  - intros x Hx. simpl. destruct (Nat.eqb_spec x l) as [->|]; [contradiction|]. apply Hmemo. right. assumption.
  - simpl. assumption.
  - rewrite app_length in Hle, Hr'. simpl in Hle, Hr'. exists N, h', memo'. repeat split.
    + intros fuel Hf. rewrite (nth_error_nth' _ _ _ Hld). apply HN. assumption.
    + lia.
    + intros x Hx. rewrite Hold; [apply nth_error_app1; assumption| |lia]. rewrite app_length. simpl. lia.
    + intros x Hx Hni. apply Hm; [|intros Hx'; apply Hni; right; assumption]. simpl.
      destruct (Nat.eqb_spec x l) as [->|]; [exfalso; apply Hni; left; reflexivity|assumption].
    + exists (length h :: fp'). split; [|split].
      * econstructor; [rewrite Hd'; reflexivity|simpl; rewrite Hk'; assumption|assumption].
      * constructor; [|assumption]. intros Hx. apply Hr' in Hx. lia.
      * intros x [<-|Hx]; [lia|]. apply Hr' in Hx. lia.
Qed.

Lemma reps_frame : forall h h' d ts fp, reps h d ts fp ->
  (forall l, In l fp -> nth_error h' l = nth_error h l) -> reps h' d ts fp.
Proof.
  intros h h' d ts fp H. induction H as [|k v d t ts f1 f2 Hr Hs IH]; intros Hf; constructor.
  - eapply rep_frame; [eassumption|]. intros; apply Hf; apply in_or_app; tauto.
  - apply IH. intros; apply Hf; apply in_or_app; tauto.
Qed.

Lemma dcopy_reps : forall h0 d ts fp, reps h0 d ts fp -> copies h0 d ts fp.
Proof.
  intros h0. apply (reps_mut h0 (copies1 h0) (copies h0)).
  - intros n m h memo E. discriminate.
  - intros l d ts fp Hl Hn _ IH. eapply copies1_dict; eassumption.
  - intros h memo l' acc Hag Hl' Hni Hnd Hm Hk. exists 1, h, memo. repeat split; try lia; try auto.
    + intros [|fuel] Hf; [lia|reflexivity].
    + exists [], []. rewrite app_nil_r. repeat split; try assumption; try constructor; destruct H.
  - intros k v d t ts f1 f2 Hr IH1 Hs IH2 h memo l' acc Hag Hl' Hni Hnd Hm Hk.
    assert (Hka : ~ In k (keys acc)).
    { intros Hin. destruct (NoDup_app_inv _ _ Hk) as [_ [_ Hd]]. apply (Hd k Hin). left. reflexivity. }
    assert (Hk2 : forall w, NoDup (keys (acc ++ [(k, w)]) ++ keys d)).
    { intros w. unfold keys at 1. rewrite map_app, <- app_assoc. exact Hk. }
    assert (Hl'b : l' < length h) by (apply nth_error_Some; congruence).
    destruct (NoDup_app_inv _ _ Hnd) as [Hn1 [Hn2 Hn12]].
    assert (Hb : forall x, In x (f1 ++ f2) -> x < length h).
    { intros x Hx. apply nth_error_Some. rewrite Hag by assumption. apply nth_error_Some.
      apply in_app_or in Hx. destruct Hx as [Hx|Hx]; [eapply rep_bound; eassumption|].
      eapply reps_bound; eassumption. }
    destruct v as [n|m].
    + inversion Hr; subst. simpl in *.
      destruct (IH2 (hset h l' k (HAtom n)) memo l' (acc ++ [(k, HAtom n)]))
        as [N [h' [memo' [HN [Hle [Hold [Hm' [d' [fp' [Hd' [Hs' [Hk' [Hn' Hr']]]]]]]]]]]]].
      * intros x Hx. rewrite hset_other by (intros ->; contradiction). apply Hag. assumption.
      * rewrite (hset_same _ _ _ _ _ Hl'), aset_notin by assumption. reflexivity.
      * assumption.
      * assumption.
      * assumption.
      * apply Hk2.
      * rewrite hset_length in *. exists (S N), h', memo'. repeat split.
        -- intros [|fuel] Hf; [lia|]. cbn [dcopy]. apply HN. lia.
        -- assumption.
        -- intros x Hx Hne. rewrite Hold by assumption. apply hset_other. assumption.
        -- assumption.
        -- exists ((k, HAtom n) :: d'), fp'. repeat split.
           ++ rewrite Hd', <- app_assoc. reflexivity.
           ++ apply (reps_cons _ _ _ _ _ _ []); [constructor|assumption].
           ++ simpl. f_equal. assumption.
           ++ assumption.
           ++ apply Hr'. assumption.
           ++ apply Hr'. assumption.
    + destruct (IH1 m h memo eq_refl) as [N1 [h1 [memo1 [HN1 [Hlt1 [Hold1 [Hm1 [fp1 [Hrep1 [Hnd1 Hrg1]]]]]]]]]].
      * intros x Hx. apply Hag. apply in_or_app. auto.
      * intros x Hx. apply Hb. apply in_or_app. auto.
      * assumption.
      * intros x Hx. apply Hm. apply in_or_app. auto.
      * assert (Hmm : mfind m memo = None).
        { apply Hm. inversion Hr; subst. left. reflexivity. }
        assert (Hl1 : nth_error h1 l' = Some acc) by (rewrite Hold1 by assumption; assumption).
        destruct (IH2 (hset h1 l' k (HRef (length h))) memo1 l' (acc ++ [(k, HRef (length h))]))
          as [N [h' [memo' [HN [Hle [Hold [Hm' [d' [fp' [Hd' [Hs' [Hk' [Hn' Hr']]]]]]]]]]]]].
        -- intros x Hx. rewrite hset_other by (intros ->; apply Hni; apply in_or_app; auto).
           rewrite Hold1 by (apply Hb; apply in_or_app; auto). apply Hag. apply in_or_app. auto.
        -- rewrite (hset_same _ _ _ _ _ Hl1), aset_notin by assumption. reflexivity.
        -- intros Hx. apply Hni. apply in_or_app. auto.
        -- assumption.
        -- intros x Hx. apply Hm1; [apply Hm; apply in_or_app; auto|]. intros Hx1. apply (Hn12 x Hx1 Hx).
        -- apply Hk2.
        -- rewrite hset_length in *. exists (S (Nat.max N1 N)), h', memo'. repeat split.
           ++ intros [|fuel] Hf; [lia|]. cbn [dcopy]. rewrite Hmm, HN1 by lia. apply HN. lia.
           ++ lia.
           ++ intros x Hx Hne. rewrite Hold by (assumption || lia). rewrite hset_other by assumption.
              apply Hold1. assumption.
           ++ intros x Hx Hnx. apply Hm'; [apply Hm1; [assumption|]|]; intros Hx'; apply Hnx; apply in_or_app; auto.
           ++ exists ((k, HRef (length h)) :: d'), (fp1 ++ fp'). repeat split.
              ** rewrite Hd', <- app_assoc. reflexivity.
              ** constructor; [|assumption]. eapply rep_frame; [eassumption|]. intros x Hx.
                 apply Hrg1 in Hx. rewrite Hold by lia. apply hset_other. lia.
              ** simpl. f_equal. assumption.
              ** clear - Hnd1 Hn' Hrg1 Hr'. induction fp1 as [|x fp1 IH]; [assumption|]. simpl.
                 inversion Hnd1; subst. constructor.
                 --- rewrite in_app_iff. intros [Hx|Hx]; [contradiction|]. apply Hr' in Hx.
                     specialize (Hrg1 x (or_introl eq_refl)). lia.
                 --- apply IH; [assumption|]. intros y Hy. apply Hrg1. right. assumption.
              ** apply in_app_or in H. destruct H as [H|H]; [apply Hrg1 in H; lia|apply Hr' in H; lia].
              ** apply in_app_or in H. destruct H as [H|H]; [apply Hrg1 in H; lia|apply Hr' in H; lia].
Qed.

(** ** The entry point *)
Lemma merge_nocopy : forall h l1 l2 a b f1 f2,
  rep h (HRef l1) (SDict a) f1 -> NoDup f1 -> rep h (HRef l2) (SDict b) f2 -> disjoint f1 f2 ->
  exists N h', (forall fuel, N <= fuel -> mergeNested fuel NoCopy h l1 l2 = Some (Ok (h', l1))) /\
    same_outside h h' f1 /\ rep h' (HRef l2) (SDict b) f2 /\
    exists f', rep h' (HRef l1) (SDict (merge a b)) f'.
Proof.
  intros h l1 l2 a b f1 f2 H1 Hn H2 Hd.
  destruct (rep_ref_inv _ _ _ _ H1) as [G [_ [-> _]]].
  destruct (merge_refines (SDict b) h l1 l2 a b (foot G) f2 eq_refl H1 Hn H2 Hd)
    as [N [h' [HN [Ho [_ [f' [Hr' _]]]]]]].
  exists N, h'. repeat split.
  - intros fuel Hf. unfold mergeNested. rewrite HN by assumption. reflexivity.
  - assumption.
  - eapply rep_frame; [eassumption|]. intros l Hl. apply Ho. intros Hx. apply (Hd l Hx Hl).
  - eauto.
Qed.

Lemma merge_deepcopy : forall h l1 l2 a b f1 f2,
  rep h (HRef l1) (SDict a) f1 -> NoDup f1 -> rep h (HRef l2) (SDict b) f2 ->
  exists N h' l, (forall fuel, N <= fuel -> mergeNested fuel DeepCopy h l1 l2 = Some (Ok (h', l))) /\
    (forall x, x < length h -> nth_error h' x = nth_error h x) /\ length h <= l /\
    exists f', rep h' (HRef l) (SDict (merge a b)) f'.
Proof.
  intros h l1 l2 a b f1 f2 H1 Hn H2.
  assert (C : copies1 h (HRef l1) (SDict a) f1).
  { inversion H1; subst. eapply copies1_dict; [eassumption|assumption|]. apply dcopy_reps. assumption. }
  destruct (C l1 h [] eq_refl) as [N1 [h1 [memo1 [HN1 [Hlt [Hold [_ [fp1 [Hr1 [Hnd1 Hrg1]]]]]]]]]].
  - reflexivity.
  - intros x Hx. exact (rep_bound _ _ _ _ H1 x Hx).
  - assumption.
  - reflexivity.
  - assert (H2' : rep h1 (HRef l2) (SDict b) f2).
    { eapply rep_frame; [eassumption|]. intros x Hx. apply Hold. exact (rep_bound _ _ _ _ H2 x ltac:(assumption)). }
    assert (Hd : disjoint fp1 f2).
    { intros x Hx Hx2. apply Hrg1 in Hx. assert (x < length h) by (exact (rep_bound _ _ _ _ H2 x ltac:(assumption))). lia. }
    destruct (rep_ref_inv _ _ _ _ Hr1) as [G [_ [-> _]]].
    destruct (merge_refines (SDict b) h1 (length h) l2 a b (foot G) f2 eq_refl Hr1 Hnd1 H2' Hd)
      as [N2 [h' [HN2 [Ho [_ [f' [Hr' _]]]]]]].
    exists (Nat.max N1 N2), h', (length h). split; [|split; [|split]].
    + intros fuel Hf. unfold mergeNested. rewrite HN1 by lia. rewrite HN2 by lia. reflexivity.
    + intros x Hx. rewrite Ho; [apply Hold; assumption|]. intros Hin. apply Hrg1 in Hin. lia.
    + lia.
    + eauto.
Qed.

Lemma update_keeps : forall h l1 l2 a b f1 f2,
  rep h (HRef l1) (SDict a) f1 -> NoDup f1 -> rep h (HRef l2) (SDict b) f2 -> disjoint f1 f2 ->
  exists N h', (forall fuel, N <= fuel -> updateSettings fuel h l1 l2 true = Some (Ok h')) /\
    same_outside h h' f1 /\ rep h' (HRef l2) (SDict b) f2.
Proof.
  intros h l1 l2 a b f1 f2 H1 Hn H2 Hd.
  destruct (merge_nocopy h l1 l2 a b f1 f2 H1 Hn H2 Hd) as [N [h' [HN [Ho [Hr _]]]]].
  exists N, h'. split; [|split; assumption]. intros fuel Hf. specialize (HN fuel Hf).
  unfold mergeNested in HN. unfold updateSettings.
  destruct (merge_in_place fuel h l1 l2) as [[x|e]|]; congruence.
Qed.

(** ** Shallow copy and plain update *)
Lemma merge_copy : forall h l1 l2 a b f1 f2,
  rep h (HRef l1) (SDict a) f1 -> NoDup f1 -> rep h (HRef l2) (SDict b) f2 -> disjoint f1 f2 ->
  exists N h' l, (forall fuel, N <= fuel -> mergeNested fuel Copy h l1 l2 = Some (Ok (h', l))) /\
    length h <= l /\ nth_error h' l1 = nth_error h l1 /\
    (forall x, x < length h -> ~ In x f1 -> nth_error h' x = nth_error h x) /\
    rep h' (HRef l2) (SDict b) f2 /\
    exists f', rep h' (HRef l) (SDict (merge a b)) f'.
Proof.
  intros h l1 l2 a b f1 f2 H1 Hn H2 Hd.
  pose proof (rep_bound _ _ _ _ H1) as B1. pose proof (rep_bound _ _ _ _ H2) as B2.
  inversion H1 as [|? d ts fp Hl Hk Hr]; subst.
  set (h0 := h ++ [nth l1 h []]).
  assert (Old : forall x, x < length h -> nth_error h0 x = nth_error h x)
    by (intros x Hx; apply nth_error_app1; exact Hx).
  assert (New : nth_error h0 (length h) = Some d).
  { unfold h0. rewrite nth_error_app2 by lia. rewrite Nat.sub_diag. cbn.
    rewrite (nth_error_nth' _ _ _ Hl). reflexivity. }
  inversion Hn as [|? ? Hni Hnd]; subst.
  assert (R1 : rep h0 (HRef (length h)) (SDict a) (length h :: fp)).
  { apply rep_dict with (d := d); [exact New|exact Hk|].
    eapply reps_frame; [exact Hr|]. intros x Hx. apply Old. apply B1. right. exact Hx. }
  assert (N1 : NoDup (length h :: fp)).
  { constructor; [|exact Hnd]. intro F. specialize (B1 (length h) (or_intror F)). lia. }
  assert (R2 : rep h0 (HRef l2) (SDict b) f2).
  { eapply rep_frame; [exact H2|]. intros x Hx. apply Old. apply B2. exact Hx. }
  assert (D : disjoint (length h :: fp) f2).
  { intros x [<-|Hx] Hx2; [specialize (B2 _ Hx2); lia|]. exact (Hd x (or_intror Hx) Hx2). }
  destruct (merge_nocopy h0 (length h) l2 a b _ f2 R1 N1 R2 D) as (N & h' & HN & Ho & Hr2 & f' & Hf').
  assert (L1 : l1 < length h) by (apply B1; left; reflexivity).
  exists N, h', (length h). repeat split.
  - intros fuel Hf. specialize (HN fuel Hf). unfold mergeNested in *.
    destruct (merge_in_place fuel h0 (length h) l2) as [[x|e]|] eqn:E; unfold h0 in E; rewrite E;
      congruence.
  - lia.
  - rewrite Ho; [apply Old; exact L1|]. intros [F|F]; [lia|]. exact (Hni F).
  - intros x Hx Hnx. rewrite Ho; [apply Old; exact Hx|].
    intros [F|F]; [lia|]. apply Hnx. right. exact F.
  - exact Hr2.
  - exists f'. exact Hf'.
Qed.

Lemma fold_hset_other : forall items h l1 x, x <> l1 ->
  nth_error (fold_left (fun h '(k, v) => hset h l1 k v) items h) x = nth_error h x.
Proof.
  induction items as [|[k v] items IH]; intros h l1 x H; [reflexivity|]. cbn [fold_left].
  rewrite IH by exact H. apply hset_other. exact H.
Qed.

Lemma fold_hset_same : forall items h l1 d, nth_error h l1 = Some d ->
  nth_error (fold_left (fun h '(k, v) => hset h l1 k v) items h) l1
  = Some (fold_left (fun d '(k, v) => aset k v d) items d).
Proof.
  induction items as [|[k v] items IH]; intros h l1 d H; [exact H|]. cbn [fold_left].
  apply IH. apply hset_same. exact H.
Qed.

Lemma fold_aset_get : forall {V} (items d : list (pystr * V)) k, NoDup (keys items) ->
  aget k (fold_left (fun d '(k, v) => aset k v d) items d)
  = match aget k items with Some v => Some v | None => aget k d end.
Proof.
  intros V items. induction items as [|[j v] items IH]; intros d k Hn; [reflexivity|].
  cbn [fold_left aget]. inversion Hn as [|? ? Hj Hn']; subst. rewrite IH by exact Hn'.
  destruct (str_eqb_spec k j) as [E|E].
  - subst. apply aget_None_keys in Hj. rewrite Hj. apply aget_aset_same.
  - rewrite aget_aset_other by exact E. reflexivity.
Qed.

Lemma update_plain : forall fuel h l1 l2 d1 d2, nth_error h l1 = Some d1 ->
  nth_error h l2 = Some d2 -> NoDup (keys d2) ->
  exists h' d', updateSettings fuel h l1 l2 false = Some (Ok h') /\ nth_error h' l1 = Some d' /\
    (forall x, x <> l1 -> nth_error h' x = nth_error h x) /\
    (forall k, aget k d' = match aget k d2 with Some v => Some v | None => aget k d1 end).
Proof.
  intros fuel h l1 l2 d1 d2 H1 H2 Hn. unfold updateSettings, dict_update.
  rewrite (nth_error_nth' _ _ _ H2).
  eexists _, (fold_left (fun d '(k, v) => aset k v d) d2 d1).
  split; [reflexivity|]. split; [apply fold_hset_same; exact H1|]. split.
  - intros x Hx. apply fold_hset_other. exact Hx.
  - intro k. apply fold_aset_get. exact Hn.
Qed.
