(** Proofs for C100. *)
From Coq Require Import Permutation.
From Verif Require Import Base Analyze_Model Analyze_Spec.

Fixpoint get (k : pystr) (d : counts) : nat := match d with [] => 0 | (j, n) :: r => if str_eqb j k then n else get k r end.
Lemma eqb_same : forall k, str_eqb k k = true. Proof. intro k. apply str_eqb_eq. reflexivity. Qed.
Lemma eqb_diff : forall j k, j <> k -> str_eqb j k = false.
Proof. intros j k H. destruct (str_eqb j k) eqn:E; [apply str_eqb_eq in E; congruence|reflexivity]. Qed.
Lemma get_add : forall d k v j, get j (add k v d) = (if same k j then v else 0) + get j d.
Proof.
  induction d as [|[i n] d IH]; intros k v j; cbn [add get].
  - destruct (same k j) as [->|N]; [rewrite eqb_same|rewrite eqb_diff by exact N]; lia.
  - destruct (str_eqb i k) eqn:E; cbn [get].
    + apply str_eqb_eq in E. subst. destruct (same k j) as [->|N]; [rewrite eqb_same|rewrite eqb_diff by exact N]; lia.
    + rewrite IH. destruct (str_eqb i j) eqn:F; [|reflexivity]. apply str_eqb_eq in F. subst.
      destruct (same k j) as [->|N]; [rewrite eqb_same in E; discriminate|reflexivity].
Qed.
Lemma keys_add : forall d k v j, In j (map fst (add k v d)) <-> j = k \/ In j (map fst d).
Proof.
  induction d as [|[i n] d IH]; intros k v j; cbn [add map fst In]; [firstorder congruence|].
  destruct (str_eqb i k) eqn:E; cbn [map fst In]; [apply str_eqb_eq in E; subst; firstorder congruence|]. rewrite IH. tauto.
Qed.
Lemma nodup_add : forall d k v, NoDup (map fst d) -> NoDup (map fst (add k v d)).
Proof.
  induction d as [|[i n] d IH]; intros k v H; cbn [add map fst]; [repeat constructor; intros []|].
  cbn [map fst] in H. inversion H as [|? ? H1 H2]; subst. destruct (str_eqb i k) eqn:E; cbn [map fst]; constructor; auto.
  rewrite keys_add. intros [->|K]; [rewrite eqb_same in E; discriminate|exact (H1 K)].
Qed.
Lemma says_get : forall d k n, NoDup (map fst d) -> (says d k n <-> get k d = n).
Proof.
  induction d as [|[i m] d IH]; intros k n H; cbn [get].
  - split; [intros [[]|[_ ->]]; reflexivity|intros <-; right; split; [intros []|reflexivity]].
  - cbn [map fst] in H. inversion H as [|? ? H1 H2]; subst. destruct (str_eqb i k) eqn:E.
    + apply str_eqb_eq in E. subst. split.
      * intros [[K|K]|[K _]]; [inversion K; reflexivity|exfalso; apply H1; apply in_map_iff; exists (k, n); auto|exfalso; apply K; left; reflexivity].
      * intros <-. left. left. reflexivity.
    + assert (N : i <> k) by (intros ->; rewrite eqb_same in E; discriminate). rewrite <- (IH k n H2). unfold says. cbn [map fst In].
      split; [intros [[K|K]|[K ->]]; [inversion K; congruence|left; exact K|right; split; [tauto|reflexivity]]|].
      intros [K|[K ->]]; [left; right; exact K|right; split; [tauto|reflexivity]].
Qed.

(** Counting. *)
Lemma eats : forall l d, NoDup (map fst d) ->
  NoDup (map fst (fold_left eat l d)) /\ (forall k, In k (map fst (fold_left eat l d)) <-> In k l \/ In k (map fst d)) /\
  forall k, get k (fold_left eat l d) = times k l + get k d.
Proof.
  induction l as [|x l IH]; intros d H; cbn [fold_left].
  - split; [exact H|]. split; [intro k; cbn; tauto|reflexivity].
  - destruct (IH (eat d x) (nodup_add d x 1 H)) as (A & B & C). split; [exact A|]. split.
    + intro k. rewrite B. unfold eat. rewrite keys_add. cbn [In]. split; [intros [K|[->|K]]|intros [[<-|K]|K]]; auto.
    + intro k. rewrite C. unfold eat. rewrite get_add. unfold times. cbn [count_occ]. destruct (same x k); lia.
Qed.
Lemma eats_count : forall l, count_of (fold_left eat l []) l.
Proof.
  intro l. destruct (eats l [] (NoDup_nil _)) as (A & B & C). split; [exact A|]. split; [intro k; rewrite B; cbn; tauto|].
  intro k. apply says_get; [exact A|]. rewrite C. cbn. lia.
Qed.
Lemma merges : forall s d, NoDup (map fst d) -> NoDup (map fst s) ->
  NoDup (map fst (merge d s)) /\ (forall k, In k (map fst (merge d s)) <-> In k (map fst d) \/ In k (map fst s)) /\ forall k, get k (merge d s) = get k d + get k s.
Proof.
  unfold merge. induction s as [|[i n] s IH]; intros d H K; cbn [fold_left].
  - split; [exact H|]. split; [intro k; cbn; tauto|intro k; cbn; lia].
  - cbn [map fst] in K. inversion K as [|? ? K1 K2]; subst. destruct (IH (add i n d) (nodup_add d i n H) K2) as (A & B & C). split; [exact A|]. split.
    + intro k. rewrite B, keys_add. cbn [map fst In]. split; [intros [[->|?]|?]|intros [?|[<-|?]]]; auto.
    + intro k. rewrite C, get_add. cbn [get]. destruct (same i k) as [->|N].
      * rewrite eqb_same. assert (Z : get k s = 0).
        { apply says_get; [exact K2|]. right. split; [exact K1|reflexivity]. }
        lia.
      * rewrite (eqb_diff _ _ N). lia.
Qed.
Lemma count_get : forall d l, count_of d l <-> NoDup (map fst d) /\ (forall k, In k (map fst d) <-> In k l) /\ forall k, get k d = times k l.
Proof.
  intros d l. unfold count_of. split; intros (A & B & C); split; auto; split; auto; intro k; apply (says_get d k _ A); apply C.
Qed.
Lemma merge_count : forall d s a b, count_of d a -> count_of s b -> count_of (merge d s) (a ++ b).
Proof.
  intros d s a b Hd Hs. apply count_get in Hd as (A1 & B1 & C1). apply count_get in Hs as (A2 & B2 & C2). apply count_get.
  destruct (merges s d A1 A2) as (A & B & C). split; [exact A|]. split.
  - intro k. rewrite B, in_app_iff, B1, B2. tauto.
  - intro k. rewrite C, C1, C2. unfold times. rewrite count_occ_app. reflexivity.
Qed.

(** Reading the templates. *)
Definition reads (t : tools) (f : pystr) (ds : list pystr) : Prop := exists s, a_open t f = Some s /\ a_parse t s = Some ds.
Lemma file_count : forall t f ds, reads t f ds -> exists c, main_file t f = Ok c /\ count_of c ds.
Proof.
  intros t f ds (s & Ho & Hp). unfold main_file, analyze. rewrite Ho, Hp. eexists. split; [reflexivity|apply eats_count].
Qed.
Lemma loop_count : forall t fs dss d a, Forall2 (reads t) fs dss -> count_of d a -> exists c, main_loop t fs d = Ok c /\ count_of c (a ++ concat dss).
Proof.
  intros t fs dss d a H. revert d a. induction H as [|f ds fs dss H _ IH]; intros d a Hd; cbn [main_loop concat].
  - exists d. rewrite app_nil_r. auto.
  - destruct (file_count t f ds H) as (c & E & Hc). rewrite E, app_assoc.
    destruct c as [|p c]; [|apply IH; apply merge_count; assumption].
    assert (ds = []) by (destruct ds as [|x ds]; [reflexivity|exfalso; destruct (proj1 (proj2 Hc) x) as [_ K]; destruct (K (or_introl eq_refl))]).
    subst. rewrite app_nil_r. apply IH. exact Hd.
Qed.
Lemma nil_count : count_of [] [].
Proof. apply (eats_count []). Qed.
Lemma loop_error : forall t fs f gs dss e, Forall2 (reads t) fs dss -> main_file t f = Raise e -> forall d, main_loop t (fs ++ f :: gs) d = Raise e.
Proof.
  intros t fs f gs dss e H E. induction H as [|x ds fs dss H _ IH]; intro d; cbn [app main_loop]; [rewrite E; reflexivity|].
  destruct (file_count t x ds H) as (c & -> & _). destruct c; apply IH.
Qed.
Lemma count_perm : forall d a b, count_of d a -> Permutation a b -> count_of d b.
Proof.
  intros d a b (A & B & C) P. split; [exact A|]. split.
  - intro k. rewrite B. split; apply Permutation_in; [exact P|symmetry; exact P].
  - intro k. unfold times. rewrite <- (proj1 (Permutation_count_occ same a b) P k). apply C.
Qed.

(** The files. *)
Lemma ends_spec : forall s f, ends_in s f = true <-> named_with s f.
Proof.
  intros s f. unfold ends_in, named_with. split.
  - intro H. assert (G : forall a b, starts_with a b = true -> exists r, b = a ++ r).
    { induction a as [|x a IH]; intros b K; [exists b; reflexivity|]. destruct b as [|y b]; [discriminate|]. cbn in K.
      apply andb_prop in K as [K1 K2]. apply N.eqb_eq in K1. subst. destruct (IH b K2) as (r & ->). exists r. reflexivity. }
    destruct (G _ _ H) as (r & E). exists (rev r). rewrite <- (rev_involutive f), E, rev_app_distr, rev_involutive. reflexivity.
  - intros (p & ->). rewrite rev_app_distr. generalize (rev s). intro a. induction a as [|x a IH]; [reflexivity|]. cbn. rewrite N.eqb_refl. exact IH.
Qed.
Lemma found : forall walk suffix p, In p (find_templates walk suffix) <->
  exists root files f, In (root, files) walk /\ In f files /\ named_with suffix f /\ p = root ++ L "/" ++ f.
Proof.
  intros walk suffix p. unfold find_templates. rewrite in_flat_map. split.
  - intros ([root files] & H & K). apply in_flat_map in K as (f & Hf & K). destruct (ends_in suffix f) eqn:E; [|destruct K].
    destruct K as [K|[]]. exists root, files, f. apply ends_spec in E. auto.
  - intros (root & files & f & H & Hf & E & ->). exists (root, files). split; [exact H|]. apply in_flat_map. exists f. split; [exact Hf|].
    apply ends_spec in E. rewrite E. left. reflexivity.
Qed.
