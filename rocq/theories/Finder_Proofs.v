(** Proofs for C103. *)
From Verif Require Import Base Finder_Model Finder_Spec.

Definition allowed (f : finder) (n full : pystr) : Prop := ~ In n (f_names f) /\ ~ In full (f_dirs f).
Lemma among_spec : forall x l, among x l = true <-> In x l.
Proof.
  intros x l. unfold among. rewrite existsb_exists. split; [intros (y & H & E); apply str_eqb_eq in E; subst; exact H|].
  intro H. exists x. split; [exact H|apply str_eqb_eq; reflexivity].
Qed.
Lemma filter_spec : forall f n full, filter_dir f n full = true <-> allowed f n full.
Proof.
  intros f n full. unfold filter_dir, allowed. rewrite negb_true_iff, orb_false_iff, <- !among_spec, !not_true_iff_false. reflexivity.
Qed.
Lemma process_spec : forall f d es p, In p (process_dir f d es) <-> exists n x pat, In (n, x) es /\ In pat (f_patterns f) /\ pat n = true /\ p = join d n.
Proof.
  intros f d es p. unfold process_dir. rewrite in_flat_map. split.
  - intros (pat & Hp & H). apply in_map_iff in H as ([n x] & <- & H). apply filter_In in H as [H1 H2]. exists n, x, pat. auto.
  - intros (n & x & pat & H & Hp & E & ->). exists pat. split; [exact Hp|]. apply in_map_iff. exists (n, x). split; [reflexivity|]. apply filter_In. auto.
Qed.
Lemma add_spec : forall f d es pending q sub, In (q, sub) (add_dirs f d es pending) <->
  In (q, sub) pending \/ exists n, In (n, NDir sub) es /\ allowed f n (join d n) /\ q = join d n.
Proof.
  intros f d. induction es as [|[n [|s]] es IH]; intros pending q sub; cbn [add_dirs].
  - split; [auto|intros [H|(n & [] & _)]; exact H].
  - rewrite IH. split; intros [H|(m & H & A & E)]; auto; right; exists m; cbn; [auto|]. destruct H as [H|H]; [inversion H|auto].
  - rewrite IH. destruct (filter_dir f n (join d n)) eqn:F.
    + apply filter_spec in F. cbn [In]. split.
      * intros [[H|H]|(m & H & A & E)]; auto; [inversion H; subst; right; exists n; auto|right; exists m; auto].
      * intros [H|(m & [H|H] & A & E)]; auto; [inversion H; subst; auto|right; exists m; auto].
    + split.
      * intros [H|(m & H & A & E)]; auto. right. exists m. cbn. auto.
      * intros [H|(m & [H|H] & A & E)]; auto; [|right; exists m; auto]. inversion H; subst. apply filter_spec in A. congruence.
Qed.

(** The fuel. *)
Fixpoint inner (es : list (pystr * node)) : nat := match es with [] => 0 | (_, x) :: r => dirs_of x + inner r end.
Lemma dirs_inner : forall es, dirs_of (NDir es) = S (inner es).
Proof. reflexivity. Qed.
Fixpoint weight (l : list (pystr * list (pystr * node))) : nat := match l with [] => 0 | (_, es) :: r => S (inner es) + weight r end.
Lemma add_weight : forall f d es pending, (weight (add_dirs f d es pending) <= inner es + weight pending)%nat.
Proof.
  intros f d. induction es as [|[n [|s]] es IH]; intro pending; cbn [add_dirs inner]; [lia|specialize (IH pending); cbn [dirs_of]; lia|].
  rewrite dirs_inner. destruct (filter_dir f n (join d n)); [specialize (IH ((join d n, s) :: pending)); cbn [weight] in IH|specialize (IH pending)]; lia.
Qed.

Definition found (f : finder) (d : pystr) (es : list (pystr * node)) (p : pystr) : Prop :=
  exists d' es' n x pat, inside (allowed f) d es d' es' /\ In (n, x) es' /\ In pat (f_patterns f) /\ pat n = true /\ p = d' ++ L "/" ++ n.
Lemma found_step : forall f d es p, found f d es p <->
  In p (process_dir f d es) \/ exists n sub, In (n, NDir sub) es /\ allowed f n (join d n) /\ found f (join d n) sub p.
Proof.
  intros f d es p. rewrite process_spec. split.
  - intros (d' & es' & n & x & pat & I & H & Hp & E & ->). inversion I as [d0 es0|d0 es0 m sub d1 es1 Hm Hok Hin]; subst.
    + left. exists n, x, pat. auto.
    + right. exists m, sub. split; [exact Hm|]. split; [exact Hok|]. exists d', es', n, x, pat. auto.
  - intros [(n & x & pat & H & Hp & E & ->)|(m & sub & Hm & Hok & (d' & es' & n & x & pat & I & R))].
    + exists d, es, n, x, pat. split; [constructor|]. auto.
    + exists d', es', n, x, pat. split; [econstructor; eassumption|exact R].
Qed.
Lemma walk_spec : forall fuel f pending files, (weight pending < fuel)%nat ->
  exists r, walk fuel f pending files = Some r /\ forall p, In p r <-> In p files \/ exists d es, In (d, es) pending /\ found f d es p.
Proof.
  induction fuel as [|fuel IH]; intros f pending files H; [lia|]. cbn [walk]. destruct pending as [|[d es] pending].
  - exists files. split; [reflexivity|]. intro p. split; [auto|intros [K|(? & ? & [] & _)]; exact K].
  - cbn [weight] in H. destruct (IH f (add_dirs f d es pending) (files ++ process_dir f d es)) as (r & E & S).
    { pose proof (add_weight f d es pending). lia. }
    exists r. split; [exact E|]. intro p. rewrite S, in_app_iff. split.
    + intros [[K|K]|(q & sub & K & F)]; auto.
      * right. exists d, es. split; [left; reflexivity|]. apply found_step. auto.
      * apply add_spec in K as [K|(n & K & A & ->)]; [right; exists q, sub; split; [right; exact K|exact F]|].
        right. exists d, es. split; [left; reflexivity|]. apply found_step. right. exists n, sub. auto.
    + intros [K|(q & sub & [K|K] & F)]; auto.
      * inversion K; subst. apply found_step in F as [F|(n & s & Hn & A & F)]; auto.
        right. exists (join q n), s. split; [|exact F]. apply add_spec. right. exists n. auto.
      * right. exists q, sub. split; [apply add_spec; left; exact K|exact F].
Qed.
Lemma find_spec : forall f root es, exists r, find_files f root es = Some r /\ forall p, In p r <-> found f root es p.
Proof.
  intros f root es. unfold find_files. destruct (walk_spec (S (dirs_of (NDir es))) f [(root, es)] []) as (r & E & S).
  { rewrite dirs_inner. cbn [weight]. lia. }
  exists r. split; [exact E|]. intro p. rewrite S. split.
  - intros [[]|(d & e & [K|[]] & F)]. inversion K; subst. exact F.
  - intro F. right. exists root, es. split; [left; reflexivity|exact F].
Qed.
