(** What the command line finds. *)
From Verif Require Import Base PyStr Wrapper_Model Wrapper_Spec Wrapper_Proofs Cmd_Model Cmd_Spec.
From Coq Require Import Permutation.

(** ** Trees *)

Lemma NoDup_app_intro : forall {A} (a b : list A), NoDup a -> NoDup b -> (forall x, In x a -> ~ In x b) -> NoDup (a ++ b).
Proof.
  induction a as [|x a IH]; intros b Na Nb D; [exact Nb|]. apply NoDup_cons_iff in Na as [N1 N2]. cbn [app]. constructor.
  - rewrite in_app_iff. intros [I|I]; [contradiction|]. apply (D x); [left; reflexivity|exact I].
  - apply IH; [exact N2|exact Nb|]. intros y I. apply D. right. exact I.
Qed.

Section NodeInd.
Variable P : node -> Prop.
Hypothesis HF : P File.
Hypothesis HO : P Other.
Hypothesis HD : forall es, Forall (fun e => P (snd e)) es -> P (Dir es).
Hypothesis HL : forall es, Forall (fun e => P (snd e)) es -> P (Link es).
Fixpoint node_ind2 (n : node) : P n :=
  let go := fix go (l : list (pystr * node)) : Forall (fun e => P (snd e)) l :=
    match l with [] => Forall_nil _ | e :: r => Forall_cons e (node_ind2 (snd e)) (go r) end in
  match n with
  | File => HF | Other => HO
  | Dir es => HD es (go es)
  | Link es => HL es (go es)
  end.
End NodeInd.

(** The walk, by the names on the way. *)
Fixpoint ways (n : node) : list (list pystr * node) :=
  match n with
  | Dir es | Link es =>
      map (fun e => ([fst e], snd e)) (filter (fun e => negb (is_dir (snd e))) es)
      ++ (fix sub (l : list (pystr * node)) :=
            match l with
            | [] => []
            | (f, m) :: r => (match m with Dir _ => map (fun w => (f :: fst w, snd w)) (ways m) | _ => [] end) ++ sub r
            end) es
  | _ => []
  end.
Definition ways_sub : list (pystr * node) -> list (list pystr * node) :=
  fix sub (l : list (pystr * node)) :=
    match l with
    | [] => []
    | (f, m) :: r => (match m with Dir _ => map (fun w => (f :: fst w, snd w)) (ways m) | _ => [] end) ++ sub r
    end.
Definition walk_sub (root : pystr) : list (pystr * node) -> list (pystr * node) :=
  fix sub (l : list (pystr * node)) :=
    match l with
    | [] => []
    | (f, m) :: r => (match m with Dir _ => walk (os_join root f) m | _ => [] end) ++ sub r
    end.
Definition listing (n : node) : list (pystr * node) := match n with Dir es | Link es => es | _ => [] end.
Definition leaves (es : list (pystr * node)) := filter (fun e => negb (is_dir (snd e))) es.
Lemma ways_eq : forall n, is_dir n = true -> ways n = map (fun e => ([fst e], snd e)) (leaves (listing n)) ++ ways_sub (listing n).
Proof. intros [| | |] H; try discriminate H; reflexivity. Qed.
Lemma walk_eq : forall root n, is_dir n = true ->
  walk root n = map (fun e => (os_join root (fst e), snd e)) (leaves (listing n)) ++ walk_sub root (listing n).
Proof. intros root [| | |] H; try discriminate H; reflexivity. Qed.

Lemma walk_ways : forall n root, walk root n = map (fun w => (fold_left os_join (fst w) root, snd w)) (ways n).
Proof.
  assert (A : forall n, is_dir n = true -> Forall (fun e => forall root, walk root (snd e) = map (fun w => (fold_left os_join (fst w) root, snd w)) (ways (snd e))) (listing n) ->
    forall root, walk root n = map (fun w => (fold_left os_join (fst w) root, snd w)) (ways n)).
  { intros n D F root. rewrite walk_eq, ways_eq by exact D. rewrite map_app. f_equal; [rewrite map_map; reflexivity|].
    induction F as [|[f m] r H F IH]; [reflexivity|]. cbn [walk_sub ways_sub]. rewrite map_app. rewrite IH. f_equal.
    destruct m; try reflexivity. cbn [snd] in H. rewrite H, map_map. reflexivity. }
  induction n using node_ind2; intro root; try reflexivity; apply A; try reflexivity; assumption.
Qed.

Lemma ways_in : forall n, forall p, In (p, File) (ways n) <-> below (listing n) p.
Proof.
  assert (SUB : forall es p m, In (p, m) (ways_sub es) <-> exists f es' q, p = f :: q /\ In (f, Dir es') es /\ In (q, m) (ways (Dir es'))).
  { induction es as [|[f k] r IH]; intros p m.
    - split; [intros []|]. intros (f & es' & q & _ & [] & _).
    - cbn [ways_sub]. rewrite in_app_iff, IH. split.
      + intros [H|(g & es' & q & H1 & H2 & H3)]; [|exists g, es', q; split; [exact H1|split; [right; exact H2|exact H3]]].
        destruct k as [|es'|es'|]; try contradiction. apply in_map_iff in H as ([q x] & Eq & I). cbn [fst snd] in Eq.
        injection Eq as <- <-. exists f, es', q. split; [reflexivity|]. split; [left; reflexivity|exact I].
      + intros (g & es' & q & -> & [Eq|H2] & H3).
        * injection Eq as -> ->. left. apply in_map_iff. exists (q, m). split; [reflexivity|exact H3].
        * right. exists g, es', q. auto. }
  assert (A : forall n, is_dir n = true -> Forall (fun e => forall p, In (p, File) (ways (snd e)) <-> below (listing (snd e)) p) (listing n) ->
    forall p, In (p, File) (ways n) <-> below (listing n) p).
  { intros n D F p. rewrite ways_eq by exact D. rewrite in_app_iff, SUB. rewrite Forall_forall in F. split.
    - intros [H|(f & es' & q & -> & I & H)].
      + apply in_map_iff in H as ([f m] & Eq & I). cbn [fst snd] in Eq. injection Eq as <- ->.
        apply filter_In in I as [I _]. apply below_here. exact I.
      + apply (below_down _ f es' q I). apply (F (f, Dir es') I). exact H.
    - intro B. inversion B as [es f I Eq1 Eq2|es f es' q I B' Eq1 Eq2]; subst.
      + left. apply in_map_iff. exists (f, File). split; [reflexivity|]. apply filter_In. split; [exact I|reflexivity].
      + right. exists f, es', q. split; [reflexivity|]. split; [exact I|]. apply (F (f, Dir es') I). exact B'. }
  assert (E : forall p, ~ below [] p) by (intros p B; inversion B as [es f I|es f es' q I]; subst; destruct I).
  induction n as [| |es IH|es IH] using node_ind2; intro p.
  - cbn. split; [intros []|]. intro B. destruct (E p B).
  - cbn. split; [intros []|]. intro B. destruct (E p B).
  - apply A; [reflexivity|exact IH].
  - apply A; [reflexivity|exact IH].
Qed.

Lemma ways_nonempty : forall n p m, In (p, m) (ways n) -> p <> [].
Proof.
  intros n p m H. destruct (is_dir n) eqn:D; [|destruct n; try discriminate D; destruct H].
  rewrite ways_eq in H by exact D. apply in_app_iff in H as [H|H].
  - apply in_map_iff in H as (e & Eq & _). injection Eq as <- _. discriminate.
  - induction (listing n) as [|[f k] r IH]; [destruct H|]. cbn [ways_sub] in H. apply in_app_iff in H as [H|H]; [|exact (IH H)].
    destruct k; try contradiction. apply in_map_iff in H as (w & Eq & _). injection Eq as <- _. discriminate.
Qed.

Lemma ways_nodup : forall n, tree_ok n -> NoDup (map fst (ways n)).
Proof.
  assert (A : forall n, is_dir n = true -> NoDup (map fst (listing n)) ->
    Forall (fun e => NoDup (map fst (ways (snd e)))) (listing n) -> NoDup (map fst (ways n))).
  { intros n D ND F. rewrite ways_eq by exact D. rewrite map_app, map_map. cbn [fst].
    assert (H1 : forall es p, In p (map fst (ways_sub es)) -> exists f g q, p = f :: g :: q /\ In f (map fst es)).
    { induction es as [|[f k] r IH]; intros p H; [destruct H|]. cbn [ways_sub] in H. rewrite map_app in H.
      apply in_app_iff in H as [H|H].
      - destruct k as [|es'|es'|]; try contradiction. rewrite map_map in H. apply in_map_iff in H as ([q x] & <- & I). cbn [fst].
        pose proof (ways_nonempty _ _ _ I) as NE. destruct q as [|g q]; [congruence|]. exists f, g, q. split; [reflexivity|left; reflexivity].
      - destruct (IH p H) as (f' & g & q & -> & I). exists f', g, q. split; [reflexivity|right; exact I]. }
    generalize dependent (listing n). intros es ND F.
    assert (B : NoDup (map fst (ways_sub es))).
    { revert ND. induction F as [|[f k] r H F IH]; intro ND; [constructor|]. cbn [map fst] in ND. apply NoDup_cons_iff in ND as [N1 N2].
      cbn [ways_sub]. rewrite map_app. specialize (IH N2). destruct k as [|es'|es'|]; try exact IH.
      rewrite map_map. cbn [fst snd] in *. apply NoDup_app_intro.
      - assert (Q : forall l : list (list pystr * node), NoDup (map fst l) -> NoDup (map (fun x => f :: fst x) l)).
        { induction l as [|x l IHl]; intro N; [constructor|]. cbn [map] in *. apply NoDup_cons_iff in N as [Na Nb]. constructor; [|auto].
          intro I. apply Na. apply in_map_iff in I as (y & Eq & I). injection Eq as Eq. apply in_map_iff. exists y. auto. }
        apply Q. exact H.
      - exact IH.
      - intros p I1 I2. apply in_map_iff in I1 as (w & <- & _). destruct (H1 _ _ I2) as (f' & g & q & Eq & I).
        injection Eq as -> _. contradiction. }
    apply NoDup_app_intro; [|exact B|].
    - clear - ND. induction es as [|[f k] r IH]; [constructor|]. cbn [map fst] in ND. apply NoDup_cons_iff in ND as [N1 N2].
      unfold leaves. cbn [filter]. destruct (negb (is_dir (snd (f, k)))); [|exact (IH N2)]. cbn [map fst]. constructor; [|exact (IH N2)].
      intro I. apply in_map_iff in I as ([g m] & Eq & I). cbn [fst] in Eq. injection Eq as ->. apply filter_In in I as [I _].
      apply N1. apply in_map_iff. exists (f, m). auto.
    - intros p I1 I2. destruct (H1 _ _ I2) as (f & g & q & -> & _). apply in_map_iff in I1 as (e & Eq & _). discriminate Eq. }
  induction n as [| |es IH|es IH] using node_ind2; intro OK.
  - constructor.
  - constructor.
  - inversion OK as [| |es' ND H|]; subst. apply A; [reflexivity|exact ND|]. rewrite Forall_forall in *. intros [f m] I. apply IH; [exact I|]. apply (H f m I).
  - inversion OK as [| | |es' ND H]; subst. apply A; [reflexivity|exact ND|]. rewrite Forall_forall in *. intros [f m] I. apply IH; [exact I|]. apply (H f m I).
Qed.

Lemma below_names : forall es p, below es p -> (forall f m, In (f, m) es -> name_ok f /\ tree_ok m) -> p <> [] /\ Forall name_ok p.
Proof.
  intros es p B. induction B as [es f I|es f es' p I B IH]; intro H.
  - split; [discriminate|]. constructor; [apply (H _ _ I)|constructor].
  - destruct (H _ _ I) as [H1 H2]. split; [discriminate|]. constructor; [exact H1|]. inversion H2; subst. apply IH. assumption.
Qed.

(** ** Paths *)

Lemma slashed_app : forall a c : list pystr, a <> [] -> c <> [] -> slashed (a ++ c) = slashed a ++ L "/" ++ slashed c.
Proof.
  unfold slashed. induction a as [|x [|y a] IH]; intros c NA NC; [congruence| |].
  - destruct c as [|z c]; [congruence|]. reflexivity.
  - cbn [app]. change (join (L "/") (x :: y :: a ++ c)) with (x ++ L "/" ++ join (L "/") ((y :: a) ++ c)).
    rewrite IH by (assumption || discriminate). change (join (L "/") (x :: y :: a)) with (x ++ L "/" ++ join (L "/") (y :: a)).
    rewrite <- !app_assoc. reflexivity.
Qed.

Lemma split_slashed : forall p, p <> [] -> (forall x, In x p -> ~ In 47%N x) -> split_char 47 (slashed p) = p.
Proof. intros p N H. exact (split_join 47%N p N H). Qed.

Lemma slashed_inj : forall p q, p <> [] -> q <> [] -> Forall name_ok p -> Forall name_ok q -> slashed p = slashed q -> p = q.
Proof.
  intros p q NP NQ FP FQ E. rewrite Forall_forall in FP, FQ.
  rewrite <- (split_slashed p), <- (split_slashed q), E; try assumption; try reflexivity;
  intros x I; [apply (FQ x I)|apply (FP x I)].
Qed.

Lemma slashed_head : forall f p, name_ok f -> exists c r, slashed (f :: p) = c :: r /\ c <> 47%N.
Proof.
  intros f p (N & S & _). destruct f as [|c f]; [congruence|]. destruct p as [|g p].
  - exists c, f. split; [reflexivity|]. intros ->. apply S. left. reflexivity.
  - exists c, (f ++ L "/" ++ slashed (g :: p)). split; [reflexivity|]. intros ->. apply S. left. reflexivity.
Qed.

(** A path whose last component is not empty and has no slash does not end in one. *)
Lemma snoc_last : forall f : pystr, f <> [] -> ~ In 47%N f -> exists b c, f = b ++ [c] /\ c <> 47%N.
Proof.
  intros f N S. destruct (@exists_last _ f N) as (b & c & ->). exists b, c. split; [reflexivity|]. intros ->. apply S.
  apply in_app_iff. right. left. reflexivity.
Qed.
Lemma slashed_last : forall q f, f <> [] -> ~ In 47%N f -> exists b c, slashed (q ++ [f]) = b ++ [c] /\ c <> 47%N.
Proof.
  intros q f N S. destruct (snoc_last f N S) as (b & c & -> & NC). destruct q as [|g q].
  - exists b, c. split; [reflexivity|exact NC].
  - rewrite slashed_app by discriminate. exists (slashed (g :: q) ++ L "/" ++ b), c. split; [|exact NC].
    rewrite <- !app_assoc. reflexivity.
Qed.

Lemma os_join_name : forall b c f, c <> 47%N -> f <> [] -> ~ In 47%N f -> os_join (b ++ [c]) f = (b ++ [c]) ++ L "/" ++ f.
Proof.
  intros b c f NC N S. destruct f as [|x f]; [congruence|]. unfold os_join.
  destruct (N.eqb_spec x 47) as [->|_]; [exfalso; apply S; left; reflexivity|].
  destruct (b ++ [c]) as [|y l] eqn:E; [destruct b; discriminate E|]. rewrite <- E. apply path_join_clean. exact NC.
Qed.

Lemma joins : forall p b c, c <> 47%N -> Forall name_ok p -> p <> [] ->
  fold_left os_join p (b ++ [c]) = (b ++ [c]) ++ L "/" ++ slashed p.
Proof.
  induction p as [|f p IH]; intros b c NC F N; [congruence|]. inversion F as [|? ? F1 F2]; subst. destruct F1 as (N1 & S1 & _).
  cbn [fold_left]. rewrite os_join_name by assumption. destruct p as [|g p]; [reflexivity|].
  destruct (snoc_last f N1 S1) as (b' & c' & -> & NC').
  replace ((b ++ [c]) ++ L "/" ++ b' ++ [c']) with (((b ++ [c]) ++ L "/" ++ b') ++ [c']) by (rewrite <- !app_assoc; reflexivity).
  rewrite IH by (assumption || discriminate). change (slashed ((b' ++ [c']) :: g :: p)) with ((b' ++ [c']) ++ L "/" ++ slashed (g :: p)).
  rewrite <- !app_assoc. reflexivity.
Qed.

(** ** Normal paths *)

Lemma norm_names : forall abs names new, Forall name_ok names -> fold_left (norm_step abs) names new = rev names ++ new.
Proof.
  induction names as [|f r IH]; intros new F; [reflexivity|]. inversion F as [|? ? (N & _ & D & DD) F2]; subst. cbn [fold_left].
  replace (norm_step abs new f) with (f :: new).
  - rewrite IH by exact F2. cbn [rev]. rewrite <- app_assoc. reflexivity.
  - unfold norm_step. destruct (str_eqb_spec f []) as [E|_]; [congruence|]. destruct (str_eqb_spec f (L ".")) as [E|_]; [congruence|].
    destruct (str_eqb_spec f (L "..")) as [E|_]; [congruence|]. reflexivity.
Qed.
Lemma norm_ups : forall up k, fold_left (norm_step false) (repeat (L "..") up) (repeat (L "..") k) = repeat (L "..") (up + k).
Proof.
  induction up as [|up IH]; intro k; [reflexivity|]. cbn [repeat fold_left].
  replace (norm_step false (repeat (L "..") k) (L "..")) with (repeat (L "..") (S k)) by (destruct k; reflexivity).
  rewrite IH. f_equal. lia.
Qed.
Lemma rev_repeat : forall {A} (x : A) n, rev (repeat x n) = repeat x n.
Proof.
  intros A x n. induction n as [|n IH]; [reflexivity|]. cbn [repeat rev]. rewrite IH.
  replace [x] with (repeat x 1) by reflexivity. rewrite <- repeat_app. replace (n + 1) with (S n) by lia. reflexivity.
Qed.

Lemma ups_parts : forall up names, Forall name_ok names -> forall x, In x (repeat (L "..") up ++ names) -> x <> [] /\ ~ In 47%N x.
Proof.
  intros up names F x I. apply in_app_iff in I as [I|I].
  - apply repeat_spec in I. subst x. split; [discriminate|]. intros [H|[H|[]]]; discriminate H.
  - rewrite Forall_forall in F. destruct (F x I) as (N & S & _). split; assumption.
Qed.

Lemma not_slash : forall c r, c <> 47%N -> starts_with (L "/") (c :: r) = false.
Proof.
  intros c r H. change (starts_with (L "/") (c :: r)) with ((47 =? c)%N && true). destruct (N.eqb_spec 47 c) as [E|_]; [congruence|reflexivity].
Qed.
Lemma relative_norm : forall cs d, cs <> [] -> (forall x, In x cs -> x <> [] /\ ~ In 47%N x) ->
  fold_left (norm_step false) cs [] = d -> d <> [] -> slashed (rev d) <> [] -> normpath (slashed cs) = slashed (rev d).
Proof.
  intros cs d N H E ND NS. unfold normpath. destruct cs as [|f cs]; [congruence|].
  destruct (H f (or_introl eq_refl)) as [N1 S1]. destruct (slashed (f :: cs)) as [|c r] eqn:EQ.
  - exfalso. destruct f as [|c f]; [congruence|]. destruct cs; discriminate EQ.
  - assert (NC : c <> 47%N).
    { destruct f as [|c' f]; [congruence|]. intro EC. apply S1. left. destruct cs; injection EQ as <- _; exact EC. }
    rewrite <- EQ. assert (SW : starts_with (L "/") (slashed (f :: cs)) = false).
    { rewrite EQ. apply not_slash. exact NC. }
    rewrite SW. cbv zeta. rewrite split_slashed by (discriminate || (intros x I; apply (H x I))). rewrite E. cbn [app].
    change (join (L "/") (rev d)) with (slashed (rev d)). destruct (slashed (rev d)); [congruence|reflexivity].
Qed.

Lemma normal_below : forall d p, straight d -> p <> [] -> Forall name_ok p ->
  normpath (fold_left os_join p (under d (L "."))) = under d (slashed p).
Proof.
  intros d p SD N F.
  assert (SP : slashed p <> []).
  { destruct p as [|f p]; [congruence|]. inversion F; subst. destruct (slashed_head f p) as (c & r & -> & _); [assumption|]. discriminate. }
  assert (FP : forall x, In x p -> x <> [] /\ ~ In 47%N x).
  { rewrite Forall_forall in F. intros x I. destruct (F x I) as (A & B & _). split; assumption. }
  destruct SD as [->|(up & names & FN & NN & SD)].
  - cbn [under]. change (L ".") with ([] ++ [46%N] : pystr). rewrite joins by (assumption || discriminate).
    change (([] ++ [46%N]) ++ L "/" ++ slashed p) with ([46%N] ++ L "/" ++ slashed p).
    change ([46%N]) with (slashed [L "."]). rewrite <- slashed_app by (discriminate || assumption).
    rewrite (relative_norm _ (rev p)).
    + rewrite rev_involutive. reflexivity.
    + discriminate.
    + intros x [<-|I]; [split; [discriminate|intros [H|[]]; discriminate H]|exact (FP x I)].
    + cbn [app fold_left]. replace (norm_step false [] (L ".")) with ([] : list pystr) by reflexivity.
      rewrite norm_names by exact F. apply app_nil_r.
    + intro E. apply N. rewrite <- (rev_involutive p), E. reflexivity.
    + rewrite rev_involutive. exact SP.
  - set (cs := repeat (L "..") up ++ names) in *.
    assert (CP : forall x, In x cs -> x <> [] /\ ~ In 47%N x) by exact (ups_parts up names FN).
    assert (SC : exists b c, slashed cs = b ++ [c] /\ c <> 47%N).
    { destruct (@exists_last _ cs NN) as (q & f & E). rewrite E. apply slashed_last; apply CP; rewrite E; apply in_app_iff; right; left; reflexivity. }
    destruct SC as (b & c & SC & NC).
    destruct SD as [->|[-> ->]].
    + assert (U : forall s, under (slashed cs) s = slashed cs ++ L "/" ++ s).
      { intro s. unfold under. rewrite SC. destruct (b ++ [c]) eqn:E; [destruct b; discriminate E|reflexivity]. }
      rewrite !U. change (L ".") with ([] ++ [46%N] : pystr).
      replace (slashed cs ++ L "/" ++ [] ++ [46%N]) with ((slashed cs ++ L "/") ++ [46%N]) by (rewrite <- app_assoc; reflexivity).
      rewrite joins by (assumption || discriminate).
      replace (((slashed cs ++ L "/") ++ [46%N]) ++ L "/" ++ slashed p) with (slashed (cs ++ [L "."] ++ p)).
      2:{ rewrite slashed_app by (assumption || discriminate). rewrite slashed_app by (assumption || discriminate).
          change (slashed [L "."]) with [46%N]. rewrite <- !app_assoc. reflexivity. }
      rewrite (relative_norm _ (rev (cs ++ p))).
      * rewrite rev_involutive. apply slashed_app; assumption.
      * destruct cs; [congruence|discriminate].
      * intros x I. apply in_app_iff in I as [I|[<-|I]]; [exact (CP x I)| |exact (FP x I)].
        split; [discriminate|intros [H|[]]; discriminate H].
      * unfold cs. rewrite <- app_assoc. rewrite fold_left_app. rewrite (norm_ups up 0 : fold_left (norm_step false) (repeat (L "..") up) [] = _).
        rewrite fold_left_app. rewrite (norm_names _ names) by exact FN. cbn [app fold_left].
        replace (norm_step false (rev names ++ repeat (L "..") (up + 0)) (L ".")) with (rev names ++ repeat (L "..") (up + 0)) by reflexivity.
        rewrite norm_names by exact F. rewrite !rev_app_distr, rev_repeat. replace (up + 0) with up by lia. reflexivity.
      * intro E. apply N. apply (f_equal (@rev _)) in E. rewrite rev_involutive in E. cbn [rev] in E.
        apply app_eq_nil in E as [_ E]. exact E.
      * rewrite rev_involutive. rewrite slashed_app by assumption. rewrite SC. destruct b; discriminate.
    + cbn [repeat app] in cs. subst cs. cbn [repeat app] in *.
      assert (U : forall s, under (L "/" ++ slashed names) s = (L "/" ++ slashed names) ++ L "/" ++ s) by reflexivity.
      rewrite !U. rewrite SC.
      replace ((L "/" ++ b ++ [c]) ++ L "/" ++ L ".") with ((L "/" ++ (b ++ [c]) ++ L "/") ++ [46%N]) by (rewrite <- !app_assoc; reflexivity).
      rewrite joins by (assumption || discriminate).
      replace (((L "/" ++ (b ++ [c]) ++ L "/") ++ [46%N]) ++ L "/" ++ slashed p) with (47%N :: slashed (names ++ [L "."] ++ p)).
      2:{ rewrite slashed_app by (assumption || discriminate). rewrite slashed_app by (assumption || discriminate). rewrite SC.
          change (slashed [L "."]) with [46%N]. rewrite <- !app_assoc. reflexivity. }
      set (t := slashed (names ++ [L "."] ++ p)).
      assert (HT : exists x r, t = x :: r /\ x <> 47%N).
      { destruct names as [|f names]; [congruence|]. inversion FN; subst. exact (slashed_head f (names ++ [L "."] ++ p) ltac:(assumption)). }
      destruct HT as (x & r & HT & NX).
      unfold normpath. replace (starts_with (L "/") (47%N :: t)) with true by reflexivity.
      replace (starts_with (L "//") (47%N :: t)) with false.
      2:{ rewrite HT. symmetry. change (starts_with (L "//") (47%N :: x :: r)) with ((47 =? x)%N && true). destruct (N.eqb_spec 47 x) as [E|_]; [congruence|reflexivity]. }
      cbn [andb]. cbv zeta. change (match L "/" with [] => false | _ :: _ => true end) with true.
      replace (split_char 47 (47%N :: t)) with ([] :: split_char 47 t) by reflexivity. unfold t.
      rewrite split_slashed.
      * cbn [fold_left]. replace (norm_step true [] []) with ([] : list pystr) by reflexivity.
        rewrite fold_left_app. rewrite (norm_names _ names) by exact FN. cbn [app fold_left].
        replace (norm_step true (rev names ++ []) (L ".")) with (rev names ++ []) by reflexivity.
        rewrite norm_names by exact F. rewrite app_nil_r, rev_app_distr, !rev_involutive.
        change (join (L "/") (names ++ p)) with (slashed (names ++ p)). rewrite slashed_app by assumption. rewrite SC. 
        rewrite <- !app_assoc. reflexivity.
      * destruct names; [congruence|discriminate].
      * intros y I. apply in_app_iff in I as [I|[<-|I]]; [apply (CP y I)| |apply (FP y I)]. intros [H|[]]; discriminate H.
Qed.

(** ** Extensions *)

Lemma ends_with_iff : forall e s, ends_with e s = true <-> exists t, s = t ++ e.
Proof.
  intros e s. unfold ends_with. rewrite starts_with_iff. split.
  - intros [r E]. exists (rev r). rewrite <- (rev_involutive s), E, rev_app_distr, rev_involutive. reflexivity.
  - intros [t ->]. exists (rev t). apply rev_app_distr.
Qed.

Lemma suffix_name : forall (a e t x : pystr), ~ In 47%N e -> a ++ L "/" ++ x = t ++ e -> exists s, x = s ++ e.
Proof.
  intros a e t x H E. revert t E. induction a as [|y a IH]; intros t E.
  - destruct t as [|z t].
    + exfalso. apply H. cbn [app] in E. rewrite <- E. left. reflexivity.
    + injection E as _ E. exists t. exact E.
  - destruct t as [|z t].
    + exfalso. apply H. cbn [app] in E. rewrite <- E. right. apply in_app_iff. right. left. reflexivity.
    + injection E as _ E. exact (IH t E).
Qed.

Lemma ends_last : forall a e q x, ~ In 47%N e ->
  ends_with e (a ++ L "/" ++ slashed (q ++ [x])) = true <-> exists t, x = t ++ e.
Proof.
  intros a e q x H. rewrite ends_with_iff.
  assert (A : exists b, a ++ L "/" ++ slashed (q ++ [x]) = b ++ L "/" ++ x).
  { destruct q as [|y q]; [exists a; reflexivity|]. rewrite slashed_app by discriminate.
    exists (a ++ L "/" ++ slashed (y :: q)). rewrite <- !app_assoc. reflexivity. }
  destruct A as [b ->]. split.
  - intros [t E]. exact (suffix_name _ _ _ _ H E).
  - intros [t ->]. exists (b ++ L "/" ++ t). rewrite <- !app_assoc. reflexivity.
Qed.

Lemma cut_ext_app : forall e t, cut_ext e (t ++ e) = t.
Proof. intros e t. unfold cut_ext. rewrite app_length. replace (length t + length e - length e) with (length t) by lia. apply firstn_app_exact || (rewrite firstn_app, Nat.sub_diag, firstn_all; cbn [firstn]; apply app_nil_r). Qed.

(** ** The bundles of a tree *)

Definition found (iext : pystr) (n : node) : list (list pystr) :=
  map fst (filter (fun w => is_file (snd w) && ends_with iext (last (fst w) [])) (ways n)).

Lemma found_in : forall iext n p, In p (found iext n) <-> below (listing n) p /\ exists t, last p [] = t ++ iext.
Proof.
  intros iext n p. unfold found. rewrite in_map_iff. split.
  - intros ([q m] & <- & I). apply filter_In in I as [I H]. cbn [fst snd] in *. apply andb_true_iff in H as [H1 H2].
    destruct m; try discriminate H1. apply ways_in in I. split; [exact I|]. apply ends_with_iff. exact H2.
  - intros [B H]. exists (p, File). split; [reflexivity|]. apply filter_In. split; [apply ways_in; exact B|]. cbn [fst snd is_file andb].
    apply ends_with_iff. exact H.
Qed.

Lemma filter_nodup : forall {A B} (f : A -> B) (g : A -> bool) l, NoDup (map f l) -> NoDup (map f (filter g l)).
Proof.
  intros A B f g l. induction l as [|x l IH]; intro N; [constructor|]. cbn [map] in N. apply NoDup_cons_iff in N as [N1 N2].
  cbn [filter]. destruct (g x); [|exact (IH N2)]. cbn [map]. constructor; [|exact (IH N2)]. intro I. apply N1.
  apply in_map_iff in I as (y & E & I). apply filter_In in I as [I _]. apply in_map_iff. exists y. auto.
Qed.
Lemma found_nodup : forall iext n, tree_ok n -> NoDup (found iext n).
Proof. intros iext n H. unfold found. apply filter_nodup. apply ways_nodup. exact H. Qed.

Lemma tree_names : forall n, tree_ok n -> forall f m, In (f, m) (listing n) -> name_ok f /\ tree_ok m.
Proof. intros n H f m I. destruct H; try destruct I; cbn [listing] in I; eauto. Qed.

(** Every way has good names, whatever is at its end. *)
Lemma ways_names : forall n, tree_ok n -> forall p m, In (p, m) (ways n) -> p <> [] /\ Forall name_ok p.
Proof.
  assert (A : forall n, is_dir n = true -> (forall f m, In (f, m) (listing n) -> name_ok f /\ tree_ok m) ->
    Forall (fun e => tree_ok (snd e) -> forall p m, In (p, m) (ways (snd e)) -> p <> [] /\ Forall name_ok p) (listing n) ->
    forall p m, In (p, m) (ways n) -> p <> [] /\ Forall name_ok p).
  { intros n D H F p m I. rewrite ways_eq in I by exact D. generalize dependent (listing n). intros es H F I.
    apply in_app_iff in I as [I|I].
    - apply in_map_iff in I as ([f k] & E & I). cbn [fst snd] in E. injection E as <- <-. apply filter_In in I as [I _].
      split; [discriminate|]. constructor; [apply (H _ _ I)|constructor].
    - induction F as [|[f k] r F1 F IH]; [destruct I|]. cbn [ways_sub] in I. apply in_app_iff in I as [I|I].
      + destruct k as [|es'|es'|]; try contradiction. apply in_map_iff in I as ([q x] & E & I). cbn [fst snd] in E. injection E as <- <-.
        destruct (H f (Dir es') (or_introl eq_refl)) as [Hf Ht]. split; [discriminate|]. constructor; [exact Hf|].
        apply (F1 Ht q x I).
      + apply IH; [|exact I]. intros g k' I'. apply H. right. exact I'. }
  induction n as [| |es IH|es IH] using node_ind2; intros OK p m I; try destruct I.
  - exact (A (Dir es) eq_refl (tree_names _ OK) IH p m I).
  - exact (A (Link es) eq_refl (tree_names _ OK) IH p m I).
Qed.

Lemma straight_end : forall d, straight d -> d = [] \/ exists b c, d = b ++ [c] /\ c <> 47%N.
Proof.
  intros d [->|(up & names & F & N & D)]; [left; reflexivity|]. right.
  destruct (@exists_last _ _ N) as (q & f & E).
  assert (P : f <> [] /\ ~ In 47%N f).
  { apply (ups_parts up names F). rewrite E. apply in_app_iff. right. left. reflexivity. }
  destruct P as [P1 P2]. destruct (slashed_last q f P1 P2) as (b & c & SL & NC). destruct D as [->|[-> ->]].
  - exists b, c. split; [|exact NC]. rewrite <- SL. f_equal. exact E.
  - cbn [repeat app] in E. exists (L "/" ++ b), c. split; [|exact NC]. rewrite <- app_assoc, <- SL. do 2 f_equal. exact E.
Qed.

Lemma here_dir : forall d, straight d -> os_join d (L ".") = under d (L ".").
Proof.
  intros d H. destruct (straight_end d H) as [->|(b & c & -> & NC)]; [reflexivity|].
  rewrite os_join_name; [|exact NC|discriminate|intros [E|[]]; discriminate E]. unfold under.
  destruct (b ++ [c]) eqn:E; [destruct b; discriminate E|reflexivity].
Qed.
Lemma here_end : forall d, straight d -> exists b, under d (L ".") = b ++ [46%N].
Proof.
  intros d H. destruct d as [|x d]; [exists []; reflexivity|]. exists ((x :: d) ++ L "/"). unfold under. rewrite <- app_assoc. reflexivity.
Qed.

Lemma templates_found : forall iext d n, straight d -> tree_ok n -> ~ In 47%N iext ->
  map normpath (templates iext (walk (under d (L ".")) n)) = map (fun p => under d (slashed p)) (found iext n).
Proof.
  intros iext d n SD OK H. rewrite walk_ways. unfold templates, found.
  assert (W : forall p m, In (p, m) (ways n) -> p <> [] /\ Forall name_ok p) by exact (ways_names n OK).
  revert W. generalize (ways n). induction l as [|[p m] l IH]; intro W; [reflexivity|].
  destruct (W p m (or_introl eq_refl)) as [N F]. cbn [map filter fst snd].
  assert (E : ends_with iext (fold_left os_join p (under d (L "."))) = ends_with iext (@last (list BinNums.N) p [])).
  { destruct (here_end d SD) as [b ->]. rewrite joins by (assumption || discriminate).
    destruct (@exists_last _ p N) as (q & x & ->). rewrite last_last. apply Bool.eq_iff_eq_true.
    rewrite ends_last by exact H. rewrite ends_with_iff. reflexivity. }
  rewrite E. rewrite andb_comm. specialize (IH (fun p m I => W p m (or_intror I))).
  destruct (is_file m && ends_with iext (@last (list BinNums.N) p [])); [|exact IH]. cbn [map fst]. rewrite IH. f_equal. apply normal_below; assumption.
Qed.

(** What [run_wrapper] makes of them. *)
Lemma from_to_dst : forall o p, w_flat o = false -> ext_ok (w_iext o) -> (w_oext o = [] \/ ext_ok (w_oext o)) -> odir_ok (w_odir o) ->
  p <> [] -> Forall name_ok p -> (exists t, last p [] = t ++ w_iext o) ->
  bundle_dst o (fst (from_to o p)) = Some (Ok (snd (from_to o p))).
Proof.
  intros o p Hf HI HO HD N F [t ET]. destruct (@exists_last _ p N) as (q & x & ->). rewrite last_last in ET. subst x.
  assert (R : exists rel, slashed (q ++ [t ++ w_iext o]) = rel ++ w_iext o /\ match rel ++ w_oext o with c :: _ => c <> 47%N | [] => True end).
  { assert (R1 : exists rel, slashed (q ++ [t ++ w_iext o]) = rel ++ w_iext o).
    { destruct q as [|y q]; [exists t; reflexivity|]. rewrite slashed_app by discriminate. exists (slashed (y :: q) ++ L "/" ++ t).
      change (slashed [t ++ w_iext o]) with (t ++ w_iext o). rewrite <- !app_assoc. reflexivity. }
    destruct R1 as [rel R1]. exists rel. split; [exact R1|]. destruct rel as [|c rel].
    - cbn [app]. destruct HO as [->|[(r & ->) _]]; [exact I|discriminate].
    - cbn [app]. destruct q as [|y q].
      + inversion F as [|? ? F1 F2]; subst. destruct (slashed_head _ [] F1) as (c' & r & E & NC). cbn [app] in R1.
        pose proof (eq_trans (eq_sym E) R1) as E'. injection E' as <- _. exact NC.
      + inversion F as [|? ? F1 F2]; subst. destruct (slashed_head y (q ++ [t ++ w_iext o]) F1) as (c' & r & E & NC). cbn [app] in R1.
        pose proof (eq_trans (eq_sym E) R1) as E'. injection E' as <- _. exact NC. }
  destruct R as (rel & R1 & R2). unfold from_to. cbn [fst snd].
  match goal with |- context [slashed ?x] => replace (slashed x) with (rel ++ w_iext o) by (symmetry; exact R1) end. rewrite cut_ext_app.
  replace (under (w_idir o) (rel ++ w_iext o)) with ((match w_idir o with [] => [] | d => d ++ [47%N] end) ++ rel ++ w_iext o).
  2:{ unfold under. destruct (w_idir o); [reflexivity|]. rewrite <- app_assoc. reflexivity. }
  rewrite dst_plain; [|exact Hf|intros _; exact R2]. f_equal. f_equal. unfold under.
  destruct (w_odir o) as [|y d] eqn:ED; [reflexivity|]. destruct (@exists_last _ (y :: d) ltac:(discriminate)) as (b & c & EB).
  rewrite EB. apply path_join_clean. intros ->. exact (HD b EB).
Qed.

Lemma bundles_map : forall o ps, (forall p, In p ps -> bundle_dst o (fst (from_to o p)) = Some (Ok (snd (from_to o p)))) ->
  getBundles o (map (fun p => under (w_idir o) (slashed p)) ps) = Some (Ok (map (from_to o) ps)).
Proof.
  intros o ps. induction ps as [|p ps IH]; intro H; [reflexivity|]. cbn [map getBundles].
  pose proof (H p (or_introl eq_refl)) as HP. cbn [from_to fst] in HP. rewrite HP.
  rewrite (IH (fun q I => H q (or_intror I))). reflexivity.
Qed.

Theorem recursive : forall look o n, w_flat o = false -> straight (w_idir o) -> ext_ok (w_iext o) ->
  (w_oext o = [] \/ ext_ok (w_oext o)) -> odir_ok (w_odir o) ->
  look (under (w_idir o) (L ".")) = Some n -> tree_ok n ->
  exists ps, NoDup ps /\ (forall p, In p ps <-> below (listing n) p /\ exists t, last p [] = t ++ w_iext o)
  /\ compile_or_fill look o true [] = CRun (Some (Processed (map (from_to o) ps))) [].
Proof.
  intros look o n Hf SD HI HO HD HL OK. exists (found (w_iext o) n). split; [apply found_nodup; exact OK|].
  split; [intro p; apply found_in|]. unfold compile_or_fill. rewrite here_dir by exact SD. unfold walk_at. rewrite HL.
  rewrite templates_found by (assumption || apply HI). unfold run_wrapper. rewrite bundles_map; [rewrite Hf; reflexivity|].
  intros p I. apply found_in in I as [B T]. destruct (below_names _ _ B (tree_names n OK)) as [N F].
  apply from_to_dst; assumption.
Qed.

Theorem recursive_es : forall look o n es, w_flat o = false -> straight (w_idir o) -> ext_ok (w_iext o) ->
  (w_oext o = [] \/ ext_ok (w_oext o)) -> odir_ok (w_odir o) ->
  look (under (w_idir o) (L ".")) = Some n -> n = Dir es \/ n = Link es -> tree_ok n ->
  exists ps, NoDup ps /\ (forall p, In p ps <-> below es p /\ exists t, last p [] = t ++ w_iext o)
  /\ compile_or_fill look o true [] = CRun (Some (Processed (map (from_to o) ps))) [].
Proof.
  intros look o n es Hf SD HI HO HD HL HN OK. destruct (recursive look o n Hf SD HI HO HD HL OK) as (ps & A & B & C).
  exists ps. split; [exact A|]. split; [|exact C]. assert (E : listing n = es) by (destruct HN as [->| ->]; reflexivity).
  rewrite <- E. exact B.
Qed.

Lemma under_inj : forall d a b, under d a = under d b -> a = b.
Proof. intros [|x d] a b H; [exact H|]. unfold under in H. apply app_inv_head in H. injection H as H. exact H. Qed.

Theorem outputs_distinct : forall o ps, NoDup ps -> (forall p, In p ps -> p <> [] /\ Forall name_ok p /\ exists t, last p [] = t ++ w_iext o) ->
  NoDup (map fst (map (from_to o) ps)) /\ NoDup (map snd (map (from_to o) ps)).
Proof.
  intros o ps ND H. rewrite !map_map.
  assert (X : forall p, In p ps -> exists rel, slashed p = rel ++ w_iext o).
  { intros p I. destruct (H p I) as (N & F & t & ET). destruct (@exists_last _ p N) as (q & x & ->). rewrite last_last in ET. subst x.
    destruct q as [|y q]; [exists t; reflexivity|]. rewrite slashed_app by discriminate. exists (slashed (y :: q) ++ L "/" ++ t).
    change (slashed [t ++ w_iext o]) with (t ++ w_iext o). rewrite <- !app_assoc. reflexivity. }
  assert (G : forall (f : list pystr -> pystr), (forall p q, In p ps -> In q ps -> f p = f q -> slashed p = slashed q) -> NoDup (map f ps)).
  { intros f Hf. clear X. induction ps as [|p ps IH]; [constructor|]. apply NoDup_cons_iff in ND as [N1 N2]. cbn [map]. constructor.
    - intro I. apply in_map_iff in I as (q & E & I). apply N1. replace p with q; [exact I|].
      destruct (H p (or_introl eq_refl)) as (A1 & A2 & _). destruct (H q (or_intror I)) as (B1 & B2 & _).
      apply slashed_inj; try assumption. apply Hf; [right; exact I|left; reflexivity|exact E].
    - apply IH; [exact N2| |].
      + intros q I. apply H. right. exact I.
      + intros p' q' I I'. apply Hf; right; assumption. }
  split; apply G; intros p q Ip Iq E.
  - exact (under_inj _ _ _ E).
  - cbn [from_to snd] in E. apply under_inj in E. destruct (X p Ip) as [a Ea]. destruct (X q Iq) as [b Eb]. rewrite Ea, Eb in *.
    rewrite !cut_ext_app in E. apply app_inv_tail in E. rewrite E. reflexivity.
Qed.

(** ** Files named on the command line *)

Lemma templates_in : forall iext root n s, In s (templates iext (walk root n)) <->
  exists p, below (listing n) p /\ ends_with iext s = true /\ s = fold_left os_join p root.
Proof.
  intros iext root n s. unfold templates. rewrite walk_ways, in_map_iff. split.
  - intros ([x m] & <- & I). apply filter_In in I as [I H]. cbn [fst snd] in *. apply andb_true_iff in H as [H1 H2].
    destruct m; try discriminate H2. apply in_map_iff in I as ([p k] & E & I). cbn [fst snd] in E. injection E as <- ->.
    exists p. split; [apply ways_in; exact I|]. split; [exact H1|reflexivity].
  - intros (p & B & H & E). exists (s, File). split; [reflexivity|]. apply filter_In. cbn [fst snd is_file]. split; [|rewrite H; reflexivity].
    apply in_map_iff. exists (p, File). split; [cbn [fst snd]; rewrite E; reflexivity|apply ways_in; exact B].
Qed.

Lemma expand_one_spec : forall look o recurse a,
  match expand_one look o recurse a with
  | Ok (l, ws) => (recurse = true \/ ~ directory look o a) /\ (forall s, In s l <-> meant look o recurse a s)
                  /\ (forall w, In w ws <-> complaint look o a w)
  | Raise (IsDirectory p) => recurse = false /\ p = os_join (w_idir o) a /\ directory look o a
  end.
Proof.
  intros look o recurse a. unfold expand_one, meant, complaint, directory, walk_at. cbv zeta.
  set (path := os_join (w_idir o) a).
  assert (DC : forall es n s, look path = Some n -> n = Dir es \/ n = Link es ->
    (In s (templates (w_iext o) (walk path n)) <->
     look path = Some File /\ s = path
     \/ (look path = None \/ look path = Some Other) /\ ends_with (w_iext o) path = false
        /\ look (path ++ w_iext o) = Some File /\ s = path ++ w_iext o
     \/ true = true /\ exists es p, (look path = Some (Dir es) \/ look path = Some (Link es)) /\ below es p
        /\ ends_with (w_iext o) s = true /\ s = fold_left os_join p path)).
  { intros es n s L D. rewrite templates_in. assert (LI : listing n = es) by (destruct D as [->| ->]; reflexivity). rewrite LI. split.
    - intros (p & B & E & S). right. right. split; [reflexivity|]. exists es, p. split; [|auto]. rewrite L. destruct D as [->| ->]; auto.
    - intros [[E _]|[[[E|E] _]|(_ & es' & p & E & B & H & S)]]; try (rewrite L in E; destruct D as [->| ->]; discriminate E).
      exists p. split; [|auto]. assert (X : es' = es).
      { rewrite L in E. destruct D as [->| ->], E as [E|E]; try discriminate E; injection E as <-; reflexivity. }
      rewrite <- X. exact B. }
  assert (NW : forall es n w, look path = Some n -> n = Dir es \/ n = Link es ->
    (In w [] <-> (look path = None /\ w = NotFound path \/ look path = Some Other /\ w = NotPlain path)
       /\ (ends_with (w_iext o) path = true \/ look (path ++ w_iext o) <> Some File))).
  { intros es n w L D. split; [intros []|]. rewrite L. intros [[[E _]|[E _]] _]; [discriminate E|]. destruct D as [->| ->]; discriminate E. }
  destruct (look path) as [n|] eqn:EL.
  - destruct n as [|es|es|].
    + cbn [is_dir is_file]. split; [right; intros (es & [E|E]); discriminate E|]. split.
      * intro s. split; [intros [<-|[]]; left; auto|]. intros [[_ ->]|[[[E|E] _]|(_ & es & p & [E|E] & _)]]; try discriminate E. left. reflexivity.
      * intro w. split; [intros []|]. intros [[[E _]|[E _]] _]; discriminate E.
    + cbn [is_dir]. destruct recurse.
      * split; [left; reflexivity|]. split; [intro s; exact (DC es (Dir es) s eq_refl (or_introl eq_refl))|].
        intro w. exact (NW es (Dir es) w eq_refl (or_introl eq_refl)).
      * split; [reflexivity|]. split; [reflexivity|]. exists es. left. reflexivity.
    + cbn [is_dir]. destruct recurse.
      * split; [left; reflexivity|]. split; [intro s; exact (DC es (Link es) s eq_refl (or_intror eq_refl))|].
        intro w. exact (NW es (Link es) w eq_refl (or_intror eq_refl)).
      * split; [reflexivity|]. split; [reflexivity|]. exists es. right. reflexivity.
    + cbn [is_dir is_file]. destruct (ends_with (w_iext o) path) eqn:EW; cbn [negb andb].
      * split; [right; intros (es & [E|E]); discriminate E|]. split.
        -- intro s. split; [intros []|]. intros [[E _]|[(_ & E & _)|(_ & es & p & [E|E] & _)]]; discriminate E.
        -- intro w. split; [intros [<-|[]]; split; [right; auto|left; reflexivity]|]. intros [[[E _]|[_ ->]] _]; [discriminate E|]. left. reflexivity.
      * destruct (look (path ++ w_iext o)) as [[|es|es|]|] eqn:EX; cbn [is_file].
        1:{ split; [right; intros (es & [E|E]); discriminate E|]. split.
          - intro s. split; [intros [<-|[]]; right; left; auto|]. intros [[E _]|[(_ & _ & _ & ->)|(_ & es & p & [E|E] & _)]]; try discriminate E. left. reflexivity.
          - intro w. split; [intros []|]. intros [_ [E|E]]; [discriminate E|congruence]. }
        all: split; [right; intros (es' & [E|E]); discriminate E|]; split;
          [intro s; split; [intros []|]; intros [[E _]|[(_ & _ & E & _)|(_ & es' & p & [E|E] & _)]]; discriminate E
          |intro w; split; [intros [<-|[]]; split; [right; auto|right; discriminate]|]; intros [[[E _]|[_ ->]] _]; [discriminate E|]; left; reflexivity].
  - destruct (ends_with (w_iext o) path) eqn:EW; cbn [negb andb].
    + split; [right; intros (es & [E|E]); discriminate E|]. split.
      * intro s. split; [intros []|]. intros [[E _]|[(_ & E & _)|(_ & es & p & [E|E] & _)]]; discriminate E.
      * intro w. split; [intros [<-|[]]; split; [left; auto|left; reflexivity]|]. intros [[[_ ->]|[E _]] _]; [|discriminate E]. left. reflexivity.
    + destruct (look (path ++ w_iext o)) as [[|es|es|]|] eqn:EX; cbn [is_file].
      1:{ split; [right; intros (es & [E|E]); discriminate E|]. split.
        - intro s. split; [intros [<-|[]]; right; left; auto|]. intros [[E _]|[(_ & _ & _ & ->)|(_ & es & p & [E|E] & _)]]; try discriminate E. left. reflexivity.
        - intro w. split; [intros []|]. intros [_ [E|E]]; [discriminate E|congruence]. }
      all: split; [right; intros (es' & [E|E]); discriminate E|]; split;
          [intro s; split; [intros []|]; intros [[E _]|[(_ & _ & E & _)|(_ & es' & p & [E|E] & _)]]; discriminate E
          |intro w; split; [intros [<-|[]]; split; [left; auto|right; discriminate]|]; intros [[[_ ->]|[E _]] _]; [|discriminate E]; left; reflexivity].
Qed.

Theorem expand_spec : forall look o recurse args,
  match expand look o recurse args with
  | Ok (l, ws) => (recurse = true \/ forall a, In a args -> ~ directory look o a)
                  /\ (forall s, In s l <-> exists a, In a args /\ meant look o recurse a s)
                  /\ (forall w, In w ws <-> exists a, In a args /\ complaint look o a w)
  | Raise (IsDirectory p) => recurse = false /\ exists a, In a args /\ p = os_join (w_idir o) a /\ directory look o a
  end.
Proof.
  intros look o recurse args. induction args as [|a r IH].
  - cbn [expand]. split; [right; intros a []|]. split; intro x; (split; [intros []|intros (a & [] & _)]).
  - cbn [expand]. pose proof (expand_one_spec look o recurse a) as A. destruct (expand_one look o recurse a) as [[l ws]|[p]].
    + destruct A as (A1 & A2 & A3). destruct (expand look o recurse r) as [[l' ws']|[p]].
      * destruct IH as (I1 & I2 & I3). split; [|split].
        -- destruct A1 as [A1|A1]; [left; exact A1|]. destruct I1 as [I1|I1]; [left; exact I1|]. right. intros b [<-|I]; auto.
        -- intro s. rewrite in_app_iff, A2, I2. split.
           ++ intros [H|(b & I & H)]; [exists a; split; [left; reflexivity|exact H]|exists b; split; [right; exact I|exact H]].
           ++ intros (b & [<-|I] & H); [left; exact H|right; exists b; auto].
        -- intro w. rewrite in_app_iff, A3, I3. split.
           ++ intros [H|(b & I & H)]; [exists a; split; [left; reflexivity|exact H]|exists b; split; [right; exact I|exact H]].
           ++ intros (b & [<-|I] & H); [left; exact H|right; exists b; auto].
      * destruct IH as (I1 & b & I2 & I3). split; [exact I1|]. exists b. split; [right; exact I2|exact I3].
    + destruct A as (A1 & A2 & A3). split; [exact A1|]. exists a. split; [left; reflexivity|auto].
Qed.

Theorem named : forall look o recurse args, args <> [] -> args <> [L "-"] ->
  match compile_or_fill look o recurse args with
  | CRun r ws =>
      (recurse = true \/ forall a, In a args -> ~ directory look o a)
      /\ (exists l, r = run_wrapper o (map normpath l) /\ forall s, In s l <-> exists a, In a args /\ meant look o recurse a s)
      /\ (forall w, In w ws <-> exists a, In a args /\ complaint look o a w)
  | CError (IsDirectory p) => recurse = false /\ exists a, In a args /\ p = os_join (w_idir o) a /\ directory look o a
  | _ => False
  end.
Proof.
  intros look o recurse args N ND. unfold compile_or_fill.
  replace (match args with [a] => str_eqb a (L "-") | _ => false end) with false.
  2:{ destruct args as [|a [|b r]]; try reflexivity. destruct (str_eqb_spec a (L "-")) as [E|_]; [subst a; congruence|reflexivity]. }
  pose proof (expand_spec look o recurse args) as A. destruct args as [|a r]; [congruence|].
  destruct (expand look o recurse (a :: r)) as [[l ws]|[p]]; [|exact A]. destruct A as (A1 & A2 & A3).
  split; [exact A1|]. split; [exists l; split; [reflexivity|exact A2]|exact A3].
Qed.

(** Every argument is answered. *)
Lemma answered : forall look o recurse a, directory look o a \/ (exists s, meant look o recurse a s) \/ exists w, complaint look o a w.
Proof.
  intros look o recurse a. unfold directory, meant, complaint. cbv zeta. set (path := os_join (w_idir o) a).
  destruct (look path) as [[|es|es|]|] eqn:E.
  - right. left. exists path. left. auto.
  - left. exists es. left. reflexivity.
  - left. exists es. right. reflexivity.
  - right. destruct (ends_with (w_iext o) path) eqn:EW; [right; eexists; split; [right; split; reflexivity|left; reflexivity]|].
    destruct (look (path ++ w_iext o)) as [[| | |]|] eqn:EX; try (right; eexists; split; [right; split; reflexivity|right; discriminate]).
    left. exists (path ++ w_iext o). right. left. auto.
  - right. destruct (ends_with (w_iext o) path) eqn:EW; [right; eexists; split; [left; split; reflexivity|left; reflexivity]|].
    destruct (look (path ++ w_iext o)) as [[| | |]|] eqn:EX; try (right; eexists; split; [left; split; reflexivity|right; discriminate]).
    left. exists (path ++ w_iext o). right. left. auto.
Qed.

(** ** Commands *)

Lemma undash_plain : forall d w, In d [[]; L "-"; L "--"] -> (forall c r, w = c :: r -> c <> 45%N) -> undash (d ++ w) = w.
Proof.
  intros d w I H. destruct w as [|c r].
  - destruct I as [<-|[<-|[<-|[]]]]; reflexivity.
  - pose proof (H c r eq_refl) as N. apply N.eqb_neq in N. destruct I as [<-|[<-|[<-|[]]]].
    + cbn [app]. unfold undash. rewrite N. reflexivity.
    + change (L "-" ++ c :: r) with (45%N :: c :: r). unfold undash. rewrite N.eqb_refl, N. reflexivity.
    + reflexivity.
Qed.
Lemma undash_split : forall s, exists d, In d [[]; L "-"; L "--"] /\ s = d ++ undash s.
Proof.
  intros [|a r]; [exists []; split; [left; reflexivity|reflexivity]|]. unfold undash. destruct (N.eqb_spec a 45) as [->|_].
  - destruct r as [|b r']; [exists (L "-"); split; [right; left; reflexivity|reflexivity]|]. destruct (N.eqb_spec b 45) as [->|_].
    + exists (L "--"). split; [right; right; left; reflexivity|reflexivity].
    + exists (L "-"). split; [right; left; reflexivity|reflexivity].
  - exists []. split; [left; reflexivity|reflexivity].
Qed.

Theorem command_runs : forall Opts (parse : bool -> list pystr -> option Opts) prog w n args, In n five -> stands_for w n ->
  main Opts parse (prog :: w :: args)
  = match parse (str_eqb n (L "compile")) args with None => BadOption Opts | Some o => Does Opts n o end.
Proof.
  intros Opts parse prog w n args I (d & Id & H). unfold main.
  assert (U : undash w = n \/ exists c r, n = c :: r /\ undash w = [c]).
  { assert (NC : forall c r, n = c :: r -> c <> 45%N).
    { cbn in I. destruct I as [<-|[<-|[<-|[<-|[<-|[]]]]]]; intros c r E; injection E as <- _; discriminate. }
    destruct H as [->|(c & r & E & ->)].
    - left. apply undash_plain; assumption.
    - right. exists c, r. split; [exact E|]. apply undash_plain; [assumption|]. intros c' r' E'. injection E' as <- _. exact (NC c r E). }
  cbn in I. destruct U as [->|(c & r & E & ->)].
  - destruct I as [<-|[<-|[<-|[<-|[<-|[]]]]]]; cbv beta iota zeta; reflexivity.
  - destruct I as [<-|[<-|[<-|[<-|[<-|[]]]]]]; injection E as <- <-; cbv beta iota zeta; reflexivity.
Qed.

Theorem command_only : forall Opts (parse : bool -> list pystr -> option Opts) argv n o, main Opts parse argv = Does Opts n o ->
  exists prog w args, argv = prog :: w :: args /\ In n five /\ stands_for w n /\ parse (str_eqb n (L "compile")) args = Some o.
Proof.
  intros Opts parse argv n o H. destruct argv as [|prog [|w args]]; try discriminate H. exists prog, w, args. split; [reflexivity|].
  unfold main in H. cbv zeta in H. destruct (undash_split w) as (d & Id & Ew).
  destruct (str_eqb_spec (undash w) (L "test")) as [|NT]; [discriminate H|].
  destruct (undash w) as [|c u] eqn:EU; [discriminate H|]. destruct (parse (c =? 99)%N args) as [o'|] eqn:EP; [|discriminate H].
  destruct (find _ commands) as [n'|] eqn:EF; [|discriminate H].
  apply find_some in EF as [I E]. apply orb_true_iff in E.
  assert (E0 : c :: u = n' \/ c :: u = firstn 1 n').
  { destruct E as [E|E]; [left; destruct (str_eqb_spec (c :: u) n'); [assumption|discriminate E]
                         |right; destruct (str_eqb_spec (c :: u) (firstn 1 n')); [assumption|discriminate E]]. }
  clear E. rename E0 into E.
  assert (SF : stands_for w n').
  { exists d. split; [exact Id|]. rewrite Ew. destruct E as [E|E].
    - left. rewrite E. reflexivity.
    - right. destruct n' as [|x r]; [discriminate E|]. cbn [firstn] in E. injection E as -> ->. exists x, r. split; reflexivity. }
  destruct (str_eqb_spec n' (L "test")) as [|NT']; [discriminate H|]. injection H as <- <-.
  assert (I5 : In n' five).
  { cbn in I |- *. destruct I as [<-|[<-|[<-|[<-|[E'|[<-|[]]]]]]]; auto 8; exfalso; apply NT'; symmetry; exact E'. }
  split; [exact I5|]. split; [exact SF|]. replace (str_eqb n' (L "compile")) with (c =? 99)%N; [exact EP|].
  assert (HD : exists r, n' = c :: r).
  { destruct E as [E|E].
    - exists u. symmetry. exact E.
    - destruct n' as [|x r]; [discriminate E|]. cbn [firstn] in E. injection E as -> _. exists r. reflexivity. }
  destruct HD as [r E']. cbn in I5. destruct I5 as [<-|[<-|[<-|[<-|[<-|[]]]]]]; injection E' as <- _; reflexivity.
Qed.

(** ** Module names *)

Lemma letter_iff : forall c, letter c = true <-> In c letters.
Proof.
  intro c. unfold letter. split.
  - intro H. assert (C : (97 <= c <= 122 \/ 65 <= c <= 90 \/ c = 95)%N).
    { apply orb_true_iff in H as [H|H]; [apply orb_true_iff in H as [H|H]; apply andb_true_iff in H as [H1 H2]; apply N.leb_le in H1, H2|apply N.eqb_eq in H]; lia. }
    assert (X : existsb (N.eqb c) letters = true).
    { destruct C as [C|[C|C]].
      - assert (Z : exists k, (k < 26)%nat /\ c = (97 + N.of_nat k)%N) by (exists (N.to_nat (c - 97)); lia). destruct Z as (k & K & ->).
        do 26 (destruct k as [|k]; [reflexivity|]). lia.
      - assert (Z : exists k, (k < 26)%nat /\ c = (65 + N.of_nat k)%N) by (exists (N.to_nat (c - 65)); lia). destruct Z as (k & K & ->).
        do 26 (destruct k as [|k]; [reflexivity|]). lia.
      - subst c. reflexivity. }
    apply existsb_exists in X as (y & I & E). apply N.eqb_eq in E. subst y. exact I.
  - assert (X : forallb letter letters = true) by reflexivity. rewrite forallb_forall in X. intro I. exact (X c I).
Qed.
Lemma digit_iff : forall c, ((48 <=? c) && (c <=? 57))%N = true <-> In c digits.
Proof.
  intro c. split.
  - intro H. apply andb_true_iff in H as [H1 H2]. apply N.leb_le in H1, H2.
    assert (Z : exists k, (k < 10)%nat /\ c = (48 + N.of_nat k)%N) by (exists (N.to_nat (c - 48)); lia). destruct Z as (k & K & ->).
    assert (X : existsb (N.eqb (48 + N.of_nat k)) digits = true) by (do 10 (destruct k as [|k]; [reflexivity|]); lia).
    apply existsb_exists in X as (y & I & E). apply N.eqb_eq in E. rewrite E. exact I.
  - assert (X : forallb (fun c => (48 <=? c) && (c <=? 57))%N digits = true) by reflexivity. rewrite forallb_forall in X. intro I. exact (X c I).
Qed.
Lemma module_chars_iff : forall s, module_chars s = true <-> identifier s.
Proof.
  intros [|c r]; [split; [discriminate|intros (c & r & E & _); discriminate E]|]. cbn [module_chars]. rewrite andb_true_iff, letter_iff, forallb_forall. split.
  - intros [H1 H2]. exists c, r. split; [reflexivity|]. split; [exact H1|]. apply Forall_forall. intros x I. specialize (H2 x I).
    apply orb_true_iff in H2 as [H2|H2]; [left; apply letter_iff; exact H2|right; apply digit_iff; exact H2].
  - intros (c' & r' & E & H1 & H2). injection E as <- <-. split; [exact H1|]. rewrite Forall_forall in H2. intros x I. apply orb_true_iff.
    destruct (H2 x I) as [H|H]; [left; apply letter_iff; exact H|right; apply digit_iff; exact H].
Qed.
Lemma module_name_iff : forall s, ~ In 10%N s -> (module_name s = true <-> identifier s).
Proof.
  intros s H. unfold module_name. rewrite orb_true_iff, module_chars_iff. split; [|left; assumption].
  intros [H'|H']; [exact H'|]. exfalso. destruct (rev s) as [|c r] eqn:E; [discriminate H'|]. apply andb_true_iff in H' as [H1 _].
  apply N.eqb_eq in H1. apply H. apply in_rev. rewrite E. left. exact H1.
Qed.

(** The module name of a file below the input directory. *)
Lemma base_name : forall o p, p <> [] -> Forall name_ok p -> (exists t, last p [] = t ++ w_iext o) -> ~ In 47%N (cut_ext (w_iext o) (last p [])) ->
  snd (path_split (bundle_base o (fst (from_to o p)))) = cut_ext (w_iext o) (last p []).
Proof.
  intros o p N F [t ET] NS. destruct (@exists_last _ p N) as (q & x & ->).
  rewrite last_last in ET, NS |- *. subst x. rewrite cut_ext_app in NS |- *.
  assert (R : exists dir, slashed (q ++ [t ++ w_iext o]) = (dir ++ t) ++ w_iext o /\ (dir = [] \/ exists a, dir = a ++ [47%N])).
  { destruct q as [|y q]; [exists []; split; [reflexivity|left; reflexivity]|]. rewrite slashed_app by discriminate.
    exists (slashed (y :: q) ++ L "/"). split; [|right; exists (slashed (y :: q)); reflexivity].
    change (slashed [t ++ w_iext o]) with (t ++ w_iext o). rewrite <- !app_assoc. reflexivity. }
  destruct R as (dir & R & HD). unfold from_to. cbn [fst].
  match goal with |- context [slashed ?x] => replace (slashed x) with ((dir ++ t) ++ w_iext o) by (symmetry; exact R) end.
  replace (under (w_idir o) ((dir ++ t) ++ w_iext o)) with ((match w_idir o with [] => [] | d => d ++ [47%N] end) ++ (dir ++ t) ++ w_iext o).
  2:{ unfold under. destruct (w_idir o); [reflexivity|]. rewrite <- app_assoc. reflexivity. }
  rewrite bundle_base_plain. apply path_split_name; assumption.
Qed.

Theorem compiled : forall o ps,
  (forall p, In p ps -> p <> [] /\ Forall name_ok p /\ (exists t, last p [] = t ++ w_iext o) /\ ~ In 10%N (last p [])) ->
  exists good rest, ps = good ++ rest
  /\ Forall (fun p => identifier (cut_ext (w_iext o) (last p []))) good
  /\ match rest with
     | [] => compile_all o (map (from_to o) ps) = (map (fun p => under (w_idir o) (slashed p)) good, None)
     | p :: _ => ~ identifier (cut_ext (w_iext o) (last p []))
                 /\ compile_all o (map (from_to o) ps) = (map (fun p => under (w_idir o) (slashed p)) good, Some (under (w_idir o) (slashed p)))
     end.
Proof.
  intros o ps. induction ps as [|p ps IH]; intro H.
  - exists [], []. split; [reflexivity|]. split; [constructor|reflexivity].
  - destruct (H p (or_introl eq_refl)) as (N & F & T & NL).
    assert (SUB : forall c, In c (cut_ext (w_iext o) (last p [])) -> In c (last p [])).
    { intros c I. unfold cut_ext in I. rewrite <- (firstn_skipn (length (last p []) - length (w_iext o)) (last p [])). apply in_app_iff. left. exact I. }
    assert (NS : ~ In 47%N (cut_ext (w_iext o) (last p []))).
    { intro I. apply SUB in I. destruct (@exists_last _ p N) as (q & x & E). rewrite E, last_last in I. rewrite Forall_forall in F.
      assert (X : name_ok x) by (apply F; rewrite E; apply in_app_iff; right; left; reflexivity). destruct X as (_ & X & _). exact (X I). }
    pose proof (base_name o p N F T NS) as BN.
    pose proof (module_name_iff (cut_ext (w_iext o) (last p [])) (fun I => NL (SUB _ I))) as MN.
    cbn [map compile_all]. destruct (from_to o p) as [src dst] eqn:EFT. cbn [fst] in BN.
    assert (ES : src = under (w_idir o) (slashed p)) by (unfold from_to in EFT; injection EFT as <- _; reflexivity).
    destruct (module_name (snd (path_split (bundle_base o src)))) eqn:EM.
    + destruct (IH (fun q I => H q (or_intror I))) as (good & rest & E1 & E2 & E3). exists (p :: good), rest.
      split; [rewrite E1; reflexivity|]. split.
      * constructor; [|exact E2]. apply MN. rewrite <- BN. exact EM.
      * destruct rest as [|r0 rest]; [rewrite E3|destruct E3 as [E3 E4]; split; [exact E3|]; rewrite E4]; rewrite ES; reflexivity.
    + exists [], (p :: ps). split; [reflexivity|]. split; [constructor|]. split.
      * intro X. apply MN in X. rewrite <- BN in X. rewrite EM in X. discriminate X.
      * rewrite ES. reflexivity.
Qed.

(** ** In parallel *)

Section Par.
Variable B : Type.
Variable ends : B -> ending.
Variable next : nat -> list B -> nat.
Local Notation code b := (wexitstatus (ends b)).

Lemma wait_some : forall t pool, pool <> [] ->
  exists b pool', child_wait B next t pool = Some (b, pool') /\ Permutation pool (b :: pool') /\ length pool = S (length pool').
Proof.
  intros t pool N. unfold child_wait. set (i := next t pool mod length pool).
  assert (L : i < length pool) by (apply Nat.mod_upper_bound; destruct pool; [congruence|discriminate]).
  destruct (nth_error pool i) as [b|] eqn:E; [|apply nth_error_None in E; lia].
  exists b, (take_out B i pool). split; [reflexivity|].
  assert (P : Permutation pool (b :: take_out B i pool)).
  { apply nth_error_split in E as (l1 & l2 & E1 & E2). unfold take_out. rewrite E1, <- E2.
    rewrite firstn_app, Nat.sub_diag, firstn_all. cbn [firstn]. rewrite app_nil_r.
    replace (S (length l1)) with (length (l1 ++ [b])) by (rewrite app_length; cbn; lia).
    replace (l1 ++ b :: l2) with ((l1 ++ [b]) ++ l2) at 2 by (rewrite <- app_assoc; reflexivity).
    rewrite skipn_app, skipn_all, Nat.sub_diag. cbn [skipn app]. apply Permutation_sym, Permutation_middle. }
  split; [exact P|]. exact (Permutation_length P).
Qed.

Lemma drain_spec : forall n t pool bad, length pool = n ->
  let '(w, e) := drain B ends next n t pool bad in
  Permutation (map fst w) pool /\ (forall x, In x w -> snd x <= length pool)
  /\ (e = 0 <-> bad = 0 /\ forall b, In b pool -> code b = 0).
Proof.
  induction n as [|n IH]; intros t pool bad L; cbn [drain].
  - destruct pool; [|discriminate L]. split; [apply perm_nil|]. split; [intros x []|]. split; [intros ->; split; [reflexivity|intros b []]|intros [H _]; exact H].
  - destruct (wait_some t pool) as (b & pool' & -> & P & LP); [intros ->; discriminate L|].
    specialize (IH (S t) pool' (if bad =? 0 then code b else bad) ltac:(lia)).
    destruct (drain B ends next n (S t) pool' (if bad =? 0 then code b else bad)) as [w e]. destruct IH as (I1 & I2 & I3).
    split; [cbn [map fst]; rewrite I1; apply Permutation_sym; exact P|]. split.
    + intros x [<-|I]; [cbn [snd]; lia|]. specialize (I2 x I). lia.
    + rewrite I3. split.
      * intros [H1 H2]. destruct (Nat.eqb_spec bad 0) as [E|E]; [|congruence]. split; [exact E|]. intros c I.
        apply (Permutation_in _ P) in I as [<-|I]; [exact H1|exact (H2 c I)].
      * intros [-> H]. cbn [Nat.eqb]. split; [apply H; apply (Permutation_in _ (Permutation_sym P)); left; reflexivity|].
        intros c I. apply H. apply (Permutation_in _ (Permutation_sym P)). right. exact I.
Qed.

Lemma par_spec : forall k bs t pool, length pool < k ->
  let p := par_loop B ends next k bs t pool in
  (exists rest, bs = p_started B p ++ rest /\ (p_bad B p = 0 -> rest = []))
  /\ Permutation (map fst (p_waited B p)) (pool ++ p_started B p)
  /\ (forall x, In x (p_waited B p) -> snd x <= k)
  /\ (p_bad B p = 0 <-> forall b, In b (pool ++ p_started B p) -> code b = 0).
Proof.
  intros k bs. induction bs as [|b r IH]; intros t pool L; cbn [par_loop]; cbv zeta.
  - pose proof (drain_spec (length pool) t pool 0 eq_refl) as D. destruct (drain B ends next (length pool) t pool 0) as [w e].
    destruct D as (D1 & D2 & D3). cbn [p_started p_waited p_bad]. rewrite app_nil_r. split; [exists []; auto|]. split; [exact D1|].
    split; [intros x I; specialize (D2 x I); lia|]. rewrite D3. split; [intros [_ H]; exact H|auto].
  - destruct (Nat.eqb_spec (length (b :: pool)) k) as [EK|NK].
    + destruct (wait_some t (b :: pool) ltac:(discriminate)) as (c & pool2 & EW & P & LP). rewrite EW.
      destruct (Nat.eqb_spec (code c) 0) as [EC|NC].
      * specialize (IH (S t) pool2 ltac:(lia)). cbv zeta in IH. destruct (par_loop B ends next k r (S t) pool2) as [st w bad].
        cbn [p_started p_waited p_bad] in *. destruct IH as ((rest & I1 & I1') & I2 & I3 & I4).
        assert (PP : Permutation (c :: pool2 ++ st) (pool ++ b :: st)).
        { change (c :: pool2 ++ st) with ((c :: pool2) ++ st). rewrite <- P. cbn [app]. apply Permutation_middle. }
        split; [exists rest; split; [rewrite I1; reflexivity|exact I1']|]. split; [cbn [map fst]; rewrite I2; exact PP|].
        split; [intros x [<-|I]; [cbn [snd]; lia|exact (I3 x I)]|]. rewrite I4. split; intros H x I.
        -- apply (Permutation_in _ (Permutation_sym PP)) in I as [<-|I]; [exact EC|exact (H x I)].
        -- apply H. apply (Permutation_in _ PP). right. exact I.
      * pose proof (drain_spec (length pool2) (S t) pool2 (code c) eq_refl) as D.
        destruct (drain B ends next (length pool2) (S t) pool2 (code c)) as [w e]. destruct D as (D1 & D2 & D3).
        cbn [p_started p_waited p_bad].
        assert (PP : Permutation (c :: pool2) (pool ++ [b])).
        { rewrite <- P. apply Permutation_cons_append. }
        split; [exists r; split; [reflexivity|]; intro E; apply D3 in E as [E _]; congruence|].
        split; [cbn [map fst]; rewrite D1; exact PP|]. split; [intros x [<-|I]; [cbn [snd]; lia|specialize (D2 x I); cbn [length] in *; lia]|].
        split; [intro E; apply D3 in E as [E _]; congruence|]. intro H. exfalso. apply NC. apply H. apply (Permutation_in _ PP). left. reflexivity.
    + specialize (IH t (b :: pool) ltac:(cbn [length] in *; lia)). cbv zeta in IH. destruct (par_loop B ends next k r t (b :: pool)) as [st w bad].
      cbn [p_started p_waited p_bad] in *. destruct IH as ((rest & I1 & I1') & I2 & I3 & I4).
      assert (PP : Permutation ((b :: pool) ++ st) (pool ++ b :: st)) by apply Permutation_middle.
      split; [exists rest; split; [rewrite I1; reflexivity|exact I1']|]. split; [rewrite I2; exact PP|]. split; [exact I3|].
      rewrite I4. split; intros H x I; apply H; [apply (Permutation_in _ (Permutation_sym PP)); exact I|apply (Permutation_in _ PP); exact I].
Qed.

Theorem parallel_spec : forall k bs, 1 < k ->
  let p := in_parallel B ends next k bs in
  (exists rest, rev bs = p_started B p ++ rest /\ (p_bad B p = 0 -> rest = []))
  /\ Permutation (map fst (p_waited B p)) (p_started B p)
  /\ (forall x, In x (p_waited B p) -> snd x <= k)
  /\ (p_bad B p = 0 <-> forall b, In b (p_started B p) -> code b = 0).
Proof. intros k bs H. exact (par_spec k (rev bs) 0 [] ltac:(cbn; lia)). Qed.

Theorem parallel_ok : forall k bs, 1 < k -> (forall b, ends b = Exit 0) ->
  let p := in_parallel B ends next k bs in Permutation (p_started B p) bs /\ Permutation (map fst (p_waited B p)) bs /\ p_bad B p = 0.
Proof.
  intros k bs K H. cbv zeta. destruct (parallel_spec k bs K) as ((rest & A1 & A1') & A2 & _ & A4).
  assert (E : p_bad B (in_parallel B ends next k bs) = 0) by (apply A4; intros b _; rewrite H; reflexivity).
  rewrite (A1' E), app_nil_r in A1. assert (P : Permutation (p_started B (in_parallel B ends next k bs)) bs).
  { rewrite <- A1. apply Permutation_sym, Permutation_rev. }
  split; [exact P|]. split; [rewrite A2; exact P|exact E].
Qed.
End Par.
