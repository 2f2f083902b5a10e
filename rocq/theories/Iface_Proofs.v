(** A template run as a program. *)
From Verif Require Import Base PyStr Alist Iface_Model Iface_Spec.

Lemma starts_snoc : forall o a c, ~ In c o -> starts_with o (a ++ [c]) = starts_with o a.
Proof.
  induction o as [|x o IH]; intros a c H; [reflexivity|]. destruct a as [|y a]; cbn [app starts_with].
  - destruct (N.eqb_spec x c) as [E|_]; [exfalso; apply H; left; exact E|reflexivity].
  - rewrite IH; [reflexivity|]. intro I. apply H. right. exact I.
Qed.

Definition known (o : pystr) : res gerr (bool * pystr) :=
  if starts_with o (L "help") then Ok (false, L "help")
  else if starts_with o (L "env") then Ok (false, L "env")
  else if starts_with o (L "pickle") then Ok (true, L "pickle")
  else if starts_with o (L "json") then Ok (true, L "json")
  else Raise (Unknown (L "--" ++ o)).

Lemma lha : forall o, ~ In 61%N o -> o <> [] -> long_has_args o longs = known o.
Proof.
  intros o H N. unfold long_has_args, known.
  assert (FP : filter (starts_with o) longs
    = (if starts_with o (L "help") then [L "help"] else []) ++ (if starts_with o (L "env") then [L "env"] else [])
      ++ (if starts_with o (L "pickle") then [L "pickle="] else []) ++ (if starts_with o (L "json") then [L "json="] else [])).
  { rewrite <- (starts_snoc o (L "pickle") 61%N H), <- (starts_snoc o (L "json") 61%N H).
    change (L "pickle" ++ [61%N]) with (L "pickle="). change (L "json" ++ [61%N]) with (L "json=").
    unfold longs. cbn [map filter]. destruct (starts_with o (L "help")), (starts_with o (L "env")), (starts_with o (L "pickle=")), (starts_with o (L "json=")); reflexivity. }
  rewrite FP. cbv zeta.
  assert (D : forall a b c d, o = c :: d -> starts_with o (a :: b) = true -> c = a).
  { intros a b c d E S. rewrite E in S. cbn [starts_with] in S. apply andb_true_iff in S as [S _]. apply N.eqb_eq in S. exact S. }
  destruct o as [|c d]; [congruence|].
  assert (NE : forall m, In 61%N m -> str_eqb (c :: d) m = false).
  { intros m I. destruct (str_eqb_spec (c :: d) m) as [E|_]; [|reflexivity]. exfalso. apply H. rewrite E. exact I. }
  destruct (starts_with (c :: d) (L "help")) eqn:E1, (starts_with (c :: d) (L "env")) eqn:E2, (starts_with (c :: d) (L "pickle")) eqn:E3,
    (starts_with (c :: d) (L "json")) eqn:E4;
  repeat match goal with E : starts_with (c :: d) (L _) = true |- _ => pose proof (D _ _ c d eq_refl E); clear E end;
  repeat match goal with X : c = N_of_ascii _ |- _ => vm_compute in X end; try congruence;
  cbn [app]; try reflexivity.
  - destruct (str_eqb_spec (c :: d) (L "help")) as [->|_]; reflexivity.
  - destruct (str_eqb_spec (c :: d) (L "env")) as [->|_]; reflexivity.
  - rewrite NE by (cbn; auto 10). reflexivity.
  - rewrite NE by (cbn; auto 10). reflexivity.
Qed.

Lemma cut_eq_none : forall s, ~ In 61%N s -> cut_eq s = (s, None).
Proof.
  induction s as [|c s IH]; intro H; [reflexivity|]. cbn [cut_eq]. destruct (N.eqb_spec c 61) as [E|_]; [exfalso; apply H; left; exact E|].
  rewrite IH; [reflexivity|]. intro I. apply H. right. exact I.
Qed.
Lemma cut_eq_some : forall s v, ~ In 61%N s -> cut_eq (s ++ 61%N :: v) = (s, Some v).
Proof.
  induction s as [|c s IH]; intros v H; [reflexivity|]. cbn [app cut_eq]. destruct (N.eqb_spec c 61) as [E|_]; [exfalso; apply H; left; exact E|].
  rewrite IH; [reflexivity|]. intro I. apply H. right. exact I.
Qed.
Lemma cut_eq_inv : forall s o v, cut_eq s = (o, v) -> ~ In 61%N o /\ s = o ++ match v with Some x => 61%N :: x | None => [] end.
Proof.
  induction s as [|c s IH]; intros o v H; cbn [cut_eq] in H.
  - injection H as <- <-. split; [intros []|reflexivity].
  - destruct (N.eqb_spec c 61) as [E|NE]; [injection H as <- <-; split; [intros []|rewrite E; reflexivity]|].
    destruct (cut_eq s) as [a b]. injection H as <- <-. destruct (IH a b eq_refl) as [H1 H2]. split.
    + intros [E|I]; [congruence|exact (H1 I)].
    + rewrite H2 at 1. reflexivity.
Qed.

Lemma begins_iff : forall p n, begins p n <-> p <> [] /\ starts_with p n = true.
Proof. intros p n. unfold begins. rewrite starts_with_iff. reflexivity. Qed.
Lemma begins_known : forall p, p <> [] ->
  (begins p (L "help") -> known p = Ok (false, L "help")) /\ (begins p (L "env") -> known p = Ok (false, L "env"))
  /\ (begins p (L "pickle") -> known p = Ok (true, L "pickle")) /\ (begins p (L "json") -> known p = Ok (true, L "json")).
Proof.
  intros p N. destruct p as [|c d]; [congruence|].
  assert (D : forall a b, starts_with (c :: d) (a :: b) = true -> c = a).
  { intros a b S. cbn [starts_with] in S. apply andb_true_iff in S as [S _]. apply N.eqb_eq in S. exact S. }
  assert (X : forall a b a' b', starts_with (c :: d) (a :: b) = true -> a' <> a -> starts_with (c :: d) (a' :: b') = false).
  { intros a b a' b' S NE. destruct (starts_with (c :: d) (a' :: b')) eqn:S'; [|reflexivity]. exfalso. apply NE. rewrite <- (D _ _ S), <- (D _ _ S'). reflexivity. }
  split; [|split; [|split]]; intro B; apply begins_iff in B as [_ B]; unfold known.
  - rewrite B. reflexivity.
  - replace (starts_with (c :: d) (L "help")) with false by (symmetry; refine (X _ _ _ _ B _); discriminate). rewrite B. reflexivity.
  - replace (starts_with (c :: d) (L "help")) with false by (symmetry; refine (X _ _ _ _ B _); discriminate).
    replace (starts_with (c :: d) (L "env")) with false by (symmetry; refine (X _ _ _ _ B _); discriminate). rewrite B. reflexivity.
  - replace (starts_with (c :: d) (L "help")) with false by (symmetry; refine (X _ _ _ _ B _); discriminate).
    replace (starts_with (c :: d) (L "env")) with false by (symmetry; refine (X _ _ _ _ B _); discriminate).
    replace (starts_with (c :: d) (L "pickle")) with false by (symmetry; refine (X _ _ _ _ B _); discriminate). rewrite B. reflexivity.
Qed.
Lemma known_begins : forall p n, p <> [] -> (forall b, known p = Ok (b, n) ->
  begins p n /\ (b = false /\ (n = L "help" \/ n = L "env") \/ b = true /\ (n = L "pickle" \/ n = L "json"))).
Proof.
  intros p n N b H. rewrite begins_iff. unfold known in H.
  destruct (starts_with p (L "help")) eqn:E1; [injection H as <- <-; auto 6|].
  destruct (starts_with p (L "env")) eqn:E2; [injection H as <- <-; auto 6|].
  destruct (starts_with p (L "pickle")) eqn:E3; [injection H as <- <-; auto 6|].
  destruct (starts_with p (L "json")) eqn:E4; [injection H as <- <-; auto 6|]. discriminate H.
Qed.
Lemma begins_no_eq : forall p n, begins p n -> ~ In 61%N n -> ~ In 61%N p.
Proof. intros p n [_ [r ->]] H I. apply H. apply in_app_iff. left. exact I. Qed.

(** The options as getopt lists them. *)
Inductive listed : pystr * pystr -> iopt -> Prop :=
| li_h : listed (L "-h", []) IHelp
| li_help : listed (L "--help", []) IHelp
| li_env : listed (L "--env", []) IEnv
| li_pickle : forall f, listed (L "--pickle", f) (IPickle f)
| li_json : forall f, listed (L "--json", f) (IJson f).

Lemma shorts_h : forall k, do_shorts (repeat 104%N k) (L "h") = Ok (repeat (L "-h", []) k).
Proof. induction k as [|k IH]; [reflexivity|]. cbn [repeat do_shorts]. rewrite IH. reflexivity. Qed.
Lemma shorts_inv : forall s l, do_shorts s (L "h") = Ok l -> s = repeat 104%N (length s) /\ l = repeat (L "-h", []) (length s).
Proof.
  induction s as [|c s IH]; intros l H; [injection H as <-; split; reflexivity|]. cbn [do_shorts] in H.
  change (existsb (N.eqb c) (L "h")) with ((c =? 104)%N || false) in H. destruct (N.eqb_spec c 104) as [->|_]; [|discriminate H]. cbn [orb] in H.
  destruct (do_shorts s (L "h")) as [m|]; [|discriminate H]. injection H as <-. destruct (IH m eq_refl) as [H1 H2].
  split; [cbn [length repeat]; rewrite <- H1; reflexivity|cbn [length repeat]; rewrite H2; reflexivity].
Qed.

(** Where getopt stops. *)
Lemma over_stop : forall n args, over args -> exists r, getopt n args (L "h") longs = Some (Ok ([], r)).
Proof.
  intros n args H. destruct args as [|a r]; [destruct n; exists []; reflexivity|].
  assert (G : (negb (starts_with (L "-") a) || str_eqb a (L "-") = true) \/ str_eqb a (L "--") = true).
  { destruct H as [->|[->|H]]; [left; reflexivity|right; reflexivity|]. left. destruct a as [|c a]; [reflexivity|].
    change (starts_with (L "-") (c :: a)) with ((45 =? c)%N && true). destruct (N.eqb_spec 45 c) as [<-|_]; [|reflexivity].
    exfalso. exact (H a eq_refl). }
  destruct n; cbn [getopt]; destruct G as [->| G]; try (eexists; reflexivity); destruct (negb (starts_with (L "-") a) || str_eqb a (L "-")); try (eexists; reflexivity);
  rewrite G; eexists; reflexivity.
Qed.

(** One step over an option. *)
Definition more (l : list (pystr * pystr)) (x : option (res gerr (list (pystr * pystr) * list pystr))) :=
  match x with Some (Ok (m, r)) => Some (Ok (l ++ m, r)) | x => x end.
Lemma getopt_long : forall n s args, s <> [] -> getopt (S n) ((L "--" ++ s) :: args) (L "h") longs
  = match do_longs s longs args with Raise e => Some (Raise e) | Ok (o, r) => more [o] (getopt n r (L "h") longs) end.
Proof.
  intros n s args N. destruct s as [|c s]; [congruence|]. cbn [getopt].
  change (negb (starts_with (L "-") (L "--" ++ c :: s)) || str_eqb (L "--" ++ c :: s) (L "-")) with false.
  change (str_eqb (L "--" ++ c :: s) (L "--")) with false. change (starts_with (L "--") (L "--" ++ c :: s)) with true.
  change (skipn 2 (L "--" ++ c :: s)) with (c :: s). cbv beta iota zeta.
  destruct (do_longs (c :: s) longs args) as [[o r]|e]; [|reflexivity].
  destruct (getopt n r (L "h") longs) as [[[m q]|]|]; reflexivity.
Qed.
Lemma getopt_short : forall n c s args, c <> 45%N -> getopt (S n) ((L "-" ++ c :: s) :: args) (L "h") longs
  = match do_shorts (c :: s) (L "h") with Raise e => Some (Raise e) | Ok l => more l (getopt n args (L "h") longs) end.
Proof.
  intros n c s args NC. cbn [getopt]. change (starts_with (L "-") (L "-" ++ c :: s)) with true. cbn [negb orb].
  change (str_eqb (L "-" ++ c :: s) (L "-")) with false. cbn [orb].
  assert (E1 : str_eqb (L "-" ++ c :: s) (L "--") = false).
  { destruct (str_eqb_spec (L "-" ++ c :: s) (L "--")) as [E|_]; [injection E as -> _; congruence|reflexivity]. }
  assert (E2 : starts_with (L "--") (L "-" ++ c :: s) = false).
  { change (starts_with (L "--") (L "-" ++ c :: s)) with ((45 =? c)%N && true). destruct (N.eqb_spec 45 c); [congruence|reflexivity]. }
  rewrite E1, E2. change (skipn 1 (L "-" ++ c :: s)) with (c :: s). cbv beta iota zeta.
  destruct (do_shorts (c :: s) (L "h")) as [l|e]; [|reflexivity].
  destruct (getopt n args (L "h") longs) as [[[m q]|]|]; reflexivity.
Qed.

Lemma do_longs_flag : forall p n args, begins p n -> n = L "help" \/ n = L "env" -> do_longs p longs args = Ok ((L "--" ++ n, []), args).
Proof.
  intros p n args B H. pose proof B as B'. destruct B' as [N _].
  assert (NE : ~ In 61%N p) by (apply (begins_no_eq p n B); destruct H as [->| ->]; cbn; intuition discriminate).
  unfold do_longs. rewrite cut_eq_none, lha by assumption. destruct (begins_known p N) as (K1 & K2 & _).
  destruct H as [->| ->]; [rewrite K1|rewrite K2]; try assumption; reflexivity.
Qed.
Lemma do_longs_arg : forall p n v args, begins p n -> n = L "pickle" \/ n = L "json" ->
  do_longs p longs (v :: args) = Ok ((L "--" ++ n, v), args) /\ do_longs (p ++ L "=" ++ v) longs args = Ok ((L "--" ++ n, v), args).
Proof.
  intros p n v args B H. pose proof B as B'. destruct B' as [N _].
  assert (NE : ~ In 61%N p) by (apply (begins_no_eq p n B); destruct H as [->| ->]; cbn; intuition discriminate).
  unfold do_longs. change (p ++ L "=" ++ v) with (p ++ 61%N :: v). rewrite cut_eq_none, cut_eq_some, lha by assumption.
  destruct (begins_known p N) as (_ & _ & K1 & K2).
  destruct H as [->| ->]; [rewrite K1|rewrite K2]; try assumption; split; reflexivity.
Qed.

Lemma written_getopt : forall args os, written args os -> forall n, length args <= n ->
  exists l r, getopt n args (L "h") longs = Some (Ok (l, r)) /\ Forall2 listed l os.
Proof.
  intros args os W. induction W as [args H|a os r os' SP W IH]; intros n LE.
  - destruct (over_stop n args H) as [r E]. exists [], r. split; [exact E|constructor].
  - rewrite app_length in LE.
    assert (NA : 0 < length a) by (destruct SP; cbn; lia).
    destruct n as [|n]; [lia|].
    assert (G : exists l, getopt (S n) (a ++ r) (L "h") longs = more l (getopt n r (L "h") longs) /\ Forall2 listed l os).
    { destruct SP as [k|p B|p B|p f B|p f B|p f B|p f B]; cbn [app].
      - exists (repeat (L "-h", []) (S k)). split.
        + change (repeat 104%N (S k)) with (104%N :: repeat 104%N k). change (45%N :: 104%N :: repeat 104%N k) with (L "-" ++ 104%N :: repeat 104%N k).
          rewrite getopt_short by discriminate. change (104%N :: repeat 104%N k) with (repeat 104%N (S k)). rewrite shorts_h. reflexivity.
        + generalize (S k). intro j. induction j; [constructor|]. cbn [repeat]. constructor; [constructor|assumption].
      - exists [(L "--help", [])]. change (45%N :: 45%N :: p) with (L "--" ++ p). rewrite getopt_long by apply B.
        rewrite (do_longs_flag p (L "help")) by auto. split; [reflexivity|constructor; [constructor|constructor]].
      - exists [(L "--env", [])]. change (45%N :: 45%N :: p) with (L "--" ++ p). rewrite getopt_long by apply B.
        rewrite (do_longs_flag p (L "env")) by auto. split; [reflexivity|constructor; [constructor|constructor]].
      - exists [(L "--pickle", f)]. change (45%N :: 45%N :: p) with (L "--" ++ p). rewrite getopt_long by apply B.
        destruct (do_longs_arg p (L "pickle") f r B (or_introl eq_refl)) as [-> _]. split; [reflexivity|constructor; [constructor|constructor]].
      - exists [(L "--pickle", f)]. change (45%N :: 45%N :: p ++ L "=" ++ f) with (L "--" ++ p ++ L "=" ++ f).
        rewrite getopt_long by (destruct p; discriminate).
        destruct (do_longs_arg p (L "pickle") f r B (or_introl eq_refl)) as [_ ->]. split; [reflexivity|constructor; [constructor|constructor]].
      - exists [(L "--json", f)]. change (45%N :: 45%N :: p) with (L "--" ++ p). rewrite getopt_long by apply B.
        destruct (do_longs_arg p (L "json") f r B (or_intror eq_refl)) as [-> _]. split; [reflexivity|constructor; [constructor|constructor]].
      - exists [(L "--json", f)]. change (45%N :: 45%N :: p ++ L "=" ++ f) with (L "--" ++ p ++ L "=" ++ f).
        rewrite getopt_long by (destruct p; discriminate).
        destruct (do_longs_arg p (L "json") f r B (or_intror eq_refl)) as [_ ->]. split; [reflexivity|constructor; [constructor|constructor]]. }
    destruct G as (l & -> & FL). destruct (IH n ltac:(lia)) as (m & rest & -> & FM). exists (l ++ m), rest. split; [reflexivity|].
    apply Forall2_app; assumption.
Qed.

(** Conversely, what getopt takes is written so. *)
Lemma getopt_written : forall n args l r, getopt n args (L "h") longs = Some (Ok (l, r)) -> exists os, written args os.
Proof.
  induction n as [|n IH]; intros args l r H.
  - destruct args as [|a args]; [exists []; apply wr_end; exact I|]. cbn [getopt] in H.
    destruct (negb (starts_with (L "-") a) || str_eqb a (L "-")) eqn:E1; [|destruct (str_eqb_spec a (L "--")) as [->|]; [|discriminate H]].
    + exists []. apply wr_end. cbn. apply orb_true_iff in E1 as [E1|E1]; [|left; apply str_eqb_eq; exact E1]. right. right. intros u ->. discriminate E1.
    + exists []. apply wr_end. cbn. auto.
  - destruct args as [|a args]; [exists []; apply wr_end; exact I|].
    destruct (negb (starts_with (L "-") a) || str_eqb a (L "-")) eqn:E1.
    { exists []. apply wr_end. cbn. apply orb_true_iff in E1 as [E1|E1]; [|left; apply str_eqb_eq; exact E1]. right. right. intros u ->. discriminate E1. }
    destruct (str_eqb_spec a (L "--")) as [->|ND]; [exists []; apply wr_end; cbn; auto|].
    apply orb_false_iff in E1 as [E1 E2]. apply negb_false_iff in E1. apply starts_with_iff in E1 as [s ->].
    destruct s as [|c s]; [discriminate E2|]. destruct (N.eqb_spec c 45) as [->|NC].
    + change (L "-" ++ 45%N :: s) with (L "--" ++ s) in *. assert (NS : s <> []) by (intros ->; apply ND; reflexivity).
      rewrite getopt_long in H by exact NS. destruct (do_longs s longs args) as [[o rest]|] eqn:ED; [|discriminate H].
      destruct (getopt n rest (L "h") longs) as [[[m q]|]|] eqn:EG; try discriminate H. destruct (IH _ _ _ EG) as [os W].
      unfold do_longs in ED. destruct (cut_eq s) as [p v] eqn:EC. apply cut_eq_inv in EC as [NE ES].
      destruct p as [|x p].
      * exfalso. change (long_has_args [] longs) with (Raise (A:=bool * pystr) (NotUnique (L "--"))) in ED. discriminate ED.
      * rewrite lha in ED by (assumption || discriminate). destruct (known (x :: p)) as [[b nm]|] eqn:EK; [|discriminate ED].
        apply known_begins in EK as (B & [(-> & HN)|(-> & HN)]); [| |discriminate].
        -- destruct v as [v|]; [discriminate ED|]. injection ED as <- <-. rewrite app_nil_r in ES. subst s.
           destruct HN as [->| ->]; [exists ([IHelp] ++ os)|exists ([IEnv] ++ os)]; change ((L "--" ++ x :: p) :: args) with ([L "--" ++ x :: p] ++ args);
           apply wr_more; try assumption; constructor; exact B.
        -- destruct v as [v|].
           ++ injection ED as <- <-. subst s.
              change ((L "--" ++ (x :: p) ++ 61%N :: v) :: args) with ([L "--" ++ (x :: p) ++ L "=" ++ v] ++ args).
              destruct HN as [->| ->]; [exists ([IPickle v] ++ os)|exists ([IJson v] ++ os)];
              apply wr_more; try assumption; constructor; exact B.
           ++ destruct args as [|v args]; [discriminate ED|]. injection ED as <- <-. rewrite app_nil_r in ES. subst s.
              change ((L "--" ++ x :: p) :: v :: args) with ([L "--" ++ x :: p; v] ++ args).
              destruct HN as [->| ->]; [exists ([IPickle v] ++ os)|exists ([IJson v] ++ os)];
              apply wr_more; try assumption; constructor; exact B.
    + rewrite getopt_short in H by exact NC. destruct (do_shorts (c :: s) (L "h")) as [m|] eqn:ED; [|discriminate H].
      destruct (getopt n args (L "h") longs) as [[[m' q]|]|] eqn:EG; try discriminate H. destruct (IH _ _ _ EG) as [os W].
      apply shorts_inv in ED as [E _]. exists (repeat IHelp (S (length s)) ++ os).
      change ((L "-" ++ c :: s) :: args) with ([L "-" ++ c :: s] ++ args). apply wr_more; [|exact W].
      rewrite E. constructor.
Qed.

Lemma getopt_some : forall n args, length args <= n -> getopt n args (L "h") longs <> None.
Proof.
  induction n as [|n IH]; intros args LE.
  - destruct args; [discriminate|cbn in LE; lia].
  - destruct args as [|a args]; [discriminate|]. cbn [getopt length] in *.
    destruct (negb (starts_with (L "-") a) || str_eqb a (L "-")); [discriminate|]. destruct (str_eqb a (L "--")); [discriminate|].
    assert (M : forall rest, length rest <= n -> forall l, match getopt n rest (L "h") longs with Some (Ok (m, r)) => Some (Ok (l ++ m, r)) | x => x end <> None).
    { intros rest LR l. specialize (IH rest LR). destruct (getopt n rest (L "h") longs) as [[[m r]|]|]; congruence. }
    destruct (starts_with (L "--") a).
    + destruct (do_longs (skipn 2 a) longs args) as [[o rest]|] eqn:ED; [|discriminate]. apply M.
      unfold do_longs in ED. destruct (cut_eq (skipn 2 a)) as [p v]. destruct (long_has_args p longs) as [[[] nm]|]; [|destruct v; [discriminate ED|]|discriminate ED].
      * destruct v; [injection ED as _ <-; lia|]. destruct args; [discriminate ED|]. injection ED as _ <-. cbn in LE. lia.
      * injection ED as _ <-. lia.
    + destruct (do_shorts (skipn 1 a) (L "h")); [|discriminate]. apply M. lia.
Qed.

(** ** The run *)
Section Run.
Variable V : Type.
Variable load : bool -> pystr -> nat -> option (space V).
Variable environ : space V.

Lemma apply_loads : forall k pre k' vs, loads (space V) load environ k pre k' vs -> forall l rest post sl,
  Forall2 listed l pre -> Forall2 listed rest post ->
  apply_opts V load environ (l ++ rest) k sl = apply_opts V load environ rest k' (rev vs ++ sl).
Proof.
  intros k pre k' vs H. induction H as [k|k os k' vs H IH|k f d os k' vs E H IH|k f d os k' vs E H IH]; intros l rest post sl FL FR.
  - inversion FL; subst. reflexivity.
  - inversion FL as [|x y l' z LX FL' E1 E2]; subst. inversion LX; subst. cbn [app rev].
    change (apply_opts V load environ (l' ++ rest) k (environ :: sl) = apply_opts V load environ rest k' ((rev vs ++ [environ]) ++ sl)).
    rewrite (IH l' rest post (environ :: sl) FL' FR). rewrite <- app_assoc. reflexivity.
  - inversion FL as [|x y l' z LX FL' E1 E2]; subst. inversion LX; subst. cbn [app rev].
    change (match load false f k with Some d => apply_opts V load environ (l' ++ rest) (S k) (d :: sl) | None => LoadFails V f end
      = apply_opts V load environ rest k' ((rev vs ++ [d]) ++ sl)).
    rewrite E, (IH l' rest post (d :: sl) FL' FR). rewrite <- app_assoc. reflexivity.
  - inversion FL as [|x y l' z LX FL' E1 E2]; subst. inversion LX; subst. cbn [app rev].
    change (match load true f k with Some d => apply_opts V load environ (l' ++ rest) (S k) (d :: sl) | None => LoadFails V f end
      = apply_opts V load environ rest k' ((rev vs ++ [d]) ++ sl)).
    rewrite E, (IH l' rest post (d :: sl) FL' FR). rewrite <- app_assoc. reflexivity.
Qed.

Theorem run_prints : forall args os k vs sl, written args os -> loads (space V) load environ 0 os k vs ->
  run V load environ args sl = Some (Prints V (rev vs ++ sl)).
Proof.
  intros args os k vs sl W H. unfold run. destruct (written_getopt args os W (length args) (le_n _)) as (l & r & -> & F).
  rewrite <- (app_nil_r l). rewrite (apply_loads 0 os k vs H l [] [] sl F (Forall2_nil _)). reflexivity.
Qed.

Theorem run_help : forall args pre post k vs sl, written args (pre ++ IHelp :: post) -> loads (space V) load environ 0 pre k vs ->
  run V load environ args sl = Some (Help V).
Proof.
  intros args pre post k vs sl W H. unfold run. destruct (written_getopt args _ W (length args) (le_n _)) as (l & r & -> & F).
  apply Forall2_app_inv_r in F as (l1 & l2 & F1 & F2 & ->). rewrite (apply_loads 0 pre k vs H l1 l2 _ sl F1 F2).
  inversion F2 as [|x y l' z LX FL' E1 E2]; subst. inversion LX; subst; reflexivity.
Qed.

Theorem run_fails : forall args pre f post k vs sl j, written args (pre ++ (if j : bool then IJson f else IPickle f) :: post) ->
  loads (space V) load environ 0 pre k vs -> load j f k = None ->
  run V load environ args sl = Some (LoadFails V f).
Proof.
  intros args pre f post k vs sl j W H N. unfold run. destruct (written_getopt args _ W (length args) (le_n _)) as (l & r & -> & F).
  apply Forall2_app_inv_r in F as (l1 & l2 & F1 & F2 & ->). rewrite (apply_loads 0 pre k vs H l1 l2 _ sl F1 F2).
  inversion F2 as [|x y l' z LX FL' E1 E2]; subst. destruct j; inversion LX; subst.
  - change (apply_opts V load environ ((L "--json", f) :: l') k (rev vs ++ sl)) with
      (match load true f k with Some d => apply_opts V load environ l' (S k) (d :: rev vs ++ sl) | None => LoadFails V f end). rewrite N. reflexivity.
  - change (apply_opts V load environ ((L "--pickle", f) :: l') k (rev vs ++ sl)) with
      (match load false f k with Some d => apply_opts V load environ l' (S k) (d :: rev vs ++ sl) | None => LoadFails V f end). rewrite N. reflexivity.
Qed.

Theorem run_wrong : forall args sl, (exists e, run V load environ args sl = Some (Wrong V e)) <-> ~ exists os, written args os.
Proof.
  intros args sl. unfold run. split.
  - intros [e H] [os W]. destruct (written_getopt args os W (length args) (le_n _)) as (l & r & EQ & _). rewrite EQ in H.
    assert (A : forall l k sl, apply_opts V load environ l k sl <> Wrong V e).
    { clear. induction l as [|[o a] l IH]; intros k sl; cbn [apply_opts]; [discriminate|].
      destruct (str_eqb o (L "-h") || str_eqb o (L "--help")); [discriminate|]. destruct (str_eqb o (L "--env")); [apply IH|].
      destruct (str_eqb o (L "--pickle")); [destruct (load false a k); [apply IH|discriminate]|].
      destruct (str_eqb o (L "--json")); [destruct (load true a k); [apply IH|discriminate]|]. apply IH. }
    injection H as H. exact (A _ _ _ H).
  - intro N. pose proof (getopt_some (length args) args (le_n _)) as S. destruct (getopt (length args) args (L "h") longs) as [[[l r]|e]|] eqn:E; [|exists e; reflexivity|congruence].
    exfalso. apply N. exact (getopt_written _ _ _ _ E).
Qed.

Lemma value_first : forall vs sl x, (exists s, In s vs /\ aget x s <> None) -> 
  exists a s b v, vs = a ++ s :: b /\ aget x s = Some v /\ (forall t, In t b -> aget x t = None) /\ value V x (rev vs ++ sl) = Some v.
Proof.
  intros vs. induction vs as [|u vs IH] using rev_ind; intros sl x (s & I & N); [destruct I|].
  rewrite rev_app_distr. cbn [rev app value]. destruct (aget x u) as [v|] eqn:E.
  - exists vs, u, [], v. split; [reflexivity|]. split; [exact E|]. split; [intros t []|reflexivity].
  - apply in_app_iff in I as [I|[<-|[]]]; [|congruence]. destruct (IH sl x (ex_intro _ s (conj I N))) as (a & t & b & v & E1 & E2 & E3 & E4).
    exists a, t, (b ++ [u]), v. split; [rewrite E1, <- app_assoc; reflexivity|]. split; [exact E2|]. split; [|exact E4].
    intros t' I'. apply in_app_iff in I' as [I'|[<-|[]]]; [exact (E3 t' I')|exact E].
Qed.
Lemma value_rest : forall vs sl x, (forall s, In s vs -> aget x s = None) -> value V x (rev vs ++ sl) = value V x sl.
Proof.
  intros vs sl x H. assert (H' : forall s, In s (rev vs) -> aget x s = None) by (intros s I; apply H; apply in_rev; exact I).
  revert H'. generalize (rev vs). induction l as [|u l IH]; intro H'; [reflexivity|]. cbn [app value]. rewrite (H' u (or_introl eq_refl)).
  apply IH. intros s I. apply H'. right. exact I.
Qed.
End Run.

(** ** --templateAPIClass *)
Lemma rfind_dot_none : forall s, ~ In 46%N s -> rfind_dot s = None.
Proof.
  induction s as [|c s IH]; intro H; [reflexivity|]. cbn [rfind_dot]. rewrite IH by (intro I; apply H; right; exact I).
  destruct (N.eqb_spec c 46) as [E|_]; [exfalso; apply H; left; exact E|reflexivity].
Qed.
Lemma rfind_dot_last : forall a b, ~ In 46%N b -> rfind_dot (a ++ 46%N :: b) = Some (length a).
Proof.
  induction a as [|c a IH]; intros b H.
  - cbn [app rfind_dot]. rewrite rfind_dot_none by exact H. reflexivity.
  - cbn [app rfind_dot length]. rewrite IH by exact H. reflexivity.
Qed.

Theorem class_plain : forall m c, ~ In 58%N m -> ~ In 58%N c -> ~ In 46%N m -> ~ In 46%N c -> template_class (m ++ L ":" ++ c) = Class m c.
Proof.
  intros m c H1 H2 H3 H4. unfold template_class. destruct (m ++ L ":" ++ c) as [|x y] eqn:E; [destruct m; discriminate E|]. rewrite <- E.
  change (m ++ L ":" ++ c) with (m ++ 58%N :: c). rewrite split_char_app by exact H1. rewrite split_char_word by exact H2.
  rewrite rfind_dot_none; [reflexivity|]. intro I. apply in_app_iff in I as [I|[I|I]]; [exact (H3 I)|discriminate I|exact (H4 I)].
Qed.
Theorem class_dotted : forall p m c, ~ In 58%N p -> ~ In 58%N m -> ~ In 58%N c -> ~ In 46%N m -> ~ In 46%N c ->
  template_class (p ++ L "." ++ m ++ L ":" ++ c) = SubAttr p m c.
Proof.
  intros p m c H0 H1 H2 H3 H4. unfold template_class.
  destruct (p ++ L "." ++ m ++ L ":" ++ c) as [|x y] eqn:E; [destruct p; discriminate E|]. rewrite <- E.
  replace (p ++ L "." ++ m ++ L ":" ++ c) with ((p ++ 46%N :: m) ++ 58%N :: c) by (rewrite <- app_assoc; reflexivity).
  rewrite split_char_app.
  2:{ intro I. apply in_app_iff in I as [I|[I|I]]; [exact (H0 I)|discriminate I|exact (H1 I)]. }
  rewrite split_char_word by exact H2.
  replace ((p ++ 46%N :: m) ++ 58%N :: c) with (p ++ 46%N :: (m ++ 58%N :: c)) by (rewrite <- app_assoc; reflexivity).
  rewrite rfind_dot_last.
  2:{ intro I. apply in_app_iff in I as [I|[I|I]]; [exact (H3 I)|discriminate I|exact (H4 I)]. }
  f_equal.
  - rewrite firstn_app, Nat.sub_diag, firstn_all. cbn [firstn]. apply app_nil_r.
  - replace (p ++ 46%N :: m) with ((p ++ [46%N]) ++ m) by (rewrite <- app_assoc; reflexivity).
    replace (S (length p)) with (length (p ++ [46%N])) by (rewrite app_length; cbn; lia).
    rewrite skipn_app, skipn_all, Nat.sub_diag. reflexivity.
Qed.
