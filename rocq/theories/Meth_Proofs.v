(** Proofs about Meth_Model.v. *)
From Verif Require Import Base PyStr Meth_Model Meth_Spec.

Lemma str_eqb_refl' : forall s, str_eqb s s = true.
Proof. intro s. destruct (str_eqb_spec s s); congruence. Qed.
Lemma str_eqb_ne : forall a b, a <> b -> str_eqb a b = false.
Proof. intros a b H. destruct (str_eqb_spec a b); congruence. Qed.
Lemma mem_spec : forall x l, mem x l = true <-> In x l.
Proof.
  intros x l. unfold mem. rewrite existsb_exists. split.
  - intros (y & A & B). destruct (str_eqb_spec x y) as [E|]; [subst; exact A|discriminate].
  - intro A. exists x. split; [exact A|apply str_eqb_refl'].
Qed.
Lemma mem_false : forall x l, ~ In x l -> mem x l = false.
Proof. intros x l H. destruct (mem x l) eqn:E; [|reflexivity]. apply mem_spec in E. contradiction. Qed.

(** ** Reading parameters *)

Lemma pname_chars : forall n c, pname n = true -> In c n -> c <> 42%N /\ is_space c = false.
Proof.
  intros n c P I. destruct n as [|x n]; [discriminate|]. unfold pname in P.
  rewrite forallb_forall in P. specialize (P _ I). apply andb_true_iff in P as [A B].
  apply negb_true_iff in A, B. split; [|exact B]. intro; subst. discriminate.
Qed.

Lemma pname_strip_pre : forall pre n, pname n = true -> Forall (fun c => is_space c = false) pre ->
  strip (pre ++ n) = pre ++ n.
Proof.
  intros pre n P F. assert (A : Forall (fun c => is_space c = false) (pre ++ n)).
  { apply Forall_app; split; [exact F|]. apply Forall_forall. intros c I. apply (pname_chars n c P I). }
  assert (K : forall s, Forall (fun c => is_space c = false) s -> lstrip s = s).
  { intros [|c s] H; [reflexivity|]. inversion H; subst. simpl. rewrite H2. reflexivity. }
  unfold strip, rstrip. rewrite (K _ A). rewrite K; [apply rev_involutive|]. apply Forall_rev. exact A.
Qed.

Lemma replace_none : forall p q r s, Forall (fun c => c <> p) s -> replace_aux 0 (p :: q) r s = s.
Proof.
  induction s as [|c s IH]; intro F; [reflexivity|]. inversion F; subst.
  cbn [replace_aux starts_with]. destruct (N.eqb_spec p c); [congruence|]. simpl. rewrite IH; auto.
Qed.

Lemma pname_nostar : forall n, pname n = true -> Forall (fun c => c <> 42%N) n.
Proof. intros n P. apply Forall_forall. intros c I. apply (pname_chars n c P I). Qed.

Lemma pname_first : forall n, pname n = true -> exists c r, n = c :: r /\ c <> 42%N.
Proof.
  intros [|c r] P; [discriminate|]. exists c, r. split; [reflexivity|].
  apply (pname_chars _ c P). left; reflexivity.
Qed.

Lemma read_par_inv : forall n dv p, read_par (n, dv) = Some p ->
  pname (par_name p) = true /\
  match p with
  | PPlain m d => n = m /\ dv = d
  | PStar m => n = 42%N :: m /\ dv = None
  | PDStar m => n = 42%N :: 42%N :: m /\ dv = None
  end.
Proof.
  intros n dv p H. unfold read_par, named in H.
  destruct (starts_with (L "**") n) eqn:A.
  - destruct dv; [discriminate|]. destruct n as [|a [|b n]]; [discriminate| |].
    + change (starts_with (L "**") [a]) with (N.eqb 42 a && false) in A. rewrite andb_false_r in A. discriminate.
    + change (starts_with (L "**") (a :: b :: n)) with (N.eqb 42 a && (N.eqb 42 b && true)) in A.
      apply andb_true_iff in A as [A1 A2]. apply andb_true_iff in A2 as [A2 _].
      apply N.eqb_eq in A1, A2. subst a b. cbn [skipn] in H. destruct (pname n) eqn:E; [|discriminate].
      inversion H; subst. auto.
  - destruct (starts_with (L "*") n) eqn:B.
    + destruct dv; [discriminate|]. destruct n as [|a n]; [discriminate|].
      change (starts_with (L "*") (a :: n)) with (N.eqb 42 a && true) in B.
      apply andb_true_iff in B as [B _]. apply N.eqb_eq in B. subst a. cbn [skipn] in H.
      destruct (pname n) eqn:E; [|discriminate]. inversion H; subst. auto.
    + destruct (pname n) eqn:E; [|discriminate]. inversion H; subst. auto.
Qed.

Lemma read_pars_app : forall a b,
  read_pars (a ++ b) = match read_pars a, read_pars b with Some p, Some q => Some (p ++ q) | _, _ => None end.
Proof.
  induction a as [|x a IH]; intros b; cbn [read_pars app].
  - destruct (read_pars b); reflexivity.
  - rewrite IH. destruct (read_par x), (read_pars a), (read_pars b); reflexivity.
Qed.

(** The loop that looks for stars, on parameters. *)
Fixpoint sc (ps : list par) (pos : pystr) : pystr * pystr :=
  match ps with
  | [] => ([], pos)
  | PPlain _ _ :: r => sc r pos
  | PStar n :: r => sc r n
  | PDStar n :: _ => (n, pos)
  end.

Lemma star_scan_sc : forall args ps pos, read_pars args = Some ps -> star_scan args pos = sc ps pos.
Proof.
  induction args as [|[n dv] args IH]; intros ps pos H; cbn [read_pars] in H.
  - inversion H. reflexivity.
  - destruct (read_par (n, dv)) as [p|] eqn:P; [|discriminate].
    destruct (read_pars args) as [qs|] eqn:Q; [|discriminate]. inversion H; subst ps. clear H.
    destruct (read_par_inv _ _ _ P) as [PN K]. cbn [star_scan]. cbv zeta.
    destruct p as [m d|m|m]; cbn [par_name] in PN; destruct K as [-> ->].
    + pose proof (pname_strip_pre [] m PN ltac:(auto)) as SP. cbn [app] in SP. rewrite SP.
      destruct (pname_first _ PN) as (c & r & -> & NE).
      change (starts_with (L "**") (c :: r)) with (N.eqb 42 c && starts_with (L "*") r).
      change (starts_with (L "*") (c :: r)) with (N.eqb 42 c && true).
      replace (N.eqb 42 c) with false by (symmetry; apply N.eqb_neq; congruence).
      cbn [andb sc]. apply IH. reflexivity.
    + pose proof (pname_strip_pre [42%N] m PN ltac:(auto)) as SP. cbn [app] in SP. rewrite SP.
      destruct (pname_first _ PN) as (c & r & E & NE).
      assert (A : starts_with (L "**") (42%N :: m) = false).
      { rewrite E. change (starts_with (L "**") (42%N :: c :: r)) with (N.eqb 42 42 && (N.eqb 42 c && true)).
        replace (N.eqb 42 c) with false by (symmetry; apply N.eqb_neq; congruence). reflexivity. }
      rewrite A. change (starts_with (L "*") (42%N :: m)) with true. cbn [sc].
      assert (B : replace_str (L "*") [] (42%N :: m) = m).
      { unfold replace_str. change (L "*") with [42%N]. cbn [replace_aux starts_with]. simpl (N.eqb 42 42 && true).
        cbn [length Nat.sub app]. apply replace_none, pname_nostar, PN. }
      rewrite B. apply IH. reflexivity.
    + pose proof (pname_strip_pre [42%N; 42%N] m PN ltac:(auto)) as SP. cbn [app] in SP. rewrite SP.
      change (starts_with (L "**") (42%N :: 42%N :: m)) with true. cbn [sc].
      assert (B : replace_str (L "**") [] (42%N :: 42%N :: m) = m).
      { unfold replace_str. change (L "**") with [42%N; 42%N]. cbn [replace_aux starts_with length Nat.sub].
        simpl (N.eqb 42 42 && (N.eqb 42 42 && true)). cbn [app].
        apply replace_none, pname_nostar, PN. }
      rewrite B. reflexivity.
Qed.

Lemma read_names : forall args ps x, read_pars args = Some ps -> pname x = true ->
  (In x (map fst args) <-> exists d, In (PPlain x d) ps).
Proof.
  induction args as [|[n dv] args IH]; intros ps x H X; cbn [read_pars] in H.
  - inversion H. simpl. split; [tauto|intros (? & [])].
  - destruct (read_par (n, dv)) as [p|] eqn:P; [|discriminate].
    destruct (read_pars args) as [qs|] eqn:Q; [|discriminate]. inversion H; subst ps. clear H.
    destruct (read_par_inv _ _ _ P) as [PN K]. specialize (IH _ x eq_refl X). simpl. rewrite IH.
    destruct (pname_first _ X) as (c & r & -> & NE).
    destruct p as [m d|m|m]; cbn [par_name] in PN; destruct K as [-> ->].
    + split.
      * intros [->|(e & I)]; [exists d; auto|exists e; auto].
      * intros (e & [E|I]); [inversion E; auto|right; exists e; exact I].
    + split.
      * intros [E|(e & I)]; [inversion E; congruence|exists e; auto].
      * intros (e & [E|I]); [discriminate|right; exists e; exact I].
    + split.
      * intros [E|(e & I)]; [inversion E; congruence|exists e; auto].
      * intros (e & [E|I]); [discriminate|right; exists e; exact I].
Qed.

(** ** The shape of the signature *)

Inductive extra_of (st : mset) (d : mdesc) (ps : list par) : list par -> bool -> pystr -> Prop :=
| X_own : forall n, In (PDStar n) ps -> d_name d <> L "respond" -> st_kws st = true ->
          extra_of st d ps [] true n
| X_kws : no_dstar ps -> d_name d <> L "respond" -> st_kws st = true ->
          extra_of st d ps [PDStar (L "KWS")] true (L "KWS")
| X_trans : no_dstar ps -> no_star ps -> d_name d = L "respond" \/ st_kws st = false ->
            extra_of st d ps [PPlain (L "trans") (Some (L "None"))] true []
| X_off : forall n, (~ no_dstar ps \/ ~ no_star ps) -> d_name d = L "respond" \/ st_kws st = false ->
          extra_of st d ps [] false n.

Lemma sc_dstar : forall ps pos, ordered false false ps = true \/ True ->
  forall kw q, sc ps pos = (kw, q) -> Forall (fun p => pname (par_name p) = true) ps ->
  match kw with
  | [] => no_dstar ps /\ (q = [] <-> pos = [] /\ no_star ps)
  | _ => In (PDStar kw) ps
  end.
Proof.
  induction ps as [|p ps IH]; intros pos _ kw q H F; simpl in H.
  - inversion H; subst. split; [intros n []|]. split; [intro; split; [auto|intros n []]|tauto].
  - inversion F; subst. destruct p as [m d|m|m].
    + specialize (IH pos (or_intror I) kw q H H3). destruct kw; [|right; exact IH].
      destruct IH as [A B]. split.
      * intros n [E|E]; [discriminate|exact (A n E)].
      * rewrite B. split; intros [C D]; split; auto; intros n G.
        -- destruct G as [G|G]; [discriminate|exact (D n G)].
        -- exact (D n (or_intror G)).
    + specialize (IH m (or_intror I) kw q H H3). destruct kw; [|right; exact IH].
      destruct IH as [A B]. split.
      * intros n [E|E]; [discriminate|exact (A n E)].
      * split.
        -- intro C. apply B in C as [C _]. subst m. discriminate.
        -- intros [_ D]. exfalso. exact (D m (or_introl eq_refl)).
    + inversion H; subst. cbn [par_name] in H2. destruct kw; [discriminate|]. left; reflexivity.
Qed.

Lemma read_pars_pname : forall args ps, read_pars args = Some ps -> Forall (fun p => pname (par_name p) = true) ps.
Proof.
  induction args as [|[n dv] args IH]; intros ps H; cbn [read_pars] in H.
  - inversion H. constructor.
  - destruct (read_par (n, dv)) as [p|] eqn:P; [|discriminate].
    destruct (read_pars args) as [qs|] eqn:Q; [|discriminate]. inversion H; subst ps.
    constructor; [apply (read_par_inv _ _ _ P)|apply IH; reflexivity].
Qed.

Lemma read_pars_kws : read_pars [(L "**KWS", None)] = Some [PDStar (L "KWS")].
Proof. reflexivity. Qed.
Lemma read_pars_trans : read_pars [(L "trans", Some (L "None"))] = Some [PPlain (L "trans") (Some (L "None"))].
Proof. reflexivity. Qed.

(** What [cleanupState] adds. *)
Lemma add_trans_shape : forall st d ps, read_pars (d_user d) = Some ps ->
  (forall dv, ~ In (PPlain (L "trans") dv) ps) ->
  exists extra args' streaming kw,
    add_trans st d = (args0 d ++ args', streaming, kw) /\ read_pars args' = Some extra /\
    extra_of st d ps extra streaming kw /\
    (streaming = true -> use_kws st d (args0 d ++ args') = match kw with [] => false | _ => true end) /\
    (args' = [] \/ args' = [(L "**KWS", None)] \/ args' = [(L "trans", Some (L "None"))]).
Proof.
  intros st d ps R NT. unfold add_trans. cbv zeta.
  pose proof (read_pars_pname _ _ R) as F.
  assert (SS : star_scan (args0 d) [] = sc ps []).
  { rewrite (star_scan_sc (args0 d) (PPlain (L "self") None :: ps)); [reflexivity|].
    unfold args0. cbn [read_pars]. rewrite R. reflexivity. }
  rewrite SS. destruct (sc ps []) as [kw q] eqn:SC. pose proof (sc_dstar ps [] (or_intror I) kw q SC F) as K.
  assert (U : forall args', args' = [] \/ args' = [(L "**KWS", None)] ->
              use_kws st d (args0 d ++ args') = negb (str_eqb (d_name d) (L "respond")) && st_kws st).
  { intros args' O. unfold use_kws. rewrite mem_false; [rewrite andb_true_r; reflexivity|].
    rewrite map_app, in_app_iff. intros [I|I].
    - cbn [args0 map fst] in I. destruct I as [I|I]; [discriminate|].
      apply (read_names _ _ (L "trans") R eq_refl) in I as (e & I). exact (NT e I).
    - destruct O as [->| ->]; [destruct I|]. destruct I as [I|[]]. discriminate. }
  pose proof (U [] (or_introl eq_refl)) as U0. rewrite app_nil_r in U0.
  pose proof (U [(L "**KWS", None)] (or_intror eq_refl)) as U1.
  destruct (negb (str_eqb (d_name d) (L "respond")) && st_kws st) eqn:UB.
  - assert (D : d_name d <> L "respond" /\ st_kws st = true).
    { apply andb_true_iff in UB as [A B]. split; [|exact B]. intro E. rewrite E in A. discriminate. }
    destruct D as [D1 D2]. destruct kw as [|c kw].
    + rewrite U0. rewrite U1. exists [PDStar (L "KWS")], [(L "**KWS", None)], true, (L "KWS").
      split; [reflexivity|]. split; [reflexivity|]. split; [constructor; tauto|].
      split; [intros _; exact U1|tauto].
    + rewrite U0. exists [], [], true, (c :: kw). rewrite app_nil_r.
      split; [reflexivity|]. split; [reflexivity|]. split; [constructor; auto|]. split; [intros _; exact U0|tauto].
  - assert (D : d_name d = L "respond" \/ st_kws st = false).
    { apply andb_false_iff in UB as [A|A]; [left|right; exact A].
      apply negb_false_iff in A. destruct (str_eqb_spec (d_name d) (L "respond")); [assumption|discriminate]. }
    destruct kw as [|c kw].
    + rewrite U0. rewrite U0. destruct K as [K1 K2]. destruct q as [|c q].
      * exists [PPlain (L "trans") (Some (L "None"))], [(L "trans", Some (L "None"))], true, [].
        split; [reflexivity|]. split; [reflexivity|]. split; [constructor; tauto|]. split; [|tauto].
        intros _. unfold use_kws. assert (M : mem (L "trans") (map fst (args0 d ++ [(L "trans", Some (L "None"))])) = true).
        { apply mem_spec. rewrite map_app, in_app_iff. right. left. reflexivity. }
        rewrite M. cbn [negb]. rewrite andb_false_r. reflexivity.
      * exists [], [], false, []. rewrite app_nil_r. split; [reflexivity|]. split; [reflexivity|].
        split; [constructor; [|exact D]|split; [discriminate|tauto]].
        right. intro NS. assert (Z : c :: q = []) by (apply K2; auto). discriminate.
    + rewrite U0. exists [], [], false, (c :: kw). rewrite app_nil_r. split; [reflexivity|]. split; [reflexivity|].
      split; [constructor; [|exact D]|split; [discriminate|tauto]].
      left. intro ND. exact (ND _ K).
Qed.

(** The parameter for the object. *)
Definition first_par (d : mdesc) : list par :=
  if is_class d then [PPlain (L "cls") None] else if is_static d then [] else [PPlain (L "self") None].

Lemma sig_id : forall d l, ~ In (L "self") (map fst l) -> flat_map (sig_arg d) l = l.
Proof.
  induction l as [|[n dv] l IH]; intro H; [reflexivity|]. cbn [flat_map]. simpl in H.
  assert (A : sig_arg d (n, dv) = [(n, dv)]).
  { unfold sig_arg. rewrite (str_eqb_ne n (L "self")) by tauto. cbn [andb].
    rewrite (str_eqb_ne n (L "self")) by tauto. reflexivity. }
  rewrite A, IH by tauto. reflexivity.
Qed.

Lemma sig_shape : forall st d ps, read_pars (d_user d) = Some ps -> unreserved ps ->
  exists extra streaming kw, read_pars (sig_args st d) = Some (first_par d ++ ps ++ extra) /\
    extra_of st d ps extra streaming kw /\
    exists args', add_trans st d = (args0 d ++ args', streaming, kw) /\ read_pars args' = Some extra /\
      (streaming = true -> use_kws st d (args0 d ++ args') = match kw with [] => false | _ => true end).
Proof.
  intros st d ps R U.
  assert (NR : forall x dv, In x reserved -> ~ In (PPlain x dv) ps).
  { intros x dv I J. exact (U _ J I). }
  destruct (add_trans_shape st d ps R (fun dv => NR (L "trans") dv ltac:(simpl; tauto)))
    as (extra & args' & str & kw & A & B & C & D & O).
  exists extra, str, kw. split; [|split; [exact C|exists args'; auto]].
  unfold sig_args. rewrite A. cbn [fst]. unfold args0. cbn [app flat_map].
  pose proof (sig_id d (d_user d ++ args')) as Z. unfold arg in *. rewrite Z; clear Z.
  2:{ rewrite map_app, in_app_iff. intros [I|I].
      - apply (read_names _ _ (L "self") R eq_refl) in I as (e & I). revert I. apply NR. simpl; tauto.
      - destruct O as [->|[->| ->]]; [destruct I| |]; destruct I as [I|[]]; discriminate. }
  unfold first_par, sig_arg. change (str_eqb (L "self") (L "self")) with true. cbn [andb].
  destruct (is_class d).
  - change (str_eqb (L "cls") (L "self")) with false. cbn [andb app].
    change ((L "cls", None) :: d_user d ++ args') with ([(L "cls", @None pystr)] ++ d_user d ++ args').
    rewrite !read_pars_app, R, B. reflexivity.
  - change (str_eqb (L "self") (L "self")) with true. cbn [andb]. destruct (is_static d).
    + cbn [app]. rewrite read_pars_app, R, B. reflexivity.
    + change ((L "self", None) :: d_user d ++ args') with ([(L "self", @None pystr)] ++ d_user d ++ args').
      cbn [app]. change ((L "self", None) :: d_user d ++ args') with ([(L "self", @None pystr)] ++ d_user d ++ args').
      rewrite !read_pars_app, R, B. reflexivity.
Qed.

(** ** The signature is valid *)

Lemma NoDup_snoc' : forall (l : list pystr) x, NoDup l -> ~ In x l -> NoDup (l ++ [x]).
Proof.
  induction l as [|y l IH]; intros x N I; simpl.
  - constructor; [intros []|constructor].
  - inversion N; subst. constructor.
    + rewrite in_app_iff. intros [J|[J|[]]]; [contradiction|]. subst. apply I. left; reflexivity.
    + apply IH; [assumption|]. intro J. apply I. right; exact J.
Qed.

Lemma ordered_trans : forall ps d s v n, no_dstar ps -> ordered d s ps = true ->
  ordered d s (ps ++ [PPlain n (Some v)]) = true.
Proof.
  induction ps as [|p ps IH]; intros d s v n ND H; [reflexivity|].
  assert (ND' : no_dstar ps) by (intros m I; exact (ND m (or_intror I))).
  destruct p as [m [e|]|m|m]; cbn [ordered app] in *; auto.
  - apply andb_true_iff in H as [A B]. rewrite A. simpl. auto.
  - apply andb_true_iff in H as [A B]. rewrite A. simpl. auto.
  - exfalso. exact (ND m (or_introl eq_refl)).
Qed.
Lemma ordered_kws : forall ps d s n, no_dstar ps -> ordered d s ps = true ->
  ordered d s (ps ++ [PDStar n]) = true.
Proof.
  induction ps as [|p ps IH]; intros d s n ND H; [reflexivity|].
  assert (ND' : no_dstar ps) by (intros m I; exact (ND m (or_intror I))).
  destruct p as [m [e|]|m|m]; cbn [ordered app] in *; auto.
  - apply andb_true_iff in H as [A B]. rewrite A. simpl. auto.
  - apply andb_true_iff in H as [A B]. rewrite A. simpl. auto.
  - exfalso. exact (ND m (or_introl eq_refl)).
Qed.

Lemma signature_valid : forall st d ps, read_pars (d_user d) = Some ps -> valid ps -> unreserved ps ->
  exists sig, read_pars (sig_args st d) = Some sig /\ valid sig.
Proof.
  intros st d ps R [ND OR] U.
  destruct (sig_shape st d ps R U) as (extra & str & kw & A & X & _).
  exists (first_par d ++ ps ++ extra). split; [exact A|].
  assert (NI : forall x, In x reserved -> ~ In x (map par_name ps)).
  { intros x I J. apply in_map_iff in J as (p & <- & J). exact (U _ J I). }
  assert (V1 : NoDup (map par_name (ps ++ extra)) /\ ordered false false (ps ++ extra) = true).
  { destruct X.
    - rewrite app_nil_r. auto.
    - split; [|apply ordered_kws; auto]. rewrite map_app. apply NoDup_snoc'; [exact ND|]. apply NI. simpl; tauto.
    - split; [|apply ordered_trans; auto]. rewrite map_app. apply NoDup_snoc'; [exact ND|]. apply NI. simpl; tauto.
    - rewrite app_nil_r. auto. }
  destruct V1 as [V1 V2].
  assert (NE : forall x, In x [L "self"; L "cls"] -> ~ In x (map par_name (ps ++ extra))).
  { intros x I. rewrite map_app, in_app_iff. intros [J|J].
    - revert J. apply NI. simpl in I |- *. tauto.
    - destruct X; simpl in J; destruct I as [<-|[<-|[]]]; try destruct J as [J|[]]; try discriminate; tauto. }
  unfold first_par. destruct (is_class d); [|destruct (is_static d)]; cbn [app].
  - split; [|cbn [ordered]; exact V2]. cbn [map par_name]. constructor; [apply NE; simpl; tauto|exact V1].
  - split; assumption.
  - split; [|cbn [ordered]; exact V2]. cbn [map par_name]. constructor; [apply NE; simpl; tauto|exact V1].
Qed.

(** ** Calls *)

Section Calls.
Context {V : Type}.
Implicit Types kws : list (pystr * V).

Lemma kw_get_withtr : forall n tr kws, n <> L "trans" -> kw_get n (withtr tr kws) = kw_get n kws.
Proof.
  intros n [t|] kws H; [|reflexivity]. cbn [withtr kw_get]. rewrite str_eqb_ne by congruence. reflexivity.
Qed.
Lemma kw_del_withtr : forall n tr kws, n <> L "trans" -> kw_del n (withtr tr kws) = withtr tr (kw_del n kws).
Proof.
  intros n [t|] kws H; [|reflexivity]. unfold kw_del. cbn [withtr filter fst].
  rewrite str_eqb_ne by congruence. reflexivity.
Qed.

Lemma bind_ext : forall ps pos kws env tr tail res, no_dstar ps ->
  (forall dv, ~ In (PPlain (L "trans") dv) ps) ->
  bind tail [] (withtr tr []) = Some res ->
  bind ps pos kws = Some env -> bind (ps ++ tail) pos (withtr tr kws) = Some (env ++ res).
Proof.
  induction ps as [|p ps IH]; intros pos kws env tr tail res ND NT BT H; cbn [bind app] in *.
  - destruct pos; [|discriminate]. destruct kws; [|discriminate]. inversion H; subst. exact BT.
  - assert (ND' : no_dstar ps) by (intros m I; exact (ND m (or_intror I))).
    assert (NT' : forall dv, ~ In (PPlain (L "trans") dv) ps) by (intros dv I; exact (NT dv (or_intror I))).
    destruct p as [m d|m|m].
    + assert (NM : m <> L "trans") by (intro E; subst m; exact (NT d (or_introl eq_refl))).
      rewrite (kw_get_withtr m tr kws NM), (kw_del_withtr m tr kws NM).
      destruct pos as [|v pos].
      * destruct (kw_get m kws) as [v|].
        -- destruct (bind ps [] (kw_del m kws)) as [e|] eqn:B; [|discriminate]. inversion H; subst.
           rewrite (IH _ _ e tr tail res ND' NT' BT B). reflexivity.
        -- destruct d as [d|]; [|discriminate]. destruct (bind ps [] kws) as [e|] eqn:B; [|discriminate].
           inversion H; subst. rewrite (IH _ _ e tr tail res ND' NT' BT B). reflexivity.
      * destruct (kw_get m kws); [discriminate|]. destruct (bind ps pos kws) as [e|] eqn:B; [|discriminate].
        inversion H; subst. rewrite (IH _ _ e tr tail res ND' NT' BT B). reflexivity.
    + destruct (bind ps [] kws) as [e|] eqn:B; [|discriminate]. inversion H; subst.
      rewrite (IH _ _ e tr tail res ND' NT' BT B). reflexivity.
    + exfalso. exact (ND m (or_introl eq_refl)).
Qed.

Lemma bind_own : forall ps pos kws env tr n, In (PDStar n) ps ->
  (forall dv, ~ In (PPlain (L "trans") dv) ps) ->
  bind ps pos kws = Some env ->
  bind ps pos (withtr tr kws) = Some (map (fun kv => (fst kv, add_tr tr (snd kv))) env) /\
  (ordered false false ps = true \/ True).
Proof.
  intros ps pos kws env tr n I NT H. split; [|auto]. revert pos kws env I NT H.
  induction ps as [|p ps IH]; intros pos kws env I NT H; [destruct I|]. cbn [bind] in *.
  assert (NT' : forall dv, ~ In (PPlain (L "trans") dv) ps) by (intros dv J; exact (NT dv (or_intror J))).
  destruct p as [m d|m|m].
  - assert (J : In (PDStar n) ps) by (destruct I as [I|I]; [discriminate|exact I]).
    assert (NM : m <> L "trans") by (intro E; subst m; exact (NT d (or_introl eq_refl))).
    rewrite (kw_get_withtr m tr kws NM), (kw_del_withtr m tr kws NM).
    destruct pos as [|v pos].
    + destruct (kw_get m kws) as [v|].
      * destruct (bind ps [] (kw_del m kws)) as [e|] eqn:B; [|discriminate]. inversion H; subst.
        rewrite (IH _ _ e J NT' B). reflexivity.
      * destruct d as [d|]; [|discriminate]. destruct (bind ps [] kws) as [e|] eqn:B; [|discriminate].
        inversion H; subst. rewrite (IH _ _ e J NT' B). reflexivity.
    + destruct (kw_get m kws); [discriminate|]. destruct (bind ps pos kws) as [e|] eqn:B; [|discriminate].
      inversion H; subst. rewrite (IH _ _ e J NT' B). reflexivity.
  - assert (J : In (PDStar n) ps) by (destruct I as [I|I]; [discriminate|exact I]).
    destruct (bind ps [] kws) as [e|] eqn:B; [|discriminate]. inversion H; subst.
    rewrite (IH _ _ e J NT' B). reflexivity.
  - destruct pos; [|discriminate]. inversion H; subst. reflexivity.
Qed.

Lemma bind_names : forall ps pos kws env dfl str, ordered dfl str ps = true -> bind ps pos kws = Some env ->
  map fst env = map par_name ps.
Proof.
  induction ps as [|p ps IH]; intros pos kws env dfl str O H; cbn [bind] in H.
  - destruct pos; [|discriminate]. destruct kws; [|discriminate]. inversion H. reflexivity.
  - assert (K : forall p' k e dfl' str', ordered dfl' str' ps = true -> bind ps p' k = Some e ->
                map fst e = map par_name ps) by (intros; eapply IH; eauto).
    assert (O' : match p with PDStar _ => ps = [] | _ => exists a b, ordered a b ps = true end).
    { destruct p as [m [d|]|m|m]; cbn [ordered] in O.
      - eauto.
      - apply andb_true_iff in O as [_ O]. eauto.
      - apply andb_true_iff in O as [_ O]. eauto.
      - destruct ps; [reflexivity|discriminate]. }
    destruct p as [m d|m|m].
    + destruct O' as (a & b & O'). destruct pos as [|v pos].
      * destruct (kw_get m kws) as [v|].
        -- destruct (bind ps [] (kw_del m kws)) as [e|] eqn:B; [|discriminate]. inversion H; subst.
           cbn [map fst par_name]. f_equal. eapply K; eauto.
        -- destruct d as [d|]; [|discriminate]. destruct (bind ps [] kws) as [e|] eqn:B; [|discriminate].
           inversion H; subst. cbn [map fst par_name]. f_equal. eapply K; eauto.
      * destruct (kw_get m kws); [discriminate|]. destruct (bind ps pos kws) as [e|] eqn:B; [|discriminate].
        inversion H; subst. cbn [map fst par_name]. f_equal. eapply K; eauto.
    + destruct O' as (a & b & O'). destruct (bind ps [] kws) as [e|] eqn:B; [|discriminate]. inversion H; subst.
      cbn [map fst par_name]. f_equal. eapply K; eauto.
    + destruct pos; [|discriminate]. inversion H; subst. reflexivity.
Qed.

(** A dictionary of the remaining keywords, in the bindings. *)
Lemma bind_dict : forall ps pos kws env n dfl str, In (PDStar n) ps -> ordered dfl str ps = true ->
  bind ps pos kws = Some env -> exists l, In (n, BDict l) env.
Proof.
  induction ps as [|p ps IH]; intros pos kws env n dfl str I O H; [destruct I|]. cbn [bind] in H.
  assert (O' : match p with PDStar _ => ps = [] | _ => exists a b, ordered a b ps = true end).
  { destruct p as [m [d|]|m|m]; cbn [ordered] in O.
    - eauto.
    - apply andb_true_iff in O as [_ O]. eauto.
    - apply andb_true_iff in O as [_ O]. eauto.
    - destruct ps; [reflexivity|discriminate]. }
  destruct p as [m d|m|m].
  - assert (J : In (PDStar n) ps) by (destruct I as [I|I]; [discriminate|exact I]).
    destruct O' as (a & b & O'). destruct pos as [|v pos].
    + destruct (kw_get m kws) as [v|].
      * destruct (bind ps [] (kw_del m kws)) as [e|] eqn:B; [|discriminate]. inversion H; subst.
        destruct (IH _ _ e _ _ _ J O' B) as (l & K). exists l. right; exact K.
      * destruct d as [d|]; [|discriminate]. destruct (bind ps [] kws) as [e|] eqn:B; [|discriminate].
        inversion H; subst. destruct (IH _ _ e _ _ _ J O' B) as (l & K). exists l. right; exact K.
    + destruct (kw_get m kws); [discriminate|]. destruct (bind ps pos kws) as [e|] eqn:B; [|discriminate].
      inversion H; subst. destruct (IH _ _ e _ _ _ J O' B) as (l & K). exists l. right; exact K.
  - assert (J : In (PDStar n) ps) by (destruct I as [I|I]; [discriminate|exact I]).
    destruct O' as (a & b & O').
    destruct (bind ps [] kws) as [e|] eqn:B; [|discriminate]. inversion H; subst.
    destruct (IH _ _ e _ _ _ J O' B) as (l & K). exists l. right; exact K.
  - subst ps. destruct pos; [|discriminate]. inversion H; subst. exists kws.
    destruct I as [I|[]]. inversion I. left; reflexivity.
Qed.
End Calls.

(** ** The code in front of the body *)

Ltac strs := repeat match goal with
  | |- context[str_eqb (L ?a) (L ?b)] =>
      let r := eval vm_compute in (str_eqb (L a) (L b)) in change (str_eqb (L a) (L b)) with r
  end.

Lemma run_app : forall out a b s, run out s (a ++ b) =
  match run out s a with Some (s, None) => run out s b | r => r end.
Proof.
  intros out a b. unfold run. induction a as [|x a IH]; intro s; [reflexivity|]. cbn [exec_list app].
  destruct (exec out s x) as [[s' [v|]]|]; [reflexivity| |reflexivity]. apply IH.
Qed.

Lemma name_of_get : forall s n v, kw_get n (s_env s) = Some v -> name_of s n = Some v.
Proof. intros s n v H. unfold name_of. rewrite H. reflexivity. Qed.
Lemma name_of_glob : forall s n, kw_get n (s_env s) = None -> existsb (str_eqb n) globals = true ->
  name_of s n = Some (VGlob n).
Proof. intros s n H G. unfold name_of. rewrite H, G. reflexivity. Qed.

Definition same_but (xs : list pystr) (s s' : state) : Prop :=
  forall n, ~ In n xs -> kw_get n (s_env s') = kw_get n (s_env s).

Definition e_self (a : string) : ex := EAttr (EName (L "self")) (L a).
Definition p_kw (kw : pystr) : list stm :=
  match kw with
  | [] => []
  | _ => [SSet (L "trans") (ECall1 (EAttr (EName kw) (L "get")) (EStr (L "trans")))]
  end.
Definition p_tx (auto : bool) : list stm :=
  [SIf (EPar (EAnd (EAnd (ENot (EName (L "trans"))) (ENot (e_self "_CHEETAH__isBuffering")))
             (ENot (ECall1 (EName (L "callable")) (e_self "transaction")))))
       [SSetNote (L "trans") (e_self "transaction") (L "is None unless self.awake() was called")];
   SIfElse (ENot (EName (L "trans")))
     (SSet (L "trans") (ECall0 (EName (L "DummyTransaction")))
      :: (if auto then [SAttr (L "self") (L "transaction") (EName (L "trans"))] else [])
      ++ [SSet (L "_dummyTrans") (EBool true)])
     (L "_dummyTrans") (EBool false)].
Definition p_new : list stm :=
  [SSet (L "trans") (ECall0 (EName (L "DummyTransaction"))); SSet (L "_dummyTrans") (EBool true)].
Definition p_write : list stm :=
  [SSet (L "write") (EAttr (ECall0 (EAttr (EName (L "trans")) (L "response"))) (L "write"))].
Definition p_notes : list stm :=
  [SNote []; SNote (repeat 35%N 40); SNote (L "## START - generated method body"); SNote []].

Section Setup.
Variable out : val -> pystr.

Lemma run_kw : forall kw s l, kw <> [] -> kw_get kw (s_env s) = Some (VDict l) ->
  run out s (p_kw kw)
  = Some (set_name (L "trans") (match kw_get (L "trans") l with Some v => v | None => VNone end) s, None).
Proof.
  intros kw s l NE H. destruct kw as [|c kw]; [congruence|]. unfold run, p_kw. cbn [exec_list exec eval].
  rewrite (name_of_get _ _ _ H). cbn [option_map attr_of]. strs. cbn [option_map call]. strs. reflexivity.
Qed.

Ltac fin := cbn [set_name s_env s_made s_attrs kw_get andb]; strs; unfold set_name; cbn [s_env s_made s_attrs];
  split; [first [reflexivity|assumption]|]; split; [first [reflexivity|assumption]|];
  split; [first [solve [eauto]]|]; split; reflexivity.

Lemma run_tx : forall auto s p buf tx,
  kw_get (L "trans") (s_env s) = Some p -> kw_get (L "self") (s_env s) = Some VSelf ->
  kw_get (L "DummyTransaction") (s_env s) = None -> kw_get (L "callable") (s_env s) = None ->
  kw_get (L "_CHEETAH__isBuffering") (s_attrs s) = Some buf -> kw_get (L "transaction") (s_attrs s) = Some tx ->
  exists s', run out s (p_tx auto) = Some (s', None) /\
    let '(t, d) := choose p buf tx (s_made s) in
    kw_get (L "trans") (s_env s') = Some t /\ kw_get (L "_dummyTrans") (s_env s') = Some (VBool d) /\
    same_but [L "trans"; L "_dummyTrans"] s s' /\
    s_made s' = (if d then S (s_made s) else s_made s) /\
    s_attrs s' = if d && auto then (L "transaction", t) :: s_attrs s else s_attrs s.
Proof.
  intros auto s p buf tx HT HS HD HC HB HX. unfold run, p_tx, choose.
  assert (NT := name_of_get _ _ _ HT). assert (NS := name_of_get _ _ _ HS).
  assert (ND := name_of_glob _ _ HD eq_refl). assert (NC := name_of_glob _ _ HC eq_refl).
  assert (SB : forall v w m, same_but [L "trans"; L "_dummyTrans"] s
     (mkState (s_attrs s) m ((L "_dummyTrans", v) :: (L "trans", w) :: s_env s))).
  { intros v w m n I. cbn [s_env kw_get]. simpl in I. rewrite !str_eqb_ne by (intro; subst; tauto). reflexivity. }
  assert (SB2 : forall v w w2 m a, same_but [L "trans"; L "_dummyTrans"] s
     (mkState a m ((L "_dummyTrans", v) :: (L "trans", w) :: (L "trans", w2) :: s_env s))).
  { intros v w w2 m a n I. cbn [s_env kw_get]. simpl in I. rewrite !str_eqb_ne by (intro; subst; tauto). reflexivity. }
  assert (SB3 : forall v w m a, same_but [L "trans"; L "_dummyTrans"] s
     (mkState a m ((L "_dummyTrans", v) :: (L "trans", w) :: s_env s))).
  { intros v w m a n I. cbn [s_env kw_get]. simpl in I. rewrite !str_eqb_ne by (intro; subst; tauto). reflexivity. }
  assert (SB1 : forall v m, same_but [L "trans"; L "_dummyTrans"] s
     (mkState (s_attrs s) m ((L "_dummyTrans", v) :: s_env s))).
  { intros v m n I. cbn [s_env kw_get]. simpl in I. rewrite !str_eqb_ne by (intro; subst; tauto). reflexivity. }
  cbn [exec_list exec eval e_self]. rewrite NT. cbn [option_map truth negb].
  destruct (truth p) eqn:TP.
  - cbn [negb truth exec_list]. cbn [exec eval]. rewrite NT. cbn [option_map]. rewrite TP. cbn [negb truth].
    eexists. split; [reflexivity|]. fin.
  - cbn [negb truth]. rewrite NS. cbn [option_map attr_of]. rewrite HB. cbn [option_map].
    destruct (truth buf) eqn:TB; cbn [negb truth andb exec_list].
    + (* buffering *)
      cbn [exec eval]. rewrite NT. cbn [option_map]. rewrite TP. cbn [negb truth exec_list exec eval].
      rewrite ND. cbn [option_map call]. strs. destruct auto.
      * cbn [app exec_list exec eval name_of s_env set_name kw_get s_attrs s_made]. strs. cbn [option_map].
        unfold name_of. cbn [s_env set_name kw_get s_attrs s_made]. strs. cbn [option_map].
        rewrite HS. eexists. split; [reflexivity|]. fin.
      * cbn [app exec_list exec eval]. eexists. split; [reflexivity|].
        fin.
    + rewrite NC. cbn [option_map eval]. rewrite NS. cbn [option_map attr_of]. rewrite HX. cbn [option_map call].
      strs. cbn [truth]. destruct (callable tx) eqn:CT; cbn [negb truth andb exec_list].
      * cbn [exec eval]. rewrite NT. cbn [option_map]. rewrite TP. cbn [negb truth exec_list exec eval].
        rewrite ND. cbn [option_map call]. strs. destruct auto.
        -- cbn [app exec_list exec eval set_name]. unfold name_of. cbn [s_env set_name kw_get s_attrs s_made]. strs.
           cbn [option_map]. rewrite HS. eexists. split; [reflexivity|].
           fin.
        -- cbn [app exec_list exec eval]. eexists. split; [reflexivity|].
           fin.
      * cbn [exec eval]. rewrite NS. cbn [option_map attr_of]. rewrite HX. cbn [option_map].
        unfold name_of at 1. cbn [set_name s_env kw_get]. strs. cbn [option_map].
        destruct (truth tx) eqn:TX; cbn [negb truth exec_list exec eval].
        -- eexists. split; [reflexivity|]. fin.
        -- unfold name_of at 1. cbn [set_name s_env kw_get]. strs. rewrite HD.
           change (existsb (str_eqb (L "DummyTransaction")) globals) with true. cbn [option_map call]. strs.
           destruct auto.
           ++ cbn [app exec_list exec eval set_name]. unfold name_of. cbn [s_env set_name kw_get s_attrs s_made]. strs.
              cbn [option_map]. rewrite HS. eexists. split; [reflexivity|].
              fin.
           ++ cbn [app exec_list exec eval]. eexists. split; [reflexivity|].
              fin.
Qed.
End Setup.

(** ** All of it *)

Lemma kw_get_in : forall {V} (l : list (pystr * V)) n v, NoDup (map fst l) -> In (n, v) l -> kw_get n l = Some v.
Proof.
  induction l as [|[k w] l IH]; intros n v N I; [destruct I|]. cbn [map fst] in N. inversion N; subst.
  cbn [kw_get]. destruct I as [I|I].
  - inversion I; subst. rewrite str_eqb_refl'. reflexivity.
  - rewrite str_eqb_ne; [apply IH; assumption|]. intro; subst. apply H1.
    apply (in_map fst) in I. exact I.
Qed.
Lemma kw_get_notin : forall {V} (l : list (pystr * V)) n, ~ In n (map fst l) -> kw_get n l = None.
Proof.
  induction l as [|[k w] l IH]; intros n H; [reflexivity|]. cbn [map fst] in H. cbn [kw_get].
  rewrite str_eqb_ne by (intro; subst; apply H; left; reflexivity). apply IH. intro I. apply H. right; exact I.
Qed.
Lemma env_of_fst : forall dv l, map fst (env_of dv l) = map fst l.
Proof. intros dv l. unfold env_of. rewrite map_map. reflexivity. Qed.
Lemma env_of_in : forall dv l n b, In (n, b) l -> In (n, bval_val dv b) (env_of dv l).
Proof. intros dv l n b I. unfold env_of. apply in_map_iff. exists (n, b). auto. Qed.

Lemma kw_get_del : forall {V} (l : list (pystr * V)) x n, kw_get x l = None -> kw_get x (kw_del n l) = None.
Proof.
  induction l as [|[k v] l IH]; intros x n H; [reflexivity|]. cbn [kw_get] in H. unfold kw_del. cbn [filter fst].
  destruct (str_eqb k x) eqn:E; [discriminate|]. destruct (str_eqb k n); cbn [negb].
  - apply IH. exact H.
  - cbn [kw_get]. rewrite E. apply IH. exact H.
Qed.

Lemma bind_dict_sub : forall {V} ps pos (kws : list (pystr * V)) env n l x,
  bind ps pos kws = Some env -> In (n, BDict l) env ->
  kw_get x kws = None -> kw_get x l = None.
Proof.
  intros V. induction ps as [|p ps IH]; intros pos kws env n l x H I G; cbn [bind] in H.
  - destruct pos; [|discriminate]. destruct kws; [|discriminate]. inversion H; subst. destruct I.
  - destruct p as [m d|m|m].
    + destruct pos as [|v pos].
      * destruct (kw_get m kws) as [v|].
        -- destruct (bind ps [] (kw_del m kws)) as [e|] eqn:B; [|discriminate]. inversion H; subst.
           destruct I as [I|I]; [discriminate|]. apply (IH _ _ _ _ _ x B I). apply kw_get_del, G.
        -- destruct d as [d|]; [|discriminate]. destruct (bind ps [] kws) as [e|] eqn:B; [|discriminate].
           inversion H; subst. destruct I as [I|I]; [discriminate|]. exact (IH _ _ _ _ _ x B I G).
      * destruct (kw_get m kws); [discriminate|]. destruct (bind ps pos kws) as [e|] eqn:B; [|discriminate].
        inversion H; subst. destruct I as [I|I]; [discriminate|]. exact (IH _ _ _ _ _ x B I G).
    + destruct (bind ps [] kws) as [e|] eqn:B; [|discriminate]. inversion H; subst.
      destruct I as [I|I]; [discriminate|]. exact (IH _ _ _ _ _ x B I G).
    + destruct pos; [|discriminate]. inversion H; subst. destruct I as [I|[]]. inversion I; subst. exact G.
Qed.
Lemma bind_nodict : forall {V} ps pos (kws : list (pystr * V)) env n l,
  no_dstar ps -> bind ps pos kws = Some env -> ~ In (n, BDict l) env.
Proof.
  intros V. induction ps as [|p ps IH]; intros pos kws env n l ND H I; cbn [bind] in H.
  - destruct pos; [|discriminate]. destruct kws; [|discriminate]. inversion H; subst. destruct I.
  - assert (ND' : no_dstar ps) by (intros m J; exact (ND m (or_intror J))). destruct p as [m d|m|m].
    + destruct pos as [|v pos].
      * destruct (kw_get m kws) as [v|].
        -- destruct (bind ps [] (kw_del m kws)) as [e|] eqn:B; [|discriminate]. inversion H; subst.
           destruct I as [I|I]; [discriminate|]. exact (IH _ _ _ _ _ ND' B I).
        -- destruct d as [d|]; [|discriminate]. destruct (bind ps [] kws) as [e|] eqn:B; [|discriminate].
           inversion H; subst. destruct I as [I|I]; [discriminate|]. exact (IH _ _ _ _ _ ND' B I).
      * destruct (kw_get m kws); [discriminate|]. destruct (bind ps pos kws) as [e|] eqn:B; [|discriminate].
        inversion H; subst. destruct I as [I|I]; [discriminate|]. exact (IH _ _ _ _ _ ND' B I).
    + destruct (bind ps [] kws) as [e|] eqn:B; [|discriminate]. inversion H; subst.
      destruct I as [I|I]; [discriminate|]. exact (IH _ _ _ _ _ ND' B I).
    + exact (ND m (or_introl eq_refl)).
Qed.

(** What a call binds. *)
Lemma call_extra : forall {V} st d ps extra str kw pos (kws : list (pystr * V)) env tr,
  Forall (fun p => pname (par_name p) = true) ps ->
  valid ps -> unreserved ps -> extra_of st d ps extra str kw -> (tr = None \/ str = true) ->
  kw_get (L "trans") kws = None -> bind ps pos kws = Some env ->
  exists envc, bind (ps ++ extra) pos (withtr tr kws) = Some envc /\
    (forall n b, In (n, b) env -> In (n, add_tr tr b) envc) /\
    (str = true -> match kw with
     | [] => In (L "trans", match tr with Some t => BVal t | None => BDflt (L "None") end) envc
     | _ => exists l, In (kw, BDict l) envc /\ kw_get (L "trans") l = tr
     end) /\
    (tr = None -> exists more, envc = env ++ more /\ forall n b, In (n, b) more -> b = BDict [] \/ b = BDflt (L "None")).
Proof.
  intros V st d ps extra str kw pos kws env tr FP VA U X TS G B.
  assert (NT : forall dv, ~ In (PPlain (L "trans") dv) ps).
  { intros dv I. apply (U _ I). simpl; tauto. }
  assert (AT : forall b : bval V, add_tr None b = b) by (intros [| | |]; reflexivity).
  destruct X as [n I D1 D2|ND D1 D2|ND NS D|n NS D].
  - rewrite app_nil_r. destruct (bind_own ps pos kws env tr n I NT B) as [BO _].
    exists (map (fun kv => (fst kv, add_tr tr (snd kv))) env). split; [exact BO|]. split; [|split].
    + intros m b J. apply in_map_iff. exists (m, b). auto.
    + intros _. destruct VA as [VA1 VA2]. destruct (bind_dict ps pos kws env n false false I VA2 B) as (l & J).
      assert (K : exists l0, In (n, BDict l0) (map (fun kv => (fst kv, add_tr tr (snd kv))) env)
                             /\ kw_get (L "trans") l0 = tr).
      { exists (withtr tr l). split.
        - apply in_map_iff. exists (n, BDict l). auto.
        - destruct tr as [t|]; [reflexivity|]. exact (bind_dict_sub _ _ _ _ _ _ _ B J G). }
      destruct n; [|exact K]. rewrite Forall_forall in FP. specialize (FP _ I). discriminate FP.
    + intros ->. exists []. rewrite app_nil_r. split; [|intros ? ? []].
      rewrite <- (map_id env) at 2. apply map_ext. intros [a b]. cbn [fst snd]. rewrite AT. reflexivity.
  - assert (BT : bind [PDStar (L "KWS")] [] (withtr tr []) = Some [(L "KWS", BDict (withtr tr []))]) by reflexivity.
    exists (env ++ [(L "KWS", BDict (withtr tr []))]). split; [apply (bind_ext _ _ _ _ _ _ _ ND NT BT B)|].
    split; [|split].
    + intros m b J. apply in_app_iff. left. destruct b; try exact J.
      exfalso. exact (bind_nodict _ _ _ _ _ _ ND B J).
    + intros _. cbn [L]. exists (withtr tr []). split; [apply in_app_iff; right; left; reflexivity|].
      destruct tr; reflexivity.
    + intros ->. eexists. split; [reflexivity|]. intros m b [J|[]]. inversion J. left; reflexivity.
  - assert (BT : bind [PPlain (L "trans") (Some (L "None"))] [] (withtr tr [])
                 = Some [(L "trans", match tr with Some t => BVal t | None => BDflt (L "None") end)]).
    { destruct tr; reflexivity. }
    exists (env ++ [(L "trans", match tr with Some t => BVal t | None => BDflt (L "None") end)]).
    split; [apply (bind_ext _ _ _ _ _ _ _ ND NT BT B)|]. split; [|split].
    + intros m b J. apply in_app_iff. left. destruct b; try exact J.
      exfalso. exact (bind_nodict _ _ _ _ _ _ ND B J).
    + intros _. apply in_app_iff. right. left. reflexivity.
    + intros ->. eexists. split; [reflexivity|]. intros m b [J|[]]. inversion J. right; reflexivity.
  - destruct TS as [->|TS]; [|discriminate]. rewrite app_nil_r. exists env. split; [exact B|]. split; [|split].
    + intros m b J. rewrite AT. exact J.
    + discriminate.
    + intros _. exists []. rewrite app_nil_r. split; [reflexivity|]. intros ? ? [].
Qed.

Lemma call_same : forall {V} st d ps sig pos (kws : list (pystr * V)) env v,
  read_pars (d_user d) = Some ps -> valid ps -> unreserved ps -> read_pars (sig_args st d) = Some sig ->
  bind ps pos kws = Some env ->
  kw_get (L "self") kws = None -> kw_get (L "cls") kws = None -> kw_get (L "trans") kws = None ->
  exists first more,
    bind sig ((if is_static d && negb (is_class d) then [] else [v]) ++ pos) kws = Some (first ++ env ++ more) /\
    (forall n b, In (n, b) first -> b = BVal v) /\
    (forall n b, In (n, b) more -> b = BDict [] \/ b = BDflt (L "None")).
Proof.
  intros V st d ps sig pos kws env v R VA U RS B GS GC GT.
  destruct (sig_shape st d ps R U) as (extra & str & kw & A & X & _).
  rewrite RS in A. inversion A; subst sig. clear A.
  destruct (call_extra st d ps extra str kw pos kws env None (read_pars_pname _ _ R) VA U X (or_introl eq_refl) GT B)
    as (envc & BC & _ & _ & K). destruct (K eq_refl) as (more & -> & M). cbn [withtr] in BC.
  unfold first_par. destruct (is_class d); [|destruct (is_static d)]; cbn [negb andb app].
  - exists [(L "cls", BVal v)], more. rewrite andb_false_r. cbn [bind app]. rewrite GC, BC. split; [reflexivity|]. split; [|exact M].
    intros n b [I|[]]. inversion I. reflexivity.
  - exists [], more. rewrite BC. split; [reflexivity|]. split; [intros n b []|exact M].
  - exists [(L "self", BVal v)], more. cbn [bind]. rewrite GS, BC. split; [reflexivity|]. split; [|exact M].
    intros n b [I|[]]. inversion I. reflexivity.
Qed.

Definition p_note (d : mdesc) : list stm := match d_note d with Some (c :: n) => [SNote (c :: n)] | _ => [] end.
Definition p_sl (st : mset) (names : list pystr) : list stm :=
  if st_nm st then
    if st_sl st && mem (L "SL") names then []
    else if st_sl st && mem (L "searchList") names then [SSet (L "SL") (EName (L "searchList"))]
    else [SSet (L "SL") (e_self "_CHEETAH__searchList")]
  else [].
Definition p_flt (st : mset) : list stm :=
  if st_filters st then [SSet (L "_filter") (e_self "_CHEETAH__currentFilter")] else [].
Definition prog (st : mset) (d : mdesc) (str : bool) (kw : pystr) (names : list pystr) : list stm :=
  p_note d ++ (if str then p_kw kw ++ p_tx (st_auto st) else p_new) ++ p_write ++ p_sl st names ++ p_flt st ++ p_notes.

Lemma prog_src : forall st d args str kw, is_class d = false -> is_static d = false ->
  add_trans st d = (args, str, kw) ->
  (str = true -> use_kws st d args = match kw with [] => false | _ => true end) ->
  flat_map stm_src (prog st d str kw (map fst args)) = setup_lines st d.
Proof.
  intros st d args str kw C S A K. unfold setup_lines, prog. rewrite A, C, S. cbv zeta. cbn [negb andb orb].
  rewrite !flat_map_app. f_equal; [unfold p_note; destruct (d_note d) as [[|]|]; reflexivity|].
  f_equal.
  { destruct str; cbn [andb]; [|reflexivity]. specialize (K eq_refl). rewrite flat_map_app, K. f_equal.
    - destruct kw as [|c kw]; [reflexivity|]. unfold p_kw. cbn [flat_map stm_src ex_src app].
      rewrite <- !app_assoc. reflexivity.
    - destruct (st_auto st); reflexivity. }
  f_equal. f_equal.
  { unfold p_sl. destruct (st_nm st); [|reflexivity].
    destruct (st_sl st && mem (L "SL") (map fst args)); [reflexivity|].
    destruct (st_sl st && mem (L "searchList") (map fst args)); reflexivity. }
  f_equal. unfold p_flt. destruct (st_filters st); reflexivity.
Qed.

Section Setup2.
Variable out : val -> pystr.

Lemma run_note : forall s d, match d_note d with Some t => is_note t = true | None => True end ->
  run out s (p_note d) = Some (s, None).
Proof.
  intros s d H. unfold p_note. destruct (d_note d) as [[|c n]|]; [reflexivity| |reflexivity].
  unfold run. cbn [exec_list exec]. rewrite H. reflexivity.
Qed.
Lemma run_notes : forall s, run out s p_notes = Some (s, None).
Proof. intro s. reflexivity. Qed.

Lemma run_new : forall s, kw_get (L "DummyTransaction") (s_env s) = None ->
  run out s p_new = Some (mkState (s_attrs s) (S (s_made s))
    ((L "_dummyTrans", VBool true) :: (L "trans", VTx (s_made s)) :: s_env s), None).
Proof.
  intros s H. unfold run, p_new. cbn [exec_list exec eval]. rewrite (name_of_glob _ _ H eq_refl).
  cbn [option_map call]. strs. reflexivity.
Qed.
Lemma run_write : forall s t, kw_get (L "trans") (s_env s) = Some t -> has_response t ->
  run out s p_write = Some (set_name (L "write") (VMeth (VResp t) (L "write")) s, None).
Proof.
  intros s t H R. unfold run, p_write. cbn [exec_list exec eval]. rewrite (name_of_get _ _ _ H).
  destruct t as [|b|w|i0 t0 c0|m|w|w m| |m| |w|w]; try contradiction; cbn [option_map attr_of]; strs; cbn [option_map call]; strs;
    cbn [option_map attr_of]; strs; reflexivity.
Qed.

Lemma choose_response : forall p buf tx made, tx_like p -> tx_like tx -> has_response (fst (choose p buf tx made)).
Proof.
  intros p buf tx made [->|P] [->|T]; unfold choose.
  - destruct (negb (truth buf) && negb (callable VNone) && truth VNone) eqn:E; cbn [truth]; [|exact I].
    rewrite andb_false_r in E. discriminate.
  - cbn [truth]. destruct (negb (truth buf) && negb (callable tx) && truth tx); [exact T|exact I].
  - destruct (truth p); [exact P|]. cbn [truth]. rewrite andb_false_r. exact I.
  - destruct (truth p); [exact P|]. destruct (negb (truth buf) && negb (callable tx) && truth tx); [exact T|exact I].
Qed.

Lemma has_plain_spec : forall x ps, has_plain x ps = true <-> exists dv, In (PPlain x dv) ps.
Proof.
  intros x ps. unfold has_plain. rewrite existsb_exists. split.
  - intros (p & I & H). destruct p as [n dv|n|n]; try discriminate.
    destruct (str_eqb_spec n x) as [E|]; [subst; exists dv; exact I|discriminate].
  - intros (dv & I). exists (PPlain x dv). split; [exact I|]. apply str_eqb_refl'.
Qed.

(** The second half, once the transaction is there. *)
Lemma run_rest : forall st d ps args' extra s1 t sl flt,
  read_pars (d_user d) = Some ps -> read_pars args' = Some extra ->
  (forall x dv, In x [L "SL"; L "searchList"] -> ~ In (PPlain x dv) extra) ->
  kw_get (L "trans") (s_env s1) = Some t -> has_response t ->
  kw_get (L "self") (s_env s1) = Some VSelf ->
  (forall n dv, In (PPlain n dv) ps -> exists v, kw_get n (s_env s1) = Some v) ->
  (forall n, In n [L "write"; L "_filter"] -> ~ In n (map par_name ps)) ->
  kw_get (L "_CHEETAH__searchList") (s_attrs s1) = Some sl ->
  kw_get (L "_CHEETAH__currentFilter") (s_attrs s1) = Some flt ->
  exists s', run out s1 (p_write ++ p_sl st (map fst (args0 d ++ args')) ++ p_flt st ++ p_notes) = Some (s', None) /\
    s_attrs s' = s_attrs s1 /\
    same_but [L "write"; L "SL"; L "_filter"] s1 s' /\
    kw_get (L "write") (s_env s') = Some (VMeth (VResp t) (L "write")) /\
    (st_nm st = true -> kw_get (L "SL") (s_env s')
       = match sl_param (st_sl st) ps with Some n => kw_get n (s_env s1) | None => Some sl end) /\
    (st_filters st = true -> kw_get (L "_filter") (s_env s') = Some flt).
Proof.
  intros st d ps args' extra s1 t sl flt R RE NE HT TR HS HP NW HL HF.
  rewrite run_app, (run_write s1 t HT TR), run_app.
  set (s2 := set_name (L "write") (VMeth (VResp t) (L "write")) s1).
  assert (M : forall x, In x [L "SL"; L "searchList"] -> mem x (map fst (args0 d ++ args')) = has_plain x ps).
  { intros x I. apply eq_true_iff_eq. rewrite mem_spec, has_plain_spec, map_app, in_app_iff.
    assert (PX : pname x = true) by (destruct I as [<-|[<-|[]]]; reflexivity).
    rewrite (read_names args' extra x RE PX). split.
    - intros [J|(e & J)].
      + destruct J as [J|J]; [destruct I as [<-|[<-|[]]]; discriminate|].
        apply (read_names _ _ x R PX). exact J.
      + exfalso. exact (NE x e I J).
    - intro J. left. right. apply (read_names _ _ x R PX). exact J. }
  assert (GS2 : forall n, n <> L "write" -> kw_get n (s_env s2) = kw_get n (s_env s1)).
  { intros n H. cbn [s2 set_name s_env kw_get]. rewrite str_eqb_ne by congruence. reflexivity. }
  assert (SL : exists s3, run out s2 (p_sl st (map fst (args0 d ++ args'))) = Some (s3, None) /\
     s_attrs s3 = s_attrs s1 /\ same_but [L "SL"] s2 s3 /\
     (st_nm st = true -> kw_get (L "SL") (s_env s3)
        = match sl_param (st_sl st) ps with Some n => kw_get n (s_env s1) | None => Some sl end)).
  { unfold p_sl. rewrite !M by (simpl; tauto). unfold sl_param.
    assert (SB : forall v, same_but [L "SL"] s2 (set_name (L "SL") v s2)).
    { intros v n I. cbn [set_name s_env kw_get]. simpl in I. rewrite str_eqb_ne by (intro; subst; tauto). reflexivity. }
    assert (NS2 : name_of s2 (L "self") = Some VSelf).
    { apply name_of_get. rewrite GS2 by discriminate. exact HS. }
    assert (DEF : run out s2 [SSet (L "SL") (e_self "_CHEETAH__searchList")] = Some (set_name (L "SL") sl s2, None)).
    { unfold run, e_self. cbn [exec_list exec eval]. rewrite NS2. cbn [option_map attr_of s2 set_name s_attrs].
      rewrite HL. reflexivity. }
    destruct (st_nm st); [|exists s2; repeat split; try discriminate; intros n _; reflexivity].
    destruct (st_sl st); cbn [andb].
    - destruct (has_plain (L "SL") ps) eqn:P1.
      + exists s2. split; [reflexivity|]. split; [reflexivity|]. split; [intros n _; reflexivity|].
        intros _. apply GS2. discriminate.
      + destruct (has_plain (L "searchList") ps) eqn:P2.
        * apply has_plain_spec in P2 as (dv & P2). destruct (HP _ _ P2) as (v & HV).
          exists (set_name (L "SL") v s2). split.
          -- unfold run. cbn [exec_list exec eval]. rewrite (name_of_get s2 (L "searchList") v); [reflexivity|].
             rewrite GS2 by discriminate. exact HV.
          -- split; [reflexivity|]. split; [apply SB|]. intros _. cbn [set_name s_env kw_get]. strs.
             symmetry; exact HV.
        * exists (set_name (L "SL") sl s2). split; [exact DEF|]. split; [reflexivity|]. split; [apply SB|].
          intros _. cbn [set_name s_env kw_get]. strs. reflexivity.
    - exists (set_name (L "SL") sl s2). split; [exact DEF|]. split; [reflexivity|]. split; [apply SB|].
      intros _. cbn [set_name s_env kw_get]. strs. reflexivity. }
  destruct SL as (s3 & R3 & A3 & SB3 & K3). rewrite R3, run_app.
  assert (W3 : kw_get (L "write") (s_env s3) = Some (VMeth (VResp t) (L "write"))).
  { rewrite SB3 by (simpl; intros [E|[]]; discriminate). cbn [s2 set_name s_env kw_get]. strs. reflexivity. }
  unfold p_flt. destruct (st_filters st).
  - assert (R4 : run out s3 [SSet (L "_filter") (e_self "_CHEETAH__currentFilter")]
                 = Some (set_name (L "_filter") flt s3, None)).
    { unfold run, e_self. cbn [exec_list exec eval].
      rewrite (name_of_get s3 (L "self") VSelf).
      2:{ rewrite SB3 by (simpl; intros [E|[]]; discriminate). rewrite GS2 by discriminate. exact HS. }
      cbn [option_map attr_of]. rewrite A3, HF. reflexivity. }
    rewrite R4, run_notes. eexists. split; [reflexivity|]. cbn [set_name s_attrs s_env kw_get]. strs.
    split; [exact A3|]. split.
    { intros n I. cbn [set_name s_env kw_get]. simpl in I. rewrite str_eqb_ne by (intro; subst; tauto).
      rewrite SB3 by (simpl; tauto). apply GS2. intro; subst; tauto. }
    split; [exact W3|]. split; [exact K3|]. intros _. reflexivity.
  - change (run out s3 []) with (Some (s3, @None val)). cbv iota beta. rewrite run_notes. exists s3. split; [reflexivity|].
    split; [exact A3|]. split.
    { intros n I. rewrite SB3 by (simpl in *; tauto). apply GS2. intro; subst; simpl in I; tauto. }
    split; [exact W3|]. split; [exact K3|discriminate].
Qed.

Lemma method_call : forall st d ps pos kws env tr attrs made dv buf tx sl flt,
  is_class d = false -> is_static d = false ->
  match d_note d with Some t => is_note t = true | None => True end ->
  read_pars (d_user d) = Some ps -> valid ps -> unreserved ps -> takes_trans (d_name d) (st_kws st) ps ->
  bind ps pos kws = Some env -> kw_get (L "self") kws = None -> kw_get (L "trans") kws = None ->
  dv (L "None") = VNone -> tx_like (passed tr) -> tx_like tx ->
  kw_get (L "_CHEETAH__isBuffering") attrs = Some buf -> kw_get (L "transaction") attrs = Some tx ->
  kw_get (L "_CHEETAH__searchList") attrs = Some sl -> kw_get (L "_CHEETAH__currentFilter") attrs = Some flt ->
  exists sig code envc s',
    read_pars (sig_args st d) = Some sig /\ flat_map stm_src code = setup_lines st d /\
    bind sig (VSelf :: pos) (withtr tr kws) = Some envc /\
    run out (mkState attrs made (env_of dv envc)) code = Some (s', None) /\
    let '(t, new) := choose (passed tr) buf tx made in
    kw_get (L "trans") (s_env s') = Some t /\
    kw_get (L "_dummyTrans") (s_env s') = Some (VBool new) /\
    kw_get (L "write") (s_env s') = Some (VMeth (VResp t) (L "write")) /\
    s_attrs s' = (if new && st_auto st then (L "transaction", t) :: attrs else attrs) /\
    (st_nm st = true ->
       match sl_param (st_sl st) ps with
       | Some n => forall b, In (n, b) env -> kw_get (L "SL") (s_env s') = Some (bval_val dv (add_tr tr b))
       | None => kw_get (L "SL") (s_env s') = Some sl
       end) /\
    (st_filters st = true -> kw_get (L "_filter") (s_env s') = Some flt) /\
    (forall n b, In (n, b) env -> n <> L "SL" -> kw_get n (s_env s') = Some (bval_val dv (add_tr tr b))).
Proof.
  intros st d ps pos kws env tr attrs made dv buf tx sl flt C S NO R VA U TT B GS GT DN TP TXL HB HX HL HF.
  destruct (sig_shape st d ps R U) as (extra & str & kw & A & X & args' & AT & RE & UK).
  assert (STR : str = true).
  { destruct X as [n I D1 D2|ND D1 D2|ND NS D|n NS D]; auto. exfalso.
    destruct TT as [[T1 T2]|[T1 T2]]; [destruct D; congruence|tauto]. }
  subst str.
  destruct (call_extra st d ps extra true kw pos kws env tr (read_pars_pname _ _ R) VA U X (or_intror eq_refl) GT B)
    as (envc & BC & IE & PT & _). specialize (PT eq_refl).
  destruct (signature_valid st d ps R VA U) as (sig & RS & VS). rewrite A in RS. inversion RS; subst sig. clear RS.
  assert (FP : first_par d = [PPlain (L "self") None]) by (unfold first_par; rewrite C, S; reflexivity).
  assert (BS : bind (first_par d ++ ps ++ extra) (VSelf :: pos) (withtr tr kws)
               = Some ((L "self", BVal VSelf) :: envc)).
  { rewrite FP. cbn [app bind]. rewrite kw_get_withtr by discriminate. rewrite GS, BC. reflexivity. }
  set (E0 := env_of dv ((L "self", BVal VSelf) :: envc)).
  assert (NAMES : map fst E0 = map par_name (first_par d ++ ps ++ extra)).
  { unfold E0. rewrite env_of_fst. destruct VS as [_ VS]. exact (bind_names _ _ _ _ _ _ VS BS). }
  assert (ND : NoDup (map fst E0)) by (rewrite NAMES; apply VS).
  assert (IN0 : forall n b, In (n, b) envc -> kw_get n E0 = Some (bval_val dv b)).
  { intros n b I. apply kw_get_in; [exact ND|]. apply env_of_in. right; exact I. }
  assert (HS : kw_get (L "self") E0 = Some VSelf) by reflexivity.
  assert (NG : forall x, In x [L "DummyTransaction"; L "callable"] -> kw_get x E0 = None).
  { intros x I. apply kw_get_notin. rewrite NAMES, FP, map_app, in_app_iff. intros [J|J].
    - destruct J as [J|[]]. destruct I as [<-|[<-|[]]]; discriminate.
    - rewrite map_app, in_app_iff in J. destruct J as [J|J].
      + apply in_map_iff in J as (p & <- & J). apply (U p J). simpl in I |- *. tauto.
      + destruct X; simpl in J; destruct I as [<-|[<-|[]]]; try destruct J as [J|[]]; try discriminate; tauto. }
  set (s0 := mkState attrs made E0).
  assert (S1 : exists s1, run out s0 (p_kw kw) = Some (s1, None) /\ s_attrs s1 = attrs /\ s_made s1 = made /\
                same_but [L "trans"] s0 s1 /\ kw_get (L "trans") (s_env s1) = Some (passed tr)).
  { destruct kw as [|c kw].
    - exists s0. repeat split. cbn [s0 s_env]. rewrite (IN0 _ _ PT). destruct tr; cbn [bval_val passed]; congruence.
    - destruct PT as (l & I & G). eexists. split; [apply (run_kw out (c :: kw) s0 l); [discriminate|]|].
      + cbn [s0 s_env]. rewrite (IN0 _ _ I). reflexivity.
      + repeat split.
        * intros n H. cbn [set_name s_env s0 kw_get]. simpl in H. rewrite str_eqb_ne by (intro; subst; tauto). reflexivity.
        * cbn [set_name s_env s0 kw_get]. strs. rewrite G. destruct tr; reflexivity. }
  destruct S1 as (s1 & R1 & A1 & M1 & SB1 & T1).
  assert (Q1 : forall x, x <> L "trans" -> kw_get x (s_env s1) = kw_get x E0).
  { intros x H. rewrite SB1; [reflexivity|]. simpl. intros [F|[]]; congruence. }
  destruct (run_tx out (st_auto st) s1 (passed tr) buf tx T1) as (s2 & R2 & K2).
  { rewrite Q1 by discriminate. exact HS. }
  { rewrite Q1 by discriminate. apply NG. simpl; tauto. }
  { rewrite Q1 by discriminate. apply NG. simpl; tauto. }
  { rewrite A1. exact HB. }
  { rewrite A1. exact HX. }
  rewrite M1, A1 in K2.
  pose proof (choose_response (passed tr) buf tx made TP TXL) as HR.
  destruct (choose (passed tr) buf tx made) as [t new] eqn:CH. cbn [fst] in HR.
  destruct K2 as (K1 & K2 & SB2 & _ & A2).
  assert (Q2 : forall x, x <> L "trans" -> x <> L "_dummyTrans" -> kw_get x (s_env s2) = kw_get x E0).
  { intros x H1 H2. rewrite SB2; [apply Q1; exact H1|]. simpl. intros [F|[F|[]]]; congruence. }
  assert (IU : forall n b, In (n, b) env -> ~ In n reserved).
  { intros n b I J. destruct VA as [_ VO]. pose proof (bind_names _ _ _ _ _ _ VO B) as NM.
    apply (in_map fst) in I. rewrite NM in I. apply in_map_iff in I as (p & E & I). cbn [fst] in E. subst n. exact (U p I J). }
  assert (LK : forall n b, In (n, b) env -> kw_get n (s_env s2) = Some (bval_val dv (add_tr tr b))).
  { intros n b I. pose proof (IU n b I) as IR. rewrite Q2; [apply IN0, IE, I| |]; intro F; apply IR; rewrite F; simpl; tauto. }
  assert (ATT : forall x, x <> L "transaction" -> kw_get x (s_attrs s2) = kw_get x attrs).
  { intros x H. rewrite A2. destruct (new && st_auto st); [|reflexivity]. cbn [kw_get]. rewrite str_eqb_ne by congruence. reflexivity. }
  destruct (run_rest st d ps args' extra s2 t sl flt R RE) as (s3 & R3 & A3 & SB3 & W3 & L3 & F3); auto.
  { intros x e I J. destruct X; simpl in J; destruct I as [<-|[<-|[]]]; try destruct J as [J|[]]; try discriminate; tauto. }
  { rewrite Q2 by discriminate. exact HS. }
  { intros n e I. apply (in_map par_name) in I. destruct VA as [_ VO].
    rewrite <- (bind_names _ _ _ _ _ _ VO B) in I. apply in_map_iff in I as ([m b] & E & I). cbn [fst par_name] in E. subst m.
    exists (bval_val dv (add_tr tr b)). apply LK. exact I. }
  { intros n I J. apply in_map_iff in J as (p & <- & J). apply (U p J). simpl in I |- *. tauto. }
  { rewrite ATT by discriminate. exact HL. }
  { rewrite ATT by discriminate. exact HF. }
  exists (first_par d ++ ps ++ extra), (prog st d true kw (map fst (args0 d ++ args'))),
    ((L "self", BVal VSelf) :: envc), s3.
  split; [exact A|]. split; [apply (prog_src st d _ true kw C S AT UK)|]. split; [exact BS|]. split.
  { unfold prog. rewrite run_app, run_note by exact NO. rewrite run_app, run_app. fold E0. fold s0. rewrite R1, R2.
    exact R3. }
  assert (KP : forall x, ~ In x [L "write"; L "SL"; L "_filter"] -> kw_get x (s_env s3) = kw_get x (s_env s2)) by exact SB3.
  split; [rewrite KP by (simpl; intros [F|[F|[F|[]]]]; discriminate); exact K1|].
  split; [rewrite KP by (simpl; intros [F|[F|[F|[]]]]; discriminate); exact K2|].
  split; [exact W3|]. split; [rewrite A3; exact A2|]. split; [|split; [exact F3|]].
  - intro NM. specialize (L3 NM). destruct (sl_param (st_sl st) ps) as [n|]; [|exact L3].
    intros b I. rewrite L3. apply LK. exact I.
  - intros n b I NSL. rewrite KP; [apply LK; exact I|]. pose proof (IU n b I) as IR.
    intros [F|[F|[F|[]]]]; [|congruence|]; apply IR; rewrite <- F; simpl; tauto.
Qed.

(** Without a transaction to take. *)
Lemma method_call_off : forall st d ps pos kws env attrs made dv sl flt,
  is_class d = false -> is_static d = false ->
  match d_note d with Some t => is_note t = true | None => True end ->
  read_pars (d_user d) = Some ps -> valid ps -> unreserved ps -> ~ takes_trans (d_name d) (st_kws st) ps ->
  bind ps pos kws = Some env -> kw_get (L "self") kws = None -> kw_get (L "trans") kws = None ->
  kw_get (L "_CHEETAH__searchList") attrs = Some sl -> kw_get (L "_CHEETAH__currentFilter") attrs = Some flt ->
  exists code s',
    flat_map stm_src code = setup_lines st d /\
    read_pars (sig_args st d) = Some (PPlain (L "self") None :: ps) /\
    run out (mkState attrs made (env_of dv ((L "self", BVal VSelf) :: env))) code = Some (s', None) /\
    kw_get (L "trans") (s_env s') = Some (VTx made) /\
    kw_get (L "_dummyTrans") (s_env s') = Some (VBool true) /\
    kw_get (L "write") (s_env s') = Some (VMeth (VResp (VTx made)) (L "write")) /\
    (forall n b, In (n, b) env -> n <> L "SL" -> kw_get n (s_env s') = Some (bval_val dv b)).
Proof.
  intros st d ps pos kws env attrs made dv sl flt C S NO R VA U TT B GS GT HL HF.
  destruct (sig_shape st d ps R U) as (extra & str & kw & A & X & args' & AT & RE & UK).
  assert (STR : str = false /\ extra = []).
  { destruct X as [n I D1 D2|ND D1 D2|ND NS D|n NS D]; auto; exfalso; apply TT; unfold takes_trans; tauto. }
  destruct STR as [-> ->].
  assert (FP : first_par d = [PPlain (L "self") None]) by (unfold first_par; rewrite C, S; reflexivity).
  rewrite FP, app_nil_r in A. cbn [app] in A.
  destruct (signature_valid st d ps R VA U) as (sig & RS & VS). rewrite A in RS. inversion RS; subst sig. clear RS.
  set (E0 := env_of dv ((L "self", BVal VSelf) :: env)).
  assert (NAMES : map fst E0 = L "self" :: map par_name ps).
  { unfold E0. rewrite env_of_fst. cbn [map fst]. f_equal. destruct VA as [_ VO]. exact (bind_names _ _ _ _ _ _ VO B). }
  assert (ND : NoDup (map fst E0)) by (rewrite NAMES; apply VS).
  assert (IU : forall n b, In (n, b) env -> ~ In n reserved).
  { intros n b I J. destruct VA as [_ VO]. pose proof (bind_names _ _ _ _ _ _ VO B) as NM.
    apply (in_map fst) in I. rewrite NM in I. apply in_map_iff in I as (p & E & I). cbn [fst] in E. subst n. exact (U p I J). }
  assert (NG : kw_get (L "DummyTransaction") E0 = None).
  { apply kw_get_notin. rewrite NAMES. intros [J|J]; [discriminate|].
    apply in_map_iff in J as (p & E & J). apply (U p J). rewrite E. simpl. tauto. }
  set (s0 := mkState attrs made E0).
  pose proof (run_new s0 NG) as R1. cbn [s0 s_attrs s_made s_env] in R1.
  set (s2 := mkState attrs (Datatypes.S made) ((L "_dummyTrans", VBool true) :: (L "trans", VTx made) :: E0)) in R1.
  assert (Q2 : forall x, x <> L "trans" -> x <> L "_dummyTrans" -> kw_get x (s_env s2) = kw_get x E0).
  { intros x H1 H2. cbn [s2 s_env kw_get]. rewrite !str_eqb_ne by congruence. reflexivity. }
  assert (LK : forall n b, In (n, b) env -> kw_get n (s_env s2) = Some (bval_val dv b)).
  { intros n b I. pose proof (IU n b I) as IR. rewrite Q2.
    - apply kw_get_in; [exact ND|]. apply env_of_in. right; exact I.
    - intro F; apply IR; rewrite F; simpl; tauto.
    - intro F; apply IR; rewrite F; simpl; tauto. }
  destruct (run_rest st d ps args' [] s2 (VTx made) sl flt R RE) as (s3 & R3 & A3 & SB3 & W3 & L3 & F3); auto.
  { exact I. }
  { intros n e I. apply (in_map par_name) in I. destruct VA as [_ VO].
    rewrite <- (bind_names _ _ _ _ _ _ VO B) in I. apply in_map_iff in I as ([m b] & E & I). cbn [fst par_name] in E. subst m.
    exists (bval_val dv b). apply LK. exact I. }
  { intros n I J. apply in_map_iff in J as (p & <- & J). apply (U p J). simpl in I |- *. tauto. }
  exists (prog st d false kw (map fst (args0 d ++ args'))), s3.
  split; [apply (prog_src st d _ false kw C S AT UK)|]. split; [exact A|]. split.
  { unfold prog. rewrite run_app, run_note by exact NO. rewrite run_app. fold E0. rewrite R1. exact R3. }
  assert (KP : forall x, ~ In x [L "write"; L "SL"; L "_filter"] -> kw_get x (s_env s3) = kw_get x (s_env s2)) by exact SB3.
  split; [rewrite KP by (simpl; intros [F|[F|[F|[]]]]; discriminate); reflexivity|].
  split; [rewrite KP by (simpl; intros [F|[F|[F|[]]]]; discriminate); reflexivity|].
  split; [exact W3|]. intros n b I NSL. rewrite KP; [apply LK; exact I|]. pose proof (IU n b I) as IR.
  intros [F|[F|[F|[]]]]; [|congruence|]; apply IR; rewrite <- F; simpl; tauto.
Qed.

(** ** The code behind the body *)

Lemma method_end : forall d s t new, d_gen d = false ->
  kw_get (L "trans") (s_env s) = Some t -> has_response t ->
  kw_get (L "_dummyTrans") (s_env s) = Some (VBool new) ->
  exists code, flat_map stm_src code = cleanup_lines d /\
    run out s code = Some (s, Some (VStr (if new then out t else []))).
Proof.
  intros d s t new G HT HR HD.
  exists ([SNote []; SNote (repeat 35%N 40); SNote (L "## END - generated method body"); SNote []]
    ++ [SReturn (EOr (EAnd (EName (L "_dummyTrans"))
          (ECall0 (EAttr (ECall0 (EAttr (EName (L "trans")) (L "response"))) (L "getvalue")))) (EStr []))]
    ++ [SNote []]).
  split; [unfold cleanup_lines; rewrite G; reflexivity|].
  rewrite run_app. change (run out s [SNote []; SNote (repeat 35%N 40); SNote (L "## END - generated method body"); SNote []])
    with (Some (s, @None val)). cbv iota beta. unfold run. cbn [app exec_list exec eval].
  rewrite (name_of_get _ _ _ HD). cbn [option_map truth]. destruct new.
  - rewrite (name_of_get _ _ _ HT).
    destruct t as [|b|w|i0 t0 c0|m|w|w m| |m| |w|w]; try contradiction; cbn [option_map attr_of]; strs;
      cbn [option_map call]; strs; cbn [option_map attr_of]; strs; cbn [option_map orb call]; strs;
      cbn [truth]; (destruct (out _) as [|c o] eqn:EO; reflexivity).
  - cbn [truth]. reflexivity.
Qed.
End Setup2.
