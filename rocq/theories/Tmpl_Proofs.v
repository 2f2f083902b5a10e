(** Proofs about search lists, #include, preprocessor settings and class plumbing. *)
From Verif Require Import Base PyStr Alist Tmpl_Model Tmpl_Spec.

(** ** Search lists *)

Lemma init_plain : forall me fresh s n gsv i, i_init i = false -> s = None \/ n = None ->
  exists g m f, g = match gsv with Some g => g | None => fresh end /\
  init_inst me fresh s n false gsv None i =
    Ok (mkInst true g ([EGlob g; ETmpl me] ++ passed s ++ passed n) m f).
Proof.
  intros me fresh s n gsv i H E. eexists _, [], (i_file i). split; [reflexivity|].
  unfold init_inst. rewrite H. destruct s as [[]|], n as [[]|]; try (destruct E; discriminate); cbn; rewrite ?app_nil_r; reflexivity.
Qed.

Lemma init_prio : forall me fresh s n gsv i, i_init i = false -> s = None \/ n = None ->
  (forall l, s <> Some (NTuple l)) -> (forall l, n <> Some (NTuple l)) ->
  exists g m f, g = match gsv with Some g => g | None => fresh end /\
  init_inst me fresh s n true gsv None i =
    Ok (mkInst true g ((passed s ++ passed n) ++ [EGlob g; ETmpl me]) m f).
Proof.
  intros me fresh s n gsv i H E T1 T2. eexists _, [], (i_file i). split; [reflexivity|].
  unfold init_inst. rewrite H.
  destruct s as [[]|], n as [[]|]; try (destruct E; discriminate); cbn; rewrite ?app_nil_r; try reflexivity;
    exfalso; [eapply T1; reflexivity| eapply T2; reflexivity].
Qed.

Lemma init_both : forall me fresh s n prio gsv pre i, i_init i = false ->
  init_inst me fresh (Some s) (Some n) prio gsv pre i = Raise EAssert.
Proof. intros. unfold init_inst. rewrite H. reflexivity. Qed.

Lemma init_again : forall me fresh s n prio gsv pre i, i_init i = true ->
  init_inst me fresh s n prio gsv pre i = Ok i.
Proof. intros. unfold init_inst. rewrite H. reflexivity. Qed.

Lemma init_sets : forall me fresh s n prio gsv pre i j,
  init_inst me fresh s n prio gsv pre i = Ok j -> i_init j = true.
Proof.
  intros me fresh s n prio gsv pre i j. unfold init_inst. destruct (i_init i) eqn:E; [congruence|].
  destruct s as [[]|], n as [[]|], prio, pre; cbn; intro H; inversion H; reflexivity.
Qed.

Lemma init_nested : forall me fresh gsv pre prio i, i_init i = false ->
  exists m f, init_inst me fresh None None prio (Some gsv) (Some pre) i = Ok (mkInst true gsv (pre ++ [ETmpl me]) m f).
Proof. intros. exists [], (i_file i). unfold init_inst. rewrite H. reflexivity. Qed.

Lemma include_fields : forall w a f raw i, let j := fst (include w a f raw i) in
  i_init j = i_init i /\ i_sl j = i_sl i /\ i_glob j = i_glob i /\ i_file j = i_file i.
Proof.
  intros w a f raw i. unfold include. destruct (mget a (i_memo i)); [auto|]. destruct (build w i a f raw); cbn; auto.
Qed.

Lemma op_init : forall o i, i_init i = true -> i_init (do_op o i) = true.
Proof.
  intros [me fr s n p g pr|d|w a f raw] i H; cbn.
  - rewrite init_again; assumption.
  - exact H.
  - pose proof (include_fields w a f raw i) as (-> & _). exact H.
Qed.

Lemma history : forall os i, i_init i = true ->
  i_init (do_ops os i) = true /\ i_sl (do_ops os i) = inputs os (i_sl i) /\ i_glob (do_ops os i) = i_glob i.
Proof.
  induction os as [|o os IH]; intros i H; [cbn; auto|].
  unfold do_ops in *. cbn [fold_left]. specialize (IH (do_op o i) (op_init o i H)) as (A & B & C).
  split; [exact A|]. rewrite B, C. destruct o as [me fr s n p g pr|d|w a f raw]; cbn [do_op inputs].
  - rewrite init_again by assumption. auto.
  - auto.
  - pose proof (include_fields w a f raw i) as (_ & -> & -> & _). auto.
Qed.

(** ** #include *)

Lemma arg_eqb_refl : forall a, arg_eqb a a = true.
Proof. intros [s|i t]; cbn; [apply str_eqb_refl|apply Nat.eqb_refl]. Qed.
Lemma arg_eqb_trans : forall a b c, arg_eqb a b = true -> arg_eqb b c = arg_eqb a c.
Proof.
  intros [s|i t] [s'|i' t'] [s2|i2 t2]; cbn; intro H; try discriminate; try reflexivity.
  - apply str_eqb_eq in H. subst. reflexivity.
  - apply Nat.eqb_eq in H. subst. reflexivity.
Qed.
Lemma arg_eqb_sym : forall a b, arg_eqb a b = arg_eqb b a.
Proof.
  intros a b. destruct (arg_eqb a b) eqn:E.
  - rewrite (arg_eqb_trans a b a E). symmetry. apply arg_eqb_refl.
  - destruct (arg_eqb b a) eqn:F; [|reflexivity]. rewrite (arg_eqb_trans b a b F) in E. rewrite arg_eqb_refl in E. discriminate.
Qed.
Lemma mget_eqb : forall a b m, arg_eqb a b = true -> mget b m = mget a m.
Proof.
  intros a b m E. induction m as [|[c x] m IH]; cbn; [reflexivity|].
  rewrite (arg_eqb_trans a b c E), IH. reflexivity.
Qed.

(** What the memo may hold for an argument so that the #include shows what it names. *)
Definition good (w : world) own sl a f raw (m : list (srcarg * item)) : Prop :=
  match mget a m with
  | None => True
  | Some (INested t sl0) => raw = false /\ sl0 = sl /\ content w own a f = Ok t /\ w_compiles w t = true
  | Some (IRaw t) => raw = true /\ content w own a f = Ok t
  | Some IObj => False
  end.

(** A file object cannot be shown raw. *)
Definition supported (a : srcarg) (raw : bool) : Prop := raw = false \/ exists s, a = AStr s.

Lemma build_eq : forall w i a f raw, supported a raw ->
  build w i a f raw = match content w (i_file i) a f with
                      | Raise e => Raise e
                      | Ok t => if raw then Ok (IRaw t) else if w_compiles w t then Ok (INested t (i_sl i)) else Raise ECompile
                      end.
Proof.
  intros w i a f raw S. unfold build, content, read_path.
  destruct raw; cbn [negb].
  - destruct S as [S|[s ->]]; [discriminate|]. destruct f; [|reflexivity].
    destruct (server_path w (i_file i) s) as [p|]; [|reflexivity]. destruct (w_files w p); reflexivity.
  - destruct f, a as [s|id t]; reflexivity.
Qed.

Lemma supported_eqb : forall a b raw, arg_eqb a b = true -> supported a raw -> supported b raw.
Proof.
  intros a b raw E [H|[s ->]]; [left; exact H|]. destruct b as [t|]; [|discriminate]. right. eauto.
Qed.

Lemma include_shows : forall w a f raw i, supported a raw -> good w (i_file i) (i_sl i) a f raw (i_memo i) ->
  snd (include w a f raw i) = shows w (i_file i) (i_sl i) a f raw.
Proof.
  intros w a f raw i S G. unfold include, good, shows in *. destruct (mget a (i_memo i)) as [[t sl0|t|]|]; cbn [snd].
  - destruct G as (-> & -> & -> & ->). reflexivity.
  - destruct G as (-> & ->). reflexivity.
  - contradiction.
  - rewrite build_eq by exact S. destruct (content w (i_file i) a f) as [t|e]; [|reflexivity].
    destruct raw; [reflexivity|]. destruct (w_compiles w t); reflexivity.
Qed.

Lemma good_step : forall w a f raw o i, supported a raw -> i_init i = true -> harmless w (i_file i) a f raw o ->
  good w (i_file i) (i_sl i) a f raw (i_memo i) ->
  let j := do_op o i in good w (i_file j) (i_sl j) a f raw (i_memo j) /\ i_file j = i_file i /\ i_sl j = i_sl i.
Proof.
  intros w a f raw o i S I H G. destruct o as [me fr s n p g pr|d|w' b f' raw']; cbn [do_op].
  - rewrite init_again by exact I. auto.
  - contradiction.
  - pose proof (include_fields w' b f' raw' i) as (_ & E1 & _ & E2). cbv zeta. rewrite E1, E2. split; [|auto].
    unfold include. destruct (mget b (i_memo i)) eqn:M; [exact G|].
    destruct (arg_eqb a b) eqn:E.
    + destruct (H E) as (-> & -> & C & K). rewrite build_eq by (eapply supported_eqb; eauto). rewrite C.
      rewrite (mget_eqb a b _ E) in M.
      assert (D : good w (i_file i) (i_sl i) a f raw (i_memo i)) by (unfold good; rewrite M; exact Logic.I).
      destruct (content w (i_file i) a f) as [t|e] eqn:CT; [|exact D].
      destruct raw; [|rewrite K; destruct (w_compiles w t) eqn:W; [|exact D]];
        unfold good; cbn [fst i_memo mget]; rewrite E, CT; auto.
    + destruct (build w' i b f' raw') as [x|e]; [|exact G]. unfold good in *. cbn [fst i_memo mget]. rewrite E. exact G.
Qed.

Lemma before_step : forall a o i, includes a o = false -> i_init i = true -> mget a (i_memo i) = None ->
  mget a (i_memo (do_op o i)) = None /\ i_file (do_op o i) = i_file i.
Proof.
  intros a [me fr s n p g pr|d|w b f raw] i H I M; cbn [do_op].
  - rewrite init_again by exact I. auto.
  - auto.
  - pose proof (include_fields w b f raw i) as (_ & _ & _ & E). split; [|exact E].
    unfold include. destruct (mget b (i_memo i)); [exact M|]. destruct (build w i b f raw); [|exact M].
    cbn in *. rewrite H. exact M.
Qed.

Lemma include_ok : forall os1 os2 w a f raw i, supported a raw -> i_init i = true -> i_memo i = [] ->
  Forall (fun o => includes a o = false) os1 -> Forall (harmless w (i_file i) a f raw) os2 ->
  snd (include w a f raw (do_ops (os1 ++ os2) i)) = shows w (i_file i) (i_sl (do_ops (os1 ++ os2) i)) a f raw.
Proof.
  intros os1 os2 w a f raw i S I M F1 F2.
  assert (P : forall os j, Forall (fun o => includes a o = false) os -> i_init j = true -> mget a (i_memo j) = None ->
    i_init (do_ops os j) = true /\ mget a (i_memo (do_ops os j)) = None /\ i_file (do_ops os j) = i_file j).
  { induction os as [|o os IH]; intros j F Ij Mj; [cbn; auto|]. inversion F as [|? ? F3 F4]; subst. unfold do_ops in *. cbn [fold_left].
    destruct (before_step a o j F3 Ij Mj) as [M1 E1]. destruct (IH _ F4 (op_init o j Ij) M1) as (A & B & C).
    rewrite C, E1. auto. }
  assert (Q : forall os j, Forall (harmless w (i_file j) a f raw) os -> i_init j = true ->
    good w (i_file j) (i_sl j) a f raw (i_memo j) ->
    let k := do_ops os j in good w (i_file k) (i_sl k) a f raw (i_memo k) /\ i_file k = i_file j).
  { induction os as [|o os IH]; intros j F Ij G; [cbn; auto|]. inversion F as [|? ? F3 F4]; subst. unfold do_ops in *. cbn [fold_left].
    destruct (good_step w a f raw o j S Ij F3 G) as (G2 & E1 & _). cbv zeta in *. rewrite <- E1 in F4.
    destruct (IH _ F4 (op_init o j Ij) G2) as (A & B). cbv zeta in *. split; [exact A|]. rewrite B. exact E1. }
  unfold do_ops in *. rewrite fold_left_app.
  destruct (P os1 i F1 I) as (I1 & M1 & E1). { rewrite M. reflexivity. }
  rewrite <- E1 in F2 |- *.
  destruct (Q os2 _ F2 I1) as (G & E2). { unfold good. rewrite M1. exact Logic.I. }
  cbv zeta in *. rewrite include_shows by assumption. rewrite E2. reflexivity.
Qed.

(** The first #include of an argument that succeeds decides for the later ones. *)
Lemma memo_step : forall a x o i, i_init i = true -> mget a (i_memo i) = Some x -> mget a (i_memo (do_op o i)) = Some x.
Proof.
  intros a x [me fr s n p g pr|d|w b f raw] i I M; cbn [do_op].
  - rewrite init_again by exact I. exact M.
  - exact M.
  - unfold include. destruct (mget b (i_memo i)) eqn:B; [exact M|]. destruct (build w i b f raw); [|exact M].
    cbn. destruct (arg_eqb a b) eqn:E; [|exact M]. rewrite (mget_eqb a b _ E), M in B. discriminate.
Qed.
Lemma memo_ops : forall a x os i, i_init i = true -> mget a (i_memo i) = Some x -> mget a (i_memo (do_ops os i)) = Some x.
Proof.
  induction os as [|o os IH]; intros i I M; [exact M|]. unfold do_ops in *. cbn [fold_left].
  apply IH; [apply op_init; exact I|apply memo_step; assumption].
Qed.

Lemma first_wins : forall os w1 w2 a f1 f2 raw1 raw2 i t, supported a raw1 -> i_init i = true -> mget a (i_memo i) = None ->
  content w1 (i_file i) a f1 = Ok t -> raw1 = true \/ w_compiles w1 t = true ->
  snd (include w2 a f2 raw2 (do_ops os (fst (include w1 a f1 raw1 i)))) =
    if raw1 then (if raw2 then Ok t else Raise EAttr)
    else (if raw2 then Raise ETypeE else w_run w2 t (i_sl i)).
Proof.
  intros os w1 w2 a f1 f2 raw1 raw2 i t S I M C K.
  assert (E : build w1 i a f1 raw1 = Ok (if raw1 then IRaw t else INested t (i_sl i))).
  { rewrite build_eq, C by exact S. destruct raw1; [reflexivity|]. destruct K as [K|K]; [discriminate|]. rewrite K. reflexivity. }
  assert (M1 : mget a (i_memo (do_ops os (fst (include w1 a f1 raw1 i)))) = Some (if raw1 then IRaw t else INested t (i_sl i))).
  { apply memo_ops.
    - pose proof (include_fields w1 a f1 raw1 i) as (-> & _). exact I.
    - unfold include. rewrite M, E. cbn. rewrite arg_eqb_refl. reflexivity. }
  unfold include at 1. rewrite M1. destruct raw1, raw2; reflexivity.
Qed.

(** ** Preprocessors *)

Lemma put_new_get : forall k' v cs k, aget k (put_new k' v cs) =
  match aget k cs with
  | Some x => Some x
  | None => if str_eqb k k' then Some (SStr v) else None
  end.
Proof.
  intros k' v cs k. unfold put_new, ahas. destruct (aget k' cs) as [x|] eqn:E.
  - destruct (str_eqb_spec k k') as [D|D].
    + subst. rewrite E. reflexivity.
    + destruct (aget k cs); reflexivity.
  - rewrite aget_aset. destruct (str_eqb_spec k k') as [D|D].
    + subst. rewrite E. reflexivity.
    + destruct (aget k cs); reflexivity.
Qed.

Lemma update_get : forall ph dir cs k, aget k (update_tokens ph dir cs) =
  match aget k cs with
  | Some x => Some x
  | None => option_map SStr (derived (nonempty ph) (nonempty dir) k)
  end.
Proof.
  intros ph dir cs k. unfold update_tokens, derived.
  assert (P : aget k match given ph with Some t => put_new (L "cheetahVarStartToken") t cs | None => cs end =
    match aget k cs with
    | Some x => Some x
    | None => if str_eqb k (L "cheetahVarStartToken") then option_map SStr (nonempty ph) else None
    end).
  { destruct ph as [[|c t]|]; cbn [given nonempty option_map]; rewrite ?put_new_get;
      destruct (aget k cs); try reflexivity; destruct (str_eqb k (L "cheetahVarStartToken")); reflexivity. }
  destruct dir as [[|c t]|]; cbn [given nonempty].
  1,3: cbv zeta; rewrite P; destruct (aget k cs); [reflexivity|]; destruct (str_eqb k (L "cheetahVarStartToken")); reflexivity.
  cbv zeta. rewrite !put_new_get, P. destruct (aget k cs); [reflexivity|].
  destruct (str_eqb k (L "cheetahVarStartToken")) eqn:E0.
  - apply str_eqb_eq in E0. subst k. destruct ph as [[|d s]|]; reflexivity.
  - destruct (str_eqb k (L "directiveStartToken")); [reflexivity|].
    destruct (str_eqb k (L "directiveEndToken")); [reflexivity|].
    destruct (str_eqb k (L "commentStartToken")); [reflexivity|].
    destruct (str_eqb k (L "multiLineCommentStartToken")); [reflexivity|].
    destruct (str_eqb k (L "multiLineCommentEndToken")); [reflexivity|].
    destruct (str_eqb k (L "EOLSlurpToken")); reflexivity.
Qed.

Lemma norm_tokens_ok : forall t a b, norm_tokens t = Ok (a, b) ->
  match t with
  | TSeq l => l = [a; b]
  | TStr s => split_ws s = [a; b]
  | TBad => False
  end.
Proof.
  intros [s|l|] a b H; unfold norm_tokens in H; [| |discriminate].
  - destruct (split_ws s) as [|x [|y [|z r]]]; congruence.
  - destruct l as [|x [|y [|z r]]]; congruence.
Qed.

Lemma norm_ok : forall p q, norm_settings p = Ok q ->
  exists ph dir cs, tokens_of p ph dir /\ p_cs q = Some (Some cs) /\
  (forall k, aget k cs = match aget k (written p) with
                         | Some x => Some x
                         | None => option_map SStr (derived (nonempty ph) (nonempty dir) k)
                         end) /\
  exists a, p_init q = Some (Some a) /\ passed (Some a) = passed (pp_list p) /\ (forall e, a <> NOne e).
Proof.
  intros p q H. unfold norm_settings in H.
  assert (X : exists ph dir, tokens_of p ph dir /\
    match p_tokens p with
    | None => Ok (p_ph p, p_dir p)
    | Some t => match norm_tokens t with Ok (a, b) => Ok (Some a, Some b) | Raise e => Raise e end
    end = Ok (E:=terr) (ph, dir)).
  { unfold tokens_of. destruct (p_tokens p) as [t|]; [|eauto].
    destruct (norm_tokens t) as [[a b]|e] eqn:E; [|discriminate]. apply norm_tokens_ok in E.
    exists (Some a), (Some b). split; [|reflexivity]. destruct t; eauto. }
  destruct X as (ph & dir & T & X). rewrite X in H.
  match type of H with (if ?x then _ else _) = _ => destruct x; [discriminate|] end.
  unfold written. destruct (p_cs p) as [[cs|]|]; [| discriminate |]; injection H as <-; cbn;
    (eexists ph, dir, _; split; [exact T|]; split; [reflexivity|]; split; [intro k; rewrite update_get; reflexivity|];
     eexists; split; [reflexivity|]; unfold norm_sl, pp_list;
     destruct (p_init p) as [[[]|]|], (p_sl p) as [[]|], (p_ns p) as [[]|]; cbn; split; (reflexivity || discriminate)).
Qed.

Lemma norm_fails : forall p e, norm_settings p = Raise e ->
  (e = EPre /\ p_tokens p = Some TBad) \/
  (e = EValue /\ exists l, length l <> 2 /\ (p_tokens p = Some (TSeq l) \/ exists s, p_tokens p = Some (TStr s) /\ split_ws s = l)) \/
  (e = ETypeE /\ (p_cs p = Some None \/ written p = [])).
Proof.
  intros p e H. unfold norm_settings in H.
  assert (X : (exists ph dir, match p_tokens p with
    | None => Ok (p_ph p, p_dir p)
    | Some t => match norm_tokens t with Ok (a, b) => Ok (Some a, Some b) | Raise e => Raise e end
    end = Ok (E:=terr) (ph, dir)) \/
    (e = EPre /\ p_tokens p = Some TBad) \/
  (e = EValue /\ exists l, length l <> 2 /\ (p_tokens p = Some (TSeq l) \/ exists s, p_tokens p = Some (TStr s) /\ split_ws s = l))).
  { destruct (p_tokens p) as [[s|l|]|]; unfold norm_tokens in *.
    - destruct (split_ws s) as [|x [|y [|z r]]] eqn:E.
      3: left; eauto.
      all: right; right; split; [congruence|]; eexists; split; [|right; exists s; split; [reflexivity|exact E]]; cbn; lia.
    - destruct l as [|x [|y [|z r]]].
      3: left; eauto.
      all: right; right; split; [congruence|]; eexists; split; [|left; reflexivity]; cbn; lia.
    - right; left. split; congruence.
    - left. eauto. }
  destruct X as [(ph & dir & X)|X]; [|tauto]. rewrite X in H. right; right. unfold written.
  destruct (p_cs p) as [[[|c cs]|]|].
  - split; [|auto]. cbn in H. destruct (given ph); [discriminate|congruence].
  - discriminate.
  - split; [|auto]. cbn in H. destruct (given ph); cbn in H; congruence.
  - split; [|auto]. cbn in H. destruct (given ph); [discriminate|congruence].
Qed.

Lemma pre_app : forall P (norm : P -> res terr (sf -> res terr sf)) l1 l2 x,
  preprocess_source norm (PMany (l1 ++ l2)) x =
    match preprocess_source norm (PMany l1) x with
    | Raise e => Raise e
    | Ok y => preprocess_source norm (PMany l2) y
    end.
Proof.
  intros P norm l1. unfold preprocess_source. induction l1 as [|p l1 IH]; intros l2 x; [reflexivity|].
  cbn [app pre_loop]. destruct (norm p) as [g|e]; [|reflexivity]. destruct (g x) as [y|e]; [|reflexivity]. apply IH.
Qed.

(** ** Classes *)
Local Opaque required_methods required_class_attrs.

Lemma cget_cset : forall c nm v k, cget (cset c nm v) k = if str_eqb k nm then Some v else cget c k.
Proof.
  intros c nm v k. unfold cget, cset. cbn. rewrite aget_aset. destruct (str_eqb k nm); reflexivity.
Qed.
Lemma add_get : forall val c nm k, cget (add_missing val c nm) k =
  match cget c k with Some v => Some v | None => if str_eqb k nm then Some (val nm) else None end.
Proof.
  intros val c nm k. unfold add_missing. destruct (cget c nm) as [v|] eqn:E.
  - destruct (cget c k) eqn:F; [reflexivity|]. destruct (str_eqb_spec k nm); [congruence|reflexivity].
  - rewrite cget_cset. destruct (str_eqb_spec k nm) as [D|D]; [subst; rewrite E; reflexivity|].
    destruct (cget c k); reflexivity.
Qed.
Lemma adds_get : forall val l c k, cget (fold_left (add_missing val) l c) k =
  match cget c k with Some v => Some v | None => if existsb (str_eqb k) l then Some (val k) else None end.
Proof.
  intros val l. induction l as [|nm l IH]; intros c k; cbn [fold_left existsb].
  - destruct (cget c k); reflexivity.
  - rewrite IH, add_get. destruct (cget c k); [reflexivity|]. destruct (str_eqb_spec k nm) as [D|D]; [subst; reflexivity|reflexivity].
Qed.
Lemma adds_name : forall val l c, c_name (fold_left (add_missing val) l c) = c_name c.
Proof.
  intros val l. induction l as [|nm l IH]; intro c; [reflexivity|]. cbn. rewrite IH. unfold add_missing. destruct (cget c nm); reflexivity.
Qed.
Lemma adds_base : forall val l c, c_base (fold_left (add_missing val) l c) = c_base c.
Proof.
  intros val l. induction l as [|nm l IH]; intro c; [reflexivity|]. cbn. rewrite IH. unfold add_missing. destruct (cget c nm); reflexivity.
Qed.

(** The class before [__str__] is looked at. *)
Definition filled (c : cls) : cls :=
  fold_left (add_missing VApi) required_class_attrs (fold_left (add_missing template_attr) required_methods c).
Lemma filled_get : forall c k, cget (filled c) k =
  match cget c k with
  | Some v => Some v
  | None => if existsb (str_eqb k) required_methods then Some (template_attr k)
            else if existsb (str_eqb k) required_class_attrs then Some (VApi k) else None
  end.
Proof.
  intros c k. unfold filled. rewrite adds_get, adds_get. destruct (cget c k); [reflexivity|].
  destruct (existsb (str_eqb k) required_methods); reflexivity.
Qed.
Lemma cget_str : forall c, exists v, cget c (L "__str__") = Some v.
Proof.
  intro c. unfold cget. destruct (aget (L "__str__") (c_own c)); [eauto|]. destruct (aget (L "__str__") (c_base c)); [eauto|].
  exists VObjStr. reflexivity.
Qed.
Lemma filled_str : forall c, cget (filled c) (L "__str__") = cget c (L "__str__").
Proof. intro c. rewrite filled_get. destruct (cget_str c) as [v ->]. reflexivity. Qed.
Lemma filled_name : forall c, c_name (filled c) = c_name c.
Proof. intro c. unfold filled. rewrite !adds_name. reflexivity. Qed.

Lemma plumb_eq : forall c, plumb c =
  if has_str c then filled c
  else let s := pick_str (filled c) in cset (cset (filled c) (L "__str__") s) (L "__unicode__") s.
Proof.
  intro c. unfold plumb, has_str. fold (filled c). rewrite filled_str. destruct (cget c (L "__str__")) as [[]|]; reflexivity.
Qed.

Lemma existsb_In : forall k l, existsb (str_eqb k) l = true <-> In k l.
Proof.
  intros k l. rewrite existsb_exists. split.
  - intros (x & I & E). apply str_eqb_eq in E. subst. exact I.
  - intro I. exists k. split; [exact I|apply str_eqb_refl].
Qed.

Lemma plumb_has : forall c nm, needed nm -> exists v, cget (plumb c) nm = Some v.
Proof.
  intros c nm N. assert (F : exists v, cget (filled c) nm = Some v).
  { rewrite filled_get. destruct (cget c nm); [eauto|]. destruct (existsb (str_eqb nm) required_methods) eqn:E; [eauto|].
    destruct N as [N|N]; apply existsb_In in N; [congruence|]. rewrite N. eauto. }
  rewrite plumb_eq. destruct (has_str c); [exact F|]. cbv zeta. rewrite !cget_cset.
  destruct (str_eqb nm (L "__unicode__")); [eauto|]. destruct (str_eqb nm (L "__str__")); eauto.
Qed.

Lemma plumb_keeps : forall c nm v, cget c nm = Some v -> v <> VObjStr -> has_str c = true \/ nm <> L "__unicode__" ->
  cget (plumb c) nm = Some v.
Proof.
  intros c nm v G NV K. rewrite plumb_eq. destruct (has_str c) eqn:HS.
  - rewrite filled_get, G. reflexivity.
  - destruct K as [K|K]; [discriminate|]. cbv zeta. rewrite !cget_cset, filled_get, G.
    destruct (str_eqb_spec nm (L "__unicode__")); [congruence|]. destruct (str_eqb_spec nm (L "__str__")) as [E|]; [|reflexivity].
    subst. unfold has_str in HS. rewrite G in HS. destruct v; congruence.
Qed.

Lemma plumb_only : forall c nm, cget c nm = None -> ~ needed nm -> nm <> L "__unicode__" -> cget (plumb c) nm = None.
Proof.
  intros c nm G N U. rewrite plumb_eq.
  assert (F : cget (filled c) nm = None).
  { rewrite filled_get, G. destruct (existsb (str_eqb nm) required_methods) eqn:E; [exfalso; apply N; left; apply existsb_In; exact E|].
    destruct (existsb (str_eqb nm) required_class_attrs) eqn:E2; [exfalso; apply N; right; apply existsb_In; exact E2|]. reflexivity. }
  destruct (has_str c); [exact F|]. cbv zeta. rewrite !cget_cset.
  destruct (str_eqb_spec nm (L "__unicode__")); [congruence|].
  destruct (str_eqb_spec nm (L "__str__")) as [E|]; [|exact F]. subst. destruct (cget_str c) as [v E]. congruence.
Qed.

Lemma adds_nothing : forall val l c, (forall nm, In nm l -> exists v, cget c nm = Some v) -> fold_left (add_missing val) l c = c.
Proof.
  intros val l. induction l as [|nm l IH]; intros c H; [reflexivity|]. cbn [fold_left].
  assert (E : add_missing val c nm = c). { unfold add_missing. destruct (H nm) as [v ->]; [left; reflexivity|reflexivity]. }
  rewrite E. apply IH. intros k I. apply H. right. exact I.
Qed.

Lemma pick_not_obj : forall c, pick_str c <> VObjStr.
Proof.
  intro c. unfold pick_str. destruct (cget c (L "_mainCheetahMethod_for_" ++ c_name c)) as [v|]; [destruct (truthy v); [discriminate|]|];
    (destruct (cget c (L "respond")) as [u|]; [destruct (is_servlet_respond u); discriminate|discriminate]).
Qed.

Lemma plumb_str : forall c, has_str (plumb c) = true.
Proof.
  intro c. rewrite plumb_eq. destruct (has_str c) eqn:E.
  - unfold has_str in *. rewrite filled_str. exact E.
  - cbv zeta. unfold has_str. rewrite !cget_cset. change (str_eqb (L "__str__") (L "__unicode__")) with false.
    rewrite str_eqb_refl. pose proof (pick_not_obj (filled c)). destruct (pick_str (filled c)); congruence.
Qed.

Lemma plumb_twice : forall c, plumb (plumb c) = plumb c.
Proof.
  intro c. rewrite (plumb_eq (plumb c)), plumb_str. unfold filled.
  rewrite (adds_nothing template_attr); [|intros nm I; apply plumb_has; left; exact I].
  apply adds_nothing. intros nm I. apply plumb_has. right. exact I.
Qed.

Lemma plumb_main : forall c m, has_str c = false -> cget c (L "_mainCheetahMethod_for_" ++ c_name c) = Some (VName m) ->
  m <> [] -> cget (plumb c) (L "__str__") = Some (VStrMain (VName m)).
Proof.
  intros c m HS G NE. rewrite plumb_eq, HS. cbv zeta. rewrite !cget_cset. change (str_eqb (L "__str__") (L "__unicode__")) with false.
  rewrite str_eqb_refl. unfold pick_str. rewrite filled_name, filled_get, G. destruct m; [congruence|reflexivity].
Qed.
