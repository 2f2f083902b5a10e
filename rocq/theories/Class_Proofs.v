(** Proofs for the methods of a class. *)
From Verif Require Import Base PyStr Class_Model Class_Spec.

Lemma seq_refl : forall s, str_eqb s s = true.
Proof. intros s. destruct (str_eqb_spec s s); congruence. Qed.

Lemma crun_app : forall a b st, crun (a ++ b) st = match crun a st with Raise e => Raise e | Ok st1 => crun b st1 end.
Proof. induction a as [|o a IH]; intros b st; [reflexivity|]. cbn [app crun]. destruct (cstep o st); [apply IH|reflexivity]. Qed.

Lemma crun_decos : forall ds st, crun (map ODeco ds) st
  = Ok (mkC (c_next st) (c_act st) (c_fin st) (c_idx st) (c_decos st ++ ds) (c_main st) (c_init st) (c_attrs st)).
Proof.
  induction ds as [|d ds IH]; intros st; cbn [map crun cstep].
  - rewrite app_nil_r. destruct st; reflexivity.
  - rewrite IH. cbn [c_next c_act c_fin c_idx c_decos c_main c_init c_attrs]. rewrite <- app_assoc. reflexivity.
Qed.

(** ** The index *)

Lemma idx_get_del : forall n m l, n <> m -> idx_get n (idx_del m l) = idx_get n l.
Proof.
  intros n m l H. induction l as [|[k i] l IH]; [reflexivity|]. cbn [idx_del filter fst].
  destruct (str_eqb_spec m k) as [E|E]; cbn [negb].
  - subst k. cbn [idx_get]. destruct (str_eqb_spec n m); [congruence|]. exact IH.
  - cbn [idx_get]. destruct (str_eqb n k); [reflexivity|exact IH].
Qed.

Lemma idx_get_set : forall n m i l, idx_get n ((m, i) :: idx_del m l) = if str_eqb n m then Some i else idx_get n l.
Proof.
  intros n m i l. cbn [idx_get]. destruct (str_eqb_spec n m) as [E|E]; [reflexivity|].
  apply idx_get_del. exact E.
Qed.

(** ** Every list of calls: no key is ever missing *)

Definition main_kept (st : cstate) : Prop := idx_get (c_main st) (c_idx st) <> None.

Lemma set_main_kept : forall n st, main_kept st -> exists st1, set_main n st = Ok st1 /\ main_kept st1.
Proof.
  intros n st H. unfold set_main. destruct (str_eqb_spec n (c_main st)) as [E|E]; [eexists; split; [reflexivity|exact H]|].
  unfold main_kept in H. destruct (idx_get (c_main st) (c_idx st)) as [i|] eqn:Ei; [|congruence].
  eexists. split; [reflexivity|]. unfold main_kept. cbn [c_main c_idx change_st].
  rewrite idx_get_del by exact E. rewrite idx_get_set, seq_refl. discriminate.
Qed.

Lemma spawn_kept : forall n args body st, main_kept st ->
  main_kept (snd (spawn n args body st)).
Proof.
  intros n args body st H. unfold main_kept, spawn in *. cbn [snd c_main c_idx].
  rewrite idx_get_set. destruct (str_eqb (c_main st) n); [discriminate|exact H].
Qed.

Lemma cstep_kept : forall o st, main_kept st ->
  match cstep o st with Ok st1 => main_kept st1 | Raise e => e = IndexError end.
Proof.
  intros [c|n args| | |d|n args|n|n e|n body|c] st H; cbn [cstep].
  - unfold to_top. destruct (c_act st); [reflexivity|exact H].
  - exact (spawn_kept n args [] st H).
  - unfold close. destruct (c_act st); [reflexivity|exact H].
  - unfold close. destruct (c_act st) as [|m r]; [reflexivity|]. unfold to_top. cbn [c_act]. destruct r; [reflexivity|exact H].
  - exact H.
  - destruct (set_main_kept n st H) as (st1 & E & H1). rewrite E. unfold set_args.
    unfold main_kept in H1. destruct (idx_get (c_main st1) (c_idx st1)) eqn:Ei; [|congruence].
    unfold main_kept. cbn [c_main c_idx change_st]. rewrite Ei. discriminate.
  - destruct (set_main_kept n st H) as (st1 & E & H1). rewrite E. exact H1.
  - exact H.
  - exact (spawn_kept n [] body st H).
  - exact H.
Qed.

Lemma crun_kept : forall ops st, main_kept st ->
  match crun ops st with Ok st1 => main_kept st1 | Raise e => e = IndexError end.
Proof.
  induction ops as [|o ops IH]; intros st H; [exact H|]. cbn [crun]. assert (HS := cstep_kept o st H).
  destruct (cstep o st) as [st1|e]; [apply IH; exact HS|exact HS].
Qed.

Lemma never_key_error : forall cls main ops, compile_class cls main ops <> Raise KeyError.
Proof.
  intros cls main ops. unfold compile_class. assert (H := crun_kept ops (cstart main)).
  destruct (crun ops (cstart main)); [discriminate|]. intros E. injection E as E. rewrite E in H.
  discriminate H. unfold main_kept, cstart. cbn. rewrite seq_refl. discriminate.
Qed.

(** ** Pages *)

Definition addtop (cs : list pystr) (l : list meth) : list meth :=
  match l with
  | [] => []
  | m :: r => mkMeth (me_id m) (me_name m) (me_decos m) (me_args m) (me_body m ++ cs) :: r
  end.
Definition strip_id (m : meth) : method := (me_name m, me_decos m, me_args m, me_body m).
Definition others_ids (l : list meth) : Prop := forall m, In m l -> me_id m <> 0%nat.
Definition dull (cs : list pystr) : Prop := forall c, In c cs -> starts_with (L "write(self.") c = false.

(** What a part of a page adds up to. *)
Record sm : Type := mkS { s_own : list pystr; s_defs : list method; s_impls : list (pystr * list pystr); s_attrs : list (pystr * pystr) }.
Definition sapp (a b : sm) : sm :=
  mkS (s_own a ++ s_own b) (s_defs a ++ s_defs b) (s_impls a ++ s_impls b) (s_attrs a ++ s_attrs b).
Definition sum (p : page) : sm := mkS (own p) (defs p) (impls p) (attrs p).
Definition mainof (main : pystr) (a : sm) : pystr := last (map fst (s_impls a)) main.
Definition disj (main : pystr) (a : sm) : Prop :=
  forall n, In n (map name_of (s_defs a)) -> n <> main /\ ~ In n (map fst (s_impls a)).

Lemma addtop_nil : forall l, addtop [] l = l.
Proof. intros [|[i n d a b] l]; cbn; [reflexivity|]. rewrite app_nil_r. reflexivity. Qed.
Lemma addtop_app : forall a b l, addtop b (addtop a l) = addtop (a ++ b) l.
Proof. intros a b [|m l]; cbn; [reflexivity|]. rewrite app_assoc. reflexivity. Qed.

Lemma last_app : forall (A : Type) (a b : list A) d, last (a ++ b) d = last b (last a d).
Proof.
  intros A a b d. destruct b as [|x b] using rev_ind; [rewrite app_nil_r; reflexivity|].
  rewrite app_assoc, !last_last. reflexivity.
Qed.

Lemma rename_dull : forall old new cs, dull cs ->
  map (fun c => if str_eqb c (self_call old) then self_call new else c) cs = cs.
Proof.
  intros old new cs. induction cs as [|c cs IH]; intros H; [reflexivity|]. cbn [map].
  rewrite IH by (intros x Hx; apply H; right; exact Hx). f_equal.
  destruct (str_eqb_spec c (self_call old)) as [E|E]; [|reflexivity].
  exfalso. assert (Hc := H c (or_introl eq_refl)). rewrite E in Hc. unfold self_call in Hc. vm_compute in Hc. discriminate Hc.
Qed.

Lemma change_others : forall f l, others_ids l -> change 0 f l = l.
Proof.
  intros f l H. unfold change. induction l as [|m l IH]; [reflexivity|]. cbn [map].
  rewrite IH by (intros x Hx; apply H; right; exact Hx).
  destruct (Nat.eqb_spec (me_id m) 0) as [E|E]; [exfalso; apply (H m (or_introl eq_refl)); exact E|reflexivity].
Qed.

Lemma change_act : forall f l m, others_ids l -> me_id m = 0%nat -> change 0 f (l ++ [m]) = l ++ [f m].
Proof.
  intros f l m H Hm. unfold change. rewrite map_app. change (map _ l) with (change 0 f l).
  rewrite change_others by exact H. cbn [map]. rewrite Hm. reflexivity.
Qed.

(** The state while a page is compiled. *)
Record good (st : cstate) (others : list meth) (mm : meth) : Prop := mkGood {
  g_act : c_act st = others ++ [mm];
  g_id : me_id mm = 0%nat;
  g_oth : others_ids others;
  g_fin : others_ids (c_fin st);
  g_next : c_next st <> 0%nat;
  g_decos : c_decos st = [];
  g_name : me_name mm = c_main st
}.

Definition may (st : cstate) (others : list meth) (mm : meth) (a : sm) : Prop :=
  s_impls a = []
  \/ disj (c_main st) a /\ idx_get (c_main st) (c_idx st) = Some 0%nat
     /\ dull (me_body mm) /\ (others = [] -> dull (s_own a)).

Definition grow (others : list meth) (cs : list pystr) (m : meth) : meth :=
  match others with
  | [] => mkMeth (me_id m) (me_name m) (me_decos m) (me_args m) (me_body m ++ cs)
  | _ => m
  end.

Definition named (main : pystr) (a : sm) (mm : meth) : meth :=
  mkMeth (me_id mm) (mainof main a) (me_decos mm) (me_args mm ++ flat_map snd (s_impls a)) (me_body mm).

Definition after (st : cstate) (others : list meth) (mm : meth) (a : sm) (st1 : cstate) : Prop :=
  good st1 (addtop (s_own a) others) (grow others (s_own a) (named (c_main st) a mm))
  /\ (exists fs, c_fin st1 = c_fin st ++ fs /\ map strip_id fs = s_defs a)
  /\ c_main st1 = mainof (c_main st) a
  /\ c_init st1 = c_init st /\ c_attrs st1 = c_attrs st ++ s_attrs a
  /\ (idx_get (c_main st) (c_idx st) = Some 0%nat -> disj (c_main st) a -> idx_get (c_main st1) (c_idx st1) = Some 0%nat).

Lemma addtop_ids : forall cs l, others_ids l -> others_ids (addtop cs l).
Proof.
  intros cs [|m l] H; [exact H|]. intros x [<-|Hx]; [exact (H m (or_introl eq_refl))|apply H; right; exact Hx].
Qed.

Lemma dull_app : forall a b, dull a -> dull b -> dull (a ++ b).
Proof. intros a b Ha Hb c Hc. apply in_app_iff in Hc as [Hc|Hc]; [apply Ha|apply Hb]; exact Hc. Qed.

Lemma mainof_app : forall main a b, mainof main (sapp a b) = mainof (mainof main a) b.
Proof. intros main a b. unfold mainof, sapp. cbn [s_impls]. rewrite map_app. apply last_app. Qed.

Lemma mainof_in : forall main a, mainof main a = main \/ In (mainof main a) (map fst (s_impls a)).
Proof.
  intros main a. unfold mainof. destruct (map fst (s_impls a)) as [|x l] using rev_ind; [left; reflexivity|].
  right. rewrite last_last. apply in_or_app. right; left; reflexivity.
Qed.

Lemma disj_app : forall main a b, disj main (sapp a b) -> disj main a /\ disj (mainof main a) b.
Proof.
  intros main a b H. unfold disj, sapp in H. cbn [s_defs s_impls] in H. split; intros n Hn.
  - destruct (H n) as [H1 H2]; [rewrite map_app; apply in_or_app; left; exact Hn|]. split; [exact H1|].
    intros Hi. apply H2. rewrite map_app. apply in_or_app. left; exact Hi.
  - destruct (H n) as [H1 H2]; [rewrite map_app; apply in_or_app; right; exact Hn|]. rewrite map_app in H2. split.
    + intros E. destruct (mainof_in main a) as [E'|E']; [congruence|]. apply H2. apply in_or_app. left. rewrite E. exact E'.
    + intros Hi. apply H2. apply in_or_app. right; exact Hi.
Qed.

Lemma may_left : forall st others mm a b, may st others mm (sapp a b) -> may st others mm a.
Proof.
  intros st others mm a b [H|(H1 & H2 & H3 & H4)].
  - left. apply app_eq_nil in H as [H _]. exact H.
  - right. split; [apply (disj_app _ a b H1)|]. split; [exact H2|]. split; [exact H3|].
    intros E c Hc. apply (H4 E). apply in_or_app. left; exact Hc.
Qed.

Lemma may_right : forall st others mm a b st1, may st others mm (sapp a b) -> after st others mm a st1 ->
  may st1 (addtop (s_own a) others) (grow others (s_own a) (named (c_main st) a mm)) b.
Proof.
  intros st others mm a b st1 [H|(H1 & H2 & H3 & H4)] (_ & _ & A3 & _ & _ & A6).
  - left. apply app_eq_nil in H as [_ H]. exact H.
  - right. destruct (disj_app _ a b H1) as [D1 D2]. split; [rewrite A3; exact D2|]. split; [apply A6; assumption|]. split.
    + destruct others as [|m others]; cbn [grow named me_body]; [|exact H3]. apply dull_app; [exact H3|].
      intros c Hc. apply (H4 eq_refl). apply in_or_app. left; exact Hc.
    + intros E. assert (others = []) by (destruct others; [reflexivity|discriminate E]).
      intros c Hc. apply (H4 H). apply in_or_app. right; exact Hc.
Qed.

Lemma after_seq : forall st others mm a b st1 st2, after st others mm a st1 ->
  after st1 (addtop (s_own a) others) (grow others (s_own a) (named (c_main st) a mm)) b st2 ->
  after st others mm (sapp a b) st2.
Proof.
  intros st others mm a b st1 st2 (A1 & (fa & A2 & A2') & A3 & A4 & A5 & A6) (B1 & (fb & B2 & B2') & B3 & B4 & B5 & B6).
  unfold after. split; [|split; [|split; [|split; [|split]]]].
  - replace (addtop (s_own (sapp a b)) others) with (addtop (s_own b) (addtop (s_own a) others)) by apply addtop_app.
    replace (grow others (s_own (sapp a b)) (named (c_main st) (sapp a b) mm))
      with (grow (addtop (s_own a) others) (s_own b) (named (c_main st1) b (grow others (s_own a) (named (c_main st) a mm)))).
    + exact B1.
    + rewrite A3. unfold named. rewrite mainof_app. cbn [sapp s_own s_impls]. rewrite flat_map_app.
      destruct others as [|m others]; cbn [grow addtop me_id me_decos me_args me_body me_name];
        rewrite ?app_assoc; reflexivity.
  - exists (fa ++ fb). split; [rewrite B2, A2, app_assoc; reflexivity|]. rewrite map_app, A2', B2'. reflexivity.
  - rewrite B3, A3, mainof_app. reflexivity.
  - rewrite B4. exact A4.
  - rewrite B5, A5. cbn [sapp s_attrs]. rewrite app_assoc. reflexivity.
  - intros Hi Hd. destruct (disj_app _ a b Hd) as [D1 D2]. apply B6; [apply A6; assumption|]. rewrite A3. exact D2.
Qed.

(** One step that only adds something, for steps that leave the main method alone. *)
Lemma named_none : forall main a mm, s_impls a = [] -> me_name mm = main -> named main a mm = mm.
Proof.
  intros main a [i n d g b] E H. unfold named, mainof. rewrite E. cbn in *. rewrite app_nil_r, H. reflexivity.
Qed.

Lemma grow_none : forall others mm, grow others [] mm = mm.
Proof. intros [|x o] [i n d a b]; cbn; [rewrite app_nil_r|]; reflexivity. Qed.

Lemma to_top_good : forall c st others mm, good st others mm ->
  exists st1, to_top c st = Ok st1 /\ after st others mm (mkS [c] [] [] []) st1.
Proof.
  intros c st others mm G. destruct G as [H1 H2 H3 H4 H5 H6 H7]. unfold to_top. rewrite H1.
  destruct others as [|m others]; cbn [app].
  - eexists. split; [reflexivity|]. unfold after. rewrite named_none by (reflexivity || exact H7).
    split; [|split; [exists []; split; [cbn; rewrite app_nil_r; reflexivity|reflexivity]|]].
    + constructor; cbn [c_act c_fin c_next c_decos c_main addtop app grow put me_id me_name s_own]; auto.
    + cbn [c_main c_init c_attrs c_idx s_attrs]. rewrite app_nil_r. repeat split. intros H _. exact H.
  - eexists. split; [reflexivity|]. unfold after. rewrite named_none by (reflexivity || exact H7).
    split; [|split; [exists []; split; [cbn; rewrite app_nil_r; reflexivity|reflexivity]|]].
    + constructor; cbn [c_act c_fin c_next c_decos c_main addtop app grow put me_id me_name s_own]; auto.
      exact (addtop_ids [c] (m :: others) H3).
    + cbn [c_main c_init c_attrs c_idx s_attrs]. rewrite app_nil_r. repeat split. intros H _. exact H.
Qed.

(** #implements and #extends. *)
Lemma set_main_good : forall n st others mm, good st others mm -> may st others mm (mkS [] [] [(n, [])] []) ->
  exists st1, set_main n st = Ok st1 /\ after st others mm (mkS [] [] [(n, [])] []) st1.
Proof.
  intros n st others mm G HM. destruct G as [H1 H2 H3 H4 H5 H6 H7]. destruct HM as [HM|(D & I0 & DB & _)]; [discriminate HM|].
  unfold set_main. destruct (str_eqb_spec n (c_main st)) as [E|E].
  - exists st. split; [reflexivity|]. unfold after. cbn [s_own s_defs s_impls s_attrs].
    replace (named (c_main st) (mkS [] [] [(n, [])] []) mm) with mm.
    2:{ destruct mm as [i nm d g b]. unfold named, mainof. cbn in *. rewrite app_nil_r. congruence. }
    rewrite grow_none. split; [destruct others as [|[i nm d g b] o]; cbn [addtop]; [|rewrite app_nil_r]; constructor; assumption|].
    split; [exists []; split; [rewrite app_nil_r; reflexivity|reflexivity]|]. unfold mainof. cbn. rewrite app_nil_r.
    split; [congruence|]. repeat split. intros H _. exact H.
  - rewrite I0. eexists. split; [reflexivity|]. unfold after. cbn [s_own s_defs s_impls s_attrs].
    unfold change_st. cbn [c_act c_fin c_next c_decos c_main c_init c_attrs c_idx]. rewrite H1.
    rewrite change_act by assumption. rewrite change_others by exact H4.
    replace (rename (c_main st) n mm) with (named (c_main st) (mkS [] [] [(n, [])] []) mm).
    2:{ unfold named, rename, mainof. rewrite rename_dull by exact DB. cbn. rewrite app_nil_r. reflexivity. }
    rewrite grow_none. split.
    + replace (addtop [] others) with others by (symmetry; apply addtop_nil). constructor; cbn; auto.
    + split; [exists []; split; [rewrite app_nil_r; reflexivity|reflexivity]|].
      unfold mainof. cbn [map fst last s_impls]. rewrite app_nil_r. repeat split.
      intros _ _. rewrite idx_get_del by exact E. rewrite idx_get_set, seq_refl. reflexivity.
Qed.

Lemma set_args_good : forall args st others mm, good st others mm -> idx_get (c_main st) (c_idx st) = Some 0%nat ->
  exists st1, set_args args st = Ok st1
    /\ good st1 others (more_args args mm) /\ c_fin st1 = c_fin st /\ c_main st1 = c_main st /\ c_init st1 = c_init st
    /\ c_attrs st1 = c_attrs st /\ c_idx st1 = c_idx st.
Proof.
  intros args st others mm G I0. destruct G as [H1 H2 H3 H4 H5 H6 H7]. unfold set_args. rewrite I0.
  eexists. split; [reflexivity|]. unfold change_st. rewrite H1, change_act, change_others by assumption.
  split; [constructor; cbn; auto|]. repeat split.
Qed.

Lemma implements_good : forall n args st others mm, good st others mm -> may st others mm (mkS [] [] [(n, args)] []) ->
  exists st1, cstep (OImplements n args) st = Ok st1 /\ after st others mm (mkS [] [] [(n, args)] []) st1.
Proof.
  intros n args st others mm G HM. destruct HM as [HM|(D & I0 & DB & DO)]; [discriminate HM|].
  destruct (set_main_good n st others mm G) as (st1 & E & A).
  { right. split; [exact D|]. split; [exact I0|]. split; [exact DB|exact DO]. }
  destruct A as (A1 & (fs & A2 & A2') & A3 & A4 & A5 & A6).
  cbn [s_own s_defs s_impls s_attrs] in *. rewrite addtop_nil, grow_none in A1.
  destruct (set_args_good args st1 others _ A1 (A6 I0 D)) as (st2 & E2 & B1 & B2 & B3 & B4 & B5 & B6).
  exists st2. cbn [cstep]. rewrite E. split; [exact E2|]. unfold after. cbn [s_own s_defs s_impls s_attrs].
  rewrite addtop_nil, grow_none. split.
  - replace (named (c_main st) (mkS [] [] [(n, args)] []) mm)
      with (more_args args (named (c_main st) (mkS [] [] [(n, [])] []) mm)); [exact B1|].
    unfold more_args, named, mainof. cbn. rewrite !app_nil_r. reflexivity.
  - split; [exists fs; split; [rewrite B2; exact A2|exact A2']|].
    split; [rewrite B3; exact A3|]. split; [congruence|]. split; [congruence|]. intros X Y.
    rewrite B3, B6. apply A6; assumption.
Qed.

Lemma catch_good : forall n body st others mm, good st others mm ->
  exists st1, cstep (OCatch n body) st = Ok st1 /\ after st others mm (mkS [] [(n, [], [], body)] [] []) st1.
Proof.
  intros n body st others mm [H1 H2 H3 H4 H5 H6 H7]. cbn [cstep spawn]. eexists. split; [reflexivity|].
  unfold after. cbn [s_own s_defs s_impls s_attrs c_act c_fin c_next c_decos c_main c_init c_attrs c_idx].
  rewrite named_none by (reflexivity || exact H7). rewrite addtop_nil, grow_none. split.
  - constructor; cbn [c_act c_fin c_next c_decos c_main]; auto.
    intros m Hm. apply in_app_iff in Hm as [Hm|[<-|[]]]; [exact (H4 m Hm)|exact H5].
  - split; [eexists; split; [reflexivity|cbn; rewrite H6; reflexivity]|]. unfold mainof. cbn [map s_impls last].
    rewrite app_nil_r. repeat split. intros I0 D. rewrite idx_get_set.
    destruct (str_eqb_spec (c_main st) n) as [E|E]; [|exact I0]. exfalso.
    destruct (D n (or_introl eq_refl)) as [D1 _]. congruence.
Qed.

Lemma attr_good : forall n e st others mm, good st others mm ->
  exists st1, cstep (OAttr n e) st = Ok st1 /\ after st others mm (mkS [] [] [] [(n, e)]) st1.
Proof.
  intros n e st others mm [H1 H2 H3 H4 H5 H6 H7]. cbn [cstep]. eexists. split; [reflexivity|].
  unfold after. cbn [s_own s_defs s_impls s_attrs c_act c_fin c_next c_decos c_main c_init c_attrs c_idx].
  rewrite named_none by (reflexivity || exact H7). rewrite addtop_nil, grow_none. split.
  - constructor; cbn [c_act c_fin c_next c_decos c_main]; auto.
  - split; [exists []; split; [rewrite app_nil_r; reflexivity|reflexivity]|]. repeat split. intros I0 _. exact I0.
Qed.

(** A definition, up to its end: the inner part is compiled with the new method on the top. *)
Definition run_ok (p : page) : Prop := forall st others mm, good st others mm -> may st others mm (sum p) ->
  exists st1, crun (calls p) st = Ok st1 /\ after st others mm (sum p) st1.

Lemma open_good : forall ds n args b st others mm, run_ok b -> good st others mm ->
  may st others mm (mkS [] (s_defs (sum b) ++ [(n, ds, args, own b)]) (impls b) (attrs b)) ->
  exists st1 m, crun (map ODeco ds ++ OStart n args :: calls b) st = Ok st1
    /\ m = mkMeth (c_next st) n ds args (own b)
    /\ c_act st1 = m :: others ++ [named (c_main st) (sum b) mm]
    /\ after st others mm (mkS [] (s_defs (sum b) ++ [(n, ds, args, own b)]) (impls b) (attrs b))
         (mkC (c_next st1) (others ++ [named (c_main st) (sum b) mm]) (c_fin st1 ++ [m]) (c_idx st1) (c_decos st1)
            (c_main st1) (c_init st1) (c_attrs st1)).
Proof.
  intros ds n args b st others mm IH [H1 H2 H3 H4 H5 H6 H7] HM.
  rewrite crun_app, crun_decos. cbn [crun cstep spawn c_next c_act c_fin c_idx c_decos c_main c_init c_attrs].
  rewrite H6. cbn [app].
  set (m0 := mkMeth (c_next st) n ds args []).
  set (st0 := mkC (S (c_next st)) (m0 :: c_act st) (c_fin st) ((n, c_next st) :: idx_del n (c_idx st)) [] (c_main st) (c_init st) (c_attrs st)).
  destruct (IH st0 (m0 :: others) mm) as (st1 & E & (A1 & (fs & A2 & A2') & A3 & A4 & A5 & A6)).
  { constructor; cbn [st0 c_act c_fin c_next c_decos c_main]; auto.
    - rewrite H1. reflexivity.
    - intros x [<-|Hx]; [exact H5|exact (H3 x Hx)]. }
  { destruct HM as [HM|(D & I0 & DB & DO)]; [left; exact HM|]. right. split; [|split; [|split; [exact DB|discriminate]]].
    - intros k Hk. apply D. cbn [s_defs]. rewrite map_app. apply in_or_app. left; exact Hk.
    - cbn [st0 c_main c_idx]. rewrite idx_get_set. destruct (str_eqb_spec (c_main st) n) as [Eq|]; [|exact I0].
      exfalso. destruct (D n) as [D1 _]; [cbn [s_defs]; rewrite map_app; apply in_or_app; right; left; reflexivity|]. congruence. }
  cbn [sum s_own s_defs s_impls s_attrs addtop grow] in *.
  exists st1. eexists. split; [exact E|]. split; [reflexivity|]. destruct A1 as [B1 B2 B3 B4 B5 B6 B7].
  split; [rewrite B1; reflexivity|].
  unfold after. cbn [s_own s_defs s_impls s_attrs c_act c_fin c_next c_decos c_main c_init c_attrs c_idx].
  rewrite addtop_nil, grow_none. split.
  - constructor; cbn [c_act c_fin c_next c_decos c_main]; auto.
    intros x Hx. apply in_app_iff in Hx as [Hx|[<-|[]]]; [exact (B4 x Hx)|exact H5].
  - split.
    { exists (fs ++ [mkMeth (c_next st) n ds args (own b)]). split; [rewrite A2; cbn [st0 c_fin]; rewrite app_assoc; reflexivity|].
      rewrite map_app, A2'. reflexivity. }
    split; [exact A3|]. split; [exact A4|]. split; [exact A5|].
    intros I0 D. apply A6.
    + cbn [st0 c_main c_idx]. rewrite idx_get_set. destruct (str_eqb_spec (c_main st) n) as [Eq|]; [|exact I0].
      exfalso. destruct (D n) as [D1 _]; [cbn [s_defs]; rewrite map_app; apply in_or_app; right; left; reflexivity|]. congruence.
    + intros k Hk. apply D. cbn [s_defs]. rewrite map_app. apply in_or_app. left; exact Hk.
Qed.

Lemma sum_parts : forall p, sum p = mkS (own p) (defs p) (impls p) (attrs p).
Proof. reflexivity. Qed.

(** First a part, then the rest. *)
Lemma run_seq : forall ops a k st others mm, run_ok k -> good st others mm -> may st others mm (sapp a (sum k)) ->
  (exists st1, crun ops st = Ok st1 /\ after st others mm a st1) ->
  exists st2, crun (ops ++ calls k) st = Ok st2 /\ after st others mm (sapp a (sum k)) st2.
Proof.
  intros ops a k st others mm IH G HM (st1 & E & A). rewrite crun_app, E.
  destruct (IH st1 _ _ (proj1 A) (may_right _ _ _ _ _ _ HM A)) as (st2 & E2 & B).
  exists st2. split; [exact E2|]. exact (after_seq _ _ _ _ _ _ _ A B).
Qed.

Lemma one_op : forall o st st1, cstep o st = Ok st1 -> crun [o] st = Ok st1.
Proof. intros o st st1 E. cbn [crun]. rewrite E. reflexivity. Qed.

Lemma page_runs : forall p, run_ok p.
Proof.
  induction p as [|c k IHk|ds n args b IHb k IHk|ds n args b IHb k IHk|n args k IHk|n k IHk|n e k IHk|n body k IHk];
    intros st others mm G HM.
  - exists st. split; [reflexivity|]. unfold after. cbn [sum own defs impls attrs s_own s_defs s_impls s_attrs].
    rewrite named_none by (reflexivity || apply (g_name _ _ _ G)). rewrite addtop_nil, grow_none, app_nil_r.
    split; [exact G|]. split; [exists []; split; [rewrite app_nil_r; reflexivity|reflexivity]|]. repeat split. intros H _; exact H.
  - apply (run_seq [OText c] (mkS [c] [] [] []) k st others mm IHk G HM).
    destruct (to_top_good c st others mm G) as (st1 & E & A). exists st1. split; [apply one_op; exact E|exact A].
  - assert (ES : sum (PDef ds n args b k) = sapp (mkS [] (defs b ++ [(n, ds, args, own b)]) (impls b) (attrs b)) (sum k)).
    { unfold sum, sapp. cbn. rewrite <- app_assoc. reflexivity. }
    rewrite ES in *.
    replace (calls (PDef ds n args b k)) with ((map ODeco ds ++ OStart n args :: calls b ++ [OEndDef]) ++ calls k).
    2:{ cbn [calls]. rewrite <- !app_assoc. cbn [app]. rewrite <- app_assoc. reflexivity. }
    apply run_seq; [exact IHk|exact G|exact HM|].
    destruct (open_good ds n args b st others mm IHb G (may_left _ _ _ _ _ HM)) as (st1 & m & E & Em & Ea & A).
    eexists. split; [|exact A].
    replace (map ODeco ds ++ OStart n args :: calls b ++ [OEndDef]) with ((map ODeco ds ++ OStart n args :: calls b) ++ [OEndDef])
      by (rewrite <- app_assoc; reflexivity).
    rewrite crun_app, E. cbn [crun cstep]. unfold close. rewrite Ea. reflexivity.
  - assert (ES : sum (PBlock ds n args b k)
      = sapp (sapp (mkS [] (defs b ++ [(n, ds, args, own b)]) (impls b) (attrs b)) (mkS [block_call n] [] [] [])) (sum k)).
    { unfold sum, sapp. cbn. rewrite !app_nil_r, <- app_assoc. reflexivity. }
    rewrite ES in *.
    replace (calls (PBlock ds n args b k)) with ((map ODeco ds ++ OStart n args :: calls b ++ [OEndBlock]) ++ calls k).
    2:{ cbn [calls]. rewrite <- !app_assoc. cbn [app]. rewrite <- app_assoc. reflexivity. }
    apply run_seq; [exact IHk|exact G|exact HM|].
    destruct (open_good ds n args b st others mm IHb G (may_left _ _ _ _ _ (may_left _ _ _ _ _ HM))) as (st1 & m & E & Em & Ea & A).
    destruct (to_top_good (block_call n) _ _ _ (proj1 A)) as (st2 & E2 & B).
    exists st2. split; [|exact (after_seq _ _ _ _ _ _ _ A B)].
    replace (map ODeco ds ++ OStart n args :: calls b ++ [OEndBlock]) with ((map ODeco ds ++ OStart n args :: calls b) ++ [OEndBlock])
      by (rewrite <- app_assoc; reflexivity).
    rewrite crun_app, E. cbn [crun cstep]. unfold close. rewrite Ea, Em. cbn [me_name]. rewrite <- Em, E2. reflexivity.
  - apply (run_seq [OImplements n args] (mkS [] [] [(n, args)] []) k st others mm IHk G HM).
    destruct (implements_good n args st others mm G (may_left st others mm (mkS [] [] [(n, args)] []) (sum k) HM)) as (st1 & E & A).
    exists st1. split; [apply one_op; exact E|exact A].
  - apply (run_seq [OExtends n] (mkS [] [] [(n, [])] []) k st others mm IHk G HM).
    destruct (set_main_good n st others mm G (may_left st others mm (mkS [] [] [(n, [])] []) (sum k) HM)) as (st1 & E & A).
    exists st1. split; [apply one_op; exact E|exact A].
  - apply (run_seq [OAttr n e] (mkS [] [] [] [(n, e)]) k st others mm IHk G HM).
    destruct (attr_good n e st others mm G) as (st1 & E & A). exists st1. split; [apply one_op; exact E|exact A].
  - apply (run_seq [OCatch n body] (mkS [] [(n, [], [], body)] [] []) k st others mm IHk G HM).
    destruct (catch_good n body st others mm G) as (st1 & E & A). exists st1. split; [apply one_op; exact E|exact A].
Qed.

(** ** The class *)

Definition init_of (cls : pystr) : method := (L "__init__", [], [], init_body cls []).

Lemma class_layout : forall cls main p, no_clash main p ->
  exists st, compile_class cls main (calls p) = Ok st
  /\ map strip_id (c_fin st)
     = init_of cls :: defs p ++ [(main_name main p, [], flat_map snd (impls p), own p)]
  /\ c_attrs st = fixed_attrs ++ attrs p
       ++ (if str_eqb (main_name main p) (L "respond") then [(L "__str__", L "def")] else [])
       ++ [(L "_mainCheetahMethod_for_" ++ cls, main_name main p)]
  /\ c_main st = main_name main p.
Proof.
  intros cls main p H. unfold compile_class.
  destruct (page_runs p (cstart main) [] (mkMeth 0 main [] [] [])) as (st & E & A).
  - constructor; try reflexivity; try discriminate; intros x [].
  - destruct H as [H|[H1 H2]]; [left; exact H|]. right. split; [exact H1|].
    split; [cbn [cstart c_main c_idx idx_get]; rewrite seq_refl; reflexivity|]. split; [intros c []|intros _; exact H2].
  - rewrite E. eexists. split; [reflexivity|]. destruct A as (G & (fs & A2 & A2') & A3 & A4 & A5 & _).
    destruct G as [G1 _ _ _ _ G6 _]. cbn [sum s_own s_defs s_impls s_attrs addtop grow app] in *.
    unfold cleanup, spawn. cbn [c_act c_fin c_main c_attrs c_decos]. split; [|split].
    + cbn [map strip_id me_name me_decos me_args me_body]. rewrite G6, G1, A2, A4. cbn [cstart c_fin app].
      rewrite map_app, A2'. reflexivity.
    + rewrite A5, A3. cbn [cstart c_attrs c_main]. rewrite <- app_assoc. reflexivity.
    + exact A3.
Qed.

(** ** Names *)

Lemma lookup_app : forall (A : Type) n (a b : list (pystr * A)),
  lookup n (a ++ b) = match lookup n b with Some w => Some w | None => lookup n a end.
Proof.
  intros A n a b. induction a as [|[k v] a IH]; cbn [app lookup]; [destruct (lookup n b); reflexivity|].
  rewrite IH. destruct (lookup n b); reflexivity.
Qed.

Lemma lookup_none : forall (A : Type) n (a : list (pystr * A)), ~ In n (map fst a) -> lookup n a = None.
Proof.
  intros A n a H. induction a as [|[k v] a IH]; [reflexivity|]. cbn [lookup map fst] in *.
  rewrite IH by (intros Hx; apply H; right; exact Hx).
  destruct (str_eqb_spec n k) as [E|E]; [exfalso; apply H; left; congruence|reflexivity].
Qed.

Lemma lookup_unique : forall (A : Type) n v (a : list (pystr * A)), NoDup (map fst a) -> In (n, v) a -> lookup n a = Some v.
Proof.
  intros A n v a. induction a as [|[k w] a IH]; intros Hd Hi; [contradiction|]. cbn [map fst] in Hd.
  inversion Hd as [|x l Hx Hd']. subst. cbn [lookup]. destruct Hi as [E|Hi].
  - injection E as -> ->. rewrite lookup_none by exact Hx. rewrite seq_refl. reflexivity.
  - rewrite (IH Hd' Hi). reflexivity.
Qed.

Definition meth_bind (m : method) : pystr * bound :=
  let '(n, ds, args, body) := m in (n, BMeth ds args body).

Lemma binds_of : forall st ms, map strip_id (c_fin st) = ms ->
  class_binds true st = map meth_bind ms ++ map (fun a => (fst a, BAttr (snd a))) (c_attrs st).
Proof.
  intros st ms <-. unfold class_binds. rewrite map_map. reflexivity.
Qed.

Lemma fst_meth_bind : forall ms, map fst (map meth_bind ms) = map name_of ms.
Proof. intros ms. rewrite map_map. apply map_ext. intros [[[n d] a] b]. reflexivity. Qed.

Lemma class_main : forall cls main p st, no_clash main p -> compile_class cls main (calls p) = Ok st ->
  ~ In (main_name main p) (map fst (c_attrs st)) ->
  lookup (main_name main p) (class_binds true st) = Some (BMeth [] (flat_map snd (impls p)) (own p)).
Proof.
  intros cls main p st H E Ha. destruct (class_layout cls main p H) as (st' & E' & A & _). rewrite E in E'. injection E' as <-.
  rewrite (binds_of st _ A), lookup_app, lookup_none.
  - change (init_of cls :: defs p ++ [(main_name main p, [], flat_map snd (impls p), own p)])
      with ((init_of cls :: defs p) ++ [(main_name main p, [], flat_map snd (impls p), own p)]).
    rewrite map_app, lookup_app. cbn [map meth_bind lookup]. rewrite seq_refl. reflexivity.
  - rewrite map_map. exact Ha.
Qed.

Lemma class_method : forall cls main p st n ds args body, no_clash main p -> compile_class cls main (calls p) = Ok st ->
  NoDup (map name_of (init_of cls :: defs p) ++ main_name main p :: map fst (c_attrs st)) ->
  In (n, ds, args, body) (defs p) ->
  lookup n (class_binds true st) = Some (BMeth ds args body).
Proof.
  intros cls main p st n ds args body H E Hd Hi. destruct (class_layout cls main p H) as (st' & E' & A & _).
  rewrite E in E'. injection E' as <-.
  rewrite (binds_of st _ A). apply lookup_unique.
  - rewrite map_app, fst_meth_bind, map_map. cbn [fst].
    change (init_of cls :: defs p ++ [(main_name main p, [], flat_map snd (impls p), own p)])
      with ((init_of cls :: defs p) ++ [(main_name main p, [], flat_map snd (impls p), own p)]).
    rewrite map_app, <- app_assoc. exact Hd.
  - apply in_or_app. left. right. change (n, BMeth ds args body) with (meth_bind (n, ds, args, body)). fold (map meth_bind).
    apply in_map, in_or_app. left; exact Hi.
Qed.

Lemma main_recorded : forall cls main p st, no_clash main p -> compile_class cls main (calls p) = Ok st ->
  lookup (L "_mainCheetahMethod_for_" ++ cls) (class_binds true st) = Some (BAttr (main_name main p)).
Proof.
  intros cls main p st H E. destruct (class_layout cls main p H) as (st' & E' & A & B & _).
  rewrite E in E'. injection E' as <-. rewrite (binds_of st _ A), B, !map_app, !lookup_app.
  cbn [map lookup fst snd]. rewrite seq_refl. reflexivity.
Qed.
