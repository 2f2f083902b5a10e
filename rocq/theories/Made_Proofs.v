(** Proofs about making an instance (Made_Model.v against Made_Spec.v). *)
From Verif Require Import Base PyStr Alist Made_Model Made_Spec.

(** ** The checks *)

Lemma check_cases : forall w a, right_classes w a ->
  check w a = match filter (fun e => negb (snd e)) (documented w a) with
              | (n, _) :: _ => Some (TypeE n)
              | [] => if negb (is_none (a_source a)) && negb (is_none (a_file a)) then Some Both else None
              end.
Proof.
  intros w [so fi fl li ca se sl ns] [R1 R2]. unfold check, documented. cbn [a_source a_file a_filter a_lib a_catcher a_settings] in *.
  destruct so; cbn; try reflexivity; destruct fi; cbn; try reflexivity;
  (destruct fl as [| |f| |c| | |]; cbn; try reflexivity; try (rewrite (R1 c eq_refl); cbn));
  (destruct li; cbn; try reflexivity);
  (destruct ca as [| |cs| |c'| | |]; cbn; try reflexivity; try (rewrite (R2 c' eq_refl); cbn));
  destruct se; cbn; reflexivity.
Qed.

Lemma filter_first : forall (l : list (pystr * bool)) n, 
  (exists b r, filter (fun e => negb (snd e)) l = (n, b) :: r) <->
  (exists before after, l = before ++ (n, false) :: after /\ forall m, ~ In (m, false) before).
Proof.
  induction l as [|[m b] l IH]; intro n.
  - split; [intros (b & r & E); discriminate E|intros (x & y & E & _); destruct x; discriminate E].
  - cbn [filter snd]. destruct b; cbn [negb].
    + rewrite IH. split.
      * intros (x & y & E & H). exists ((m, true) :: x), y. rewrite E. split; [reflexivity|].
        intros q [Q|Q]; [congruence|exact (H q Q)].
      * intros (x & y & E & H). destruct x as [|e x]; [discriminate E|]. injection E as E1 E2. exists x, y. split; [exact E2|].
        intros q Q. apply (H q). right. exact Q.
    + split.
      * intros (b & r & E). injection E as -> _ _. exists [], l. split; [reflexivity|]. intros q [].
      * intros (x & y & E & H). destruct x as [|e x].
        -- injection E as -> _. eexists. eexists. reflexivity.
        -- injection E as E1 E2. exfalso. apply (H m). left. congruence.
Qed.

Lemma filter_none : forall (l : list (pystr * bool)),
  filter (fun e => negb (snd e)) l = [] <-> forall n, ~ In (n, false) l.
Proof.
  induction l as [|[m b] l IH]; cbn [filter snd].
  - split; [intros _ n []|reflexivity].
  - destruct b; cbn [negb].
    + rewrite IH. split; [intros H n [Q|Q]; [congruence|exact (H n Q)]|intros H n Q; apply (H n); right; exact Q].
    + split; [discriminate|intro H; exfalso; apply (H m); left; reflexivity].
Qed.

Lemma check_misfit : forall w a n, right_classes w a -> (check w a = Some (TypeE n) <-> first_misfit w a n).
Proof.
  intros w a n R. rewrite (check_cases w a R). unfold first_misfit. rewrite <- filter_first.
  destruct (filter _ _) as [|[m b] r].
  - split; [|intros (b & r & E); discriminate E]. destruct (_ && _); discriminate.
  - split; [intro E; injection E as ->; eauto|intros (b' & r' & E); injection E as -> _ _; reflexivity].
Qed.

Lemma check_both : forall w a, right_classes w a ->
  (check w a = Some Both <-> fit w a /\ a_source a <> ANone /\ a_file a <> ANone).
Proof.
  intros w a R. rewrite (check_cases w a R). unfold fit. rewrite <- filter_none.
  destruct (filter _ _) as [|[m b] r].
  - destruct (a_source a), (a_file a); cbn; split; try discriminate; intuition congruence.
  - split; [discriminate|intros [E _]; discriminate E].
Qed.

Lemma check_ok : forall w a, fit w a -> a_source a = ANone \/ a_file a = ANone -> check w a = None.
Proof.
  intros w a F B. assert (R : right_classes w a).
  { split; intros c E.
    - destruct (w_filter w c) eqn:W; [reflexivity|]. exfalso. apply (F (L "filter")). unfold documented. rewrite E, W. cbn [In]. tauto.
    - destruct (w_catcher w c) eqn:W; [reflexivity|]. exfalso. apply (F (L "errorCatcher")). unfold documented. rewrite E, W. cbn [In]. tauto. }
  rewrite (check_cases w a R). apply (proj2 (filter_none _)) in F. rewrite F.
  destruct B as [-> | ->]; cbn; [reflexivity|]. destruct (is_none _); reflexivity.
Qed.

(** ** The instance *)

Lemma made_ok : forall w a f c l, check w a = None ->
  meant_filter w a f -> meant_catcher w a c -> meant_spaces a l -> ~ lone w (a_sl a) -> (prio a = true -> forall l', a_sl a <> SSeq true l' /\ a_ns a <> SSeq true l') ->
  exists ws, make w a = (ws, Ok (mkMade (if prio a then map ENs l ++ [EGlobals; ESelf] else [EGlobals; ESelf] ++ map ENs l) f c
    (match a_source a, a_file a with ANone, ANone => None | s, g => Some (s, g) end))).
Proof.
  intros w a f c l Hc F C M N P. unfold make. rewrite Hc.
  assert (W : exists ws, warn w a = Ok ws).
  { unfold warn. destruct (a_sl a) as [| |[ks|o]] eqn:E; eauto. destruct (w_true w o) eqn:T; [|eauto]. destruct (w_iter w o) eqn:I; [eauto|].
    exfalso. apply N. exists o. auto. }
  destruct W as [ws ->]. exists ws. f_equal.
  assert (S : search_list a = Ok (if prio a then map ENs l ++ [EGlobals; ESelf] else [EGlobals; ESelf] ++ map ENs l)).
  { unfold search_list. destruct M as [[-> ->] | [E ->]].
    - destruct (a_sl a) as [|t x|n] eqn:E; cbn [spaces]; destruct (prio a); try reflexivity.
      destruct t; [|reflexivity]. exfalso. apply (proj1 (P eq_refl x)). reflexivity.
    - rewrite E. destruct (a_ns a) as [|t x|n] eqn:E'; cbn [spaces]; destruct (prio a); try reflexivity.
      destruct t; [|reflexivity]. exfalso. apply (proj2 (P eq_refl x)). reflexivity. }
  rewrite S.
  assert (PF : pick_filter w a = Ok f).
  { unfold pick_filter. destruct F as [[-> | (n & m & -> & -> & ->)] ->]; reflexivity. }
  rewrite PF.
  assert (PC : pick_catcher w a = Ok c).
  { unfold pick_catcher. destruct c as [c|]; cbn in C.
    - destruct C as [[-> | (n & Hn & -> & E)] W]; [rewrite W; reflexivity|]. destruct n; [congruence|]. rewrite E, W. reflexivity.
    - destruct C as [-> | ->]; reflexivity. }
  rewrite PC. f_equal. f_equal. destruct (a_source a), (a_file a); reflexivity.
Qed.

Lemma either : forall w a, check w a = None -> a_sl a <> SNone -> a_ns a <> SNone -> ~ lone w (a_sl a) -> snd (make w a) = Raise AssertE.
Proof.
  intros w a Hc A B N. unfold make. rewrite Hc.
  assert (W : exists ws, warn w a = Ok ws).
  { unfold warn. destruct (a_sl a) as [| |[ks|o]] eqn:E; eauto. destruct (w_true w o) eqn:T; [|eauto]. destruct (w_iter w o) eqn:I; [eauto|].
    exfalso. apply N. exists o. auto. }
  destruct W as [ws ->]. cbn [snd]. unfold search_list. destruct (a_ns a); [congruence| |]; (destruct (a_sl a); [congruence| |]); reflexivity.
Qed.

Lemma ready : forall w a l, meant_spaces a l -> ~ lone w (a_sl a) ->
  (prio a = true -> forall l', a_sl a <> SSeq true l' /\ a_ns a <> SSeq true l') -> exists ws sl, warn w a = Ok ws /\ search_list a = Ok sl.
Proof.
  intros w a l M N P.
  assert (W : exists ws, warn w a = Ok ws).
  { unfold warn. destruct (a_sl a) as [| |[ks|o]] eqn:E; eauto. destruct (w_true w o) eqn:T; [|eauto]. destruct (w_iter w o) eqn:I; [eauto|].
    exfalso. apply N. exists o. auto. }
  destruct W as [ws W]. exists ws.
  assert (S : exists sl, search_list a = Ok sl).
  { unfold search_list. destruct M as [[-> _] | [E _]].
    - destruct (a_sl a) as [|t x|n] eqn:E; destruct (prio a); eauto.
      destruct t; [|eauto]. exfalso. apply (proj1 (P eq_refl x)). reflexivity.
    - rewrite E. destruct (a_ns a) as [|t x|n] eqn:E'; destruct (prio a); eauto.
      destruct t; [|eauto]. exfalso. apply (proj2 (P eq_refl x)). reflexivity. }
  destruct S as [sl S]. exists sl. split; assumption.
Qed.

Lemma unknown_filter : forall w a l n m, check w a = None -> meant_spaces a l -> ~ lone w (a_sl a) ->
  (prio a = true -> forall l', a_sl a <> SSeq true l' /\ a_ns a <> SSeq true l') ->
  a_filter a = AStr n -> a_lib a = AMod m -> w_mod w m n = None -> snd (make w a) = Raise (AttrE n).
Proof.
  intros w a l n m C M LO P F LB N. destruct (ready w a l M LO P) as (ws & sl & W & S). unfold make. rewrite C, W, S. cbn [snd].
  unfold pick_filter. rewrite F, LB, N. reflexivity.
Qed.

Lemma unknown_catcher : forall w a l c n, check w a = None -> meant_spaces a l -> ~ lone w (a_sl a) ->
  (prio a = true -> forall l', a_sl a <> SSeq true l' /\ a_ns a <> SSeq true l') -> meant_filter w a c ->
  a_catcher a = AStr n -> n <> [] -> w_catchers w n = None -> snd (make w a) = Raise (AttrE n).
Proof.
  intros w a l c n C M LO P MF F NE N. destruct (ready w a l M LO P) as (ws & sl & W & S). unfold make. rewrite C, W, S. cbn [snd].
  assert (PF : pick_filter w a = Ok c).
  { unfold pick_filter. destruct MF as [[-> | (n' & m & -> & -> & ->)] ->]; reflexivity. }
  rewrite PF. unfold pick_catcher. rewrite F. destruct n as [|d n]; [congruence|]. rewrite N. reflexivity.
Qed.

Lemma alias : forall w a s, ~ lone w s -> snd (make w (as_search_list a s)) = snd (make w (as_namespaces a s)).
Proof.
  intros w a s N. unfold make.
  change (check w (as_namespaces a s)) with (check w (as_search_list a s)). destruct (check w (as_search_list a s)); [reflexivity|].
  assert (W : exists ws, warn w (as_search_list a s) = Ok ws).
  { unfold warn. cbn [a_sl as_search_list]. destruct s as [| |[ks|o]] eqn:E; eauto. destruct (w_true w o) eqn:T; [|eauto].
    destruct (w_iter w o) eqn:I; [eauto|]. exfalso. apply N. exists o. auto. }
  destruct W as [ws ->]. change (warn w (as_namespaces a s)) with (@Ok err (list (list pystr)) []). cbn [snd].
  assert (S : search_list (as_search_list a s) = search_list (as_namespaces a s)).
  { unfold search_list. cbn [a_sl a_ns as_search_list as_namespaces]. destruct s; reflexivity. }
  rewrite S. reflexivity.
Qed.

Lemma warns : forall w a t l k, check w a = None -> a_sl a = SSeq t l ->
  ((exists i, In i (fst (make w a)) /\ In k i) <-> prio a = false /\ In k (w_reserved w) /\ exists ks, In (NDict ks) l /\ In k ks).
Proof.
  intros w a t l k Hc Hs. unfold make. rewrite Hc. unfold warn. rewrite Hs. cbn [fst].
  assert (R : forall ks, In k (reserved w ks) <-> In k ks /\ In k (w_reserved w)).
  { intro ks. unfold reserved. rewrite filter_In, existsb_exists. split.
    - intros [A (x & B & E)]. apply str_eqb_eq in E. subst x. auto.
    - intros [A B]. split; [exact A|]. exists k. split; [exact B|apply str_eqb_refl]. }
  split.
  - intros (i & Hi & Hk). apply in_flat_map in Hi. destruct Hi as (n & Hn & Hi). destruct n as [ks|o]; [|destruct Hi].
    destruct (reserved w ks) as [|e r] eqn:E; [destruct Hi|]. destruct (prio a); [destruct Hi|]. destruct Hi as [Hi|[]]. subst i.
    rewrite <- E in Hk. apply R in Hk. split; [reflexivity|]. split; [tauto|]. exists ks. tauto.
  - intros (P & Hr & ks & Hn & Hk). assert (K : In k (reserved w ks)) by (apply R; auto).
    exists (reserved w ks). split; [|exact K]. apply in_flat_map. exists (NDict ks). split; [exact Hn|]. rewrite P.
    destruct (reserved w ks); [destruct K|left; reflexivity].
Qed.

Lemma quiet : forall w a i, In i (fst (make w a)) -> i <> [].
Proof.
  intros w a i H. unfold make in H. destruct (check w a); [destruct H|]. destruct (warn w a) as [ws|] eqn:W; [|destruct H]. cbn [fst] in H.
  unfold warn in W. destruct (a_sl a) as [|t l|[ks|o]].
  - injection W as <-. destruct H.
  - injection W as <-. apply in_flat_map in H. destruct H as ([ks|o] & _ & H); [|destruct H].
    destruct (reserved w ks) eqn:E; [destruct H|]. destruct (prio a); [destruct H|]. destruct H as [<-|[]]. discriminate.
  - injection W as <-. destruct H.
  - destruct (w_true w o); [destruct (w_iter w o)|]; try discriminate W; injection W as <-; destruct H.
Qed.

(** ** Attributes *)

Lemma dunder_iff : forall k, starts_with (L "__") k = true <-> dunder k.
Proof. intro k. apply starts_with_iff. Qed.

Lemma set_dict : forall k v mro i i', set_attr k v mro i = Some i' -> forall x,
  aget x (i_dict i') = if str_eqb x k then match class_attr k mro with Some (Property _ _) => aget x (i_dict i) | _ => Some v end else aget x (i_dict i).
Proof.
  intros k v mro i i' H x. unfold set_attr in H.
  destruct (class_attr k mro) as [[| | | |g []]|]; try discriminate H; injection H as <-; cbn [i_dict]; rewrite ?aget_aset; destruct (str_eqb x k); reflexivity.
Qed.

Lemma propagate_none : forall items mro i, propagate items mro i = None <->
  exists k v, In (k, v) items /\ falsy v = false /\ ~ dunder k /\ exists g, class_attr k mro = Some (Property g false).
Proof.
  induction items as [|[k v] r IH]; intros mro i; cbn [propagate].
  - split; [discriminate|intros (k & v & [] & _)].
  - destruct (falsy v || starts_with (L "__") k) eqn:S.
    + rewrite IH. split.
      * intros (k' & v' & A & B). exists k', v'. split; [right; exact A|exact B].
      * intros (k' & v' & [A|A] & F & D & G); [|exists k', v'; auto]. injection A as -> ->. exfalso. apply orb_true_iff in S. rewrite F in S.
        destruct S as [S|S]; [discriminate|]. apply D. apply dunder_iff. exact S.
    + apply orb_false_iff in S. destruct S as [F D]. assert (D' : ~ dunder k) by (rewrite <- dunder_iff, D; discriminate).
      destruct (set_attr k v mro i) as [i'|] eqn:E.
      * rewrite IH. split.
        -- intros (k' & v' & A & B). exists k', v'. split; [right; exact A|exact B].
        -- intros (k' & v' & [A|A] & F' & D2 & g & G); [|exists k', v'; eauto]. injection A as -> ->. unfold set_attr in E. rewrite G in E. discriminate E.
      * split; [|reflexivity]. intros _. exists k, v. split; [left; reflexivity|]. split; [exact F|]. split; [exact D'|].
        unfold set_attr in E. destruct (class_attr k mro) as [[| | | |g []]|]; try discriminate E. eauto.
Qed.

Lemma propagate_get : forall items mro i i' x, propagate items mro i = Some i' -> NoDup (keys items) ->
  aget x (i_dict i') =
    match aget x items with
    | Some v => if falsy v || starts_with (L "__") x then aget x (i_dict i)
                else match class_attr x mro with Some (Property _ _) => aget x (i_dict i) | _ => Some v end
    | None => aget x (i_dict i)
    end.
Proof.
  induction items as [|[k v] r IH]; intros mro i i' x H ND; cbn [propagate] in H.
  - injection H as <-. reflexivity.
  - unfold keys in ND. cbn [map fst] in ND. inversion ND as [|? ? N1 N2]; subst. cbn [aget]. destruct (str_eqb_spec x k) as [E|E].
    + subst x. assert (NR : aget k r = None).
      { destruct (aget k r) eqn:G; [|reflexivity]. exfalso. apply N1. apply aget_In_keys. eauto. }
      destruct (falsy v || starts_with (L "__") k).
      * rewrite (IH _ _ _ k H N2), NR. reflexivity.
      * destruct (set_attr k v mro i) as [i2|] eqn:S; [|discriminate H]. rewrite (IH _ _ _ k H N2), NR, (set_dict _ _ _ _ _ S k), str_eqb_refl.
        destruct (class_attr k mro) as [[| | | |]|]; reflexivity.
    + destruct (falsy v || starts_with (L "__") k).
      * apply (IH _ _ _ x H N2).
      * destruct (set_attr k v mro i) as [i2|] eqn:S; [|discriminate H]. rewrite (IH _ _ _ x H N2), (set_dict _ _ _ _ _ S x).
        destruct (str_eqb_spec x k); [contradiction|]. reflexivity.
Qed.

(** What an instance of a subclass has after it was given a source. *)
Lemma kept : forall own bases tmpl i mro i' k v, compile_into false own bases tmpl i = Some (mro, i') -> distinct own ->
  In (k, Plain true v) own -> ~ dunder k -> ~ is_property k tmpl -> get_attr k mro (i_dict i') = Some (GObj (Plain true v)).
Proof.
  intros own bases tmpl i mro i' k v H ND I D NP. unfold compile_into in H. destruct (propagate own (own :: bases) i) as [i2|] eqn:P; [|discriminate H].
  injection H as <- <-. assert (G : aget k own = Some (Plain true v)) by (apply In_aget; assumption).
  assert (A : aget k (i_dict i2) = Some (Plain true v)).
  { rewrite (propagate_get _ _ _ _ k P ND), G. cbn [falsy negb orb]. destruct (starts_with (L "__") k) eqn:S; [apply dunder_iff in S; contradiction|].
    cbn [class_attr]. rewrite G. reflexivity. }
  unfold get_attr. rewrite A. destruct (class_attr k tmpl) as [[| | | |g s]|] eqn:C; try reflexivity.
  exfalso. apply NP. exists g, s. exact C.
Qed.

Lemma unbound : forall own bases tmpl i mro i' k f, compile_into false own bases tmpl i = Some (mro, i') -> distinct own ->
  In (k, Func f) own -> ~ dunder k -> ~ is_property k tmpl -> get_attr k mro (i_dict i') = Some (GObj (Func f)).
Proof.
  intros own bases tmpl i mro i' k v H ND I D NP. unfold compile_into in H. destruct (propagate own (own :: bases) i) as [i2|] eqn:P; [|discriminate H].
  injection H as <- <-. assert (G : aget k own = Some (Func v)) by (apply In_aget; assumption).
  assert (A : aget k (i_dict i2) = Some (Func v)).
  { rewrite (propagate_get _ _ _ _ k P ND), G. cbn [falsy negb orb]. destruct (starts_with (L "__") k) eqn:S; [apply dunder_iff in S; contradiction|].
    cbn [class_attr]. rewrite G. reflexivity. }
  unfold get_attr. rewrite A. destruct (class_attr k tmpl) as [[| | | |g s]|] eqn:C; try reflexivity.
  exfalso. apply NP. exists g, s. exact C.
Qed.

Lemma others : forall own bases tmpl i mro i' k, compile_into false own bases tmpl i = Some (mro, i') -> distinct own ->
  (forall v, In (k, v) own -> dunder k \/ exists u, v = Plain false u) -> get_attr k mro (i_dict i') = get_attr k tmpl (i_dict i).
Proof.
  intros own bases tmpl i mro i' k H ND N. unfold compile_into in H. destruct (propagate own (own :: bases) i) as [i2|] eqn:P; [|discriminate H].
  injection H as <- <-. unfold get_attr.
  assert (A : aget k (i_dict i2) = aget k (i_dict i)).
  { rewrite (propagate_get _ _ _ _ k P ND). destruct (aget k own) as [v|] eqn:G; [|reflexivity].
    destruct (N v (aget_Some_In _ _ _ G)) as [D|[u ->]]; [apply dunder_iff in D; rewrite D, orb_true_r; reflexivity|reflexivity]. }
  rewrite A. reflexivity.
Qed.

Lemma itself : forall own bases tmpl i, compile_into true own bases tmpl i = Some (tmpl, i).
Proof. reflexivity. Qed.

Lemma fails : forall own bases tmpl i, distinct own -> (compile_into false own bases tmpl i = None <-> exists k g, In (k, Property g false) own /\ ~ dunder k).
Proof.
  intros own bases tmpl i ND. unfold compile_into.
  assert (E : (match propagate own (own :: bases) i with Some i' => Some (tmpl, i') | None => None end = None) <-> propagate own (own :: bases) i = None)
    by (destruct (propagate _ _ _); split; congruence).
  rewrite E, propagate_none. split.
  - intros (k & v & I & F & D & g & C). cbn [class_attr] in C. rewrite (In_aget _ _ _ ND I) in C. injection C as ->. exists k, g. auto.
  - intros (k & g & I & D). exists k, (Property g false). split; [exact I|]. split; [reflexivity|]. split; [exact D|].
    exists g. cbn [class_attr]. rewrite (In_aget _ _ _ ND I). reflexivity.
Qed.
