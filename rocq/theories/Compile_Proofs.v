(** Proofs about settings hashes and the compilation cache. *)
From Coq Require Import Permutation.
From Verif Require Import Compile_Model Compile_Spec.

(** ** String order *)
Lemma str_ltb_irrefl : forall a, str_ltb a a = false.
Proof.
  induction a as [|x a IH]; [reflexivity|]. cbn [str_ltb].
  rewrite N.ltb_irrefl, N.eqb_refl. exact IH.
Qed.

Lemma str_ltb_trans : forall a b c, str_ltb a b = true -> str_ltb b c = true -> str_ltb a c = true.
Proof.
  induction a as [|x a IH]; intros [|y b] [|z c] H1 H2; try discriminate; try reflexivity.
  cbn [str_ltb] in *. apply orb_true_iff in H1, H2. apply orb_true_iff.
  destruct H1 as [H1|H1], H2 as [H2|H2].
  - left. lia.
  - apply andb_true_iff in H2 as [E _]. left. lia.
  - apply andb_true_iff in H1 as [E _]. left. lia.
  - apply andb_true_iff in H1 as [E1 T1], H2 as [E2 T2]. right. apply andb_true_iff.
    split; [lia|]. exact (IH b c T1 T2).
Qed.

Lemma str_ltb_total : forall a b, a <> b -> str_ltb a b = false -> str_ltb b a = true.
Proof.
  induction a as [|x a IH]; intros [|y b] Hn H; try congruence; try discriminate; try reflexivity.
  cbn [str_ltb] in *. apply orb_false_iff in H as [H1 H2]. apply orb_true_iff.
  destruct (N.eqb_spec x y) as [->|E].
  - right. rewrite N.eqb_refl. cbn [andb] in *. apply IH; [congruence|exact H2].
  - left. lia.
Qed.

Lemma str_ltb_asym : forall a b, str_ltb a b = true -> str_ltb b a = false.
Proof.
  intros a b H. destruct (str_ltb b a) eqn:E; [|reflexivity].
  pose proof (str_ltb_trans a b a H E) as F. rewrite str_ltb_irrefl in F. discriminate.
Qed.

(** ** Sorting by key *)
Lemma kinsert_swap : forall {A} (x y : pystr * A) l, fst x <> fst y ->
  kinsert x (kinsert y l) = kinsert y (kinsert x l).
Proof.
  intros A x y l Hn. induction l as [|z l IH].
  - cbn [kinsert]. destruct (str_ltb (fst x) (fst y)) eqn:E.
    + rewrite (str_ltb_asym _ _ E). reflexivity.
    + rewrite (str_ltb_total _ _ Hn E). reflexivity.
  - cbn [kinsert]. destruct (str_ltb (fst y) (fst z)) eqn:Ey, (str_ltb (fst x) (fst z)) eqn:Ex;
      cbn [kinsert].
    + destruct (str_ltb (fst x) (fst y)) eqn:E.
      * rewrite (str_ltb_asym _ _ E), Ey. reflexivity.
      * rewrite Ex, (str_ltb_total _ _ Hn E). reflexivity.
    + rewrite Ey. destruct (str_ltb (fst x) (fst y)) eqn:E; [|rewrite Ex; reflexivity].
      rewrite (str_ltb_trans _ _ _ E Ey) in Ex. discriminate.
    + rewrite Ex. destruct (str_ltb (fst y) (fst x)) eqn:E; [|rewrite Ey; reflexivity].
      rewrite (str_ltb_trans _ _ _ E Ex) in Ey. discriminate.
    + rewrite Ex, Ey, IH. reflexivity.
Qed.

Lemma ksort_perm : forall {A} (l m : list (pystr * A)), Permutation l m -> NoDup (map fst l) ->
  ksort l = ksort m.
Proof.
  intros A l m H. induction H; intro Hn; cbn [ksort map] in *.
  - reflexivity.
  - inversion Hn; subst. rewrite IHPermutation by assumption. reflexivity.
  - inversion Hn as [|? ? H1 H2]; subst. apply kinsert_swap. intro F. apply H1. left. congruence.
  - rewrite IHPermutation1 by exact Hn. apply IHPermutation2.
    eapply Permutation_NoDup; [|exact Hn]. apply Permutation_map. exact H.
Qed.

Lemma kinsert_rel : forall {A B} (R : A -> B -> Prop) x y l m,
  fst x = fst y /\ R (snd x) (snd y) ->
  Forall2 (fun p q => fst p = fst q /\ R (snd p) (snd q)) l m ->
  Forall2 (fun p q => fst p = fst q /\ R (snd p) (snd q)) (kinsert x l) (kinsert y m).
Proof.
  intros A B R x y l m Hx H. induction H as [|u v l m Huv H IH]; cbn [kinsert].
  - repeat constructor; apply Hx.
  - destruct Hx as [Hk Hr]. destruct Huv as [Hk2 Hr2]. rewrite Hk, Hk2.
    destruct (str_ltb (fst y) (fst v)); repeat (constructor; auto).
Qed.

Lemma ksort_rel : forall {A B} (R : A -> B -> Prop) l m,
  Forall2 (fun p q => fst p = fst q /\ R (snd p) (snd q)) l m ->
  Forall2 (fun p q => fst p = fst q /\ R (snd p) (snd q)) (ksort l) (ksort m).
Proof.
  intros A B R l m H. induction H as [|u v l m Huv H IH]; cbn [ksort]; [constructor|].
  apply kinsert_rel; assumption.
Qed.

(** ** Reduction of settings *)
Section Hash.
Variable hash_tuple : list elem -> Z.
Notation reduce := (reduce hash_tuple).

Fixpoint reduce_items (d : list (pystr * value)) : res hexn (list (pystr * atom)) :=
  match d with
  | [] => Ok []
  | (k, x) :: r => match reduce x, reduce_items r with
                   | Ok a, Ok t => Ok ((k, a) :: t)
                   | _, _ => Raise TypeError
                   end
  end.
Fixpoint reduce_elems (l : list value) : res hexn (list elem) :=
  match l with
  | [] => Ok []
  | x :: r => match reduce x, reduce_elems r with
              | Ok a, Ok t => Ok (EVal a :: t)
              | _, _ => Raise TypeError
              end
  end.

Lemma reduce_list : forall l, reduce (VList l) =
  match reduce_elems l with
  | Ok es => match py_hash hash_tuple es with Ok z => Ok (AInt z) | Raise e => Raise e end
  | Raise e => Raise e
  end.
Proof. reflexivity. Qed.

Lemma reduce_dict : forall d, reduce (VDict d) =
  match reduce_items d with
  | Ok ps => match py_hash hash_tuple (map (fun '(k, a) => EPair k a) (ksort ps)) with
             | Ok z => Ok (AInt z)
             | Raise e => Raise e
             end
  | Raise e => Raise e
  end.
Proof. reflexivity. Qed.

Lemma reduce_items_keys : forall d ps, reduce_items d = Ok ps -> map fst ps = map fst d.
Proof.
  induction d as [|[k x] d IH]; intros ps H; cbn [reduce_items] in H.
  - injection H as <-. reflexivity.
  - destruct (reduce x); [|discriminate]. destruct (reduce_items d) as [t|]; [|discriminate].
    injection H as <-. cbn. f_equal. apply IH. reflexivity.
Qed.

Lemma reduce_items_perm : forall d e, Permutation d e -> forall ps, reduce_items d = Ok ps ->
  exists qs, reduce_items e = Ok qs /\ Permutation ps qs.
Proof.
  intros d e H. induction H as [|[k x] d e H IH|[k x] [j y] d|d e f H1 IH1 H2 IH2]; intros ps Hp.
  - exists ps. split; [exact Hp|reflexivity].
  - cbn [reduce_items] in *. destruct (reduce x) as [a|]; [|discriminate].
    destruct (reduce_items d) as [t|]; [|discriminate]. injection Hp as <-.
    destruct (IH t eq_refl) as (qs & -> & P). exists ((k, a) :: qs). split; [reflexivity|].
    constructor. exact P.
  - cbn [reduce_items] in *. destruct (reduce y) as [b|]; [|discriminate].
    destruct (reduce x) as [a|]; [|discriminate].
    destruct (reduce_items d) as [t|]; [|discriminate]. injection Hp as <-.
    eexists. split; [reflexivity|]. apply perm_swap.
  - destruct (IH1 ps Hp) as (qs & E & P). destruct (IH2 qs E) as (rs & E2 & P2).
    exists rs. split; [exact E2|]. eapply perm_trans; eassumption.
Qed.

Variable aeq : atom -> atom -> Prop.
Hypothesis contract : hash_contract aeq hash_tuple.

Lemma py_hash_eq : forall l m x y, Forall2 (eeq aeq) l m -> py_hash hash_tuple l = Ok x ->
  py_hash hash_tuple m = Ok y -> x = y.
Proof.
  intros l m x y H. unfold py_hash.
  destruct (forallb hashable l) eqn:E1; [|discriminate].
  destruct (forallb hashable m) eqn:E2; [|discriminate].
  intros H1 H2. injection H1 as <-. injection H2 as <-. apply contract; assumption.
Qed.

Lemma pairs_eeq : forall ps qs,
  Forall2 (fun p q => fst p = fst q /\ aeq (snd p) (snd q)) ps qs ->
  Forall2 (eeq aeq) (map (fun '(k, a) => EPair k a) ps) (map (fun '(k, a) => EPair k a) qs).
Proof.
  intros ps qs H. induction H as [|[k a] [j b] ps qs [Hk Ha] H IH]; cbn; constructor; [|exact IH].
  cbn in Hk, Ha. subst. constructor. exact Ha.
Qed.

Fixpoint vsize (v : value) : nat :=
  match v with
  | VAtom _ => 1
  | VList l => S (list_sum (map vsize l))
  | VDict d => S (list_sum (map (fun p => vsize (snd p)) d))
  end.

Lemma reduce_eq : forall n v w, vsize v < n -> veq aeq v w -> dwf w ->
  forall a b, reduce v = Ok a -> reduce w = Ok b -> aeq a b.
Proof.
  induction n as [|n IH]; intros v w Hs Hv Hw a b Ha Hb; [lia|].
  inversion Hv as [x y Hxy|l m Hlm|d e e' Hp Hde]; subst.
  - cbn in Ha, Hb. injection Ha as <-. injection Hb as <-. exact Hxy.
  - rewrite reduce_list in Ha, Hb.
    destruct (reduce_elems l) as [es|] eqn:El; [|discriminate].
    destruct (reduce_elems m) as [fs|] eqn:Em; [|discriminate].
    destruct (py_hash hash_tuple es) as [x|] eqn:Ex; [|discriminate].
    destruct (py_hash hash_tuple fs) as [y|] eqn:Ey; [|discriminate].
    injection Ha as <-. injection Hb as <-.
    assert (F : Forall2 (eeq aeq) es fs).
    { inversion Hw as [|? Hm|]; subst. clear Ex Ey Hv Hw x y.
      cbn [vsize] in Hs. apply Nat.succ_lt_mono in Hs.
      revert es fs El Em Hs Hm. induction Hlm as [|u v l m Huv Hlm IHl]; intros es fs El Em Hs Hm.
      - injection El as <-. injection Em as <-. constructor.
      - cbn [reduce_elems] in El, Em. cbn [map list_sum] in Hs.
        destruct (reduce u) as [p|] eqn:Eu; [|discriminate].
        destruct (reduce v) as [q|] eqn:Ev; [|discriminate].
        destruct (reduce_elems l) as [es'|] eqn:El'; [|discriminate].
        destruct (reduce_elems m) as [fs'|] eqn:Em'; [|discriminate].
        injection El as <-. injection Em as <-. inversion Hm; subst.
        change (list_sum (vsize u :: map vsize l)) with (vsize u + list_sum (map vsize l)) in Hs.
        constructor.
        + constructor. apply (IH u v); try assumption. lia.
        + apply IHl; try assumption; try reflexivity. lia. }
    rewrite (py_hash_eq _ _ _ _ F Ex Ey). apply contract.
  - rewrite reduce_dict in Ha, Hb.
    destruct (reduce_items d) as [ps|] eqn:El; [|discriminate].
    destruct (reduce_items e) as [qs|] eqn:Em; [|discriminate].
    destruct (py_hash hash_tuple (map _ (ksort ps))) as [x|] eqn:Ex; [|discriminate].
    destruct (py_hash hash_tuple (map _ (ksort qs))) as [y|] eqn:Ey; [|discriminate].
    injection Ha as <-. injection Hb as <-.
    inversion Hw as [| |? Hn Hm]; subst.
    destruct (reduce_items_perm e e' Hp qs Em) as (qs' & Em' & Pq).
    assert (Hm' : Forall (fun p => dwf (snd p)) e').
    { rewrite Forall_forall in *. intros p Hi. apply Hm. eapply Permutation_in; [|exact Hi].
      apply Permutation_sym. exact Hp. }
    assert (F : Forall2 (fun p q => fst p = fst q /\ aeq (snd p) (snd q)) ps qs').
    { clear Ex Ey Hv Hw x y Hp Em Pq Hn Hm.
      cbn [vsize] in Hs. apply Nat.succ_lt_mono in Hs.
      revert ps qs' El Em' Hs Hm'. induction Hde as [|[k u] [j v] d e' [Hk Huv] Hde IHd];
        intros ps qs' El Em' Hs Hm.
      - injection El as <-. injection Em' as <-. constructor.
      - cbn [reduce_items] in El, Em'. cbn [map list_sum snd] in Hs. cbn [fst snd] in Hk, Huv.
        destruct (reduce u) as [p|] eqn:Eu; [|discriminate].
        destruct (reduce v) as [q|] eqn:Ev; [|discriminate].
        destruct (reduce_items d) as [es'|] eqn:El'; [|discriminate].
        destruct (reduce_items e') as [fs'|] eqn:Em''; [|discriminate].
        injection El as <-. injection Em' as <-. inversion Hm; subst. cbn [snd] in *.
        change (list_sum (vsize u :: map (fun p => vsize (snd p)) d))
          with (vsize u + list_sum (map (fun p => vsize (snd p)) d)) in Hs.
        constructor.
        + split; [reflexivity|]. apply (IH u v); try assumption. cbn. lia.
        + apply IHd; try assumption; try reflexivity. lia. }
    assert (S : ksort qs = ksort qs').
    { apply ksort_perm; [exact Pq|]. rewrite (reduce_items_keys _ _ Em). exact Hn. }
    rewrite S in Ey. apply ksort_rel in F. apply pairs_eeq in F.
    rewrite (py_hash_eq _ _ _ _ F Ex Ey). apply contract.
Qed.

Lemma reduce_dict_int : forall d a, reduce (VDict d) = Ok a -> exists z, a = AInt z.
Proof.
  intros d a H. rewrite reduce_dict in H. destruct (reduce_items d); [|discriminate].
  destruct (py_hash hash_tuple _); [|discriminate]. injection H as <-. eexists. reflexivity.
Qed.

Lemma ksort_In : forall {A} (l : list (pystr * A)) x, In x (ksort l) <-> In x l.
Proof.
  intros A l x. induction l as [|y l IH]; [reflexivity|]. cbn [ksort In]. rewrite <- IH.
  generalize (ksort l) as m. clear. induction m as [|z m IH]; cbn [kinsert In]; [tauto|].
  destruct (str_ltb (fst y) (fst z)); cbn [In]; [tauto|]. rewrite IH. tauto.
Qed.
End Hash.

(** The int hash of a dictionary. *)
Lemma hashDict_order : forall hash_tuple aeq d e x y, hash_contract aeq hash_tuple ->
  (forall a b, aeq (AInt a) (AInt b) -> a = b) ->
  veq aeq (VDict d) (VDict e) -> dwf (VDict e) ->
  hashDict hash_tuple d = Ok x -> hashDict hash_tuple e = Ok y -> x = y.
Proof.
  intros ht aeq d e x y Hc Hi Hv Hw Hx Hy. unfold hashDict in *.
  destruct (reduce_dict_int ht d x Hx) as [p ->]. destruct (reduce_dict_int ht e y Hy) as [q ->].
  f_equal. apply Hi. exact (reduce_eq ht aeq Hc _ _ _ (Nat.lt_succ_diag_r _) Hv Hw _ _ Hx Hy).
Qed.

(** Hashability: the hash succeeds when every atom is hashable. *)
Inductive all_hashable : value -> Prop :=
| ah_atom : forall a, hashable (EVal a) = true -> all_hashable (VAtom a)
| ah_list : forall l, Forall all_hashable l -> all_hashable (VList l)
| ah_dict : forall d, Forall (fun p => all_hashable (snd p)) d -> all_hashable (VDict d).

Lemma reduce_total : forall ht n v, vsize v < n -> all_hashable v ->
  exists a, reduce ht v = Ok a /\ hashable (EVal a) = true.
Proof.
  intros ht. induction n as [|n IH]; intros v Hs Hv; [lia|].
  inversion Hv as [a Ha|l Hl|d Hd]; subst.
  - exists a. split; [reflexivity|exact Ha].
  - rewrite reduce_list. cbn [vsize] in Hs. apply Nat.succ_lt_mono in Hs.
    assert (exists es, reduce_elems ht l = Ok es /\ forallb hashable es = true) as (es & -> & Hh).
    { clear Hv. induction Hl as [|x l Hx Hl IHl]; [exists []; split; reflexivity|].
      change (list_sum (map vsize (x :: l))) with (vsize x + list_sum (map vsize l)) in Hs.
      destruct (IH x ltac:(lia) Hx) as (a & E & Ha). destruct (IHl ltac:(lia)) as (es & E2 & Hes).
      exists (EVal a :: es). cbn [reduce_elems]. rewrite E, E2. split; [reflexivity|].
      cbn [forallb]. rewrite Ha, Hes. reflexivity. }
    unfold py_hash. rewrite Hh. eexists. split; reflexivity.
  - rewrite reduce_dict. cbn [vsize] in Hs. apply Nat.succ_lt_mono in Hs.
    assert (exists ps, reduce_items ht d = Ok ps
              /\ Forall (fun p => hashable (EVal (snd p)) = true) ps) as (ps & -> & Hh).
    { clear Hv. induction Hd as [|[k x] d Hx Hd IHd]; [exists []; split; [reflexivity|constructor]|].
      change (list_sum (map (fun p => vsize (snd p)) ((k, x) :: d)))
        with (vsize x + list_sum (map (fun p => vsize (snd p)) d)) in Hs.
      destruct (IH x ltac:(lia) Hx) as (a & E & Ha). destruct (IHd ltac:(lia)) as (es & E2 & Hes).
      exists ((k, a) :: es). cbn [reduce_items]. rewrite E, E2. split; [reflexivity|].
      constructor; assumption. }
    unfold py_hash.
    assert (forallb hashable (map (fun '(k, a) => EPair k a) (ksort ps)) = true) as ->.
    { apply forallb_forall. intros e He. apply in_map_iff in He as ([k a] & <- & Hi).
      apply (proj1 (ksort_In ps (k, a))) in Hi. rewrite Forall_forall in Hh.
      exact (Hh _ Hi). }
    eexists. split; reflexivity.
Qed.

Lemma hashDict_total : forall ht d, all_hashable (VDict d) -> exists z, hashDict ht d = Ok (AInt z).
Proof.
  intros ht d H. destruct (reduce_total ht _ _ (Nat.lt_succ_diag_r _) H) as (a & E & _).
  destruct (reduce_dict_int ht d a E) as [z ->]. exists z. exact E.
Qed.

(** ** The cache *)
Section Cache.
Variable hash_str : option pystr -> Z.
Variable hash_obj : nat -> Z.
Variable hash_tuple : list elem -> Z.
Context {K E : Type}.
Variable build : copts -> res E K.
Notation key := (cacheHash hash_str hash_obj hash_tuple).
Notation compile := (compile hash_str hash_obj hash_tuple build).
Notation run_calls := (run_calls hash_str hash_obj hash_tuple build).

(** Every cached class was built by a call of the history with that key. *)
Definition cache_ok (hist : list call) (c : list (pystr * K)) : Prop :=
  forall kx k, aget kx c = Some k ->
    exists o, In o (map c_opts hist) /\ key o = Ok (Some kx) /\ build o = Ok k.

Lemma cache_ok_mono : forall h1 h2 c, incl h1 h2 -> cache_ok h1 c -> cache_ok h2 c.
Proof.
  intros h1 h2 c Hi H kx k Hk. destruct (H kx k Hk) as (o & Ho & Hrest). exists o.
  split; [|exact Hrest]. apply in_map_iff in Ho as (x & <- & Hx). apply in_map. apply Hi. exact Hx.
Qed.

Lemma compile_step : forall hist c x out c1, cache_ok hist c ->
  compile (c_use x) (c_keep x) (c_opts x) c = (out, c1) ->
  cache_ok (hist ++ [x]) c1
  /\ forall k, out = Class k -> exists o, In o (map c_opts (hist ++ [x])) /\ build o = Ok k
       /\ (o = c_opts x \/ exists kx, key o = Ok (Some kx) /\ key (c_opts x) = Ok (Some kx)).
Proof.
  intros hist c x out c1 Hc H. unfold Compile_Model.compile in H.
  assert (Hc' : cache_ok (hist ++ [x]) c)
    by (apply (cache_ok_mono hist); [intros y Hy; apply in_app_iff; left; exact Hy|exact Hc]).
  assert (Hx : In (c_opts x) (map c_opts (hist ++ [x])))
    by (apply in_map; apply in_app_iff; right; left; reflexivity).
  destruct (key (c_opts x)) as [ky|e] eqn:Ek; [|injection H as <- <-; split; [exact Hc'|discriminate]].
  destruct (match ky with Some (x0 :: r) => if c_use x then aget (x0 :: r) c else None | _ => None end)
    as [k|] eqn:Eh.
  - injection H as <- <-. split; [exact Hc'|]. intros k0 F. injection F as <-.
    destruct ky as [[|x0 r]|]; try discriminate. destruct (c_use x); [|discriminate].
    destruct (Hc' _ _ Eh) as (o & Ho & Hk & Hb). exists o. split; [exact Ho|]. split; [exact Hb|].
    right. exists (x0 :: r). split; [exact Hk|reflexivity].
  - destruct (build (c_opts x)) as [k|e] eqn:Eb;
      [|injection H as <- <-; split; [exact Hc'|discriminate]].
    assert (R : forall k0, Class (E := E) k = Class k0 -> exists o, In o (map c_opts (hist ++ [x]))
       /\ build o = Ok k0
       /\ (o = c_opts x \/ exists kx, key o = Ok (Some kx) /\ @Ok hexn _ ky = Ok (Some kx))).
    { intros k0 F. injection F as <-. exists (c_opts x). split; [exact Hx|]. split; [exact Eb|].
      left. reflexivity. }
    destruct ky as [[|x0 r]|]; try (injection H as <- <-; split; [exact Hc'|exact R]).
    destruct (c_keep x && negb (ahas (x0 :: r) c)); injection H as <- <-;
      (split; [|exact R]); [|exact Hc'].
    intros kx k1 Hg. rewrite aget_aset in Hg. destruct (str_eqb_spec kx (x0 :: r)) as [Ex|_].
    + injection Hg as <-. subst kx. exists (c_opts x). split; [exact Hx|]. split; [exact Ek|exact Eb].
    + exact (Hc' _ _ Hg).
Qed.

Lemma run_calls_ok : forall l hist c outs c2, cache_ok hist c -> run_calls l c = (outs, c2) ->
  forall i x k, nth_error l i = Some x -> nth_error outs i = Some (Class k) ->
  exists o, In o (map c_opts (hist ++ firstn (S i) l)) /\ build o = Ok k
    /\ (o = c_opts x \/ exists kx, key o = Ok (Some kx) /\ key (c_opts x) = Ok (Some kx)).
Proof.
  induction l as [|y l IH]; intros hist c outs c2 Hc H i x k Hi Ho; [destruct i; discriminate|].
  cbn [Compile_Model.run_calls] in H.
  destruct (compile (c_use y) (c_keep y) (c_opts y) c) as [out c1] eqn:Es.
  destruct (run_calls l c1) as [outs' c2'] eqn:Er. injection H as <- <-.
  destruct (compile_step hist c y out c1 Hc Es) as [Hc1 Hout].
  destruct i as [|i].
  - cbn in Hi, Ho. injection Hi as <-. injection Ho as ->. exact (Hout k eq_refl).
  - cbn in Hi, Ho. destruct (IH (hist ++ [y]) c1 outs' c2' Hc1 Er i x k Hi Ho) as (o & Ho' & R).
    exists o. split; [|exact R]. cbn [firstn]. rewrite <- app_assoc in Ho'. exact Ho'.
Qed.

Lemma history_key : forall l outs c2 i x k, run_calls l [] = (outs, c2) ->
  nth_error l i = Some x -> nth_error outs i = Some (Class k) ->
  exists o, In o (map c_opts (firstn (S i) l)) /\ build o = Ok k
    /\ (o = c_opts x \/ exists kx, key o = Ok (Some kx) /\ key (c_opts x) = Ok (Some kx)).
Proof.
  intros l outs c2 i x k H Hi Ho.
  apply (run_calls_ok l [] [] outs c2); [intros kx k1 F; discriminate F|exact H|exact Hi|exact Ho].
Qed.

Lemma concat_differ_once : forall (ps qs : list pystr), differ_at_most_once ps qs ->
  concat ps = concat qs -> ps = qs.
Proof.
  intros ps qs H Hc. destruct H as [p x y q]. rewrite !concat_app in Hc. cbn [concat] in Hc.
  apply app_inv_head in Hc. apply app_inv_tail in Hc. congruence.
Qed.

Lemma key_pieces : forall a b ps qs kx, pieces hash_str hash_obj hash_tuple a = Ok ps ->
  pieces hash_str hash_obj hash_tuple b = Ok qs -> differ_at_most_once ps qs ->
  key a = Ok (Some kx) -> key b = Ok (Some kx) -> ps = qs.
Proof.
  intros a b ps qs kx Ha Hb Hd Ka Kb. apply concat_differ_once; [exact Hd|].
  unfold cacheHash in Ka, Kb.
  assert (A : concat ps = kx)
    by (destruct (o_source a) as [[|? ?]|], (o_file a); try discriminate;
        rewrite Ha in Ka; congruence).
  assert (B : concat qs = kx)
    by (destruct (o_source b) as [[|? ?]|], (o_file b); try discriminate;
        rewrite Hb in Kb; congruence).
  congruence.
Qed.

(** Two calls with the same key: the second gets the class of the first. *)
Lemma same_key_shared : forall a b kx k, key a = Ok (Some kx) -> key b = Ok (Some kx) -> kx <> [] ->
  build a = Ok k ->
  fst (run_calls [mkCall true true a; mkCall true true b] []) = [Class k; Class k].
Proof.
  intros a b kx k Ha Hb Hn Hk. cbn [Compile_Model.run_calls c_use c_keep c_opts].
  unfold Compile_Model.compile. rewrite Ha, Hb. destruct kx as [|x r]; [congruence|].
  cbn [aget]. rewrite Hk. unfold ahas. cbn [aget andb negb].
  rewrite aget_aset_same. reflexivity.
Qed.

(** Repeating a call with equal options hits the cache. *)
Lemma compile_again : forall o c k c1, key o <> Ok (Some []) -> key o <> Ok None ->
  compile true true o c = (Class k, c1) ->
  compile true true o c1 = (Class k, c1).
Proof.
  intros o c k c1 Hn Hn2 H. unfold Compile_Model.compile in *.
  destruct (key o) as [ky|e] eqn:Ek; [|discriminate].
  destruct ky as [kx|]; [|exfalso; apply Hn2; reflexivity].
  destruct kx as [|x r]; [exfalso; apply Hn; reflexivity|].
  destruct (aget (x :: r) c) as [k0|] eqn:Eg.
  - injection H as <- <-. rewrite Eg. reflexivity.
  - destruct (build o) as [k0|]; [|discriminate].
    assert (Hh : ahas (x :: r) c = false) by (unfold ahas; rewrite Eg; reflexivity).
    rewrite Hh in H. cbn [andb negb] in H. injection H as <- <-.
    rewrite aget_aset_same. reflexivity.
Qed.
End Cache.

(** ** Pieces and options *)
Lemma str_of_Z_inj : forall a b, str_of_Z a = str_of_Z b -> a = b.
Proof.
  intros a b H.
  assert (D : forall n x, In x (str_of_N n) -> x <> 45%N).
  { intros n x Hx. apply str_of_N_digits in Hx. lia. }
  destruct a as [|p|p], b as [|q|q]; cbn [str_of_Z] in H; try reflexivity;
    try (apply str_of_N_inj in H; lia);
    try (exfalso; refine (D _ 45%N _ eq_refl); rewrite H; left; reflexivity);
    try (exfalso; refine (D _ 45%N _ eq_refl); rewrite <- H; left; reflexivity).
  injection H as H. apply str_of_N_inj in H. congruence.
Qed.

Lemma str_of_Z_nonempty : forall z, str_of_Z z <> [].
Proof. intros [|p|p]; cbn [str_of_Z]; try discriminate; apply str_of_N_nonempty. Qed.

(** What equal pieces say about the options. *)
Definition agree (a b : copts) : Prop :=
  o_source a = o_source b /\ final_class a = final_class b /\ o_module a = o_module b
  /\ str_opt (o_main a) = str_opt (o_main b) /\ o_compiler a = o_compiler b
  /\ o_base a = o_base b /\ o_cachedir a = o_cachedir b.

Lemma pieces_agree : forall hs ho ht a b ps, (forall x y, hs x = hs y -> x = y) ->
  (forall x y, ho x = ho y -> x = y) ->
  pieces hs ho ht a = Ok ps -> pieces hs ho ht b = Ok ps -> agree a b.
Proof.
  intros hs ho ht a b ps Is Io Ha Hb. unfold pieces in *.
  destruct (dict_piece ht (o_settings a)); [|discriminate].
  destruct (dict_piece ht (o_globals a)); [|discriminate].
  destruct (dict_piece ht (o_settings b)); [|discriminate].
  destruct (dict_piece ht (o_globals b)); [|discriminate].
  rewrite <- Hb in Ha. injection Ha as H1 H2 H3 H4 H5 H6 H7 H8 H9 H10.
  apply str_of_Z_inj in H1, H6, H7, H10. apply Is in H1, H10. apply Io in H6, H7.
  unfold agree. auto 10.
Qed.

Lemma history_agrees : forall hs ho ht {K E} (build : copts -> res E K) l outs c2 i x k,
  (forall a b, hs a = hs b -> a = b) -> (forall a b, ho a = ho b -> a = b) ->
  run_calls hs ho ht build l [] = (outs, c2) ->
  nth_error l i = Some x -> nth_error outs i = Some (Class k) ->
  exists o, In o (map c_opts (firstn (S i) l)) /\ build o = Ok k
    /\ (forall ps qs, pieces hs ho ht o = Ok ps -> pieces hs ho ht (c_opts x) = Ok qs ->
          differ_at_most_once ps qs -> agree o (c_opts x)).
Proof.
  intros hs ho ht K E build l outs c2 i x k Is Io H Hi Ho.
  destruct (history_key hs ho ht build l outs c2 i x k H Hi Ho) as (o & Hin & Hb & Hk).
  exists o. split; [exact Hin|]. split; [exact Hb|]. intros ps qs Hp Hq Hd.
  destruct Hk as [->|(kx & K1 & K2)].
  - unfold agree. auto 10.
  - pose proof (key_pieces hs ho ht o (c_opts x) ps qs kx Hp Hq Hd K1 K2) as Epq. subst qs.
    exact (pieces_agree hs ho ht o (c_opts x) ps Is Io Hp Hq).
Qed.

Lemma key_nonempty : forall hs ho ht a kx, cacheHash hs ho ht a = Ok (Some kx) -> kx <> [].
Proof.
  intros hs ho ht a kx H F. subst kx. unfold cacheHash in H.
  assert (P : exists ps, pieces hs ho ht a = Ok ps /\ concat ps = []).
  { destruct (o_source a) as [[|? ?]|], (o_file a); try discriminate;
      (destruct (pieces hs ho ht a) as [ps|]; [|discriminate]; injection H as H;
       exists ps; split; [reflexivity|exact H]). }
  destruct P as (ps & Hp & Hc). unfold pieces in Hp.
  destruct (dict_piece ht (o_settings a)); [|discriminate].
  destruct (dict_piece ht (o_globals a)); [|discriminate].
  injection Hp as <-. cbn [concat] in Hc. apply app_eq_nil in Hc as [Hc _].
  exact (str_of_Z_nonempty _ Hc).
Qed.

(** ** Class names *)
Lemma underscores_spec : forall s, exists r, s = repeat 95%N (underscores s) ++ r
  /\ match r with c :: _ => c <> 95%N | [] => True end.
Proof.
  induction s as [|c s IH]; [exists []; split; [reflexivity|exact I]|]. cbn [underscores].
  destruct (N.eqb_spec c 95) as [->|Hn].
  - destruct IH as (r & E & Hr). exists r. split; [cbn; f_equal; exact E|exact Hr].
  - exists (c :: s). split; [reflexivity|exact Hn].
Qed.

Lemma strip_underscores_form : forall s, exists k r, s = repeat 95%N k ++ r
  /\ strip_underscores s = r /\ (s <> [] -> r <> [])
  /\ (match s with c :: _ => ~ (48 <= c <= 57)%N | [] => True end ->
      match r with c :: _ => ~ (48 <= c <= 57)%N | [] => True end)
  /\ strip_underscores r = r.
Proof.
  intro s. destruct (underscores_spec s) as (r & E & Hr).
  unfold strip_underscores. set (k := underscores s) in *.
  assert (Sk : skipn k s = r).
  { rewrite E. rewrite skipn_app, repeat_length, Nat.sub_diag.
    rewrite skipn_all2 by (rewrite repeat_length; lia). reflexivity. }
  rewrite Sk.
  assert (Sk1 : k <> 0 -> skipn (k - 1) s = 95%N :: r).
  { intro Hk. destruct k as [|k']; [congruence|]. rewrite E.
    replace (S k' - 1) with k' by lia.
    replace (repeat 95%N (S k') ++ r) with (repeat 95%N k' ++ 95%N :: r).
    - rewrite skipn_app, repeat_length, Nat.sub_diag.
      rewrite skipn_all2 by (rewrite repeat_length; lia). reflexivity.
    - clear. induction k' as [|n IH]; [reflexivity|]. cbn. f_equal. exact IH. }
  assert (Split : forall x, k <> 0 -> s = repeat 95%N (k - 1) ++ 95%N :: x <-> s = repeat 95%N k ++ x).
  { intros x Hk. destruct k as [|k']; [congruence|]. replace (S k' - 1) with k' by lia.
    replace (repeat 95%N (S k') ++ x) with (repeat 95%N k' ++ 95%N :: x); [tauto|].
    clear. induction k' as [|n IH]; [reflexivity|]. cbn. f_equal. exact IH. }
  destruct r as [|c r'].
  - destruct (Nat.eq_dec k 0) as [Hk|Hk].
    + rewrite Hk in *. cbn in E. subst s. exists 0, []. repeat split; auto.
    + rewrite (Sk1 Hk). exists (k - 1), [95%N].
      split; [apply Split; assumption|]. split; [reflexivity|]. split; [discriminate|].
      split; [intros _; lia|reflexivity].
  - destruct ((48 <=? c)%N && (c <=? 57)%N) eqn:Ed.
    + destruct (Nat.eq_dec k 0) as [Hk|Hk].
      * rewrite Hk in *. cbn [Nat.sub skipn]. cbn in E. subst s. exists 0, (c :: r').
        split; [reflexivity|]. split; [reflexivity|]. split; [auto|]. split; [auto|].
        cbn [underscores]. destruct (N.eqb_spec c 95); [congruence|]. cbn [skipn]. rewrite Ed.
        reflexivity.
      * rewrite (Sk1 Hk). exists (k - 1), (95%N :: c :: r').
        split; [apply Split; assumption|]. split; [reflexivity|]. split; [discriminate|].
        split; [intros _; lia|]. cbn [underscores]. rewrite N.eqb_refl.
        destruct (N.eqb_spec c 95); [congruence|]. cbn [skipn]. rewrite Ed. reflexivity.
    + exists k, (c :: r'). split; [exact E|]. split; [reflexivity|]. split; [discriminate|].
      split; [intros _; lia|]. cbn [underscores]. destruct (N.eqb_spec c 95); [congruence|].
      cbn [skipn]. rewrite Ed. reflexivity.
Qed.

Lemma class_name_valid : forall s, s <> [] -> Forall (fun c => is_alnum c = true \/ c = 95%N) s ->
  match s with c :: _ => ~ (48 <= c <= 57)%N | [] => True end ->
  strip_underscores s <> []
  /\ Forall (fun c => is_alnum c = true \/ c = 95%N) (strip_underscores s)
  /\ match strip_underscores s with c :: _ => ~ (48 <= c <= 57)%N | [] => True end
  /\ strip_underscores (strip_underscores s) = strip_underscores s
  /\ exists k, s = repeat 95%N k ++ strip_underscores s.
Proof.
  intros s Hn Hf Hd. destruct (strip_underscores_form s) as (k & r & E & -> & H1 & H2 & H3).
  split; [exact (H1 Hn)|]. split; [|split; [exact (H2 Hd)|split; [exact H3|exists k; exact E]]].
  rewrite E in Hf. apply Forall_app in Hf. apply Hf.
Qed.
