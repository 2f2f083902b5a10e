(** Proofs about webInput. *)
From Verif Require Import WebInput_Model WebInput_Spec.

Lemma split_colon_some : forall s a b, split_colon s = Some (a, b) ->
  s = a ++ 58%N :: b /\ ~ In 58%N a.
Proof.
  induction s as [|c s IH]; intros a b H; [discriminate|]. simpl in H.
  destruct (N.eqb_spec c 58) as [E|E].
  - injection H as <- <-. subst. split; [reflexivity|intros []].
  - destruct (split_colon s) as [[a' b']|]; [|discriminate]. injection H as <- <-.
    destruct (IH a' b' eq_refl) as [-> Hn]. split; [reflexivity|].
    intros [F|F]; [congruence|exact (Hn F)].
Qed.

Lemma split_colon_none : forall s, split_colon s = None -> ~ In 58%N s.
Proof.
  induction s as [|c s IH]; intros H; [intros []|]. simpl in H.
  destruct (N.eqb_spec c 58) as [E|E]; [discriminate|].
  destruct (split_colon s) as [[a b]|]; [discriminate|]. intros [F|F]; [congruence|].
  exact (IH eq_refl F).
Qed.

Lemma first_colon_unique : forall a b a' b' : pystr,
  ~ In 58%N a -> ~ In 58%N a' -> a ++ 58%N :: b = a' ++ 58%N :: b' -> a = a' /\ b = b'.
Proof.
  induction a as [|x a IH]; intros b a' b' Ha Ha' E; destruct a' as [|y a'].
  - injection E as ->. auto.
  - injection E as E1 E2. exfalso. apply Ha'. left. congruence.
  - injection E as E1 E2. exfalso. apply Ha. left. congruence.
  - injection E as E1 E2. subst y. destruct (IH b a' b') as [-> ->]; auto.
    + intro H. apply Ha. right. exact H.
    + intro H. apply Ha'. right. exact H.
Qed.

Lemma name_parts_split : forall name short ext, name_parts name short ext ->
  match split_colon name with
  | Some (a, b) => (name, a, b)
  | None => (name, name, [])
  end = (name, short, ext).
Proof.
  intros name short ext [Hn [E|[E1 E2]]].
  - destruct (split_colon name) as [[a b]|] eqn:S.
    + apply split_colon_some in S as [S1 S2]. rewrite E in S1.
      destruct (first_colon_unique _ _ _ _ Hn S2 S1) as [-> ->]. reflexivity.
    + apply split_colon_none in S. exfalso. apply S. rewrite E.
      apply in_app_iff. right. left. reflexivity.
  - subst. destruct (split_colon short) as [[a b]|] eqn:S; [|reflexivity].
    apply split_colon_some in S as [S1 S2]. exfalso. apply Hn. rewrite S1.
    apply in_app_iff. right. left. reflexivity.
Qed.

Lemma name_parts_exists : forall name, exists short ext, name_parts name short ext.
Proof.
  intro name. destruct (split_colon name) as [[a b]|] eqn:S.
  - apply split_colon_some in S as [S1 S2]. exists a, b. split; auto.
  - apply split_colon_none in S. exists name, []. split; auto.
Qed.

Section P.
Context {V : Type}.
Variable sv : pystr -> V.

Lemma convert_all_spec : forall (c : converter V) f, cv_func c = Some f -> forall l,
  all_converted sv c l (convert_all f (cv_error c) l).
Proof.
  intros c f Hf. induction l as [|x l IH]; [constructor|]. cbn [convert_all].
  destruct (f x) as [v|e] eqn:E.
  - assert (C : converted sv c x (Ok v)) by (eapply conv_good; eassumption).
    destruct (convert_all f (cv_error c) l); [constructor; assumption|].
    eapply ac_raise_later; eassumption.
  - destruct e.
    1,2: destruct (cv_error c) as [v|e'] eqn:Ee; cbn [useOrRaise];
      [ assert (C : converted sv c x (Ok v)) by (eapply conv_bad_use; eauto);
        destruct (convert_all f (Use v) l); [constructor; assumption|];
        eapply ac_raise_later; eassumption
      | apply ac_raise_here; eapply conv_bad_raise; eauto ].
    all: apply ac_raise_here; eapply conv_other; eauto; discriminate.
Qed.

Lemma converted_det : forall (c : converter V) x r1 r2,
  converted sv c x r1 -> converted sv c x r2 -> r1 = r2.
Proof.
  intros c x r1 r2 H1 H2.
  inversion H1; inversion H2; subst; try congruence;
    repeat match goal with
    | A : cv_func c = Some ?f, B : cv_func c = Some ?g |- _ =>
        assert (f = g) by congruence; subst; clear B
    end; try congruence;
    repeat match goal with
    | A : ?f x = Raise ?e, B : ?f x = Raise ?e' |- _ =>
        assert (e = e') by congruence; subst; clear B
    end; intuition congruence.
Qed.

Lemma all_converted_det : forall (c : converter V) l r1,
  all_converted sv c l r1 -> forall r2, all_converted sv c l r2 -> r1 = r2.
Proof.
  intros c l r1 H. induction H as [|x v l vs H HA IH|x e l H|x v l e H HA IH];
    intros r2 H2; inversion H2 as [|? v' ? vs' C' A'|? e' ? C'|? v' ? e' C' A']; subst;
    try reflexivity; pose proof (converted_det c x _ _ H C') as D; try discriminate D;
    injection D as D; subst; try reflexivity; pose proof (IH _ A') as D2;
    try discriminate D2; injection D2 as D2; subst; reflexivity.
Qed.

Lemma lookup_values_spec : forall (c : converter V) l r, all_converted sv c l r ->
  match cv_func c with
  | Some f => convert_all f (cv_error c) l
  | None => Ok (map sv l)
  end = r.
Proof.
  intros c l r H. destruct (cv_func c) as [f|] eqn:Hf.
  - eapply all_converted_det; [apply convert_all_spec; exact Hf|exact H].
  - eapply all_converted_det; [|exact H].
    clear H. induction l as [|x l IH]; simpl; [constructor|].
    constructor; [apply conv_none; exact Hf|exact IH].
Qed.

Lemma field_values_eq : forall func name short vals, field_values func name short vals ->
  match (if negb (str_eqb name short)
         then (if truthy (func name) then func name else func short) else func short)
  with FNone => [] | FStr s => [s] | FList l => l end = vals.
Proof.
  intros func name short vals H. destruct (str_eqb_spec name short) as [E|E]; simpl.
  - subst. destruct H as [[_ ->]|[_ ->]]; reflexivity.
  - destruct H as [[H ->]|[H ->]]; rewrite H; reflexivity.
Qed.

Lemma lookup_unknown : forall name func multi (cs : list (pystr * converter V)) short ext,
  name_parts name short ext -> aget ext cs = None ->
  lookup sv name func multi cs = Raise TypeError.
Proof.
  intros name func multi cs short ext Hp Ha. unfold lookup.
  rewrite (name_parts_split name short ext Hp), Ha. reflexivity.
Qed.

Lemma lookup_multi : forall name func (cs : list (pystr * converter V)) short ext c vals r,
  name_parts name short ext -> aget ext cs = Some c ->
  field_values func name short vals -> all_converted sv c vals r ->
  lookup sv name func true cs
  = match r with Ok vs => Ok (short, Multi vs) | Raise e => Raise e end.
Proof.
  intros name func cs short ext c vals r Hp Ha Hv Hr. unfold lookup.
  rewrite (name_parts_split name short ext Hp), Ha.
  rewrite (field_values_eq func name short vals Hv), (lookup_values_spec c vals r Hr).
  destruct r; reflexivity.
Qed.

Lemma lookup_single : forall name func (cs : list (pystr * converter V)) short ext c vals r,
  name_parts name short ext -> aget ext cs = Some c ->
  field_values func name short vals -> all_converted sv c vals r ->
  lookup sv name func false cs
  = match r with
    | Raise e => Raise e
    | Ok (v :: _) => Ok (short, Single v)
    | Ok [] => match cv_default c with
               | Use v => Ok (short, Single v)
               | RaiseClass e => Raise e
               end
    end.
Proof.
  intros name func cs short ext c vals r Hp Ha Hv Hr. unfold lookup.
  rewrite (name_parts_split name short ext Hp), Ha.
  rewrite (field_values_eq func name short vals Hv), (lookup_values_spec c vals r Hr).
  destruct r as [[|v vs]|e]; try reflexivity. unfold useOrRaise. destruct (cv_default c); reflexivity.
Qed.

Lemma all_converted_total : forall (c : converter V) l, exists r, all_converted sv c l r.
Proof.
  intros c l. destruct (cv_func c) as [f|] eqn:Hf.
  - eexists. apply convert_all_spec. exact Hf.
  - exists (Ok (map sv l)). induction l as [|x l IH]; simpl; [constructor|].
    constructor; [apply conv_none; exact Hf|exact IH].
Qed.

Lemma field_values_total : forall func name short, exists vals, field_values func name short vals.
Proof.
  intros func name short. unfold field_values. destruct (truthy (func name)); eauto.
Qed.

Lemma lookup_name : forall name func multi (cs : list (pystr * converter V)) short ext n o,
  name_parts name short ext -> lookup sv name func multi cs = Ok (n, o) -> n = short.
Proof.
  intros name func multi cs short ext n o Hp H.
  destruct (aget ext cs) as [c|] eqn:Ha.
  2:{ rewrite (lookup_unknown name func multi cs short ext Hp Ha) in H. discriminate. }
  destruct (field_values_total func name short) as [vals Hv].
  destruct (all_converted_total c vals) as [r Hr]. destruct multi.
  - rewrite (lookup_multi name func cs short ext c vals r Hp Ha Hv Hr) in H.
    destruct r; congruence.
  - rewrite (lookup_single name func cs short ext c vals r Hp Ha Hv Hr) in H.
    destruct r as [[|v vs]|e]; try destruct (cv_default c); congruence.
Qed.

(** ** webInput *)
Lemma fill_dic_get : forall func (cs : list (pystr * converter V)) reqs dic out,
  fill_dic sv func cs reqs dic = Ok out ->
  forall k, aget k out
  = fold_left (fun acc r => match lookup sv (fst r) func (snd r) cs with
                            | Ok (n, v) => if str_eqb n k then Some v else acc
                            | Raise _ => acc
                            end) reqs (aget k dic).
Proof.
  intros func cs. induction reqs as [|[name multi] reqs IH]; intros dic out H k.
  - simpl in *. congruence.
  - cbn [fill_dic] in H. cbn [fold_left fst snd].
    destruct (lookup sv name func multi cs) as [[n v]|e] eqn:E; [|discriminate].
    rewrite (IH _ _ H k), aget_aset. destruct (str_eqb_spec k n) as [E1|E1].
    + subst. rewrite str_eqb_refl. reflexivity.
    + destruct (str_eqb_spec n k); [congruence|reflexivity].
Qed.

Definition requests (names namesMulti : list pystr) : list (pystr * bool) :=
  map (fun n => (n, false)) names ++ map (fun n => (n, true)) namesMulti.

Lemma fill_dic_lookups : forall func (cs : list (pystr * converter V)) reqs dic out,
  fill_dic sv func cs reqs dic = Ok out ->
  forall name multi, In (name, multi) reqs -> exists r, lookup sv name func multi cs = Ok r.
Proof.
  intros func cs. induction reqs as [|[n m] reqs IH]; intros dic out H name multi Hi; [destruct Hi|].
  cbn [fill_dic] in H. destruct (lookup sv n func m cs) as [[k v]|e] eqn:E; [|discriminate].
  destruct Hi as [Hi|Hi]; [injection Hi as <- <-; eauto|]. eapply IH; eassumption.
Qed.

Lemma fold_other : forall func (cs : list (pystr * converter V)) reqs k acc,
  (forall name multi v, In (name, multi) reqs -> lookup sv name func multi cs <> Ok (k, v)) ->
  fold_left (fun acc r => match lookup sv (fst r) func (snd r) cs with
                          | Ok (n, v) => if str_eqb n k then Some v else acc
                          | Raise _ => acc
                          end) reqs acc = acc.
Proof.
  intros func cs. induction reqs as [|[n m] reqs IH]; intros k acc H; [reflexivity|].
  cbn [fold_left fst snd]. rewrite IH.
  - destruct (lookup sv n func m cs) as [[k' v]|e] eqn:E; [|reflexivity].
    destruct (str_eqb_spec k' k) as [Ek|]; [|reflexivity]. subst.
    exfalso. eapply H; [left; reflexivity|eassumption].
  - intros name multi v Hi. apply H. right. exact Hi.
Qed.

Lemma webInput_last : forall func (cs : list (pystr * converter V)) names multis sl dic sl',
  webInput sv func cs names multis sl = (Ok dic, sl') ->
  sl' = dic :: sl
  /\ (forall pre name multi post k v,
        requests names multis = pre ++ (name, multi) :: post ->
        lookup sv name func multi cs = Ok (k, v) ->
        (forall name' multi' v', In (name', multi') post ->
           lookup sv name' func multi' cs <> Ok (k, v')) ->
        aget k dic = Some v)
  /\ (forall k v, aget k dic = Some v ->
        exists name multi, In (name, multi) (requests names multis)
          /\ lookup sv name func multi cs = Ok (k, v)).
Proof.
  intros func cs names multis sl dic sl' H. unfold webInput in H. fold (requests names multis) in H.
  destruct (fill_dic sv func cs (requests names multis) []) as [d|e] eqn:E; [|discriminate].
  injection H as <- <-. split; [reflexivity|].
  pose proof (fill_dic_get func cs _ _ _ E) as G. split.
  - intros pre name multi post k v Er Hl Hp. rewrite G, Er, fold_left_app.
    cbn [fold_left fst snd]. rewrite Hl, str_eqb_refl. apply fold_other. exact Hp.
  - intros k v Hk. rewrite G in Hk. clear E G. cbn [aget] in Hk.
    revert Hk. generalize (requests names multis) as reqs.
    assert (Gen : forall reqs acc,
      fold_left (fun acc r => match lookup sv (fst r) func (snd r) cs with
                          | Ok (n, v) => if str_eqb n k then Some v else acc
                          | Raise _ => acc
                          end) reqs acc = Some v ->
      acc = Some v \/ exists name multi, In (name, multi) reqs
          /\ lookup sv name func multi cs = Ok (k, v)).
    { induction reqs as [|[n m] reqs IH]; intros acc Hk; [left; exact Hk|].
      cbn [fold_left fst snd] in Hk. apply IH in Hk as [Hk|(a & b & H1 & H2)].
      - destruct (lookup sv n func m cs) as [[k' v']|e] eqn:E; [|left; exact Hk].
        destruct (str_eqb_spec k' k) as [Ek|]; [|left; exact Hk]. subst.
        injection Hk as <-. right. exists n, m. split; [left; reflexivity|exact E].
      - right. exists a, b. split; [right; exact H1|exact H2]. }
    intros reqs Hk. apply Gen in Hk as [Hk|Hk]; [discriminate|exact Hk].
Qed.

Lemma webInput_raises : forall func (cs : list (pystr * converter V)) names multis sl e sl',
  webInput sv func cs names multis sl = (Raise e, sl') -> sl' = sl.
Proof.
  intros func cs names multis sl e sl' H. unfold webInput in H.
  destruct (fill_dic _ _ _ _ _); congruence.
Qed.
End P.
