(** Proofs about intervals, buffers and indenters. *)
From Verif Require Import Small_Model Small_Spec.

(** ** Intervals *)
Lemma digits_value_spec : forall s acc, Forall is_digit s ->
  digits_value acc s = Some (Z.to_N (Z.of_N acc * 10 ^ Z.of_nat (length s) + dec_value s)).
Proof.
  induction s as [|c s IH]; intros acc H.
  - cbn. f_equal. lia.
  - inversion H as [|? ? Hc Hs]; subst. cbn [digits_value]. unfold is_digit in Hc.
    destruct (N.leb_spec 48 c); [|lia]. destruct (N.leb_spec c 57); [|lia]. cbn [andb].
    rewrite IH by exact Hs. f_equal. f_equal. cbn [dec_value length].
    rewrite Nat2Z.inj_succ, Z.pow_succ_r by lia.
    replace (Z.of_N (acc * 10 + (c - 48))) with (Z.of_N acc * 10 + (Z.of_N c - 48))%Z by lia. ring.
Qed.

Lemma digits_value_some : forall s acc n, digits_value acc s = Some n -> Forall is_digit s.
Proof.
  induction s as [|c s IH]; intros acc n H; [constructor|]. cbn [digits_value] in H.
  destruct ((48 <=? c)%N && (c <=? 57)%N) eqn:E; [|discriminate].
  constructor; [unfold is_digit; lia|eapply IH; exact H].
Qed.

Lemma dec_value_nonneg : forall s, Forall is_digit s -> (0 <= dec_value s)%Z.
Proof.
  induction s as [|c s IH]; intros H; cbn [dec_value]; [lia|]. inversion H; subst.
  unfold is_digit in *. assert (0 <= 10 ^ Z.of_nat (length s))%Z by (apply Z.pow_nonneg; lia).
  specialize (IH H3). nia.
Qed.

Lemma dec_value_app : forall a b,
  dec_value (a ++ b) = (dec_value a * 10 ^ Z.of_nat (length b) + dec_value b)%Z.
Proof.
  induction a as [|c a IH]; intro b; [reflexivity|]. cbn [app dec_value].
  rewrite IH, app_length, Nat2Z.inj_add, Z.pow_add_r by lia. ring.
Qed.

Lemma ten_pow_Z : forall k, Zpos (ten_pow k) = (10 ^ Z.of_nat k)%Z.
Proof.
  induction k as [|k IH]; [reflexivity|].
  cbn [ten_pow]. rewrite Nat2Z.inj_succ, Z.pow_succ_r by lia. rewrite <- IH. lia.
Qed.

Lemma no_point : forall s, Forall is_digit s -> ~ In 46%N s.
Proof. intros s H Hi. rewrite Forall_forall in H. apply H in Hi. unfold is_digit in Hi. lia. Qed.

Lemma py_float_decimal : forall s q, decimal s q -> exists q', py_float s = Ok q' /\ Qeq q' q.
Proof.
  intros s q H. inversion H as [a Ha Hd|a b Hab Hda Hdb]; subst.
  - unfold py_float. rewrite split_char_word by (apply no_point; exact Hd).
    destruct s as [|c s]; [congruence|]. rewrite digits_value_spec by exact Hd.
    eexists. split; [reflexivity|]. rewrite N2Z.id || idtac.
    pose proof (dec_value_nonneg _ Hd). rewrite Z2N.id by lia.
    cbn [Z.of_N]. unfold Qeq, inject_Z. cbn [Qnum Qden]. lia.
  - unfold py_float. change (L "." ++ b) with (46%N :: b).
    rewrite split_char_app by (apply no_point; exact Hda).
    rewrite split_char_word by (apply no_point; exact Hdb).
    assert (Hd : Forall is_digit (a ++ b)) by (apply Forall_app; auto).
    destruct (a ++ b) as [|c r] eqn:E; [congruence|]. rewrite <- E in *.
    rewrite digits_value_spec by exact Hd. eexists. split; [reflexivity|].
    pose proof (dec_value_nonneg _ Hd).
    rewrite Z2N.id by lia. rewrite dec_value_app.
    cbn [Z.of_N]. unfold Qdiv, Qinv, inject_Z. cbn [Qnum Qden].
    rewrite <- !ten_pow_Z. cbn [Qnum Qden]. unfold Qeq, Qplus, Qmult. cbn [Qnum Qden].
    rewrite ?Pos.mul_1_l. ring.
Qed.

Lemma py_float_ok : forall s q', py_float s = Ok q' -> exists q, decimal s q /\ Qeq q' q.
Proof.
  intros s q' H.
  assert (D : exists q, decimal s q).
  { unfold py_float in H. pose proof (split_char_join 46 s) as J.
    destruct (split_char 46 s) as [|a [|b [|]]] eqn:E; try discriminate.
    - destruct a as [|c a]; [discriminate|].
      destruct (digits_value 0 (c :: a)) eqn:Ed; [|discriminate].
      cbn in J. subst s. eexists. apply dec_int; [discriminate|eapply digits_value_some; exact Ed].
    - destruct (a ++ b) as [|c r] eqn:Eab; [discriminate|]. rewrite <- Eab in *.
      destruct (digits_value 0 (a ++ b)) eqn:Ed; [|discriminate].
      apply digits_value_some in Ed. apply Forall_app in Ed as [Ea Eb].
      cbn [join] in J. subst s. eexists. apply dec_frac; [rewrite Eab; discriminate|exact Ea|exact Eb]. }
  destruct D as [q D]. exists q. split; [exact D|].
  destruct (py_float_decimal s q D) as (q2 & E & Eq). congruence.
Qed.

Lemma py_float_valueerror : forall s e, py_float s = Raise e -> e = ValueError.
Proof.
  intros s e H. unfold py_float in H.
  destruct (split_char 46 s) as [|a [|b [|]]]; try congruence.
  - destruct a; [congruence|]. destruct (digits_value 0 (n :: a)); congruence.
  - destruct (a ++ b); [congruence|]. destruct (digits_value 0 _); congruence.
Qed.

Lemma split_last_snoc : forall a c, split_last (a ++ [c]) = Some (a, c).
Proof.
  induction a as [|x a IH]; intro c; [reflexivity|]. cbn [app split_last]. rewrite IH.
  destruct (a ++ [c]) eqn:E; [destruct a; discriminate|reflexivity].
Qed.

Lemma last_num_char : forall num, num <> [] -> Forall (fun c => is_digit c \/ c = 46%N) num ->
  exists a c, num = a ++ [c] /\ (is_digit c \/ c = 46%N).
Proof.
  intros num Hne H. destruct (exists_last Hne) as (a & c & E). exists a, c. split; [exact E|].
  rewrite Forall_forall in H. apply H. rewrite E. apply in_app_iff. right. left. reflexivity.
Qed.

Lemma interval_float : forall num suf u, num <> [] -> unit_suffix suf u ->
  Forall (fun c => is_digit c \/ c = 46%N) num ->
  genTimeInterval (num ++ suf)
  = match py_float num with
    | Ok q => match u with Second => Ok q | _ => Ok (Qmult q (inject_Z (unit_seconds u))) end
    | Raise e => Raise e
    end.
Proof.
  intros num suf u Hne Hu Hd. unfold genTimeInterval.
  destruct Hu as [[-> ->]|[[-> ->]|[[-> ->]|[[-> ->]|[[-> ->]|[-> ->]]]]]].
  1: change (L "s") with [115%N]. 2: change (L "m") with [109%N]. 3: change (L "h") with [104%N].
  4: change (L "d") with [100%N]. 5: change (L "w") with [119%N].
  1-5: rewrite split_last_snoc; cbn [N.eqb Pos.eqb]; destruct (py_float num); reflexivity.
  rewrite app_nil_r. destruct (last_num_char num Hne Hd) as (a & c & E & Hc).
  rewrite E at 1. rewrite split_last_snoc.
  assert (c <> 115 /\ c <> 109 /\ c <> 104 /\ c <> 100 /\ c <> 119)%N as (A1 & A2 & A3 & A4 & A5)
    by (unfold is_digit in Hc; lia).
  apply N.eqb_neq in A1, A2, A3, A4, A5. rewrite A1, A2, A3, A4, A5.
  destruct (py_float num); reflexivity.
Qed.

Lemma interval_value : forall num q suf u, decimal num q -> unit_suffix suf u ->
  exists v, genTimeInterval (num ++ suf) = Ok v /\ Qeq v (Qmult q (inject_Z (unit_seconds u))).
Proof.
  intros num q suf u Hd Hu.
  assert (Hne : num <> [] /\ Forall (fun c => is_digit c \/ c = 46%N) num).
  { inversion Hd; subst.
    - split; [assumption|]. eapply Forall_impl; [|eassumption]. auto.
    - split; [intro F; apply app_eq_nil in F as [_ F]; discriminate|].
      apply Forall_app. split; [eapply Forall_impl; [|eassumption]; auto|].
      constructor; [right; reflexivity|]. eapply Forall_impl; [|eassumption]; auto. }
  rewrite (interval_float num suf u) by tauto.
  destruct (py_float_decimal num q Hd) as (q' & -> & Eq).
  destruct u; eexists; (split; [reflexivity|]); rewrite Eq; try reflexivity.
  unfold unit_seconds. rewrite Qmult_1_r. reflexivity.
Qed.

Lemma interval_not_misread : forall s, interval_grammar s ->
  match genTimeInterval s with
  | Raise e => e = ValueError
               /\ forall num suf u q, s = num ++ suf -> unit_suffix suf u -> ~ decimal num q
  | Ok v => exists num suf u q, s = num ++ suf /\ unit_suffix suf u /\ decimal num q
                                /\ Qeq v (Qmult q (inject_Z (unit_seconds u)))
  end.
Proof.
  intros s (num & suf & u & -> & Hne & Hu & Hd).
  destruct (genTimeInterval (num ++ suf)) as [v|e] eqn:G.
  - pose proof G as G2. rewrite (interval_float num suf u Hne Hu Hd) in G2.
    destruct (py_float num) as [q'|] eqn:F; [|discriminate].
    destruct (py_float_ok num q' F) as (q & Dq & _). exists num, suf, u, q.
    repeat split; try assumption.
    destruct (interval_value num q suf u Dq Hu) as (v2 & G3 & Ev). congruence.
  - split.
    + rewrite (interval_float num suf u Hne Hu Hd) in G.
      destruct (py_float num) as [q'|e'] eqn:F; [destruct u; discriminate|].
      injection G as <-. eapply py_float_valueerror. exact F.
    + intros n2 s2 u2 q E2 Hu2 Dq.
      destruct (interval_value n2 q s2 u2 Dq Hu2) as (v & Gv & _). rewrite <- E2 in Gv. congruence.
Qed.

(** ** Response *)
(** What an operation writes. *)
Definition op_texts (o : rop) : list chunk :=
  match o with
  | Write v => [v]
  | Writeln v => [v; CStr [10%N]]
  | Writelines vs => flat_map (fun v => [v; CStr [10%N]]) vs
  | Flush | GetValue => []
  end.

Lemma writelines_app : forall vs c,
  resp_writelines vs c = c ++ flat_map (fun v => [v; CStr [10%N]]) vs.
Proof.
  unfold resp_writelines. induction vs as [|v vs IH]; intro c; cbn [fold_left flat_map].
  - rewrite app_nil_r. reflexivity.
  - rewrite IH. unfold resp_writeln, resp_write. rewrite <- !app_assoc. reflexivity.
Qed.

Lemma rrun_app : forall ops c,
  fold_left (fun c o => rstep o c) ops c = c ++ flat_map op_texts ops.
Proof.
  induction ops as [|o ops IH]; intro c; cbn [fold_left flat_map].
  - rewrite app_nil_r. reflexivity.
  - rewrite IH. rewrite app_assoc. f_equal.
    destruct o; cbn [rstep op_texts]; unfold resp_writeln, resp_write;
      rewrite ?app_nil_r, <- ?app_assoc; try reflexivity. apply writelines_app.
Qed.

Lemma join_chunks_strs : forall ts, join_chunks (map CStr ts) = Ok (concat ts).
Proof. induction ts as [|t ts IH]; [reflexivity|]. cbn. rewrite IH. reflexivity. Qed.

Lemma join_chunks_other : forall l, In COther l -> join_chunks l = Raise TypeError.
Proof.
  induction l as [|c l IH]; intros H; [destruct H|]. destruct c; [|reflexivity].
  destruct H as [H|H]; [discriminate|]. cbn. rewrite (IH H). reflexivity.
Qed.

Lemma writes_texts : forall ops ts, writes ops ts -> flat_map op_texts ops = map CStr ts.
Proof.
  intros ops ts H. induction H; cbn [flat_map op_texts map app]; rewrite ?IHwrites; try reflexivity.
  rewrite map_app. f_equal. induction ss as [|s ss IH]; [reflexivity|].
  cbn [map flat_map app]. rewrite IH. reflexivity.
Qed.

Lemma response_value : forall ops ts, writes ops ts ->
  resp_getvalue None (rrun ops) = Ok (concat ts).
Proof.
  intros ops ts H. unfold resp_getvalue, rrun. rewrite rrun_app. cbn [app].
  rewrite (writes_texts ops ts H). apply join_chunks_strs.
Qed.

Lemma transformer_value : forall ops ts f, writes ops ts ->
  transformer_getvalue f (rrun ops)
  = Ok (match f with Some f => f (concat ts) | None => concat ts end).
Proof.
  intros ops ts f H. unfold transformer_getvalue, rrun. rewrite rrun_app. cbn [app].
  rewrite (writes_texts ops ts H), join_chunks_strs. reflexivity.
Qed.

Lemma response_nonstring : forall ops v, In (Write COther) ops ->
  resp_getvalue None (rrun (ops ++ [v])) = Raise TypeError.
Proof.
  intros ops v H. unfold resp_getvalue, rrun. rewrite rrun_app. cbn [app].
  apply join_chunks_other. apply in_flat_map. exists (Write COther).
  split; [apply in_app_iff; left; exact H|left; reflexivity].
Qed.

Lemma dummy_calls_some : forall n w i, w_tr w = Some i ->
  calls n dummy_response w = (repeat i n, w).
Proof.
  induction n as [|n IH]; intros w i H; [reflexivity|].
  cbn [calls]. unfold dummy_response at 1. rewrite H. rewrite (IH w i H). reflexivity.
Qed.

Lemma dummy_same_response : forall n w, exists i, fst (calls n dummy_response w) = repeat i n.
Proof.
  intros [|n] w; [exists 0; reflexivity|].
  cbn [calls]. unfold dummy_response at 1. destruct (w_tr w) as [i|] eqn:E.
  - rewrite (dummy_calls_some n w i E). exists i. reflexivity.
  - rewrite (dummy_calls_some n (mkW (w_resps w ++ [[]]) (Some (length (w_resps w))))
               (length (w_resps w)) eq_refl). exists (length (w_resps w)). reflexivity.
Qed.

(** ** Indenter *)
Definition levels_ok (s : istate) : Prop :=
  (forall i, (0 <= i_level (is_obj s i))%Z) /\ Forall (fun l => (0 <= l)%Z) (is_stack s).

Lemma upd_level : forall f i v, (forall j, (0 <= i_level (f j))%Z) -> (0 <= i_level v)%Z ->
  forall j, (0 <= i_level (upd f i v j))%Z.
Proof. intros f i v H Hv j. unfold upd. destruct (Nat.eqb j i); auto. Qed.

Lemma istep_ok : forall i c s, levels_ok s -> levels_ok (istep i c s).
Proof.
  intros i c s [H1 H2]. pose proof (H1 i) as Hi.
  destruct c; cbn [istep].
  - split; cbn; [apply upd_level; auto|exact H2].
  - split; cbn; [apply upd_level; auto|exact H2].
  - split; cbn; [apply upd_level; auto; cbn; lia|exact H2].
  - destruct (Z.ltb_spec 0 (i_level (is_obj s i))); [|split; assumption].
    split; cbn; [apply upd_level; auto; cbn; lia|exact H2].
  - split; cbn; [exact H1|constructor; assumption].
  - destruct (is_stack s) as [|l r] eqn:E.
    + split; cbn; [apply upd_level; auto; cbn; lia|constructor].
    + inversion H2; subst. split; cbn; [apply upd_level; auto|assumption].
  - split; cbn; [apply upd_level; auto; cbn|exact H2].
    destruct (Z.ltb_spec l 0); lia.
  - split; cbn; [apply upd_level; auto|exact H2].
Qed.

Lemma irun_ok : forall cs s, levels_ok s -> levels_ok (irun cs s).
Proof.
  unfold irun. induction cs as [|[i c] cs IH]; intros s H; [exact H|].
  cbn [fold_left fst snd]. apply IH. apply istep_ok. exact H.
Qed.

Lemma levels_init : levels_ok is_init.
Proof. split; [intro; cbn; lia|constructor]. Qed.

Lemma level_nonneg : forall cs i, (0 <= i_level (is_obj (irun cs is_init) i))%Z.
Proof. intros cs i. apply (irun_ok cs is_init levels_init). Qed.

Lemma irun_app : forall a b s, irun (a ++ b) s = irun b (irun a s).
Proof. intros. unfold irun. apply fold_left_app. Qed.

Lemma balanced_stack : forall cs, balanced cs -> forall s, is_stack (irun cs s) = is_stack s.
Proof.
  intros cs H. induction H as [|i c cs H1 H2 H IH|i j a b Ha IHa Hb IHb]; intro s.
  - reflexivity.
  - change (irun ((i, c) :: cs) s) with (irun cs (istep i c s)). rewrite IH.
    destruct c; try congruence; cbn; try reflexivity.
    destruct (0 <? i_level (is_obj s i))%Z; reflexivity.
  - change (irun ((i, Push) :: a ++ (j, Pop) :: b) s)
      with (irun (a ++ (j, Pop) :: b) (istep i Push s)).
    rewrite irun_app. change (irun ((j, Pop) :: b) ?x) with (irun b (istep j Pop x)).
    rewrite IHb. cbn [istep]. rewrite IHa. reflexivity.
Qed.

Lemma push_pop_restores : forall i cs s, balanced cs ->
  i_level (is_obj (irun ((i, Push) :: cs ++ [(i, Pop)]) s) i) = i_level (is_obj s i).
Proof.
  intros i cs s H.
  change (irun ((i, Push) :: cs ++ [(i, Pop)]) s) with (irun (cs ++ [(i, Pop)]) (istep i Push s)).
  rewrite irun_app. change (irun [(i, Pop)] ?x) with (istep i Pop x).
  cbn [istep]. rewrite (balanced_stack cs H). cbn [is_stack is_obj].
  unfold upd. rewrite Nat.eqb_refl. reflexivity.
Qed.

Lemma indent_length : forall o d, i_on o = true -> (0 <= i_level o)%Z ->
  length (indent o d) = (Z.to_nat (i_level o) * length (i_chars o))%nat.
Proof.
  intros o d H Hl. unfold indent. rewrite H. unfold str_times.
  induction (Z.to_nat (i_level o)) as [|n IH]; [reflexivity|].
  cbn [repeat concat Nat.mul]. rewrite app_length, IH. reflexivity.
Qed.

Lemma indent_copies : forall o d,
  indent o d = if i_on o then concat (repeat (i_chars o) (Z.to_nat (i_level o)))
               else repeat 32%N (Z.to_nat d).
Proof.
  intros o d. unfold indent, str_times. destruct (i_on o); [reflexivity|].
  induction (Z.to_nat d) as [|n IH]; [reflexivity|]. cbn [repeat concat]. rewrite IH. reflexivity.
Qed.

Lemma istep_other : forall i j c s, i <> j -> is_obj (istep j c s) i = is_obj s i.
Proof.
  intros i j c s H. destruct c; cbn [istep]; unfold upd; cbn [is_obj];
    try (destruct (Nat.eqb_spec i j); [congruence|reflexivity]); try reflexivity.
  - destruct (0 <? i_level (is_obj s j))%Z; cbn [is_obj]; [|reflexivity].
    destruct (Nat.eqb_spec i j); [congruence|reflexivity].
  - destruct (is_stack s); cbn [is_obj]; destruct (Nat.eqb_spec i j); congruence.
Qed.

Lemma istep_same : forall i c s t, plain c = true -> is_obj s i = is_obj t i ->
  is_obj (istep i c s) i = is_obj (istep i c t) i.
Proof.
  intros i c s t Hc H. destruct c; try discriminate Hc; cbn [istep]; rewrite <- H;
    try (cbn [is_obj]; unfold upd; rewrite !Nat.eqb_refl; reflexivity).
  destruct (0 <? i_level (is_obj s i))%Z; [|exact H].
  cbn [is_obj]; unfold upd; rewrite !Nat.eqb_refl; reflexivity.
Qed.

Lemma isolated_gen : forall i cs s t, Forall (fun c => plain (snd c) = true) cs ->
  is_obj s i = is_obj t i ->
  is_obj (irun cs s) i = is_obj (irun (filter (fun c => Nat.eqb (fst c) i) cs) t) i.
Proof.
  intros i. induction cs as [|[j c] cs IH]; intros s t Hp H; [exact H|].
  inversion Hp as [|? ? Hc Hcs]; subst. cbn [snd] in Hc. cbn [filter fst].
  change (irun ((j, c) :: cs) s) with (irun cs (istep j c s)).
  destruct (Nat.eqb_spec j i) as [->|Hn].
  - change (irun ((i, c) :: ?x) t) with (irun x (istep i c t)).
    apply IH; [exact Hcs|]. apply istep_same; assumption.
  - apply IH; [exact Hcs|]. rewrite istep_other by congruence. exact H.
Qed.

Lemma isolated : forall i cs s, Forall (fun c => plain (snd c) = true) cs ->
  is_obj (irun cs s) i = is_obj (irun (filter (fun c => Nat.eqb (fst c) i) cs) s) i.
Proof. intros i cs s H. apply isolated_gen; auto. Qed.

(** ** Cache directive arguments *)
Lemma cacheInfo_frame : forall args info r k, cacheInfo_loop args info = Ok r ->
  (forall a, In a args -> fst a <> k /\ (k = L "interval" -> fst a <> L "timer")) ->
  aget k r = aget k info.
Proof.
  induction args as [|[key val] args IH]; intros info r k H Hk; cbn [cacheInfo_loop] in H.
  - injection H as <-. reflexivity.
  - destruct val as [[|c v]|]; try discriminate.
    assert (Hk' : forall a, In a args -> fst a <> k /\ (k = L "interval" -> fst a <> L "timer"))
      by (intros a Ha; apply Hk; right; exact Ha).
    destruct (Hk (key, Some (c :: v)) (or_introl eq_refl)) as [K1 K2]. cbn [fst] in K1, K2.
    destruct (str_eqb_spec key (L "timer")) as [E|E].
    + destruct (genTimeInterval (unquote (c :: v))); [|discriminate].
      rewrite (IH _ _ _ H Hk'). apply aget_aset_other. intro F. exact (K2 F E).
    + rewrite (IH _ _ _ H Hk'). apply aget_aset_other. congruence.
Qed.

Lemma cacheInfo_app : forall a b info,
  cacheInfo_loop (a ++ b) info
  = match cacheInfo_loop a info with Ok i => cacheInfo_loop b i | Raise e => Raise e end.
Proof.
  induction a as [|[key val] a IH]; intros b info; [reflexivity|]. cbn [app cacheInfo_loop].
  destruct val as [[|c v]|]; try reflexivity.
  destruct (str_eqb key (L "timer")); [|apply IH].
  destruct (genTimeInterval (unquote (c :: v))); [apply IH|reflexivity].
Qed.

Lemma unquote_quoted : forall q s, q = 34%N \/ q = 39%N -> unquote (q :: s ++ [q]) = s.
Proof.
  intros q s H. unfold unquote. rewrite split_last_snoc.
  destruct H as [->| ->]; reflexivity.
Qed.

Lemma unquote_digit : forall c s, is_digit c \/ c = 46%N -> unquote (c :: s) = c :: s.
Proof.
  intros c s H. unfold unquote, is_digit in *.
  destruct (N.eqb_spec c 34); [lia|]. destruct (N.eqb_spec c 39); [lia|]. reflexivity.
Qed.

Lemma timer_argument : forall l1 l2 q num x suf u info,
  q = 34%N \/ q = 39%N -> decimal num x -> unit_suffix suf u ->
  (forall a, In a l2 -> fst a <> L "timer" /\ fst a <> L "interval") ->
  genCacheInfoFromArgList (l1 ++ (L "timer", Some (q :: (num ++ suf) ++ [q])) :: l2) = Ok info ->
  exists v, aget (L "interval") info = Some (CNum v)
            /\ Qeq v (Qmult x (inject_Z (unit_seconds u))).
Proof.
  intros l1 l2 q num x suf u info Hq Hd Hu H2 H. unfold genCacheInfoFromArgList in H.
  rewrite cacheInfo_app in H. destruct (cacheInfo_loop l1 []) as [i|]; [|discriminate].
  cbn [cacheInfo_loop] in H. rewrite unquote_quoted in H by exact Hq.
  rewrite str_eqb_refl in H.
  destruct (interval_value num x suf u Hd Hu) as (v & G & Ev). rewrite G in H.
  exists v. split; [|exact Ev].
  rewrite (cacheInfo_frame _ _ _ (L "interval") H).
  - apply aget_aset_same.
  - intros a Ha. destruct (H2 a Ha). auto.
Qed.

Lemma other_argument : forall l1 l2 key val info,
  key <> L "timer" -> key <> L "interval" ->
  (forall a, In a l2 -> fst a <> key) ->
  genCacheInfoFromArgList (l1 ++ (key, Some val) :: l2) = Ok info ->
  aget key info = Some (CText (unquote val)).
Proof.
  intros l1 l2 key val info H1 H1' H2 H. unfold genCacheInfoFromArgList in H.
  rewrite cacheInfo_app in H. destruct (cacheInfo_loop l1 []) as [i|]; [|discriminate].
  cbn [cacheInfo_loop] in H. destruct val as [|c v]; [discriminate|].
  apply str_eqb_neq in H1. rewrite H1 in H.
  rewrite (cacheInfo_frame _ _ _ key H).
  - apply aget_aset_same.
  - intros a Ha. split; [exact (H2 a Ha)|congruence].
Qed.
