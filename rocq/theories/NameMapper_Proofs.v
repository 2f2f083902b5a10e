From Verif Require Import PyStr NameMapper_Model NameMapper_Spec.

Section P.
Context {obj St : Type}.
Variable Y : psys obj St.
Notation in_mapping := (in_mapping Y).
Notation chunk_value := (chunk_value Y).
Notation step_value := (step_value Y).
Notation to_call := (to_call Y).
Notation walk := (walk Y).
Notation has := (has Y).
Notation lacks := (lacks Y).

Lemma in_mapping_dec : forall s o k, (ismap Y o && contains Y s o k)%bool = true <-> in_mapping s o k.
Proof. intros. unfold NameMapper_Spec.in_mapping. apply andb_true_iff. Qed.

Lemma in_mapping_no : forall s o k, (ismap Y o && contains Y s o k)%bool = false <-> ~ in_mapping s o k.
Proof. intros. rewrite <- in_mapping_dec. destruct (_ && _)%bool; split; congruence. Qed.

Lemma chunk_value_fun : forall s o k r, nextObj Y s o k = r <-> chunk_value s o k r.
Proof.
  intros s o k r. unfold nextObj. destruct (ismap Y o && contains Y s o k)%bool eqn:M.
  - apply in_mapping_dec in M. split; intros H.
    + subst. apply by_key; auto.
    + destruct H as [r H E|v H E|H|e H E Hn]; try (exfalso; apply H; assumption); assumption.
  - apply in_mapping_no in M. split.
    + intros <-. destruct (getattr Y s o k) as [v|e] eqn:E.
      * apply by_attr; assumption.
      * destruct e; try (apply by_error; [assumption|assumption|discriminate]).
        apply by_none. split; assumption.
    + intros [r' H E|v H E|[H E]|e H E Hn]; try contradiction; rewrite E; try reflexivity.
      destruct e; congruence.
Qed.

Section Intro.
Hypothesis Hin : introspectable Y.
Hypothesis Hmod : modern Y.

Lemma hasattr_intro : forall s o k,
  In k [L "__class__"; L "mro"; L "__func__"; L "__code__"; L "__self__"; L "__init__"] ->
  exists b, hasattr Y s o k = Ok b /\ (b = true <-> attr_present Y s o k).
Proof.
  intros s o k Hk. unfold hasattr. destruct (Hin s o k Hk) as [[v H]|H].
  - rewrite H. exists true. split; [reflexivity|]. split; [exists v; assumption|reflexivity].
  - unfold attr_absent in H. rewrite H. exists false. split; [reflexivity|].
    split; [discriminate|]. intros [v H']. congruence.
Qed.

Lemma ioc_spec : forall s o, exists b, isInstanceOrClass Y s o = Ok b /\
  (b = false <-> ~ is_class Y s o /\ function_like Y s o).
Proof.
  intros s o. unfold isInstanceOrClass, is_class, function_like.
  destruct (istype Y o).
  { exists true. split; [reflexivity|]. split; [discriminate|]. intros [H _]. exfalso; apply H; auto. }
  destruct (Hmod s o) as [[c Hc] [i Hi]].
  destruct (hasattr_intro s o (L "mro") ltac:(simpl; tauto)) as [b1 [E1 P1]].
  destruct (hasattr_intro s o (L "__func__") ltac:(simpl; tauto)) as [b2 [E2 P2]].
  destruct (hasattr_intro s o (L "__code__") ltac:(simpl; tauto)) as [b3 [E3 P3]].
  destruct (hasattr_intro s o (L "__self__") ltac:(simpl; tauto)) as [b4 [E4 P4]].
  assert (EC : hasattr Y s o (L "__class__") = Ok true) by (unfold hasattr; rewrite Hc; reflexivity).
  assert (EI : hasattr Y s o (L "__init__") = Ok true) by (unfold hasattr; rewrite Hi; reflexivity).
  rewrite EC, E1, E2, E3, E4, EI.
  destruct b1.
  { exists true. split; [reflexivity|]. split; [discriminate|]. intros [H _]. exfalso. apply H. right. apply P1. reflexivity. }
  assert (N1 : ~ (false = true \/ attr_present Y s o (L "mro"))) by (intros [H|H]; [discriminate|apply P1 in H; discriminate]).
  destruct b2; simpl; [exists false; split; [reflexivity|]; split; auto; intros _; split; [assumption|left; apply P2; reflexivity]|].
  destruct b3; simpl; [exists false; split; [reflexivity|]; split; auto; intros _; split; [assumption|right; left; apply P3; reflexivity]|].
  destruct b4; simpl; [exists false; split; [reflexivity|]; split; auto; intros _; split; [assumption|right; right; apply P4; reflexivity]|].
  exists true. split; [reflexivity|]. split; [discriminate|]. intros [_ [H|[H|H]]]; exfalso.
  - apply P2 in H; discriminate. - apply P3 in H; discriminate. - apply P4 in H; discriminate.
Qed.

Lemma step_value_fun : forall s ac o x, autocall Y s ac o = x <-> step_value s ac o x.
Proof.
  intros s ac o x. unfold autocall. destruct (ioc_spec s o) as [b [E B]].
  destruct (ac && iscallable Y o)%bool eqn:A.
  - apply andb_true_iff in A as [A1 A2]. rewrite E. destruct b.
    + assert (N : ~ to_call s ac o) by (intros [_ [_ H]]; apply B in H; discriminate).
      split; [intros <-; apply step_keep; assumption|]. intros [H|H]; [contradiction|reflexivity].
    + assert (N : to_call s ac o).
      { destruct (proj1 B eq_refl). repeat split; assumption. }
      split; [intros <-; apply step_call; assumption|]. intros [H|H]; [reflexivity|contradiction].
  - assert (N : ~ to_call s ac o).
    { intros [H1 [H2 _]]. rewrite H1, H2 in A. discriminate. }
    split; [intros <-; apply step_keep; assumption|]. intros [H|H]; [contradiction|reflexivity].
Qed.

Lemma walk_fun : forall chunks s o ac x, valueForChunks Y s o chunks ac = x <-> walk ac s o chunks x.
Proof.
  induction chunks as [|k r IH]; intros s o ac x; simpl.
  - split; [intros <-; constructor|]. intros H; inversion H; reflexivity.
  - split.
    + destruct (nextObj Y s o k) as [v|e] eqn:E1.
      * apply chunk_value_fun in E1. destruct (autocall Y s ac v) as [[v'|e] s'] eqn:E2;
          apply step_value_fun in E2; intros H.
        -- eapply walk_step; [exact E1|exact E2|]. apply IH. assumption.
        -- subst. eapply walk_fail; eassumption.
      * intros <-. apply walk_miss. apply chunk_value_fun. assumption.
    + intros H. inversion H as [|? ? ? ? e C|? ? ? ? v e s' C S|? ? ? ? v v' s' ? C S W]; subst.
      * apply chunk_value_fun in C. rewrite C. reflexivity.
      * apply chunk_value_fun in C. apply step_value_fun in S. rewrite C, S. reflexivity.
      * apply chunk_value_fun in C. apply step_value_fun in S. rewrite C, S. apply IH. assumption.
Qed.

Lemma vfn_join : forall chunks s o ac x, chunks <> [] -> (forall c, In c chunks -> ~ In 46%N c) ->
  (valueForName Y s o (join (L ".") chunks) ac = x <-> walk ac s o chunks x).
Proof.
  intros chunks s o ac x Hn Hd. unfold valueForName, chunks_of. change (L ".") with [46%N].
  rewrite split_join by assumption. apply walk_fun.
Qed.

(** ** The NotFound analysis *)
Lemma walk_notfound : forall chunks s o ac key s',
  walk ac s o chunks (Raise (NotFound key), s') ->
  lacks_chunk Y ac s o chunks key \/ foreign Y ac s o chunks key.
Proof.
  intros chunks s o ac key s' H. remember (Raise (NotFound key), s') as x eqn:Ex. revert key s' Ex.
  induction H as [s o|s o k r e C|s o k r v e s1 C S|s o k r v v' s1 x C S W IH]; intros key s' Ex.
  - discriminate.
  - inversion Ex; subst. inversion C as [? M G|? M G|M|? M G N]; subst.
    + right. apply foreign_read; [assumption|]. intros [N _]. contradiction.
    + left. constructor. assumption.
    + right. apply foreign_read; [assumption|]. intros [_ N']. unfold attr_absent in N'. congruence.
  - inversion Ex; subst. right. eapply foreign_call; [exact C| |].
    + inversion S; subst; assumption.
    + inversion S as [T E|]; rewrite E; reflexivity.
  - destruct (IH _ _ Ex) as [H|H].
    + left. eapply lacks_later; eassumption.
    + right. eapply foreign_next; eassumption.
Qed.

Lemma lacks_chunk_walk : forall ac s o chunks key, lacks_chunk Y ac s o chunks key ->
  exists s', walk ac s o chunks (Raise (NotFound key), s').
Proof.
  intros ac s o chunks key H. induction H as [s o k r H|s o k r v v' s1 key C S H [s' IH]].
  - exists s. apply walk_miss. apply by_none. assumption.
  - exists s'. eapply walk_step; eassumption.
Qed.

Lemma foreign_walk : forall ac s o chunks key, foreign Y ac s o chunks key ->
  exists s', walk ac s o chunks (Raise (NotFound key), s').
Proof.
  intros ac s o chunks key H. induction H as [s o k r key C N|s o k r v key C T E|s o k r v v' s1 key C S H [s' IH]].
  - exists s. apply walk_miss. assumption.
  - exists (snd (call0 Y s v)). eapply walk_fail; [exact C|].
    rewrite <- E. destruct (call0 Y s v) as [a b] eqn:Ec. simpl. rewrite <- Ec. apply step_call. assumption.
  - exists s'. eapply walk_step; eassumption.
Qed.

Lemma no_foreign : no_foreign_notfound Y -> forall ac s o chunks key, ~ foreign Y ac s o chunks key.
Proof.
  intros [H1 [H2 H3]] ac s o chunks key H. induction H as [s o k r key C N|s o k r v key C T E|]; auto.
  - inversion C as [? M G|? M G|M|? M G N']; subst; [eapply H1; eassumption|contradiction|eapply H2; eassumption].
  - eapply H3; eassumption.
Qed.
End Intro.

(** ** Search lists *)
Lemma hasKey_true : forall s o k, hasKey Y s o k = Ok true <-> has s o k.
Proof.
  intros s o k. unfold hasKey, NameMapper_Spec.has. destruct (ismap Y o && contains Y s o k)%bool eqn:M.
  - apply in_mapping_dec in M. split; auto.
  - apply in_mapping_no in M. unfold hasattr, attr_present. destruct (getattr Y s o k) as [v|e].
    + split; [intros _; right; exists v; reflexivity|reflexivity].
    + split.
      * destruct e; discriminate.
      * intros [H|[v H]]; [contradiction|discriminate].
Qed.

Lemma hasKey_false : forall s o k, hasKey Y s o k = Ok false <-> lacks s o k.
Proof.
  intros s o k. unfold hasKey, NameMapper_Spec.lacks. destruct (ismap Y o && contains Y s o k)%bool eqn:M.
  - apply in_mapping_dec in M. split; [discriminate|]. intros [H _]; contradiction.
  - apply in_mapping_no in M. unfold hasattr, attr_absent. destruct (getattr Y s o k) as [v|e].
    + split; [discriminate|]. intros [_ H]; discriminate.
    + destruct e; (split; [intros H; try discriminate; auto|intros [_ H]; congruence]).
Qed.

Lemma searchLoop_split : forall pre s ns post key name ac,
  Forall (fun n => lacks s n key) pre -> has s ns key ->
  searchLoop Y s (pre ++ ns :: post) key name ac = valueForName Y s ns name ac.
Proof.
  induction pre as [|p pre IH]; intros s ns post key name ac H1 H2; simpl.
  - apply hasKey_true in H2. rewrite H2. reflexivity.
  - inversion H1; subst. apply hasKey_false in H3. rewrite H3. apply IH; assumption.
Qed.

Lemma searchLoop_none : forall nss s key name ac, Forall (fun n => lacks s n key) nss ->
  searchLoop Y s nss key name ac = (Raise (NotFound key), s).
Proof.
  induction nss as [|n nss IH]; intros s key name ac H; [reflexivity|]. simpl. inversion H; subst.
  apply hasKey_false in H2. rewrite H2. apply IH; assumption.
Qed.

Lemma searchLoop_cases : forall nss s key name ac,
  Forall (fun n => lacks s n key) nss \/
  (exists pre ns post, nss = pre ++ ns :: post /\ Forall (fun n => lacks s n key) pre /\
    (has s ns key \/ exists e, ~ in_mapping s ns key /\ getattr Y s ns key = Raise e /\ e <> AttributeError /\
       searchLoop Y s nss key name ac = (Raise e, s))).
Proof.
  induction nss as [|n nss IH]; intros s key name ac; [left; constructor|].
  destruct (hasKey Y s n key) as [[|]|e] eqn:E.
  - right. exists [], n, nss. split; [reflexivity|]. split; [constructor|]. left. apply hasKey_true. assumption.
  - pose proof E as E0. apply hasKey_false in E. destruct (IH s key name ac) as [H|[pre [ns [post [H1 [H2 H3]]]]]].
    + left. constructor; assumption.
    + right. exists (n :: pre), ns, post. split; [subst; reflexivity|]. split; [constructor; assumption|].
      destruct H3 as [H3|[e [H3 [H4 [H5 H6]]]]]; [auto|]. right. exists e. repeat split; auto.
      simpl. rewrite E0. assumption.
  - right. exists [], n, nss. split; [reflexivity|]. split; [constructor|]. right. exists e.
    simpl. rewrite E. unfold hasKey in E.
    destruct (ismap Y n && contains Y s n key)%bool eqn:M; [discriminate|].
    apply in_mapping_no in M. unfold hasattr in E. destruct (getattr Y s n key) as [v|e0] eqn:G; [discriminate|].
    destruct e0; inversion E; subst; (split; [assumption|]); (split; [reflexivity|]); (split; [discriminate|reflexivity]).
Qed.

Lemma chunks_hd : forall k r, (forall c, In c (k :: r) -> ~ In 46%N c) ->
  hd [] (chunks_of (join (L ".") (k :: r))) = k.
Proof.
  intros k r H. unfold chunks_of. change (L ".") with [46%N]. rewrite split_join; [reflexivity|discriminate|assumption].
Qed.

Lemma searchLoop_first : forall pre s ns post k r ac,
  (forall c, In c (k :: r) -> ~ In 46%N c) ->
  Forall (fun n => lacks s n k) pre -> ~ lacks s ns k ->
  valueFromSearchList Y s (pre ++ ns :: post) (join (L ".") (k :: r)) ac =
  valueForName Y s ns (join (L ".") (k :: r)) ac.
Proof.
  intros pre s ns post k r ac Hd H1 H2. unfold valueFromSearchList. rewrite chunks_hd by assumption.
  induction pre as [|p pre IH]; cbn [app searchLoop].
  - destruct (hasKey Y s ns k) as [[|]|e] eqn:E; [reflexivity|apply hasKey_false in E; contradiction|].
    unfold valueForName, chunks_of. change (L ".") with [46%N]. rewrite split_join by (auto; discriminate).
    simpl. unfold hasKey in E. unfold nextObj.
    destruct (ismap Y ns && contains Y s ns k)%bool; [discriminate|]. unfold hasattr in E.
    destruct (getattr Y s ns k) as [v|e0]; [discriminate|]. destruct e0; inversion E; subst; reflexivity.
  - inversion H1; subst. apply hasKey_false in H3. rewrite H3. apply IH; assumption.
Qed.

Lemma has_not_lacks : forall s o k, has s o k -> ~ lacks s o k.
Proof. intros s o k [H|[v H]] [N1 N2]; [contradiction|]. unfold attr_absent in N2. congruence. Qed.

Lemma lacks_dec : forall s o k, lacks s o k \/ ~ lacks s o k.
Proof.
  intros s o k. destruct (hasKey Y s o k) as [[|]|e] eqn:E.
  - right. apply has_not_lacks. apply hasKey_true. assumption.
  - left. apply hasKey_false. assumption.
  - right. intros H. apply hasKey_false in H. congruence.
Qed.

Lemma first_split : forall s k nss, Forall (fun n => lacks s n k) nss \/
  exists pre ns post, nss = pre ++ ns :: post /\ Forall (fun n => lacks s n k) pre /\ ~ lacks s ns k.
Proof.
  intros s k nss. induction nss as [|n nss IH]; [left; constructor|].
  destruct (lacks_dec s n k) as [H|H].
  - destruct IH as [IH|[pre [ns [post [-> [H1 H2]]]]]]; [left; constructor; assumption|].
    right. exists (n :: pre), ns, post. split; [reflexivity|]. split; [constructor; assumption|assumption].
  - right. exists [], n, nss. split; [reflexivity|]. split; [constructor|assumption].
Qed.

Lemma first_unique : forall s k (pre pre' : list obj) ns ns' post post',
  pre ++ ns :: post = pre' ++ ns' :: post' ->
  Forall (fun n => lacks s n k) pre -> Forall (fun n => lacks s n k) pre' ->
  ~ lacks s ns k -> ~ lacks s ns' k -> ns = ns'.
Proof.
  intros s k. induction pre as [|p pre IH]; intros pre' ns ns' post post' E H1 H2 N1 N2.
  - destruct pre' as [|p' pre']; simpl in E; inversion E; subst; [reflexivity|].
    inversion H2; subst. contradiction.
  - destruct pre' as [|p' pre']; simpl in E; inversion E; subst.
    + inversion H1; subst. contradiction.
    + inversion H1; inversion H2; subst. eapply IH; eauto.
Qed.

Lemma vfsl_first_walk : forall s pre ns post k r ac x, introspectable Y -> modern Y ->
  (forall c, In c (k :: r) -> ~ In 46%N c) -> Forall (fun n => lacks s n k) pre -> has s ns k ->
  (valueFromSearchList Y s (pre ++ ns :: post) (join (L ".") (k :: r)) ac = x <-> walk ac s ns (k :: r) x).
Proof.
  intros s pre ns post k r ac x Hi Hm Hd H1 H2.
  rewrite searchLoop_first by (auto using has_not_lacks). apply vfn_join; auto; discriminate.
Qed.

Lemma vfsl_later : forall s pre ns post post' k r ac,
  (forall c, In c (k :: r) -> ~ In 46%N c) -> has s ns k ->
  valueFromSearchList Y s (pre ++ ns :: post) (join (L ".") (k :: r)) ac =
  valueFromSearchList Y s (pre ++ ns :: post') (join (L ".") (k :: r)) ac.
Proof.
  intros s pre ns post post' k r ac Hd H.
  destruct (first_split s k pre) as [F|[pre1 [ns1 [post1 [-> [F1 N1]]]]]].
  - rewrite !searchLoop_first by (auto using has_not_lacks). reflexivity.
  - rewrite <- !app_assoc. cbn [app]. rewrite !searchLoop_first by auto. reflexivity.
Qed.

Lemma vfsl_none : forall s sl k r ac, (forall c, In c (k :: r) -> ~ In 46%N c) ->
  Forall (fun n => lacks s n k) sl ->
  valueFromSearchList Y s sl (join (L ".") (k :: r)) ac = (Raise (NotFound k), s).
Proof.
  intros. unfold valueFromSearchList. rewrite chunks_hd by assumption. apply searchLoop_none. assumption.
Qed.

Lemma vfsl_notfound : forall s sl k r ac key, introspectable Y -> modern Y ->
  (forall c, In c (k :: r) -> ~ In 46%N c) ->
  ((exists s', valueFromSearchList Y s sl (join (L ".") (k :: r)) ac = (Raise (NotFound key), s')) <->
   (key = k /\ Forall (fun n => lacks s n k) sl) \/
   (exists pre ns post, sl = pre ++ ns :: post /\ Forall (fun n => lacks s n k) pre /\ ~ lacks s ns k /\
      (lacks_chunk Y ac s ns (k :: r) key \/ foreign Y ac s ns (k :: r) key))).
Proof.
  intros s sl k r ac key Hi Hm Hd. split.
  - intros [s' H]. destruct (first_split s k sl) as [F|[pre [ns [post [-> [F N]]]]]].
    + rewrite vfsl_none in H by assumption. inversion H; subst. left. auto.
    + right. exists pre, ns, post. split; [reflexivity|]. split; [assumption|]. split; [assumption|]. rewrite searchLoop_first in H by assumption.
      apply vfn_join in H; [|auto..|discriminate|auto]. eapply walk_notfound; eauto.
  - intros [[-> F]|[pre [ns [post [-> [F [N H]]]]]]].
    + exists s. apply vfsl_none; assumption.
    + rewrite searchLoop_first by assumption.
      assert (W : exists s', walk ac s ns (k :: r) (Raise (NotFound key), s'))
        by (destruct H; [eapply lacks_chunk_walk|eapply foreign_walk]; eauto).
      destruct W as [s' W]. exists s'. apply vfn_join; auto; discriminate.
Qed.

Lemma vfsl_notfound_clean : forall s sl k r ac key, introspectable Y -> modern Y -> no_foreign_notfound Y ->
  (forall c, In c (k :: r) -> ~ In 46%N c) ->
  ((exists s', valueFromSearchList Y s sl (join (L ".") (k :: r)) ac = (Raise (NotFound key), s')) <->
   (key = k /\ Forall (fun n => lacks s n k) sl) \/
   (exists pre ns post, sl = pre ++ ns :: post /\ Forall (fun n => lacks s n k) pre /\ has s ns k /\
      lacks_chunk Y ac s ns (k :: r) key)).
Proof.
  intros s sl k r ac key Hi Hm Hf Hd. rewrite vfsl_notfound by assumption. split.
  - intros [H|[pre [ns [post [-> [F [N [H|H]]]]]]]]; [auto| |exfalso; eapply no_foreign; eauto].
    right. exists pre, ns, post. split; [reflexivity|]. split; [assumption|]. split; [|assumption].
    inversion H as [? ? ? ? A|? ? ? ? v v' s1 ? C S A]; subst; [contradiction|].
    inversion C as [? M G|? M G| |]; subst; [left; assumption|right; exists v; assumption].
  - intros [H|[pre [ns [post [-> [F [N H]]]]]]]; [auto|].
    right. exists pre, ns, post. split; [reflexivity|]. split; [assumption|]. auto using has_not_lacks.
Qed.

Lemma vfsl_value : forall s sl k r ac v s', introspectable Y -> modern Y ->
  (forall c, In c (k :: r) -> ~ In 46%N c) ->
  (valueFromSearchList Y s sl (join (L ".") (k :: r)) ac = (Ok v, s') <->
   exists pre ns post, sl = pre ++ ns :: post /\ Forall (fun n => lacks s n k) pre /\ has s ns k /\
     walk ac s ns (k :: r) (Ok v, s')).
Proof.
  intros s sl k r ac v s' Hi Hm Hd. split.
  - intros H. destruct (first_split s k sl) as [F|[pre [ns [post [-> [F N]]]]]].
    + rewrite vfsl_none in H by assumption. discriminate.
    + rewrite searchLoop_first in H by assumption. apply vfn_join in H; [|auto..|discriminate|auto].
      exists pre, ns, post. split; [reflexivity|]. split; [assumption|]. split; [|assumption].
      inversion H as [| | |? ? ? ? v1 ? ? ? C ? ?]; subst.
      inversion C as [? M G|? M G| |]; subst; [left; assumption|right; eexists; eassumption].
  - intros [pre [ns [post [-> [F [N H]]]]]]. apply vfsl_first_walk; auto.
Qed.

(** ** Frames *)
Lemma vffsl_concat : forall s locals globals builtins sl name ac,
  valueFromFrameOrSearchList Y s locals globals builtins (Some sl) name ac =
  valueFromSearchList Y s ([locals] ++ sl ++ [globals; builtins]) name ac.
Proof. reflexivity. Qed.

Lemma c_vffsl_concat : forall s locals globals builtins sl name ac,
  c_valueFromFrameOrSearchList Y s locals globals builtins sl name ac =
  c_valueFromSearchList Y s ([locals] ++ sl ++ [globals; builtins]) name ac.
Proof.
  intros. unfold c_valueFromFrameOrSearchList, c_valueFromSearchList, c_with_chunks.
  destruct (c_chunks 0 [] name) as [[|k r]|]; [reflexivity| |reflexivity].
  cbn [app c_searchLoop]. destruct (c_hasKey Y s locals (hd [] (k :: r))); [reflexivity|].
  induction sl as [|n sl IH]; [reflexivity|]. cbn [app c_searchLoop].
  destruct (c_hasKey Y s n (hd [] (k :: r))); [reflexivity|exact IH].
Qed.

(** ** The C version *)
Definition drop_empty_last (ws : list pystr) : list pystr :=
  match rev ws with [] :: r => rev r | _ => ws end.

Lemma drop_empty_last_cons : forall w v ws, drop_empty_last (w :: v :: ws) = w :: drop_empty_last (v :: ws).
Proof.
  intros. unfold drop_empty_last. change (rev (w :: v :: ws)) with (rev (v :: ws) ++ [w]).
  destruct (rev (v :: ws)) as [|x l] eqn:E.
  - apply (f_equal (@length pystr)) in E. rewrite rev_length in E. discriminate.
  - simpl. destruct x; [|reflexivity]. rewrite rev_app_distr. reflexivity.
Qed.

Lemma c_chunks_spec : forall name n cur w ws, split_char 46 name = w :: ws -> (n <= 13)%nat ->
  c_chunks n cur name = if (n + length ws <=? 13)%nat then Some (drop_empty_last ((rev cur ++ w) :: ws)) else None.
Proof.
  induction name as [|c name IH]; intros n cur w ws E Hn.
  - simpl in E. inversion E; subst. cbn [c_chunks length]. replace (n + 0 <=? 13)%nat with true by lia. rewrite app_nil_r.
    destruct cur as [|x cur]; [reflexivity|]. unfold drop_empty_last. cbn [rev app].
    destruct (rev cur ++ [x]) eqn:E2; [destruct (rev cur); discriminate|reflexivity].
  - cbn [c_chunks]. simpl in E. pose proof (split_char_nonnil 46 name) as Hne.
    destruct (split_char 46 name) as [|w' ws'] eqn:E2; [congruence|].
    destruct (c =? 46)%N.
    + inversion E; subst. destruct (Nat.leb_spec 13 n) as [H|H].
      * replace (n + length (w' :: ws') <=? 13)%nat with false by (cbn [length]; lia). reflexivity.
      * rewrite (IH (S n) [] w' ws') by (auto; lia). cbn [rev app].
        replace (n + length (w' :: ws') <=? 13)%nat with (S n + length ws' <=? 13)%nat by (cbn [length]; lia).
        destruct (_ <=? 13)%nat; [|reflexivity]. rewrite app_nil_r, drop_empty_last_cons. reflexivity.
    + inversion E; subst. rewrite (IH n (c :: cur) w' ws) by auto. cbn [rev]. rewrite <- app_assoc. reflexivity.
Qed.

Lemma c_chunks_join : forall chunks, chunks <> [] -> (forall c, In c chunks -> ~ In 46%N c) ->
  c_chunks 0 [] (join (L ".") chunks) =
  if (length chunks <=? 14)%nat then Some (drop_empty_last chunks) else None.
Proof.
  intros chunks Hn Hd. destruct chunks as [|w ws]; [congruence|].
  rewrite (c_chunks_spec _ 0 [] w ws) by (try lia; change (L ".") with [46%N]; apply split_join; auto).
  cbn [length rev app]. replace (S (length ws) <=? 14)%nat with (0 + length ws <=? 13)%nat by lia. reflexivity.
Qed.

Lemma drop_empty_last_id : forall l w, w <> [] -> drop_empty_last (l ++ [w]) = l ++ [w].
Proof. intros l w H. unfold drop_empty_last. rewrite rev_app_distr. simpl. destruct w; [congruence|reflexivity]. Qed.

Section Compat.
Hypothesis HC : c_compatible Y.
Hypothesis HM : modern Y.

Lemma c_hasattr_eq : forall s o k, hasattr Y s o k = Ok (c_hasattr Y s o k).
Proof.
  intros s o k. unfold hasattr, c_hasattr. destruct HC as [_ [_ [H _]]].
  destruct (H s o k) as [[v E]|E]; [rewrite E; reflexivity|]. unfold attr_absent in E. rewrite E. reflexivity.
Qed.

Lemma c_hasitem_eq : forall s o k, c_hasitem Y s o k = (ismap Y o && contains Y s o k)%bool.
Proof.
  intros s o k. unfold c_hasitem. destruct HC as [H1 [H2 _]]. destruct (ismap Y o) eqn:M.
  - destruct (H1 s o k M) as [Hc Hi]. rewrite Hc. simpl.
    destruct (getitem Y s o k) as [v|e] eqn:G; destruct (contains Y s o k) eqn:K; auto.
    + symmetry. apply Hi. exists v; reflexivity.
    + exfalso. destruct (proj1 Hi eq_refl) as [v Hv]. discriminate.
  - simpl. destruct (cmap Y o) eqn:C; [|reflexivity]. simpl.
    destruct (getitem Y s o k) as [v|e] eqn:G; [|reflexivity]. exfalso. eapply H2; eauto.
Qed.

Lemma c_hasKey_eq : forall s o k, hasKey Y s o k = Ok (c_hasKey Y s o k).
Proof.
  intros s o k. unfold hasKey, c_hasKey. rewrite c_hasitem_eq. destruct (_ && _)%bool; [reflexivity|].
  simpl. apply c_hasattr_eq.
Qed.

Lemma c_ioc_eq : forall s o, isInstanceOrClass Y s o = Ok (c_isInstanceOrClass Y s o).
Proof.
  intros s o. unfold isInstanceOrClass, c_isInstanceOrClass. rewrite !c_hasattr_eq.
  destruct (HM s o) as [[c Hc] _].
  assert (E : c_hasattr Y s o (L "__class__") = true) by (unfold c_hasattr; rewrite Hc; reflexivity).
  rewrite E. simpl negb. cbv iota. destruct (istype Y o); [reflexivity|]. cbn [orb].
  destruct (c_hasattr Y s o (L "mro")) eqn:EM; [reflexivity|]. cbn [negb andb].
  destruct (str_eqb_spec (tname Y o) (L "function")) as [T|T].
  - destruct HC as [_ [_ [_ H]]]. destruct (H s o T) as [[v Hv]|[[v Hv]|[v Hv]]].
    + assert (Ef : c_hasattr Y s o (L "__func__") = true) by (unfold c_hasattr; rewrite Hv; reflexivity).
      rewrite Ef. reflexivity.
    + assert (Ef : c_hasattr Y s o (L "__code__") = true) by (unfold c_hasattr; rewrite Hv; reflexivity).
      rewrite Ef. destruct (c_hasattr Y s o (L "__func__")); reflexivity.
    + assert (Ef : c_hasattr Y s o (L "__self__") = true) by (unfold c_hasattr; rewrite Hv; reflexivity).
      rewrite Ef. destruct (c_hasattr Y s o (L "__func__")), (c_hasattr Y s o (L "__code__")); reflexivity.
  - destruct (c_hasattr Y s o (L "__func__")), (c_hasattr Y s o (L "__code__")), (c_hasattr Y s o (L "__self__")); reflexivity.
Qed.

Lemma c_chunks_eq : forall chunks s o ac, c_valueForChunks Y s o chunks ac = valueForChunks Y s o chunks ac.
Proof.
  induction chunks as [|k r IH]; intros s o ac; [reflexivity|]. simpl.
  assert (E : c_nextVal Y s o k = nextObj Y s o k).
  { unfold c_nextVal, nextObj. rewrite c_hasitem_eq. reflexivity. }
  rewrite E. destruct (nextObj Y s o k) as [v|e]; [|reflexivity].
  assert (E2 : c_autocall Y s ac v = autocall Y s ac v).
  { unfold c_autocall, autocall. rewrite c_ioc_eq. destruct (ac && iscallable Y v)%bool; [|reflexivity].
    simpl. destruct (c_isInstanceOrClass Y s v); reflexivity. }
  rewrite E2. destruct (autocall Y s ac v) as [[v'|e] s']; [apply IH|reflexivity].
Qed.

Lemma c_search_eq : forall nss s k r ac, (forall c, In c (k :: r) -> ~ In 46%N c) ->
  c_searchLoop Y s nss (k :: r) ac = searchLoop Y s nss k (join (L ".") (k :: r)) ac.
Proof.
  induction nss as [|n nss IH]; intros s k r ac Hd; [reflexivity|]. simpl c_searchLoop. cbn [searchLoop].
  rewrite c_hasKey_eq. destruct (c_hasKey Y s n k).
  - change (c_valueForChunks Y s n (k :: r) ac = valueForName Y s n (join (L ".") (k :: r)) ac).
    rewrite c_chunks_eq. unfold valueForName, chunks_of. change (L ".") with [46%N].
    rewrite split_join by (auto; discriminate). reflexivity.
  - apply IH. assumption.
Qed.

Lemma c_with_ok : forall l w s f, (forall c, In c (l ++ [w]) -> ~ In 46%N c) -> w <> [] ->
  (length l <= 13)%nat -> c_with_chunks (obj := obj) (St := St) s (join (L ".") (l ++ [w])) f = f (l ++ [w]).
Proof.
  intros l w s f Hd Hw Hl. unfold c_with_chunks. rewrite c_chunks_join by (auto; destruct l; discriminate).
  rewrite app_length. cbn [length]. replace (length l + 1 <=? 14)%nat with true by lia.
  rewrite drop_empty_last_id by assumption. destruct (l ++ [w]) eqn:E; [destruct l; discriminate|reflexivity].
Qed.

Lemma c_vfsl_eq : forall l w s sl ac, (forall c, In c (l ++ [w]) -> ~ In 46%N c) -> w <> [] ->
  (length l <= 13)%nat ->
  c_valueFromSearchList Y s sl (join (L ".") (l ++ [w])) ac =
  valueFromSearchList Y s sl (join (L ".") (l ++ [w])) ac.
Proof.
  intros l w s sl ac Hd Hw Hl. unfold c_valueFromSearchList. rewrite c_with_ok by assumption.
  unfold valueFromSearchList. destruct (l ++ [w]) as [|k r] eqn:E; [destruct l; discriminate|].
  rewrite chunks_hd by assumption. apply c_search_eq. assumption.
Qed.

Lemma c_vfn_eq : forall l w s o ac, (forall c, In c (l ++ [w]) -> ~ In 46%N c) -> w <> [] ->
  (length l <= 13)%nat ->
  c_valueForName Y s o (join (L ".") (l ++ [w])) ac = valueForName Y s o (join (L ".") (l ++ [w])) ac.
Proof.
  intros l w s o ac Hd Hw Hl. unfold c_valueForName. rewrite c_with_ok by assumption.
  rewrite c_chunks_eq. unfold valueForName, chunks_of. change (L ".") with [46%N].
  rewrite split_join by (auto; destruct l; discriminate). reflexivity.
Qed.

Lemma c_vffsl_eq : forall l w s locals globals builtins sl ac, (forall c, In c (l ++ [w]) -> ~ In 46%N c) -> w <> [] ->
  (length l <= 13)%nat ->
  c_valueFromFrameOrSearchList Y s locals globals builtins sl (join (L ".") (l ++ [w])) ac =
  valueFromFrameOrSearchList Y s locals globals builtins (Some sl) (join (L ".") (l ++ [w])) ac.
Proof. intros. rewrite c_vffsl_concat, vffsl_concat. apply c_vfsl_eq; assumption. Qed.
End Compat.

(** ** getVar and varExists *)
Lemma varExists_true : forall s sl name ac s',
  varExists Y s sl name ac = (Ok true, s') <-> exists v, getVar Y s sl name None ac = (Ok v, s').
Proof.
  intros s sl name ac s'. unfold varExists, getVar.
  destruct (valueFromSearchList Y s sl (strip_dollar name) ac) as [[v|e] s1].
  - split; [intros H; inversion H; subst; exists v; reflexivity|intros [v' H]; inversion H; reflexivity].
  - destruct e; (split; [discriminate|intros [v' H]; discriminate]).
Qed.

Lemma varExists_false : forall s sl name ac s',
  varExists Y s sl name ac = (Ok false, s') <-> exists k, getVar Y s sl name None ac = (Raise (NotFound k), s').
Proof.
  intros s sl name ac s'. unfold varExists, getVar.
  destruct (valueFromSearchList Y s sl (strip_dollar name) ac) as [[v|e] s1].
  - split; [discriminate|intros [v' H]; discriminate].
  - destruct e; try (split; [discriminate|intros [v' H]; discriminate]).
    split; [intros H; inversion H; subst; exists key; reflexivity|intros [v' H]; inversion H; reflexivity].
Qed.

Lemma varExists_raise : forall s sl name ac e s',
  varExists Y s sl name ac = (Raise e, s') <->
  getVar Y s sl name None ac = (Raise e, s') /\ forall k, e <> NotFound k.
Proof.
  intros s sl name ac e0 s'. unfold varExists, getVar.
  destruct (valueFromSearchList Y s sl (strip_dollar name) ac) as [[v|e] s1].
  - split; [discriminate|intros [H _]; discriminate].
  - destruct e; (split; [intros H; inversion H; subst; (split; [reflexivity|discriminate])|
      intros [H N]; inversion H; subst; try reflexivity; exfalso; eapply N; reflexivity]).
Qed.

Lemma getVar_default : forall s sl name ac d,
  let '(b, s') := varExists Y s sl name ac in
  getVar Y s sl name (Some d) ac =
    (match b with Ok true => fst (getVar Y s sl name None ac) | Ok false => Ok d | Raise e => Raise e end, s').
Proof.
  intros. unfold varExists, getVar.
  destruct (valueFromSearchList Y s sl (strip_dollar name) ac) as [[v|e] s1]; [reflexivity|].
  destruct e; reflexivity.
Qed.

Lemma walk_unique : introspectable Y -> modern Y ->
  forall chunks s o ac, exists! x, walk ac s o chunks x.
Proof.
  intros Hi Hm chunks s o ac. exists (valueForChunks Y s o chunks ac). split.
  - apply walk_fun; auto.
  - intros x H. apply walk_fun in H; auto.
Qed.

Lemma vffsl_order : forall s locals globals builtins sl k r ac,
  (forall c, In c (k :: r) -> ~ In 46%N c) ->
  let name := join (L ".") (k :: r) in
  let result := valueFromFrameOrSearchList Y s locals globals builtins (Some sl) name ac in
  (has s locals k -> result = valueForName Y s locals name ac) /\
  (lacks s locals k -> forall pre ns post, sl = pre ++ ns :: post ->
     Forall (fun n => lacks s n k) pre -> has s ns k -> result = valueForName Y s ns name ac) /\
  (lacks s locals k -> Forall (fun n => lacks s n k) sl -> has s globals k ->
     result = valueForName Y s globals name ac) /\
  (lacks s locals k -> Forall (fun n => lacks s n k) sl -> lacks s globals k -> has s builtins k ->
     result = valueForName Y s builtins name ac).
Proof.
  intros s locals globals builtins sl k r ac Hd name result. unfold result. rewrite vffsl_concat. unfold name.
  repeat split.
  - intros H. apply (searchLoop_first []); auto using has_not_lacks.
  - intros H pre ns post -> F Hn.
    replace ([locals] ++ (pre ++ ns :: post) ++ [globals; builtins])
      with ((locals :: pre) ++ ns :: (post ++ [globals; builtins])) by (cbn [app]; rewrite <- app_assoc; reflexivity).
    apply searchLoop_first; auto using has_not_lacks.
  - intros H F Hn.
    change ([locals] ++ sl ++ [globals; builtins]) with ((locals :: sl) ++ globals :: [builtins]).
    apply searchLoop_first; auto using has_not_lacks.
  - intros H F Hg Hn.
    replace ([locals] ++ sl ++ [globals; builtins]) with ((locals :: sl ++ [globals]) ++ builtins :: [])
      by (cbn [app]; rewrite <- app_assoc; reflexivity).
    apply searchLoop_first; auto using has_not_lacks. constructor; [assumption|]. apply Forall_app. auto.
Qed.

Lemma vffsl_reach : forall s locals globals builtins pre ns post k v,
  ~ In 46%N k -> lacks s locals k -> Forall (fun n => lacks s n k) pre ->
  in_mapping s ns k -> getitem Y s ns k = Ok v ->
  valueFromFrameOrSearchList Y s locals globals builtins (Some (pre ++ ns :: post)) k false = (Ok v, s).
Proof.
  intros s locals globals builtins pre ns post k v Hd Hl F M G.
  assert (D : forall c, In c [k] -> ~ In 46%N c) by (intros c [<-|[]]; assumption).
  destruct (vffsl_order s locals globals builtins (pre ++ ns :: post) k [] false D) as [_ [H _]].
  specialize (H Hl pre ns post eq_refl F (or_introl M)). simpl join in H. rewrite H.
  unfold valueForName, chunks_of. rewrite split_char_word by assumption. simpl. unfold nextObj.
  apply in_mapping_dec in M. rewrite M, G. reflexivity.
Qed.
End P.
