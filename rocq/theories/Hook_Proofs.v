(** Proofs about the import hook. *)
From Verif Require Import Base PyStr Alist Names_Model Hook_Model Hook_Spec.
From Verif Require Names_Proofs.

(** ** Growth of the state *)
Definition le (w w' : world) : Prop :=
  (forall fq m, loaded w fq m -> loaded w' fq m) /\ (forall m a, has_attr w m a -> has_attr w' m a) /\
  length (w_objs w) <= length (w_objs w') /\ (exists new, w_runs w' = new ++ w_runs w) /\
  (forall m o, nth_error (w_objs w) m = Some o -> exists o', nth_error (w_objs w') m = Some o' /\ o_pkg o' = o_pkg o /\ o_all o' = o_all o).
Definition inv (w : world) : Prop := consistent w /\ NoDup (w_runs w).

Lemma le_refl : forall w, le w w.
Proof.
  intros w. split; [auto|]. split; [auto|]. split; [lia|]. split; [exists []; reflexivity|].
  intros m o H. exists o. auto.
Qed.
Lemma le_trans : forall a b c, le a b -> le b c -> le a c.
Proof.
  intros a b c (A1 & A2 & A3 & (n1 & A4) & A5) (B1 & B2 & B3 & (n2 & B4) & B5).
  split; [auto|]. split; [auto|]. split; [lia|]. split; [exists (n2 ++ n1); rewrite B4, A4, app_assoc; reflexivity|].
  intros m o H. destruct (A5 m o H) as (o1 & H1 & P1 & Q1). destruct (B5 m o1 H1) as (o2 & H2 & P2 & Q2).
  exists o2. split; [exact H2|]. split; congruence.
Qed.

Definition pres {A} (m : M A) : Prop := forall w r w', m w = Some (r, w') -> inv w -> inv w' /\ le w w'.

Lemma pres_ret : forall A (a : A), pres (ret a).
Proof. intros A a w r w' H I. injection H as <- <-. split; [exact I | apply le_refl]. Qed.
Lemma pres_raise : forall A e, pres (@raise A e).
Proof. intros A e w r w' H I. injection H as <- <-. split; [exact I | apply le_refl]. Qed.
Lemma pres_ask : forall A (f : world -> A), pres (ask f).
Proof. intros A f w r w' H I. injection H as <- <-. split; [exact I | apply le_refl]. Qed.
Lemma pres_lookup : forall x, pres (lookup x).
Proof. intros x w r w' H I. injection H as <- <-. split; [exact I | apply le_refl]. Qed.
Lemma pres_get_item : forall x, pres (get_item x).
Proof. intros x w r w' H I. unfold get_item in H. destruct (aget x (w_mods w)); injection H as <- <-; (split; [exact I | apply le_refl]). Qed.
Lemma pres_bind : forall A B (m : M A) (f : A -> M B), pres m -> (forall a, pres (f a)) -> pres (bind m f).
Proof.
  intros A B m f Hm Hf w r w' H I. unfold bind in H. destruct (m w) as [[[a|e] w1]|] eqn:E; [| |discriminate H].
  - destruct (Hm _ _ _ E I) as (I1 & L1). destruct (Hf a _ _ _ H I1) as (I2 & L2). split; [exact I2 | eapply le_trans; eassumption].
  - injection H as <- <-. exact (Hm _ _ _ E I).
Qed.

Lemma nth_set_nth : forall A (l : list A) n x k, n < length l -> nth_error (set_nth l n x) k = if k =? n then Some x else nth_error l k.
Proof.
  intros A. induction l as [|y l IH]; intros n x k H; [cbn in H; lia|]. destruct n as [|n].
  - unfold set_nth. cbn [firstn skipn app]. destruct k; reflexivity.
  - cbn [length] in H. unfold set_nth in *. cbn [firstn skipn app]. destruct k as [|k]; [reflexivity|].
    cbn [nth_error Nat.eqb]. apply IH. lia.
Qed.
Lemma length_set_nth : forall A (l : list A) n x, n < length l -> length (set_nth l n x) = length l.
Proof. intros A l n x H. unfold set_nth. rewrite app_length, firstn_length. cbn [length]. rewrite skipn_length. lia. Qed.
Lemma nth_lt : forall A (l : list A) n x, nth_error l n = Some x -> n < length l.
Proof. intros A l n x H. apply nth_error_Some. congruence. Qed.

(** A state with the same modules but more attributes. *)
Lemma set_attr_ok : forall m a v w r w', set_attr m a v w = Some (r, w') -> inv w ->
  inv w' /\ le w w' /\ r = Ok tt /\ w_mods w' = w_mods w /\ w_runs w' = w_runs w /\ length (w_objs w') = length (w_objs w) /\
  (m < length (w_objs w) -> has_attr w' m a).
Proof.
  intros m a v w r w' H I. unfold set_attr in H. destruct (nth_error (w_objs w) m) as [o|] eqn:E.
  - injection H as <- <-. assert (Hm := nth_lt _ _ _ _ E).
    assert (HL : length (set_nth (w_objs w) m (mkObj (o_pkg o) (o_all o) (aset a v (o_attrs o)))) = length (w_objs w)) by (apply length_set_nth; exact Hm).
    assert (HA : forall k b, has_attr w k b -> has_attr (mkW (w_mods w) (set_nth (w_objs w) m (mkObj (o_pkg o) (o_all o) (aset a v (o_attrs o)))) (w_runs w)) k b).
    { intros k b (q & Q1 & Q2). unfold has_attr. cbn [w_objs]. rewrite nth_set_nth by exact Hm. destruct (Nat.eqb_spec k m) as [K|K].
      - subst k. eexists. split; [reflexivity|]. cbn [o_attrs]. apply In_keys_aset. right. congruence.
      - exists q. split; assumption. }
    assert (HLd : forall fq k, loaded w fq k -> loaded (mkW (w_mods w) (set_nth (w_objs w) m (mkObj (o_pkg o) (o_all o) (aset a v (o_attrs o)))) (w_runs w)) fq k).
    { intros fq k (K1 & K2). split; cbn [w_mods w_objs]; [exact K1 | rewrite HL; exact K2]. }
    destruct I as ((C1 & C2 & C3 & C4 & C5) & ND). split; [|split; [|split; [|split; [|split; [|split]]]]]; try reflexivity; cbn [w_mods w_objs w_runs].
    + split; [|exact ND]. split; [|split; [|split; [|split]]]; cbn [w_mods w_objs w_runs].
      * intros fq k K. rewrite HL. exact (C1 _ _ K).
      * intros p nm k Hn K. destruct (C2 p nm k Hn K) as (pm & P1 & P2). exists pm. split; [apply HLd; exact P1 | apply HA; exact P2].
      * intros fq K. destruct (C3 fq K) as (k & K1). exists k. apply HLd. exact K1.
      * exact C4.
      * unfold set_nth. rewrite Forall_forall in C5. apply Forall_forall. intros q Hq. apply in_app_or in Hq. destruct Hq as [Hq|[Hq|Hq]].
        -- apply C5. rewrite <- (firstn_skipn m (w_objs w)). apply in_or_app. left. exact Hq.
        -- subst q. cbn [o_all]. apply C5. eapply nth_error_In. exact E.
        -- apply C5. rewrite <- (firstn_skipn (S m) (w_objs w)). apply in_or_app. right. exact Hq.
    + split; [exact HLd|]. split; [exact HA|]. cbn [w_objs w_runs]. split; [lia|]. split; [exists []; reflexivity|].
      intros k q Q. rewrite nth_set_nth by exact Hm. destruct (Nat.eqb_spec k m) as [K|K].
      * subst k. eexists. split; [reflexivity|]. cbn. split; congruence.
      * exists q. auto.
    + exact HL.
    + intros _. unfold has_attr. cbn [w_objs]. rewrite nth_set_nth by exact Hm. rewrite Nat.eqb_refl. eexists. split; [reflexivity|].
      cbn [o_attrs]. apply In_keys_aset. left. reflexivity.
  - injection H as <- <-. split; [exact I|]. split; [apply le_refl|]. split; [reflexivity|]. split; [reflexivity|]. split; [reflexivity|].
    split; [reflexivity|]. intros K. apply nth_error_None in E. lia.
Qed.
Lemma pres_set_attr : forall m a v, pres (set_attr m a v).
Proof. intros m a v w r w' H I. destruct (set_attr_ok m a v w r w' H I) as (I1 & L1 & _). split; assumption. Qed.

Lemma new_mod_ok : forall s w r w', good_src s -> new_mod s w = Some (r, w') -> inv w ->
  inv w' /\ le w w' /\ r = Ok (length (w_objs w)) /\ w_mods w' = w_mods w /\ w_runs w' = w_runs w /\ length (w_objs w') = S (length (w_objs w)).
Proof.
  intros s w r w' G H I. unfold new_mod in H. injection H as <- <-.
  assert (HA : forall k b, has_attr w k b -> has_attr (mkW (w_mods w) (w_objs w ++ [mkObj (s_pkg s) (s_all s) []]) (w_runs w)) k b).
  { intros k b (q & Q1 & Q2). exists q. split; [|exact Q2]. cbn [w_objs]. rewrite nth_error_app1; [exact Q1 | eapply nth_lt; exact Q1]. }
  assert (HLd : forall fq k, loaded w fq k -> loaded (mkW (w_mods w) (w_objs w ++ [mkObj (s_pkg s) (s_all s) []]) (w_runs w)) fq k).
  { intros fq k (K1 & K2). split; cbn [w_mods w_objs]; [exact K1 | rewrite app_length; lia]. }
  destruct I as ((C1 & C2 & C3 & C4 & C5) & ND).
  split; [|split; [|split; [reflexivity|split; [reflexivity|split; [reflexivity|]]]]]; cbn [w_mods w_objs w_runs].
  - split; [|exact ND]. split; [|split; [|split; [|split]]]; cbn [w_mods w_objs w_runs].
    + intros fq k K. rewrite app_length. specialize (C1 _ _ K). lia.
    + intros p nm k Hn K. destruct (C2 p nm k Hn K) as (pm & P1 & P2). exists pm. split; [apply HLd; exact P1 | apply HA; exact P2].
    + intros fq K. destruct (C3 fq K) as (k & K1). exists k. apply HLd. exact K1.
    + exact C4.
    + apply Forall_app. split; [exact C5|]. constructor; [|constructor]. apply G.
  - split; [exact HLd|]. split; [exact HA|]. cbn [w_objs w_runs]. rewrite app_length. split; [lia|]. split; [exists []; reflexivity|].
    intros k q Q. exists q. rewrite nth_error_app1 by (eapply nth_lt; exact Q). auto.
  - rewrite app_length. cbn [length]. lia.
Qed.

(** sys.modules gets an entry for a name that has no module. *)
Lemma last_dot : forall p q a b : pystr, ~ In 46%N a -> ~ In 46%N b -> p ++ [46%N] ++ a = q ++ [46%N] ++ b -> p = q /\ a = b.
Proof.
  intros p q a b Ha Hb H. revert q H. induction p as [|c p IH]; intros q H; destruct q as [|d q]; cbn [app] in H.
  - injection H as ->. split; reflexivity.
  - injection H as _ H. exfalso. apply Ha. rewrite H. apply in_or_app. right. left. reflexivity.
  - injection H as _ H. exfalso. apply Hb. rewrite <- H. apply in_or_app. right. left. reflexivity.
  - injection H as -> H. destruct (IH q H) as (-> & ->). split; reflexivity.
Qed.
Definition hangs (w : world) (fq : pystr) : Prop := forall p nm, ~ In 46%N nm -> fq = p ++ [46%N] ++ nm -> exists pm, loaded w p pm /\ has_attr w pm nm.
Definition free (w : world) (fq : pystr) : Prop := forall m, aget fq (w_mods w) <> Some (Some m).

Lemma set_none_ok : forall fq w r w', set_item fq None w = Some (r, w') -> inv w -> free w fq -> inv w' /\ le w w' /\ r = Ok tt.
Proof.
  intros fq w r w' H I Fr. unfold set_item in H. injection H as <- <-.
  assert (HLd : forall x k, loaded w x k -> loaded (mkW (aset fq None (w_mods w)) (w_objs w) (w_runs w)) x k).
  { intros x k (K1 & K2). split; cbn [w_mods w_objs]; [|exact K2]. rewrite aget_aset. destruct (str_eqb_spec x fq) as [E|E]; [|exact K1].
    subst. exfalso. exact (Fr _ K1). }
  destruct I as ((C1 & C2 & C3 & C4 & C5) & ND). split; [|split; [|reflexivity]].
  - split; [|exact ND]. split; [|split; [|split; [|split]]]; cbn [w_mods w_objs w_runs].
    + intros x k K. rewrite aget_aset in K. destruct (str_eqb_spec x fq) as [E|E]; [discriminate K|]. exact (C1 _ _ K).
    + intros p nm k Hn K. rewrite aget_aset in K. destruct (str_eqb (p ++ [46%N] ++ nm) fq); [discriminate K|].
      destruct (C2 p nm k Hn K) as (pm & P1 & P2). exists pm. split; [apply HLd; exact P1 | exact P2].
    + intros x K. destruct (C3 x K) as (k & K1). exists k. apply HLd. exact K1.
    + apply NoDup_aset. exact C4.
    + exact C5.
  - split; [exact HLd|]. split; [auto|]. split; [cbn; lia|]. split; [exists []; reflexivity|]. intros m o K. exists o. auto.
Qed.
Lemma start_ok : forall fq m w w1, inv w -> free w fq -> hangs w fq -> m < length (w_objs w) ->
  w1 = mkW (aset fq (Some m) (w_mods w)) (w_objs w) (fq :: w_runs w) -> inv w1 /\ le w w1 /\ loaded w1 fq m.
Proof.
  intros fq m w w1 I Fr Hg Hm ->.
  assert (HLd : forall x k, loaded w x k -> loaded (mkW (aset fq (Some m) (w_mods w)) (w_objs w) (fq :: w_runs w)) x k).
  { intros x k (K1 & K2). split; cbn [w_mods w_objs]; [|exact K2]. rewrite aget_aset. destruct (str_eqb_spec x fq) as [E|E]; [|exact K1].
    subst. exfalso. exact (Fr _ K1). }
  assert (Hfq : loaded (mkW (aset fq (Some m) (w_mods w)) (w_objs w) (fq :: w_runs w)) fq m).
  { split; cbn [w_mods w_objs]; [apply aget_aset_same | exact Hm]. }
  destruct I as ((C1 & C2 & C3 & C4 & C5) & ND). split; [|split; [|exact Hfq]].
  - split; [split; [|split; [|split; [|split]]]|]; cbn [w_mods w_objs w_runs].
    + intros x k K. rewrite aget_aset in K. destruct (str_eqb_spec x fq) as [E|E]; [injection K as <-; exact Hm|]. exact (C1 _ _ K).
    + intros p nm k Hn K. rewrite aget_aset in K. destruct (str_eqb_spec (p ++ [46%N] ++ nm) fq) as [E|E].
      * destruct (Hg p nm Hn (eq_sym E)) as (pm & P1 & P2). exists pm. split; [apply HLd; exact P1 | exact P2].
      * destruct (C2 p nm k Hn K) as (pm & P1 & P2). exists pm. split; [apply HLd; exact P1 | exact P2].
    + intros x [K|K]; [subst; exists m; exact Hfq|]. destruct (C3 x K) as (k & K1). exists k. apply HLd. exact K1.
    + apply NoDup_aset. exact C4.
    + exact C5.
    + constructor; [|exact ND]. intros K. destruct (C3 fq K) as (k & (K1 & _)). exact (Fr _ K1).
  - split; [exact HLd|]. split; [auto|]. split; [cbn; lia|]. split; [exists [fq]; reflexivity|]. intros x o K. exists o. auto.
Qed.

Section Hook.
Variable F : option pystr -> pystr -> option src.
Hypothesis GF : good_finder F.
Variable imp : imp_t.
Hypothesis HI : forall who level name fl, match fl with Some l => plain_names l | None => True end -> pres (imp who level name fl).

Lemma pres_bind_names : forall names m r, pres (bind_names m r names).
Proof.
  induction names as [|a names IH]; intros m r; cbn [bind_names]; [apply pres_ret|].
  destruct (str_eqb a (L "*")); [apply IH|]. apply pres_bind; [apply pres_ask|]. intros [v|]; [|apply pres_raise].
  apply pres_bind; [apply pres_set_attr | intros _; apply IH].
Qed.
Lemma pres_run : forall code fq m, Forall good_stmt code -> pres (run_code imp fq m code).
Proof.
  induction code as [|s code IH]; intros fq m G; cbn [run_code]; [apply pres_ret|].
  assert (G1 := Forall_inv G). assert (G2 := Forall_inv_tail G). destruct s as [a|name|level name names|n].
  - apply pres_bind; [apply pres_set_attr | intros _; apply IH; exact G2].
  - apply pres_bind; [apply HI; exact I|]. intros r. apply pres_bind; [apply pres_set_attr | intros _; apply IH; exact G2].
  - apply pres_bind; [apply HI; exact G1|]. intros r. apply pres_bind; [apply pres_bind_names | intros _; apply IH; exact G2].
  - apply pres_raise.
Qed.

Lemma finish_some : forall fq m s w r w', good_src s -> finish imp fq (Some (m, s)) w = Some (r, w') -> inv w -> free w fq -> hangs w fq ->
  m < length (w_objs w) -> inv w' /\ le w w' /\ (forall v, r = Ok v -> v = Some m /\ loaded w' fq m).
Proof.
  intros fq m s w r w' G H I Fr Hg Hm. unfold finish in H.
  set (w1 := mkW (aset fq (Some m) (w_mods w)) (w_objs w) (fq :: w_runs w)) in *.
  assert (E1 : bind (run_code imp fq m (s_code s)) (fun _ => ret (Some m)) w1 = Some (r, w')) by exact H. clear H.
  destruct (start_ok fq m w w1 I Fr Hg Hm eq_refl) as (I1 & L1 & Ld).
  unfold bind in E1. destruct (run_code imp fq m (s_code s) w1) as [[[u|e] w2]|] eqn:E; [| |discriminate E1].
  - injection E1 as <- <-. destruct (pres_run _ fq m (proj2 G) _ _ _ E I1) as (I2 & L2).
    split; [exact I2|]. split; [eapply le_trans; eassumption|]. intros v Hv. injection Hv as <-. split; [reflexivity|].
    apply L2. exact Ld.
  - injection E1 as <- <-. destruct (pres_run _ fq m (proj2 G) _ _ _ E I1) as (I2 & L2).
    split; [exact I2|]. split; [eapply le_trans; eassumption|]. intros v Hv. discriminate Hv.
Qed.
Lemma finish_none : forall fq w r w', finish imp fq None w = Some (r, w') -> inv w -> free w fq -> inv w' /\ le w w' /\ r = Ok None /\ free w' fq.
Proof.
  intros fq w r w' H I Fr. unfold finish, bind in H. destruct (set_item fq None w) as [[[u|e] w1]|] eqn:E; try discriminate E.
  destruct (set_none_ok fq w _ w1 E I Fr) as (I1 & L1 & _). injection H as <- <-. split; [exact I1|]. split; [exact L1|]. split; [reflexivity|].
  injection E as _ <-. intros m Q. cbn [w_mods] in Q. rewrite aget_aset_same in Q. discriminate Q.
Qed.

Lemma doimport_ok : forall nm ctx w r w', doimport F imp nm ctx (dotted ctx nm) w = Some (r, w') -> ~ In 46%N nm -> inv w -> free w (dotted ctx nm) ->
  inv w' /\ le w w' /\ (forall m, r = Ok (Some m) -> loaded w' (dotted ctx nm) m) /\ (r = Ok None -> free w' (dotted ctx nm)).
Proof.
  intros nm ctx w r w' H Hn I Fr. unfold doimport in H. destruct ctx as [p|].
  - unfold bind, get_item, ask in H. destruct (aget p (w_mods w)) as [pm|] eqn:A.
    2: { injection H as <- <-. split; [exact I|]. split; [apply le_refl|]. split; [intros m Q; discriminate Q | intros _; exact Fr]. }
    destruct (is_pkg pm w) eqn:K.
    2: { injection H as <- <-. split; [exact I|]. split; [apply le_refl|]. split; [intros m Q; discriminate Q | intros _; exact Fr]. }
    destruct pm as [pm|]; [|discriminate K]. destruct (F (Some p) nm) as [s|] eqn:Fs.
    2: { destruct (finish_none _ _ _ _ H I Fr) as (I1 & L1 & -> & Fr1). split; [exact I1|]. split; [exact L1|]. split; [intros m Q; discriminate Q | intros _; exact Fr1]. }
    assert (G := GF _ _ _ Fs).
    destruct (new_mod s w) as [[r1 w1]|] eqn:N; [|discriminate N].
    destruct (new_mod_ok s w r1 w1 G N I) as (I1 & L1 & -> & M1 & R1 & LN1).
    destruct (set_attr pm nm (Some (length (w_objs w))) w1) as [[r2 w2]|] eqn:S2; [|discriminate H].
    destruct (set_attr_ok _ _ _ _ _ _ S2 I1) as (I2 & L2 & -> & M2 & R2 & LN2 & HA).
    assert (Hpm : pm < length (w_objs w)) by (destruct I as ((C1 & _) & _); exact (C1 _ _ A)).
    assert (L12 := le_trans _ _ _ L1 L2).
    destruct (finish_some (dotted (Some p) nm) (length (w_objs w)) s w2 r w' G H I2) as (I3 & L3 & R3).
    + intros m Q. rewrite M2, M1 in Q. exact (Fr m Q).
    + intros q nm' Hn' E. cbn [dotted] in E. destruct (last_dot _ _ _ _ Hn Hn' E) as (<- & <-). exists pm. split.
      * apply L12. split; [exact A | exact Hpm].
      * apply HA. rewrite LN1. lia.
    + rewrite LN2, LN1. lia.
    + split; [exact I3|]. split; [eapply le_trans; eassumption|]. split.
      * intros m Q. destruct (R3 _ Q) as (Q1 & Q2). injection Q1 as ->. exact Q2.
      * intros Q. destruct (R3 _ Q) as (Q1 & _). discriminate Q1.
  - destruct (F None nm) as [s|] eqn:Fs.
    2: { destruct (finish_none _ _ _ _ H I Fr) as (I1 & L1 & -> & Fr1). split; [exact I1|]. split; [exact L1|]. split; [intros m Q; discriminate Q | intros _; exact Fr1]. }
    assert (G := GF _ _ _ Fs). unfold bind in H.
    destruct (new_mod s w) as [[r1 w1]|] eqn:N; [|discriminate N].
    destruct (new_mod_ok s w r1 w1 G N I) as (I1 & L1 & -> & M1 & R1 & LN1).
    destruct (finish_some (dotted None nm) (length (w_objs w)) s w1 r w' G H I1) as (I3 & L3 & R3).
    + intros m Q. rewrite M1 in Q. exact (Fr m Q).
    + intros q nm' Hn' E. exfalso. cbn [dotted] in E. apply Hn. rewrite E. apply in_or_app. right. left. reflexivity.
    + rewrite LN1. lia.
    + split; [exact I3|]. split; [eapply le_trans; eassumption|]. split.
      * intros m Q. destruct (R3 _ Q) as (Q1 & Q2). injection Q1 as ->. exact Q2.
      * intros Q. destruct (R3 _ Q) as (Q1 & _). discriminate Q1.
Qed.

(** The loop over the parts: the first parts are loaded, then a part without a module or the end. *)
Definition nodots (parts : list pystr) : Prop := Forall (fun nm => ~ In 46%N nm) parts.
Lemma walk_ok : forall parts ctx i w r w', walk F imp ctx parts i w = Some (r, w') -> nodots parts -> inv w ->
  inv w' /\ le w w' /\
  (forall j c fq, r = Ok (j, c, fq) -> exists a b, parts = a ++ b /\ Forall (fun x => exists m, loaded w' x m) (prefixes ctx a) /\
     c = full ctx a /\ match b with
                          | [] => j = match i + length a with O => 1 | S n => S n end
                          | nm :: _ => j = i + length a /\ fq = dotted c nm /\ free w' fq
                          end).
Proof.
  induction parts as [|nm parts IH]; intros ctx i w r w' H Hd I; cbn [walk] in H.
  - injection H as <- <-. split; [exact I|]. split; [apply le_refl|]. intros j c fq Q. injection Q as <- <- <-.
    exists [], []. split; [reflexivity|]. split; [constructor|]. split; [reflexivity|]. cbn [length]. rewrite Nat.add_0_r. destruct i; reflexivity.
  - assert (Hn := Forall_inv Hd). assert (Hd2 := Forall_inv_tail Hd). cbv zeta in H. unfold bind in H. cbn [lookup] in H.
    match type of H with match ?x with _ => _ end = _ => destruct x as [[[md|e] w1]|] eqn:E end; [| |discriminate H].
    + assert (St : inv w1 /\ le w w1 /\ (forall m, md = Some m -> loaded w1 (dotted ctx nm) m) /\ (md = None -> free w1 (dotted ctx nm))).
      { destruct (aget (dotted ctx nm) (w_mods w)) as [m0|] eqn:A.
        - injection E as <- <-. split; [exact I|]. split; [apply le_refl|]. split; [|intros ->; intros m Q; congruence].
          intros m ->. split; [exact A|]. destruct I as ((C1 & _) & _). exact (C1 _ _ A).
        - destruct (doimport_ok nm ctx w _ w1 E Hn I) as (I1 & L1 & R1 & Fr1); [intros m Q; congruence|].
          split; [exact I1|]. split; [exact L1|]. split; [intros m ->; apply R1; reflexivity | intros ->; apply Fr1; reflexivity]. }
      destruct St as (I1 & L1 & Hmd & Hfr). destruct md as [m|].
      * destruct (IH _ _ _ _ _ H Hd2 I1) as (I2 & L2 & R2). split; [exact I2|]. split; [eapply le_trans; eassumption|].
        intros j c fq Q. destruct (R2 j c fq Q) as (a & b & -> & Fa & Ec & Eb). exists (nm :: a), b. split; [reflexivity|].
        split; [cbn [prefixes]; constructor; [exists m; apply L2; apply Hmd; reflexivity | exact Fa] |].
        split; [exact Ec|]. cbn [length]. rewrite <- plus_n_Sm. destruct b; exact Eb.
      * injection H as <- <-. split; [exact I1|]. split; [exact L1|]. intros j c fq Q. injection Q as <- <- <-.
        exists [], (nm :: parts). split; [reflexivity|]. split; [constructor|]. split; [reflexivity|]. split; [cbn; lia|]. split; [reflexivity | apply Hfr; reflexivity].
    + injection H as <- <-. destruct (aget (dotted ctx nm) (w_mods w)) as [m0|] eqn:A; [discriminate E|].
      destruct (doimport_ok nm ctx w _ w1 E Hn I) as (I1 & L1 & R1 & Fr1); [intros m Q; congruence|].
      split; [exact I1|]. split; [exact L1|]. intros j c fq Q. discriminate Q.
Qed.

Lemma from_names_ok : forall names c m w r w', plain_names names -> from_names F imp c (Some m) names w = Some (r, w') -> inv w -> loaded w c m ->
  inv w' /\ le w w' /\ (r = Ok tt -> forall a, In a names -> has_attr w' m a).
Proof.
  induction names as [|nm names IH]; intros c m w r w' P H I Ld; cbn [from_names] in H.
  - injection H as <- <-. split; [exact I|]. split; [apply le_refl|]. intros _ a [].
  - assert (Hn := Forall_inv P). assert (P2 := Forall_inv_tail P). unfold bind in H. cbn [ask] in H.
    destruct (attr (Some m) nm w) as [v|] eqn:A.
    + cbn [ret] in H. destruct (IH c m w r w' P2 H I Ld) as (I1 & L1 & R1). split; [exact I1|]. split; [exact L1|].
      intros Q a [K|K]; [|apply R1; assumption]. subst a. apply L1. unfold attr in A. destruct (nth_error (w_objs w) m) as [o|] eqn:N; [|discriminate A].
      exists o. split; [exact N|]. apply aget_In_keys. exists v. exact A.
    + assert (Fr : free w (dotted (Some c) nm)).
      { intros k Q. destruct I as ((C1 & C2 & _) & _). cbn [dotted] in Q. destruct (C2 c nm k Hn Q) as (pm & (P1 & _) & (o & Po & Pa)).
        destruct Ld as (Ld & _). assert (pm = m) by congruence. subst pm. unfold attr in A. rewrite Po in A. apply aget_None_keys in A. contradiction. }
      destruct (doimport F imp nm (Some c) (dotted (Some c) nm) w) as [[[[k|]|e] w1]|] eqn:E; [| | |discriminate H].
      * destruct (doimport_ok nm (Some c) w _ w1 E Hn I Fr) as (I1 & L1 & R1 & _). cbn [ret] in H.
        destruct (IH c m w1 r w' P2 H I1) as (I2 & L2 & R2); [apply L1; exact Ld|].
        split; [exact I2|]. split; [eapply le_trans; eassumption|]. intros Q a [K|K]; [|apply R2; assumption]. subst a.
        apply L2. specialize (R1 k eq_refl). destruct I1 as ((C1 & C2 & _) & _). destruct R1 as (R1 & _). cbn [dotted] in R1.
        destruct (C2 c nm k Hn R1) as (pm & (P1 & _) & Pa). destruct L1 as (LL & _). apply LL in Ld. destruct Ld as (Ld & _).
        assert (pm = m) by congruence. subst pm. exact Pa.
      * destruct (doimport_ok nm (Some c) w _ w1 E Hn I Fr) as (I1 & L1 & R1 & _). cbn [raise] in H. injection H as <- <-.
        split; [exact I1|]. split; [exact L1|]. intros Q. discriminate Q.
      * destruct (doimport_ok nm (Some c) w _ w1 E Hn I Fr) as (I1 & L1 & R1 & _). injection H as <- <-.
        split; [exact I1|]. split; [exact L1|]. intros Q. discriminate Q.
Qed.

Lemma del_ok : forall fq w r w', del_item fq w = Some (r, w') -> inv w -> free w fq -> inv w' /\ le w w'.
Proof.
  intros fq w r w' H I Fr. unfold del_item in H. destruct (aget fq (w_mods w)) as [m0|] eqn:A; injection H as <- <-; [|split; [exact I | apply le_refl]].
  destruct I as ((C1 & C2 & C3 & C4 & C5) & ND).
  assert (HLd : forall x k, loaded w x k -> loaded (mkW (adel fq (w_mods w)) (w_objs w) (w_runs w)) x k).
  { intros x k (K1 & K2). split; cbn [w_mods w_objs]; [|exact K2]. rewrite aget_adel by exact C4. destruct (str_eqb_spec x fq) as [E|E]; [|exact K1].
    subst. exfalso. exact (Fr _ K1). }
  split.
  - split; [|exact ND]. split; [|split; [|split; [|split]]]; cbn [w_mods w_objs w_runs].
    + intros x k K. rewrite aget_adel in K by exact C4. destruct (str_eqb x fq); [discriminate K|]. exact (C1 _ _ K).
    + intros p nm k Hn K. rewrite aget_adel in K by exact C4. destruct (str_eqb (p ++ [46%N] ++ nm) fq); [discriminate K|].
      destruct (C2 p nm k Hn K) as (pm & P1 & P2). exists pm. split; [apply HLd; exact P1 | exact P2].
    + intros x K. destruct (C3 x K) as (k & K1). exists k. apply HLd. exact K1.
    + apply NoDup_adel. exact C4.
    + exact C5.
  - split; [exact HLd|]. split; [auto|]. split; [cbn; lia|]. split; [exists []; reflexivity|]. intros m o K. exists o. auto.
Qed.

Lemma try_ctx_ok : forall ctxs parts w r w', try_ctx F imp ctxs parts w = Some (r, w') -> nodots parts -> inv w -> ctxs <> [] ->
  inv w' /\ le w w' /\
  (forall j c fq cx, r = Ok (j, c, fq, cx) -> In cx ctxs /\ exists a b, parts = a ++ b /\ all_loaded w' (prefixes cx a) /\
     c = full cx a /\ match b with
                      | [] => j = match length a with O => 1 | S n => S n end
                      | nm :: _ => j = length a /\ fq = dotted c nm /\ free w' fq
                      end).
Proof.
  induction ctxs as [|cx ctxs IH]; intros parts w r w' H Hd I Hne; [congruence|]. cbn [try_ctx] in H. unfold bind in H.
  destruct (walk F imp cx parts 0 w) as [[[[[j c] fq]|e] w1]|] eqn:E; [| |discriminate H].
  - destruct (walk_ok _ _ _ _ _ _ E Hd I) as (I1 & L1 & R1).
    destruct j as [|j].
    + destruct ctxs as [|cy ctxs].
      * injection H as <- <-. split; [exact I1|]. split; [exact L1|]. intros j' c' fq' cx' Q. injection Q as <- <- <- <-.
        split; [left; reflexivity|]. exact (R1 _ _ _ eq_refl).
      * destruct (IH parts w1 r w' H Hd I1) as (I2 & L2 & R2); [discriminate|]. split; [exact I2|]. split; [eapply le_trans; eassumption|].
        intros j' c' fq' cx' Q. destruct (R2 _ _ _ _ Q) as (Q1 & Q2). split; [right; exact Q1 | exact Q2].
    + assert (H' : ret (S j, c, fq, cx) w1 = Some (r, w')) by (destruct ctxs; exact H). injection H' as <- <-.
      split; [exact I1|]. split; [exact L1|]. intros j' c' fq' cx' Q. injection Q as <- <- <- <-.
      split; [left; reflexivity|]. exact (R1 _ _ _ eq_refl).
  - injection H as <- <-. destruct (walk_ok _ _ _ _ _ _ E Hd I) as (I1 & L1 & _). split; [exact I1|]. split; [exact L1|].
    intros j c fq cx' Q. discriminate Q.
Qed.

Lemma nameSplit_nodots : forall name, nodots (nameSplit name).
Proof. intros name. apply Forall_forall. intros w. apply Names_Proofs.nameSplit_chunks. Qed.
Lemma contexts_ne : forall who level name w, contexts who level name w <> [].
Proof.
  intros. unfold contexts. destruct (_ && _); [|discriminate]. destruct (is_pkg _ w); [discriminate|]. destruct (packageName who); discriminate.
Qed.
Lemma full_snoc : forall a ctx c, full ctx a = Some c -> a <> [] -> In c (prefixes ctx a).
Proof.
  induction a as [|nm a IH]; intros ctx c H Hne; [congruence|]. cbn [prefixes]. unfold full in H. cbn [fold_left] in H. destruct a as [|nm' a].
  - left. cbn in H. congruence.
  - right. apply IH; [exact H | discriminate].
Qed.
Lemma in_expand : forall all names a, In a (expand all names) <-> (In a names /\ a <> L "*") \/ (In (L "*") names /\ In a all).
Proof.
  intros all names a. unfold expand. rewrite in_concat. split.
  - intros (l & Hl & Ha). apply in_map_iff in Hl. destruct Hl as (x & E & Hx). destruct (str_eqb_spec x (L "*")) as [S1|S1].
    + right. split; congruence.
    + left. subst l. destruct Ha as [Ha|[]]. subst a. split; assumption.
  - intros [(H1 & H2)|(H1 & H2)].
    + exists [a]. split; [|left; reflexivity]. apply in_map_iff. exists a. split; [|exact H1].
      destruct (str_eqb_spec a (L "*")); [contradiction | reflexivity].
    + exists all. split; [|exact H2]. apply in_map_iff. exists (L "*"). split; [reflexivity | exact H1].
Qed.

Lemma attr_has : forall m nm w v, attr m nm w = Some v -> exists n, m = Some n /\ has_attr w n nm.
Proof.
  intros m nm w v H. destruct m as [n|]; [|discriminate H]. exists n. split; [reflexivity|]. unfold attr in H.
  destruct (nth_error (w_objs w) n) as [o|] eqn:N; [|discriminate H]. exists o. split; [exact N|]. apply aget_In_keys. exists v. exact H.
Qed.

(** What one import gives. *)
Lemma hook_ok : forall who level name fl w r w', match fl with Some l => plain_names l | None => True end ->
  hook F imp who level name fl w = Some (r, w') -> inv w ->
  inv w' /\ le w w' /\
  (forall v, r = Ok v -> exists cx, In cx (contexts who level name w) /\
     ((aget (hd [] (nameSplit name)) (w_mods w') = Some v /\ attribute_of w' cx (nameSplit name)) \/
      (all_loaded w' (prefixes cx (nameSplit name)) /\
       match fl with
       | None => nameSplit name <> [] /\ exists m, v = Some m /\ loaded w' (dotted cx (hd [] (nameSplit name))) m
       | Some names => exists c, full cx (nameSplit name) = Some c /\ aget c (w_mods w') = Some v /\
           (forall m, v = Some m -> package w' m -> forall a, asked w' m names a -> has_attr w' m a)
       end))).
Proof.
  intros who level name fl w r w' Hfl H I. unfold hook in H. unfold bind at 1 in H. cbn [ask] in H. cbv zeta in H.
  unfold bind at 1 in H.
  destruct (try_ctx F imp (contexts who level name w) (nameSplit name) w) as [[[[[[i ctx] fq] cx]|e] w1]|] eqn:E; [| |discriminate H].
  2: { injection H as <- <-. destruct (try_ctx_ok _ _ _ _ _ E (nameSplit_nodots name) I (contexts_ne _ _ _ _)) as (I1 & L1 & _).
       split; [exact I1|]. split; [exact L1|]. intros v Q. discriminate Q. }
  destruct (try_ctx_ok _ _ _ _ _ E (nameSplit_nodots name) I (contexts_ne _ _ _ _)) as (I1 & L1 & R1).
  destruct (R1 _ _ _ _ eq_refl) as (Hcx & a & b & Ep & Fa & Ec & Eb). clear R1.
  destruct (Nat.ltb_spec i (length (nameSplit name))) as [Lt|Ge].
  - destruct b as [|nm b].
    { exfalso. rewrite Ep, app_nil_r in Lt. destruct a; cbn in *; lia. }
    destruct Eb as (Ei & Ef & Fr).
    assert (Hnth : nth i (nameSplit name) [] = nm).
    { rewrite Ep, Ei, app_nth2 by lia. rewrite Nat.sub_diag. reflexivity. }
    rewrite Hnth in H.
    assert (Hbad : forall r w', bind (del_item fq) (fun _ => @raise (option nat) (ENotFound fq)) w1 = Some (r, w') ->
                    inv w' /\ le w w' /\ forall v, r <> Ok v).
    { intros r0 w0 Q. unfold bind in Q. destruct (del_item fq w1) as [[[u|e] w2]|] eqn:D; [| |discriminate Q];
        destruct (del_ok _ _ _ _ D I1 Fr) as (I2 & L2); injection Q as <- <-; (split; [exact I2|]; split; [eapply le_trans; eassumption|]; intros v; discriminate). }
    destruct ctx as [c|].
    + unfold bind at 1 in H. unfold bind at 1 in H. unfold get_item at 1 in H. destruct (aget c (w_mods w1)) as [m|] eqn:A.
      2: { injection H as <- <-. split; [exact I1|]. split; [exact L1|]. intros v Q. discriminate Q. }
      unfold bind at 1 in H. cbn [ask ret] in H. destruct (attr m nm w1) as [v0|] eqn:At.
      * unfold get_item in H. destruct (aget (hd [] (nameSplit name)) (w_mods w1)) as [v1|] eqn:A1; injection H as <- <-;
          (split; [exact I1|]; split; [exact L1|]); [|intros v Q; discriminate Q].
        intros v Q. injection Q as <-. exists cx. split; [exact Hcx|]. left. split; [exact A1|].
        destruct (attr_has _ _ _ _ At) as (n & -> & Hn). exists a, nm, b, c, n.
        split; [exact Ep|]. split; [exact Fa|]. split; [symmetry; exact Ec|]. split; [exact A | exact Hn].
      * destruct (Hbad _ _ H) as (I2 & L2 & R2). split; [exact I2|]. split; [exact L2|]. intros v Q. exfalso. exact (R2 v Q).
    + unfold bind at 1 in H. cbn [ret] in H. destruct (Hbad _ _ H) as (I2 & L2 & R2). split; [exact I2|]. split; [exact L2|].
      intros v Q. exfalso. exact (R2 v Q).
  - destruct b as [|nm b].
    2: { exfalso. destruct Eb as (Ei & _). rewrite Ep, app_length in Ge. cbn [length] in Ge. lia. }
    rewrite app_nil_r in Ep. subst a. destruct fl as [names|].
    + destruct ctx as [c|].
      2: { injection H as <- <-. split; [exact I1|]. split; [exact L1|]. intros v Q. discriminate Q. }
      unfold bind at 1 in H. unfold get_item at 1 in H. destruct (aget c (w_mods w1)) as [m|] eqn:A.
      2: { injection H as <- <-. split; [exact I1|]. split; [exact L1|]. intros v Q. discriminate Q. }
      unfold bind at 1 in H. cbn [ask] in H. destruct (is_pkg m w1) eqn:K.
      * destruct m as [n|]; [|discriminate K]. unfold bind at 1 in H. unfold bind at 1 in H. cbn [ask] in H.
        unfold is_pkg in K. destruct (nth_error (w_objs w1) n) as [o|] eqn:N; [|discriminate K].
        destruct (from_names F imp c (Some n) (expand (o_all o) names) w1) as [[ru w2]|] eqn:Fn; [|discriminate H].
        assert (Ld : loaded w1 c n) by (split; [exact A | destruct I1 as ((C1 & _) & _); exact (C1 _ _ A)]).
        destruct (from_names_ok (expand (o_all o) names) c n w1 ru w2) as (I2 & L2 & R2); [| exact Fn | exact I1 | exact Ld |].
        { apply Forall_forall. intros x Hx. apply in_expand in Hx. destruct Hx as [(Hx & _)|(_ & Hx)].
          - unfold plain_names in Hfl. rewrite Forall_forall in Hfl. exact (Hfl x Hx).
          - destruct I1 as ((_ & _ & _ & _ & C5) & _). rewrite Forall_forall in C5. specialize (C5 o (nth_error_In _ _ N)).
            rewrite Forall_forall in C5. exact (C5 x Hx). }
        destruct ru as [u|e].
        -- injection H as <- <-. split; [exact I2|]. split; [eapply le_trans; eassumption|]. intros v Q. injection Q as <-.
           exists cx. split; [exact Hcx|]. right. split.
           { eapply Forall_impl; [|exact Fa]. intros x (m & Hm). exists m. apply L2. exact Hm. }
           exists c. split; [symmetry; exact Ec|]. split; [destruct L2 as (L2 & _); apply L2; exact Ld|].
           intros m Q _ x Hx. injection Q as <-. destruct u. apply (R2 eq_refl). apply in_expand. destruct Hx as [Hx|(Hx & o' & No & Hx')]; [left; exact Hx|].
           right. split; [exact Hx|]. destruct L2 as (_ & _ & _ & _ & L2). destruct (L2 n o N) as (o2 & N2 & _ & Q2). congruence.
        -- injection H as <- <-. split; [exact I2|]. split; [eapply le_trans; eassumption|]. intros v Q. discriminate Q.
      * unfold bind at 1 in H. cbn [ret] in H. injection H as <- <-. split; [exact I1|]. split; [exact L1|]. intros v Q. injection Q as <-.
        exists cx. split; [exact Hcx|]. right. split; [exact Fa|]. exists c. split; [symmetry; exact Ec|]. split; [exact A|].
        intros n -> (o & N & P) x _. unfold is_pkg in K. rewrite N in K. congruence.
    + destruct (nameSplit name) as [|p0 ps] eqn:Es.
      { injection H as <- <-. split; [exact I1|]. split; [exact L1|]. intros v Q. discriminate Q. }
      cbn [prefixes] in Fa. destruct (Forall_inv Fa) as (m & Hm). unfold get_item in H. rewrite (proj1 Hm) in H. injection H as <- <-.
      split; [exact I1|]. split; [exact L1|]. intros v Q. injection Q as <-. exists cx. split; [exact Hcx|]. right. split; [exact Fa|].
      split; [discriminate|]. exists m. split; [reflexivity | exact Hm].
Qed.
End Hook.

(** Names whose parts are all loaded: nothing happens. *)
Lemma walk_loaded : forall F imp a rest ctx i w, all_loaded w (prefixes ctx a) ->
  walk F imp ctx (a ++ rest) i w = walk F imp (full ctx a) rest (i + length a) w.
Proof.
  intros F imp. induction a as [|nm a IH]; intros rest ctx i w H.
  - cbn [app length]. rewrite Nat.add_0_r. reflexivity.
  - cbn [app prefixes] in *. destruct (Forall_inv H) as (m & (Hm & _)). cbn [walk]. cbv zeta. unfold bind. cbn [lookup]. rewrite Hm. cbn [ret].
    rewrite IH by exact (Forall_inv_tail H). unfold full. cbn [fold_left length]. replace (S i + length a) with (i + S (length a)) by lia. reflexivity.
Qed.
Lemma contexts_abs : forall who name w, name <> [] -> contexts who 0 name w = [None].
Proof. intros who name w H. unfold contexts. destruct name; [congruence|]. reflexivity. Qed.
Lemma again : forall F fuel who name w, name <> [] -> nameSplit name <> [] -> all_loaded w (prefixes None (nameSplit name)) ->
  exists m, loaded w (hd [] (nameSplit name)) m /\ import F (S fuel) who 0 name None w = Some (Ok (Some m), w).
Proof.
  intros F fuel who name w Hn Hp H. destruct (nameSplit name) as [|p0 ps] eqn:E; [congruence|].
  assert (H0 := Forall_inv H). cbn [hd]. destruct H0 as (m & Hm). exists m. split; [exact Hm|].
  cbn [import]. unfold hook. unfold bind at 1. cbn [ask]. cbv zeta. rewrite (contexts_abs who name w Hn), E.
  unfold bind at 1. unfold try_ctx. unfold bind at 1.
  pose proof (walk_loaded F (import F fuel) (p0 :: ps) [] None 0 w H) as W. rewrite app_nil_r in W. rewrite W. cbn [walk length Nat.add ret].
  replace (S (length ps) <? S (length ps)) with false by (symmetry; apply Nat.ltb_irrefl).
  unfold get_item. cbn [dotted] in *. rewrite (proj1 Hm). reflexivity.
Qed.

(** The last part is missing. *)
Lemma missing : forall F fuel who name a nm fl w, nameSplit name = a ++ [nm] -> name <> [] -> consistent w ->
  all_loaded w (prefixes None a) -> aget (dotted (full None a) nm) (w_mods w) = None ->
  match full None a with
  | None => F None nm = None
  | Some p => exists pm, loaded w p pm /\ package w pm /\ F (Some p) nm = None /\ ~ has_attr w pm nm
  end ->
  exists w', import F (S fuel) who 0 name fl w = Some (Raise (ENotFound (dotted (full None a) nm)), w') /\ same_modules w w' /\
             w_objs w' = w_objs w /\ w_runs w' = w_runs w.
Proof.
  intros F fuel who name a nm fl w E Hn C Ha Hx Hf. cbn [import]. unfold hook. unfold bind at 1. cbn [ask]. cbv zeta.
  rewrite (contexts_abs who name w Hn), E. unfold bind at 1. unfold try_ctx. unfold bind at 1.
  rewrite (walk_loaded F (import F fuel) a [nm] None 0 w Ha). cbn [walk Nat.add]. cbv zeta. unfold bind at 1. cbn [lookup]. rewrite Hx.
  set (fq := dotted (full None a) nm) in *. set (w1 := mkW (aset fq None (w_mods w)) (w_objs w) (w_runs w)).
  assert (D : doimport F (import F fuel) nm (full None a) fq w = Some (Ok None, w1)).
  { unfold doimport. destruct (full None a) as [p|].
    - destruct Hf as (pm & (A & _) & (o & No & Po) & Ff & _). unfold bind at 1. unfold get_item. rewrite A. unfold bind at 1. cbn [ask is_pkg].
      rewrite No, Po, Ff. reflexivity.
    - rewrite Hf. reflexivity. }
  unfold bind at 1. rewrite D. cbn [ret].
  assert (ND : NoDup (keys (w_mods w))) by (destruct C as (_ & _ & _ & C4 & _); exact C4).
  assert (Del : del_item fq w1 = Some (Ok tt, mkW (adel fq (aset fq None (w_mods w))) (w_objs w) (w_runs w))).
  { unfold del_item, w1. cbn [w_mods w_objs w_runs]. rewrite aget_aset_same. reflexivity. }
  exists (mkW (adel fq (aset fq None (w_mods w))) (w_objs w) (w_runs w)). split.
  - replace (match length a with 0 => ret (length a, full None a, fq, None) | S _ => ret (length a, full None a, fq, None) end w1)
      with (@Some (res iexn (nat * option pystr * pystr * option pystr) * world) (Ok (length a, full None a, fq, None), w1)) by (destruct a; reflexivity).
    rewrite app_length. cbn [length]. replace (length a <? length a + 1) with true by (symmetry; apply Nat.ltb_lt; lia).
    rewrite app_nth2 by lia. rewrite Nat.sub_diag. cbn [nth]. destruct (full None a) as [p|] eqn:Fp.
    + destruct Hf as (pm & (A & _) & (o & No & Po) & Ff & Na). unfold bind at 1. unfold bind at 1. unfold get_item at 1. unfold w1 at 1. cbn [w_mods].
      rewrite aget_aset_other by (intros Q; rewrite Q in A; congruence).
      rewrite A. unfold bind at 1. cbn [ask attr]. unfold w1 at 1. cbn [w_objs]. rewrite No.
      destruct (aget nm (o_attrs o)) eqn:Q; [exfalso; apply Na; exists o; split; [exact No|]; apply aget_In_keys; eexists; exact Q|].
      cbn [ret]. unfold bind. rewrite Del. reflexivity.
    + unfold bind at 1. cbn [ret]. unfold bind. rewrite Del. reflexivity.
  - split; [|split; reflexivity]. intros x. cbn [w_mods]. rewrite aget_adel by (apply NoDup_aset; exact ND). rewrite aget_aset.
    destruct (str_eqb_spec x fq) as [Q|Q]; [rewrite Q; symmetry; exact Hx | reflexivity].
Qed.

Lemma import_ok : forall F, good_finder F -> forall fuel who level name fl, match fl with Some l => plain_names l | None => True end ->
  pres (import F fuel who level name fl).
Proof.
  intros F GF. induction fuel as [|fuel IH]; intros who level name fl Hfl w r w' H I; cbn [import] in H; [discriminate H|].
  destruct (hook_ok F GF (import F fuel) IH who level name fl w r w' Hfl H I) as (I1 & L1 & _). split; assumption.
Qed.
Lemma imports_ok : forall F fuel l, good_finder F -> Forall (fun x => match snd x with Some names => plain_names names | None => True end) l ->
  pres (imports F fuel l).
Proof.
  intros F fuel l GF. induction l as [|[[[who level] name] fl] l IH]; intros Hl; cbn [imports]; [apply pres_ret|].
  intros w r w' H I. destruct (import F fuel who level name fl w) as [[r1 w1]|] eqn:E; [|discriminate H].
  destruct (import_ok F GF fuel who level name fl (Forall_inv Hl) _ _ _ E I) as (I1 & L1).
  destruct (pres_bind _ _ _ (fun rs => ret (r1 :: rs)) (IH (Forall_inv_tail Hl)) (fun a => pres_ret _ _) _ _ _ H I1) as (I2 & L2).
  split; [exact I2 | eapply le_trans; eassumption].
Qed.

(** The statements of C84. *)
Lemma once : forall F fuel l w r w', good_finder F -> Forall (fun x => match snd x with Some names => plain_names names | None => True end) l ->
  consistent w -> NoDup (w_runs w) -> imports F fuel l w = Some (r, w') ->
  NoDup (w_runs w') /\ consistent w' /\ (forall fq m, loaded w fq m -> loaded w' fq m) /\ (exists new, w_runs w' = new ++ w_runs w).
Proof.
  intros F fuel l w r w' GF Hl C ND H. destruct (imports_ok F fuel l GF Hl _ _ _ H (conj C ND)) as ((C1 & N1) & L1 & _ & _ & L4 & _).
  split; [exact N1|]. split; [exact C1|]. split; assumption.
Qed.
Lemma import_plain : forall F fuel who name w r w', good_finder F -> consistent w -> NoDup (w_runs w) -> name <> [] ->
  import F fuel who 0 name None w = Some (Ok r, w') ->
  (exists m, r = Some m /\ loaded w' (hd [] (nameSplit name)) m) /\
  (all_loaded w' (prefixes None (nameSplit name)) \/ attribute_of w' None (nameSplit name)).
Proof.
  intros F fuel who name w r w' GF C ND Hn H. destruct fuel as [|fuel]; [discriminate H|]. cbn [import] in H.
  destruct (hook_ok F GF (import F fuel) (import_ok F GF fuel) who 0 name None w _ w' I H (conj C ND)) as ((C1 & _) & _ & R).
  destruct (R _ eq_refl) as (cx & Hcx & D). rewrite (contexts_abs who name w Hn) in Hcx. destruct Hcx as [<-|[]]. destruct D as [(A & B)|(A & B & m & -> & D)].
  - split; [|right; exact B]. destruct B as (a & nm & b & p & pm & Ep & Ha & Hf & _). destruct a as [|p0 a]; [discriminate Hf|].
    rewrite Ep in A |- *. cbn [app hd prefixes dotted] in *. destruct (Forall_inv Ha) as (m & Hm). exists m. split; [|exact Hm].
    destruct Hm as (Hm & _). congruence.
  - split; [exists m; split; [reflexivity | exact D] | left; exact A].
Qed.
Lemma import_from : forall F fuel who level name names w r w', good_finder F -> consistent w -> NoDup (w_runs w) -> plain_names names ->
  import F fuel who level name (Some names) w = Some (Ok r, w') ->
  exists cx, In cx (contexts who level name w) /\
    ((aget (hd [] (nameSplit name)) (w_mods w') = Some r /\ attribute_of w' cx (nameSplit name)) \/
     (all_loaded w' (prefixes cx (nameSplit name)) /\
      exists c, full cx (nameSplit name) = Some c /\ aget c (w_mods w') = Some r /\
        (forall m, r = Some m -> package w' m -> forall a, asked w' m names a -> has_attr w' m a))).
Proof.
  intros F fuel who level name names w r w' GF C ND Hp H. destruct fuel as [|fuel]; [discriminate H|]. cbn [import] in H.
  destruct (hook_ok F GF (import F fuel) (import_ok F GF fuel) who level name (Some names) w _ w' Hp H (conj C ND)) as (_ & _ & R).
  exact (R _ eq_refl).
Qed.
