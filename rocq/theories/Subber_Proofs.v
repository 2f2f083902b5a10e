(** Proofs for C101 and C102. *)
From Verif Require Import Base Subber_Model Subber_Spec.

Definition of_chunk (c : chunk) : piece := match c with CText s => PText s | CRef n => PNumber n | CName n => PNamed n end.

Lemma run_split : forall p s a b, run_of p s = (a, b) -> s = a ++ b /\ forallb p a = true /\ match b with [] => True | c :: _ => p c = false end.
Proof.
  intros p. induction s as [|c s IH]; intros a b H; cbn in H; [inversion H; subst; auto|].
  destruct (p c) eqn:E; [|inversion H; subst; auto]. destruct (run_of p s) as [x y]. inversion H; subst.
  destruct (IH _ _ eq_refl) as (-> & F & G). cbn. rewrite E, F. auto.
Qed.
Lemma run_app : forall p a b, forallb p a = true -> match b with [] => True | c :: _ => p c = false end -> run_of p (a ++ b) = (a, b).
Proof.
  intros p. induction a as [|c a IH]; intros b H K; cbn [app run_of].
  - destruct b as [|c b]; [reflexivity|]. cbn. rewrite K. reflexivity.
  - cbn in H. apply andb_prop in H as [H1 H2]. rewrite H1, IH by assumption. reflexivity.
Qed.
Lemma digit_spec : forall c, digit c = true <-> (48 <= c <= 57)%N. Proof. intro c. unfold digit. lia. Qed.
Lemma digit1_spec : forall c, digit1 c = true <-> (49 <= c <= 57)%N. Proof. intro c. unfold digit1. lia. Qed.
Lemma letter_spec : forall c, letter c = true <-> is_letter c. Proof. intro c. unfold letter, is_letter. lia. Qed.

Lemma backref_is : forall s n r, match_backref s = Some (n, r) -> s = written (PNumber n) ++ r /\ is_number n.
Proof.
  intros s n r H. destruct s as [|b [|c s]]; try discriminate. cbn in H. destruct ((b =? 92)%N && digit1 c)%bool eqn:E; [|discriminate].
  apply andb_prop in E as [E1 E2]. apply N.eqb_eq in E1. apply digit1_spec in E2. destruct (run_of digit s) as [ds rest] eqn:R. inversion H; subst.
  destruct (run_split _ _ _ _ R) as (-> & F & _). split; [reflexivity|]. exists c, ds. split; [reflexivity|]. split; [exact E2|].
  apply Forall_forall. intros x Hx. apply digit_spec. rewrite forallb_forall in F. auto.
Qed.
Lemma group_is : forall s n r, match_group s = Some (n, r) -> s = written (PNamed n) ++ r /\ is_id n.
Proof.
  intros s n r H. destruct s as [|b [|g [|l s]]]; try discriminate. cbn in H.
  destruct ((b =? 92)%N && (g =? 103)%N && (l =? 60)%N)%bool eqn:E; [|discriminate].
  apply andb_prop in E as [E E3]. apply andb_prop in E as [E1 E2]. apply N.eqb_eq in E1, E2, E3. subst.
  destruct (run_of letter s) as [[|c a] [|q rest]] eqn:R; try discriminate. destruct (q =? 62)%N eqn:Q; [|discriminate]. apply N.eqb_eq in Q. inversion H; subst.
  destruct (run_split _ _ _ _ R) as (-> & F & _). split.
  - unfold written. rewrite <- !app_assoc. reflexivity.
  - split; [discriminate|]. apply Forall_forall. intros x Hx. apply letter_spec. rewrite forallb_forall in F. auto.
Qed.
Lemma const_split : forall s k r, eat_const s = (k, r) -> s = k ++ r.
Proof.
  induction s as [|c s IH]; intros k r H; cbn [eat_const] in H; [inversion H; reflexivity|].
  destruct (match_backref (c :: s)) as [x|]; [inversion H; reflexivity|]. destruct (match_group (c :: s)) as [x|]; [inversion H; reflexivity|].
  destruct (eat_const s) as [k' r']. inversion H; subst. cbn. f_equal. apply IH. reflexivity.
Qed.
Lemma const_first : forall c s, match_backref (c :: s) = None -> match_group (c :: s) = None -> exists k, fst (eat_const (c :: s)) = c :: k.
Proof. intros c s A B. cbn [eat_const]. rewrite A, B. destruct (eat_const s) as [k r]. exists k. reflexivity. Qed.

(** Every replacement is parsed, and nothing is lost. *)
Lemma parse_total : forall f s, (length s < f)%nat -> exists l, parse f s = Some l /\ all_written (map of_chunk l) = s.
Proof.
  induction f as [|f IH]; intros s H; [lia|]. cbn [parse]. destruct s as [|c s]; [exists []; split; reflexivity|].
  destruct (match_backref (c :: s)) as [[n r]|] eqn:B.
  - destruct (backref_is _ _ _ B) as [E _]. destruct (IH r) as (l & P & W).
    { rewrite E, app_length in H. cbn in H. lia. }
    rewrite P. exists (CRef n :: l). split; [reflexivity|]. unfold all_written in *. cbn [map concat of_chunk]. rewrite W, E. reflexivity.
  - destruct (match_group (c :: s)) as [[n r]|] eqn:G.
    + destruct (group_is _ _ _ G) as [E _]. destruct (IH r) as (l & P & W).
      { rewrite E, app_length in H. cbn in H. lia. }
      rewrite P. exists (CName n :: l). split; [reflexivity|]. unfold all_written in *. cbn [map concat of_chunk]. rewrite W, E. reflexivity.
    + destruct (const_first c s B G) as (k' & F). destruct (eat_const (c :: s)) as [k r] eqn:K. cbn in F. subst.
      assert (E := const_split _ _ _ K). destruct (IH r) as (l & P & W).
      { rewrite E, app_length in H. cbn in H. lia. }
      rewrite P. exists (CText (c :: k') :: l). split; [reflexivity|]. unfold all_written in *. cbn [map concat of_chunk written]. rewrite W, E. reflexivity.
Qed.

(** What is written clearly is read back. *)
Definition to_chunk (p : piece) : chunk := match p with PText s => CText s | PNumber n => CRef n | PNamed n => CName n end.
Lemma number_read : forall n r, is_number n -> no_digit_first r -> match_backref (written (PNumber n) ++ r) = Some (n, r).
Proof.
  intros n r (c & ds & -> & Hc & Hd) Hr. cbn [written app match_backref]. rewrite N.eqb_refl. apply digit1_spec in Hc. rewrite Hc. cbn [andb].
  rewrite run_app; [reflexivity| |].
  - apply forallb_forall. intros x Hx. apply digit_spec. rewrite Forall_forall in Hd. auto.
  - destruct r as [|x r]; [exact I|]. cbn in Hr. destruct (digit x) eqn:E; [apply digit_spec in E; contradiction|reflexivity].
Qed.
Lemma named_read : forall n r, is_id n -> match_backref (written (PNamed n) ++ r) = None /\ match_group (written (PNamed n) ++ r) = Some (n, r).
Proof.
  intros n r (Hn & Hl). unfold written. rewrite <- !app_assoc. change (L "\g<") with [92; 103; 60]%N. cbn [app]. split; [reflexivity|].
  cbn [match_group]. rewrite !N.eqb_refl. cbn [andb]. rewrite run_app.
  - change (L ">") with [62%N]. destruct n as [|c n]; [congruence|]. cbn [app]. rewrite N.eqb_refl. reflexivity.
  - apply forallb_forall. intros x Hx. apply letter_spec. rewrite Forall_forall in Hl. auto.
  - reflexivity.
Qed.
Lemma plain_none : forall c s, c <> 92%N -> match_backref (c :: s) = None /\ match_group (c :: s) = None.
Proof.
  intros c s H. apply N.eqb_neq in H. split; [destruct s; cbn; [reflexivity|rewrite H; reflexivity]|].
  destruct s as [|x [|y s]]; cbn; try reflexivity. rewrite H. reflexivity.
Qed.
Lemma text_read : forall k r, ~ In 92%N k -> match r with [] => True | _ => match_backref r <> None \/ match_group r <> None end -> eat_const (k ++ r) = (k, r).
Proof.
  induction k as [|c k IH]; intros r Hk Hr; cbn [app].
  - destruct r as [|c r]; [reflexivity|]. cbn [eat_const].
    destruct (match_backref (c :: r)); [reflexivity|]. destruct (match_group (c :: r)); [reflexivity|]. destruct Hr; congruence.
  - cbn [eat_const]. destruct (plain_none c (k ++ r)) as [A B]; [intros ->; apply Hk; left; reflexivity|]. rewrite A, B.
    rewrite IH; [reflexivity|intro K; apply Hk; right; exact K|exact Hr].
Qed.
Lemma roundtrip : forall l f, clear l -> (length (all_written l) < f)%nat -> parse f (all_written l) = Some (map to_chunk l).
Proof.
  induction l as [|p l IH]; intros f H F; destruct f as [|f]; try lia; [reflexivity|].
  change (all_written (p :: l)) with (written p ++ all_written l) in *. rewrite app_length in F. destruct p as [s|n|n]; cbn [clear] in H.
  - destruct H as (Hn & Hb & Ht & Hl). cbn [written] in *. destruct s as [|c s]; [congruence|].
    destruct (plain_none c (s ++ all_written l)) as [A B]; [intros ->; apply Hb; left; reflexivity|].
    cbn [parse]. cbn [app]. rewrite A, B. change (c :: s ++ all_written l) with ((c :: s) ++ all_written l).
    rewrite text_read; [|exact Hb|].
    + rewrite IH by (auto; cbn in F; lia). reflexivity.
    + destruct l as [|[t|n|n] l]; [exact I|destruct Ht| |]; cbn [clear] in Hl; change (all_written (?x :: l)) with (written x ++ all_written l);
        unfold all_written; cbn [map concat]; fold (all_written l).
      * destruct Hl as (Hn' & Hd & _). pose proof (number_read n (all_written l) Hn' Hd) as R.
        destruct (written (PNumber n) ++ all_written l) as [|x y] eqn:E; [exact I|left; congruence].
      * destruct Hl as (Hn' & _). destruct (named_read n (all_written l) Hn') as [_ R].
        destruct (written (PNamed n) ++ all_written l) as [|x y] eqn:E; [exact I|right; congruence].
  - destruct H as (Hn & Hd & Hl). cbn [parse]. rewrite (number_read n _ Hn Hd). cbn [written app].
    rewrite IH by (auto; cbn in F; lia). reflexivity.
  - destruct H as (Hn & Hl). destruct (named_read n (all_written l) Hn) as [A B]. cbn [parse]. rewrite A, B.
    assert (E : exists x y, written (PNamed n) ++ all_written l = x :: y) by (eexists _, _; reflexivity). destruct E as (x & y & ->).
    rewrite IH; [reflexivity|exact Hl|]. cbn [written] in F. rewrite !app_length in F. cbn in F. lia.
Qed.

(** The function. *)
Definition value (m : pystr -> pystr) (p : piece) : pystr := match p with PText s => s | PNumber n => m n | PNamed n => m n end.
Definition has (m : pystr -> group) (v : pystr -> pystr) (p : piece) : Prop := match p with PText _ => True | PNumber n | PNamed n => m n = GText (v n) end.
Lemma subber_value : forall m v l, Forall (has m v) l -> subber m (map to_chunk l) = Ok (concat (map (value v) l)).
Proof.
  intros m v l H. unfold subber.
  assert (E : elements m (map to_chunk l) = Ok (map (fun p => Some (value v p)) l)).
  { induction H as [|p l Hp _ IH]; [reflexivity|]. cbn [map elements]. rewrite IH. destruct p; cbn [to_chunk has value] in *; try rewrite Hp; reflexivity. }
  rewrite E. clear. induction l as [|p l IH]; [reflexivity|]. cbn [map join_all concat]. rewrite IH. reflexivity.
Qed.
