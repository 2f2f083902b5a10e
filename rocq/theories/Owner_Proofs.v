(** Proofs about finding modules. *)
From Verif Require Import Base PyStr Alist Names_Model Owner_Model Owner_Spec.

Section Owner.
Variable T : tools.

Lemma scan_inl : forall b s p, scan T b s = inl p -> exists e n, In e (o_exts T) /\ p = b ++ e /\ aget p (files s) = Some n.
Proof.
  intros b s p H. unfold scan in H. destruct (find _ _) as [q|] eqn:E; [|discriminate H]. injection H as <-.
  apply find_some in E. destruct E as (Hi & Ha). apply in_map_iff in Hi. destruct Hi as (e & <- & He). unfold ahas in Ha.
  destruct (aget (b ++ e) (files s)) as [n|] eqn:A; [|discriminate Ha]. exists e, n. auto.
Qed.
Lemma scan_inr : forall b s py pyc, scan T b s = inr (py, pyc) ->
  (forall e, In e (o_exts T) -> aget (b ++ e) (files s) = None) /\
  py = option_map (fun n => (b ++ L ".py", mtime n)) (aget (b ++ L ".py") (files s)) /\
  pyc = option_map (fun n => (o_cache T (b ++ L ".py"), mtime n)) (aget (o_cache T (b ++ L ".py")) (files s)).
Proof.
  intros b s py pyc H. unfold scan in H. destruct (find _ _) as [q|] eqn:E; [discriminate H|]. injection H as <- <-.
  split; [|split; reflexivity]. intros e He. pose proof (find_none _ _ E (b ++ e) (in_map _ _ _ He)) as Q. cbn beta in Q. unfold ahas in Q.
  destruct (aget (b ++ e) (files s)); [discriminate Q | reflexivity].
Qed.
Lemma scan_none : forall b s, scan T b s = inr (None, None) <-> ~ has_code T s b.
Proof.
  intros b s. split.
  - intros H (p & n & Hp & Ha). destruct (scan_inr _ _ _ _ H) as (He & Hpy & Hpyc). unfold files_of in Hp. apply in_app_or in Hp. destruct Hp as [Hp|Hp].
    + apply in_map_iff in Hp. destruct Hp as (e & <- & Hi). rewrite (He e Hi) in Ha. discriminate Ha.
    + destruct Hp as [<-|[<-|[]]]; rewrite Ha in *; discriminate.
  - intros H. destruct (scan T b s) as [p|[py pyc]] eqn:E.
    + exfalso. destruct (scan_inl _ _ _ E) as (e & n & He & -> & Ha). apply H. exists (b ++ e), n. split; [|exact Ha].
      unfold files_of. apply in_or_app. left. apply in_map. exact He.
    + destruct (scan_inr _ _ _ _ E) as (He & -> & ->).
      destruct (aget (b ++ L ".py") (files s)) as [n|] eqn:A; [exfalso; apply H; exists (b ++ L ".py"), n; split; [apply in_or_app; right; left; reflexivity | exact A]|].
      destruct (aget (o_cache T (b ++ L ".py")) (files s)) as [n|] eqn:A2; [exfalso; apply H; exists (o_cache T (b ++ L ".py")), n; split; [apply in_or_app; right; right; left; reflexivity | exact A2]|].
      reflexivity.
Qed.

Lemma source_found : forall b pkg s r s', from_source T (b ++ L ".py") pkg s = (r, s') -> forall f, r = Ok f -> found_at T b pkg f.
Proof.
  intros b pkg s r s' H f ->. unfold from_source in H. destruct (aget (b ++ L ".py") (files s)) as [[|mt t]|]; try discriminate H.
  destruct (o_compile T (t ++ [10%N])) as [co|]; [|discriminate H]. injection H as <- _. split; [reflexivity | left; reflexivity].
Qed.
Lemma load_found : forall b s py pyc pkg s1 r s', scan T b s = inr (py, pyc) -> load T py pyc pkg s1 = (r, s') -> forall f, r = Ok f -> found_at T b pkg f.
Proof.
  intros b s py pyc pkg s1 r s' Hs H f Hf. destruct (scan_inr _ _ _ _ Hs) as (_ & Hpy & Hpyc).
  assert (Src : forall s2 r s', match py with Some (p, _) => from_source T p pkg | None => raise FType end s2 = (r, s') -> r = Ok f -> found_at T b pkg f).
  { intros s2 r0 s0 Q Qf. destruct py as [[p pt]|]; [|injection Q as <- _; discriminate Qf].
    destruct (aget (b ++ L ".py") (files s)); [|discriminate Hpy]. injection Hpy as -> _. exact (source_found _ _ _ _ _ Q f Qf). }
  unfold load in H. cbv zeta in H. destruct pyc as [[c ct]|]; [|exact (Src _ _ _ H Hf)].
  destruct (match py with Some (_, pt) => (ct <? pt)%N | None => false end); [exact (Src _ _ _ H Hf)|].
  destruct (aget c (files s1)) as [[|mt t]|]; try (injection H as <- _; discriminate Hf).
  destruct (o_loads T t) as [co|]; [|exact (Src _ _ _ H Hf)]. injection H as <- _. injection Hf as <-.
  destruct (aget (o_cache T (b ++ L ".py")) (files s)); [|discriminate Hpyc]. injection Hpyc as -> _. split; [reflexivity | right; reflexivity].
Qed.

Lemma possibles_cons : forall b pkg l s r s', try_possibles T ((b, pkg) :: l) s = (r, s') ->
  (has_code T s b /\ r <> Ok None /\ forall f, r = Ok (Some f) -> found_at T b pkg f) \/ (~ has_code T s b /\ try_possibles T l s = (r, s')).
Proof.
  intros b pkg l s r s' H. cbn [try_possibles] in H. destruct (scan T b s) as [p|[py pyc]] eqn:E.
  - left. injection H as <- _. split.
    + destruct (scan_inl _ _ _ E) as (e & n & He & -> & Ha). exists (b ++ e), n. split; [|exact Ha]. apply in_or_app. left. apply in_map. exact He.
    + split; [discriminate|]. intros f Q. injection Q as <-. destruct (scan_inl _ _ _ E) as (e & n & He & -> & _). exists e. auto.
  - assert (D : (py = None /\ pyc = None) \/ ~ (py = None /\ pyc = None)).
    { destruct py, pyc; try (left; split; reflexivity); right; intros (A & B); discriminate. }
    destruct D as [(-> & ->)|D].
    + right. split; [apply scan_none; exact E | exact H].
    + left. split.
      * destruct (scan_inr _ _ _ _ E) as (_ & -> & ->). destruct (aget (b ++ L ".py") (files s)) as [n|] eqn:A.
        -- exists (b ++ L ".py"), n. split; [apply in_or_app; right; left; reflexivity | exact A].
        -- destruct (aget (o_cache T (b ++ L ".py")) (files s)) as [n|] eqn:A2.
           ++ exists (o_cache T (b ++ L ".py")), n. split; [apply in_or_app; right; right; left; reflexivity | exact A2].
           ++ exfalso. apply D. split; reflexivity.
      * assert (H' : match load T py pyc pkg s with (Ok f, s0) => (Ok (Some f), s0) | (Raise e, s0) => (Raise e, s0) end = (r, s')).
        { destruct py as [py|], pyc as [pyc|]; try exact H. exfalso. apply D. split; reflexivity. }
        destruct (load T py pyc pkg s) as [[f|e] s1] eqn:Ld; injection H' as <- <-.
        -- split; [discriminate|]. intros f' Q. injection Q as <-. exact (load_found _ _ _ _ _ _ _ _ E Ld f eq_refl).
        -- split; [discriminate|]. intros f' Q. discriminate Q.
Qed.

Lemma dir_choice : forall path nm s r s', dir_getmod T path nm s = (r, s') ->
  (forall b pkg, at_place T s path nm b pkg -> r <> Ok None /\ forall f, r = Ok (Some f) -> found_at T b pkg f) /\
  ((forall b pkg, ~ at_place T s path nm b pkg) -> r = Ok None /\ s' = s).
Proof.
  intros path nm s r s' H. unfold dir_getmod in H. cbv zeta in H.
  assert (Last : forall r s', try_possibles T [(pjoin path nm, None)] s = (r, s') ->
            (has_code T s (pjoin path nm) -> r <> Ok None /\ forall f, r = Ok (Some f) -> found_at T (pjoin path nm) None f) /\
            (~ has_code T s (pjoin path nm) -> r = Ok None /\ s' = s)).
  { intros r0 s0 Q. destruct (possibles_cons _ _ _ _ _ _ Q) as [(A & B & C)|(A & B)].
    - split; [intros _; split; assumption | intros N; contradiction].
    - split; [intros N; contradiction|]. intros _. injection B as <- <-. split; reflexivity. }
  destruct (is_dir (pjoin path nm) s) eqn:D; cbn [app] in H.
  - destruct (possibles_cons _ _ _ _ _ _ H) as [(A & B & C)|(A & B)].
    + split.
      * intros b pkg P. destruct P as [_ P|[P|P] P2]; [split; assumption | congruence | contradiction].
      * intros N. exfalso. exact (N _ _ (at_pkg _ _ _ _ D A)).
    + destruct (Last _ _ B) as (B1 & B2). split.
      * intros b pkg P. destruct P as [_ P|_ P]; [contradiction | exact (B1 P)].
      * intros N. apply B2. intros Q. exact (N _ _ (at_mod _ _ _ _ (or_intror A) Q)).
  - destruct (Last _ _ H) as (B1 & B2). split.
    + intros b pkg P. destruct P as [P _|_ P]; [congruence | exact (B1 P)].
    + intros N. apply B2. intros Q. exact (N _ _ (at_mod _ _ _ _ (or_introl D) Q)).
Qed.

(** ** Freshness *)
Hypothesis S : sane T.

Definition ok_caches (s : fs) : Prop :=
  NoDup (keys (files s)) /\
  forall b mt t mt' c, aget (b ++ L ".py") (files s) = Some (NFile mt t) -> aget (o_cache T (b ++ L ".py")) (files s) = Some (NFile mt' c) ->
    (mt' < mt)%N \/ exists co, o_compile T t = Some co /\ c = o_dumps T co.
Definition cache_files (s : fs) : Prop := forall q n, aget (o_cache T q) (files s) = Some n -> exists mt c, n = NFile mt c.
Definition times (looked : bool) (s : fs) : Prop :=
  forall q n, aget (o_cache T q) (files s) = Some n -> if looked then (mtime n <= clock s)%N else (mtime n < clock s)%N.

Lemma put_ok : forall p c s s', put T p c s = Some s' -> s' = mkFs (aset p (NFile (clock s) c) (files s)) (clock s).
Proof. intros p c s s' H. unfold put in H. destruct (o_can T p); [|discriminate H]. injection H as <-. reflexivity. Qed.

Lemma py_compile_cases : forall p s, py_compile T p s = s \/
  exists mt t co, aget p (files s) = Some (NFile mt t) /\ o_compile T t = Some co /\
    py_compile T p s = mkFs (aset (o_cache T p) (NFile (clock s) (o_dumps T co)) (files s)) (clock s).
Proof.
  intros p s. unfold py_compile. destruct (aget p (files s)) as [[|mt t]|]; [left; reflexivity| |left; reflexivity].
  destruct (o_compile T t) as [co|] eqn:E; [|left; reflexivity]. destruct (put T (o_cache T p) (o_dumps T co) s) as [s'|] eqn:P; [|left; reflexivity].
  right. exists mt, t, co. split; [reflexivity|]. split; [exact E|]. exact (put_ok _ _ _ _ P).
Qed.
Lemma py_compile_inv : forall b s l, ok_caches s -> cache_files s -> times l s ->
  ok_caches (py_compile T (b ++ L ".py") s) /\ cache_files (py_compile T (b ++ L ".py") s) /\ times true (py_compile T (b ++ L ".py") s) /\
  (forall b', aget (b' ++ L ".py") (files (py_compile T (b ++ L ".py") s)) = aget (b' ++ L ".py") (files s)).
Proof.
  intros b s l (ND & Hc) Hf Ht. destruct S as (S1 & S2 & S3 & S4).
  destruct (py_compile_cases (b ++ L ".py") s) as [->|(mt & t & co & A & E & ->)].
  - split; [split; assumption|]. split; [assumption|]. split; [|auto]. intros q n Q. specialize (Ht q n Q). destruct l; lia.
  - cbn [files clock].
    assert (Src : forall b', aget (b' ++ L ".py") (aset (o_cache T (b ++ L ".py")) (NFile (clock s) (o_dumps T co)) (files s)) = aget (b' ++ L ".py") (files s)).
    { intros b'. apply aget_aset_other. intros Q. symmetry in Q. exact (S4 _ _ Q). }
    split; [|split; [|split; [|exact Src]]].
    + split; [apply NoDup_aset; exact ND|]. intros b' mt1 t1 mt2 c2 Q1 Q2. cbn [files] in *. rewrite Src in Q1. rewrite aget_aset in Q2.
      destruct (str_eqb_spec (o_cache T (b' ++ L ".py")) (o_cache T (b ++ L ".py"))) as [Q|Q].
      * injection Q2 as <- <-. right. exists co. split; [|reflexivity]. apply S3 in Q. rewrite Q in Q1. congruence.
      * exact (Hc _ _ _ _ _ Q1 Q2).
    + intros q n Q. cbn [files] in Q. rewrite aget_aset in Q. destruct (str_eqb (o_cache T q) (o_cache T (b ++ L ".py"))); [|exact (Hf q n Q)].
      injection Q as <-. eauto.
    + intros q n Q. cbn [files clock] in *. rewrite aget_aset in Q. destruct (str_eqb (o_cache T q) (o_cache T (b ++ L ".py"))).
      * injection Q as <-. cbn [mtime]. lia.
      * specialize (Ht q n Q). destruct l; lia.
Qed.

Lemma load_inv : forall b s py pyc pkg r s' l, scan T b s = inr (py, pyc) -> load T py pyc pkg s = (r, s') ->
  ok_caches s -> cache_files s -> times l s ->
  ok_caches s' /\ cache_files s' /\ times true s' /\ (forall f, r = Ok f -> fresh T s b f) /\
  (forall b', aget (b' ++ L ".py") (files s') = aget (b' ++ L ".py") (files s)).
Proof.
  intros b s py pyc pkg r s' l Hs H Oc Cf Ti. destruct (scan_inr _ _ _ _ Hs) as (_ & Hpy & Hpyc). pose proof S as (S1 & S2 & S3 & S4).
  assert (Same : ok_caches s /\ cache_files s /\ times true s).
  { split; [exact Oc|]. split; [exact Cf|]. intros q n Q. specialize (Ti q n Q). destruct l; lia. }
  destruct Same as (_ & _ & Ti').
  assert (Src : forall r s', match py with Some (p, _) => from_source T p pkg | None => raise FType end s = (r, s') ->
     ok_caches s' /\ cache_files s' /\ times true s' /\ (forall f, r = Ok f -> fresh T s b f) /\ (forall b', aget (b' ++ L ".py") (files s') = aget (b' ++ L ".py") (files s))).
  { intros r0 s0 Q. destruct py as [[p pt]|].
    2: { injection Q as <- <-. split; [exact Oc|]. split; [exact Cf|]. split; [exact Ti'|]. split; [intros f Qf; discriminate Qf | auto]. }
    destruct (aget (b ++ L ".py") (files s)) as [n|] eqn:A; [|discriminate Hpy]. injection Hpy as -> _. unfold from_source in Q. rewrite A in Q.
    destruct n as [mt|mt t].
    { injection Q as <- <-. split; [exact Oc|]. split; [exact Cf|]. split; [exact Ti'|]. split; [intros f Qf; discriminate Qf | auto]. }
    destruct (o_compile T (t ++ [10%N])) as [co|] eqn:E; injection Q as <- <-.
    - destruct (py_compile_inv b s l Oc Cf Ti) as (P1 & P2 & P3 & P4). split; [exact P1|]. split; [exact P2|]. split; [exact P3|]. split; [|exact P4].
      intros f Qf. injection Qf as <-. intros co' file pkg' mt' t' Qf Qa. injection Qf as <- <- <-. rewrite A in Qa. injection Qa as <- <-. congruence.
    - split; [exact Oc|]. split; [exact Cf|]. split; [exact Ti'|]. split; [intros f Qf; discriminate Qf | auto]. }
  unfold load in H. cbv zeta in H. destruct pyc as [[c ct]|]; [|exact (Src _ _ H)].
  destruct (match py with Some (_, pt) => (ct <? pt)%N | None => false end) eqn:Cmp; [exact (Src _ _ H)|].
  destruct (aget (o_cache T (b ++ L ".py")) (files s)) as [n|] eqn:A; [|discriminate Hpyc]. injection Hpyc as -> ->.
  rewrite A in H. destruct n as [mt|mt bts].
  { injection H as <- <-. split; [exact Oc|]. split; [exact Cf|]. split; [exact Ti'|]. split; [intros f Qf; discriminate Qf | auto]. }
  destruct (o_loads T bts) as [co|] eqn:Lo; [|exact (Src _ _ H)]. injection H as <- <-.
  split; [exact Oc|]. split; [exact Cf|]. split; [exact Ti'|]. split; [|auto]. intros f Qf. injection Qf as <-.
  intros co' file pkg' mt' t' Qf Qa. injection Qf as <- <- <-. destruct Oc as (_ & Oc). rewrite Qa in Hpy. cbn [option_map mtime] in *. subst py.
  destruct (Oc _ _ _ _ _ Qa A) as [Q|(co2 & Q1 & Q2)]; [apply N.ltb_ge in Cmp; lia|]. subst bts. rewrite S1 in Lo. congruence.
Qed.

Lemma possibles_inv : forall l s r s' lk, try_possibles T l s = (r, s') -> ok_caches s -> cache_files s -> times lk s ->
  ok_caches s' /\ cache_files s' /\ times true s' /\
  (forall f, r = Ok (Some f) -> exists b pkg, In (b, pkg) l /\ fresh T s b f /\ found_at T b pkg f).
Proof.
  induction l as [|[b pkg] l IH]; intros s r s' lk H Oc Cf Ti; cbn [try_possibles] in H.
  - injection H as <- <-. split; [exact Oc|]. split; [exact Cf|]. split; [intros q n Q; specialize (Ti q n Q); destruct lk; lia|]. intros f Q. discriminate Q.
  - destruct (scan T b s) as [p|[py pyc]] eqn:E.
    + injection H as <- <-. split; [exact Oc|]. split; [exact Cf|]. split; [intros q n Q; specialize (Ti q n Q); destruct lk; lia|].
      intros f Q. injection Q as <-. exists b, pkg. split; [left; reflexivity|]. split; [intros co file k mt t Q; discriminate Q|].
      destruct (scan_inl _ _ _ E) as (e & n & He & -> & _). exists e. auto.
    + assert (Go : forall r s', match load T py pyc pkg s with (Ok f, s0) => (Ok (Some f), s0) | (Raise e, s0) => (Raise e, s0) end = (r, s') ->
         ok_caches s' /\ cache_files s' /\ times true s' /\ (forall f, r = Ok (Some f) -> exists b0 pkg0, In (b0, pkg0) ((b, pkg) :: l) /\ fresh T s b0 f /\ found_at T b0 pkg0 f)).
      { intros r0 s0 Q. destruct (load T py pyc pkg s) as [r1 s1] eqn:Ld. destruct (load_inv _ _ _ _ _ _ _ _ E Ld Oc Cf Ti) as (A1 & A2 & A3 & A4 & _).
        destruct r1 as [f1|e]; injection Q as <- <-; (split; [exact A1|]; split; [exact A2|]; split; [exact A3|]); intros f Q; [|discriminate Q].
        injection Q as <-. exists b, pkg. split; [left; reflexivity|]. split; [exact (A4 _ eq_refl) | exact (load_found _ _ _ _ _ _ _ _ E Ld f1 eq_refl)]. }
      destruct py as [py|], pyc as [pyc|]; try exact (Go _ _ H).
      destruct (IH _ _ _ _ H Oc Cf Ti) as (A1 & A2 & A3 & A4). split; [exact A1|]. split; [exact A2|]. split; [exact A3|]. intros f Q.
      destruct (A4 f Q) as (b0 & pkg0 & B1 & B2 & B3). exists b0, pkg0. split; [right; exact B1 | split; assumption].
Qed.

Definition finv (lk : bool) (s : fs) : Prop := ok_caches s /\ cache_files s /\ times lk s.
Fixpoint looked_after (lk : bool) (l : list fop) : bool :=
  match l with [] => lk | Tick :: l => looked_after false l | Find _ _ :: l => looked_after true l | _ :: l => looked_after lk l end.

Lemma steps_inv : forall l lk s, finv lk s -> paced T lk l -> finv (looked_after lk l) (fsteps T l s).
Proof.
  induction l as [|o l IH]; intros lk s I P; [exact I|]. unfold fsteps. cbn [fold_left]. fold (fsteps T l (fstep T o s)).
  destruct I as ((ND & Oc) & Cf & Ti). destruct S as (S1 & S2 & S3 & S4). destruct o as [|p t|p|path nm]; cbn [paced looked_after fstep] in *.
  - apply IH; [|exact P]. split; [split; assumption|]. split; [exact Cf|]. intros q n Q. cbn [files clock] in *. specialize (Ti q n Q). destruct lk; lia.
  - destruct P as (-> & Hp & P). apply IH; [|exact P].
    assert (Ca : forall q, aget (o_cache T q) (aset p (NFile (clock s) t) (files s)) = aget (o_cache T q) (files s)) by (intros q; apply aget_aset_other; apply Hp).
    split; [|split].
    + split; [apply NoDup_aset; exact ND|]. cbn [files]. intros b mt x mt' c Q1 Q2. rewrite Ca in Q2. rewrite aget_aset in Q1.
      destruct (str_eqb (b ++ L ".py") p); [|exact (Oc _ _ _ _ _ Q1 Q2)]. injection Q1 as <- <-. left. exact (Ti _ _ Q2).
    + intros q n Q. cbn [files] in Q. rewrite Ca in Q. exact (Cf _ _ Q).
    + intros q n Q. cbn [files clock] in *. rewrite Ca in Q. exact (Ti _ _ Q).
  - apply IH; [|exact P].
    assert (Ad : forall k n, aget k (adel p (files s)) = Some n -> aget k (files s) = Some n).
    { intros k n Q. rewrite aget_adel in Q by exact ND. destruct (str_eqb k p); [discriminate Q | exact Q]. }
    split; [|split].
    + split; [apply NoDup_adel; exact ND|]. cbn [files]. intros b mt x mt' c Q1 Q2. exact (Oc _ _ _ _ _ (Ad _ _ Q1) (Ad _ _ Q2)).
    + intros q n Q. exact (Cf _ _ (Ad _ _ Q)).
    + intros q n Q. exact (Ti _ _ (Ad _ _ Q)).
  - apply IH; [|exact P]. destruct (dir_getmod T path nm s) as [r s'] eqn:E. cbn [snd]. unfold dir_getmod in E. cbv zeta in E.
    destruct (possibles_inv _ _ _ _ _ E (conj ND Oc) Cf Ti) as (A1 & A2 & A3 & _). split; [exact A1|]. split; assumption.
Qed.
Lemma clean_inv : forall s, clean T s -> finv false s.
Proof.
  intros s (ND & _ & C). split; [split; [exact ND|]; intros b mt t mt' c _ Q; rewrite C in Q; discriminate Q|].
  split; intros q n Q; rewrite C in Q; discriminate Q.
Qed.

Lemma always_fresh : forall l s path nm f s', clean T s -> paced T false l ->
  dir_getmod T path nm (fsteps T l s) = (Ok (Some f), s') ->
  exists b pkg, at_place T (fsteps T l s) path nm b pkg /\ found_at T b pkg f /\ fresh T (fsteps T l s) b f.
Proof.
  intros l s path nm f s' C P H. destruct (steps_inv l false s (clean_inv s C) P) as (I1 & I2 & I3). set (s1 := fsteps T l s) in *.
  unfold dir_getmod in H. cbv zeta in H.
  destruct (is_dir (pjoin path nm) s1) eqn:D; cbn [app] in H.
  - destruct (possibles_cons _ _ _ _ _ _ H) as [(A & B & F1)|(A & B)].
    + exists (pjoin (pjoin path nm) (L "__init__")), (Some (pjoin path nm)). split; [constructor; assumption|]. split; [exact (F1 f eq_refl)|].
      cbn [try_possibles] in H. destruct (scan T (pjoin (pjoin path nm) (L "__init__")) s1) as [p|[py pyc]] eqn:E.
      * injection H as <- _. intros co file k mt t Q. discriminate Q.
      * destruct (load T py pyc (Some (pjoin path nm)) s1) as [r1 s2] eqn:Ld.
        destruct (load_inv _ _ _ _ _ _ _ _ E Ld I1 I2 I3) as (_ & _ & _ & Fr & _).
        destruct py as [py|], pyc as [pyc|]; try (destruct r1 as [f1|e]; [injection H as <- _; exact (Fr _ eq_refl) | discriminate H]).
        exfalso. apply scan_none in E. contradiction.
    + destruct (possibles_inv _ _ _ _ _ B I1 I2 I3) as (_ & _ & _ & R). destruct (R f eq_refl) as (b & pkg & [Q|[]] & Fr & Fa). injection Q as <- <-.
      exists (pjoin path nm), None. split; [|split; assumption]. apply at_mod; [right; exact A|].
      destruct (possibles_cons _ _ _ _ _ _ B) as [(Q & _)|(_ & Q)]; [exact Q | discriminate Q].
  - destruct (possibles_inv _ _ _ _ _ H I1 I2 I3) as (_ & _ & _ & R). destruct (R f eq_refl) as (b & pkg & [Q|[]] & Fr & Fa). injection Q as <- <-.
    exists (pjoin path nm), None. split; [|split; assumption]. apply at_mod; [left; exact D|].
    destruct (possibles_cons _ _ _ _ _ _ H) as [(Q & _)|(_ & Q)]; [exact Q | discriminate Q].
Qed.
End Owner.

(** ** Templates *)
Section Templates.
Variable T : tools.
Variables d path nm ext : pystr.
Hypothesis E : elsewhere T d path nm ext.

Let no_module := no_module T path nm.
Let f := code_file d path nm ext.
Let tp := pjoin path (nm ++ ext).

Lemma no_module_aset : forall x n s c, In x [f; o_cache T f; tp] -> no_module s -> no_module (mkFs (aset x n (files s)) c).
Proof.
  intros x n s c Hx (A & B). destruct (E x Hx) as (E1 & E2 & _).
  split; intros (p & n' & Hp & Q); cbn [files] in Q; rewrite aget_aset in Q; destruct (str_eqb_spec p x) as [Q1|Q1]; try (subst; contradiction).
  - apply A. exists p, n'. split; assumption.
  - apply B. exists p, n'. split; assumption.
Qed.
Lemma no_module_clock : forall s c, no_module s -> no_module (mkFs (files s) c).
Proof. intros s c H. exact H. Qed.
Lemma dir_none : forall s, no_module s -> dir_getmod T path nm s = (Ok None, s).
Proof.
  intros s (A & B). destruct (dir_getmod T path nm s) as [r s'] eqn:Q. destruct (dir_choice T path nm s r s' Q) as (_ & C).
  destruct C as (-> & ->); [|reflexivity]. intros b pkg P. destruct P as [_ P|_ P]; contradiction.
Qed.
Lemma import_state : forall s r s', no_module s -> getmod T (Some d) [ext] path nm s = (r, s') ->
  no_module s' /\ (forall n, aget tp (files s) = Some n -> aget tp (files s') = Some n) /\ clock s' = clock s /\
  (forall fo, r = Ok (Some fo) -> exists mt t code co, aget tp (files s) = Some (NFile mt t) /\ o_template T nm t = Some code /\
     o_compile T (code ++ [10%N]) = Some co /\ (fo = FMod co f None \/ fo = FMod co tp None)) /\
  (r = Ok None -> aget tp (files s) = None).
Proof.
  intros s r s' N H. unfold getmod in H. rewrite (dir_none s N) in H. cbn [try_templates] in H. fold tp in H. unfold ahas in H.
  destruct (aget tp (files s)) as [n|] eqn:A.
  2: { injection H as <- <-. split; [exact N|]. split; [intros n Q; discriminate Q|]. split; [reflexivity|]. split; [intros fo Q; discriminate Q | reflexivity]. }
  unfold t_compile in H. cbv zeta in H. fold tp in H. rewrite A in H.
  assert (Same : forall e, r = Raise e -> s' = s -> no_module s' /\ (forall n0, Some n = Some n0 -> aget tp (files s') = Some n0) /\ clock s' = clock s /\
     (forall fo, r = Ok (Some fo) -> exists mt t code co, Some n = Some (NFile mt t) /\ o_template T nm t = Some code /\ o_compile T (code ++ [10%N]) = Some co /\ (fo = FMod co f None \/ fo = FMod co tp None)) /\ (r = Ok None -> Some n = None)).
  { intros e -> ->. split; [exact N|]. split; [intros n0 Q; congruence|]. split; [reflexivity|]. split; [intros fo Q; discriminate Q | intros Q; discriminate Q]. }
  destruct n as [mt|mt t]; [injection H as <- <-; exact (Same _ eq_refl eq_refl)|].
  destruct (o_template T nm t) as [code|] eqn:Tm; [|injection H as <- <-; exact (Same _ eq_refl eq_refl)].
  clear Same. change (pjoin d (convertTmplPathToModuleName tp) ++ L ".py") with f in H.
  assert (Ntp : ~ In tp [f; o_cache T f]) by (destruct (E tp) as (_ & _ & Q); [right; right; left; reflexivity | exact (Q eq_refl)]).
  assert (P : forall s2, py_compile T f s2 = s2 \/ exists n, py_compile T f s2 = mkFs (aset (o_cache T f) n (files s2)) (clock s2)).
  { intros s2. destruct (py_compile_cases T f s2) as [->|(a & b & c & _ & _ & ->)]; [left; reflexivity | right; eexists; reflexivity]. }
  assert (St : exists file s2, (match put T f code s with Some s3 => (f, py_compile T f s3) | None => (tp, s) end) = (file, s2) /\ (file = f \/ file = tp) /\
             no_module s2 /\ aget tp (files s2) = Some (NFile mt t) /\ clock s2 = clock s).
  { destruct (put T f code s) as [s3|] eqn:Pt.
    - apply put_ok in Pt. subst s3. set (s3 := mkFs (aset f (NFile (clock s) code) (files s)) (clock s)).
      assert (N3 : no_module s3) by (apply no_module_aset; [left; reflexivity | exact N]).
      assert (A3 : aget tp (files s3) = Some (NFile mt t)).
      { unfold s3. cbn [files]. rewrite aget_aset_other; [exact A|]. intros Q. apply Ntp. left. congruence. }
      exists f, (py_compile T f s3). split; [reflexivity|]. split; [left; reflexivity|]. destruct (P s3) as [->|(n & ->)].
      + split; [exact N3|]. split; [exact A3 | reflexivity].
      + split; [apply no_module_aset; [right; left; reflexivity | exact N3]|]. split; [|reflexivity]. cbn [files].
        rewrite aget_aset_other; [exact A3|]. intros Q. apply Ntp. right. left. congruence.
    - exists tp, s. split; [reflexivity|]. split; [right; reflexivity|]. split; [exact N|]. split; [exact A | reflexivity]. }
  destruct St as (file & s2 & Es & Hfile & N2 & A2 & C2). unfold pystr in *. rewrite Es in H.
  destruct (o_compile T (code ++ [10%N])) as [co|] eqn:Co; injection H as <- <-; (split; [exact N2|]; split; [intros n0 Q; congruence|]; split; [exact C2|]; split; [|intros Q; discriminate Q]).
  - intros fo Q. injection Q as <-. exists mt, t, code, co. split; [reflexivity|]. split; [exact Tm|]. split; [exact Co|]. destruct Hfile as [->| ->]; [left | right]; reflexivity.
  - intros fo Q. discriminate Q.
Qed.
Lemma tsteps_state : forall l s, no_module s -> no_module (tsteps T d path nm ext l s).
Proof.
  induction l as [|o l IH]; intros s N; [exact N|]. unfold tsteps. cbn [fold_left]. apply IH. destruct o as [|t|]; cbn [tstep].
  - exact N.
  - apply no_module_aset; [right; right; left; reflexivity | exact N].
  - destruct (getmod T (Some d) [ext] path nm s) as [r s'] eqn:Q. exact (proj1 (import_state s r s' N Q)).
Qed.
Lemma tsteps_text : forall l s mt t0, no_module s -> aget tp (files s) = Some (NFile mt t0) ->
  exists mt', aget tp (files (tsteps T d path nm ext l s)) = Some (NFile mt' (last_text l t0)).
Proof.
  induction l as [|o l IH]; intros s mt t0 N A; [exists mt; exact A|]. unfold tsteps. cbn [fold_left]. destruct o as [|t|]; cbn [tstep last_text].
  - exact (IH (mkFs (files s) (clock s + 1)) mt t0 N A).
  - apply (IH _ (clock s) t); [apply no_module_aset; [right; right; left; reflexivity | exact N]|]. cbn [files]. apply aget_aset_same.
  - destruct (getmod T (Some d) [ext] path nm s) as [r s'] eqn:Q. destruct (import_state s r s' N Q) as (N1 & A1 & _). exact (IH s' mt t0 N1 (A1 _ A)).
Qed.
Lemma template_fresh : forall l s mt t0 r s', no_module s -> aget tp (files s) = Some (NFile mt t0) ->
  getmod T (Some d) [ext] path nm (tsteps T d path nm ext l s) = (r, s') ->
  r <> Ok None /\ forall co file pkg, r = Ok (Some (FMod co file pkg)) ->
    exists code, o_template T nm (last_text l t0) = Some code /\ o_compile T (code ++ [10%N]) = Some co.
Proof.
  intros l s mt t0 r s' N A H. destruct (tsteps_text l s mt t0 N A) as (mt' & A').
  destruct (import_state _ r s' (tsteps_state l s N) H) as (_ & _ & _ & R & R0). split; [intros ->; rewrite R0 in A' by reflexivity; discriminate A'|].
  intros co file pkg ->. destruct (R _ eq_refl) as (mt1 & t1 & code & co1 & B1 & B2 & B3 & B4). rewrite A' in B1. injection B1 as <- <-.
  exists code. split; [exact B2|]. destruct B4 as [B4|B4]; injection B4 as <- _; exact B3.
Qed.
End Templates.

(** ** The path *)
Lemma getmod_none : forall T cd exts p nm s s', getmod T cd exts p nm s = (Ok None, s') -> s' = s.
Proof.
  intros T cd exts p nm s s' H. unfold getmod in H. destruct (dir_getmod T p nm s) as [[[f|]|e] s1] eqn:Q; try discriminate H.
  assert (s1 = s).
  { destruct (dir_choice T p nm s _ _ Q) as (A & B). apply B. intros b pkg P. destruct (A b pkg P) as (C & _). congruence. }
  subst s1. clear Q. induction exts as [|e exts IH]; cbn [try_templates] in H; [congruence|].
  destruct (ahas (pjoin p (nm ++ e)) (files s)); [|exact (IH H)]. destruct (t_compile T cd p nm e s) as [[f|x] s2]; discriminate H.
Qed.
Lemma search_first : forall T cd exts nm paths shadow s f sh' s', search T cd exts paths nm shadow s = (Ok (Some f), sh', s') ->
  exists pre p post, paths = pre ++ p :: post /\ owned shadow s p = true /\ getmod T cd exts p nm s = (Ok (Some f), s') /\
    forall q, In q pre -> owned shadow s q = true -> getmod T cd exts q nm s = (Ok None, s).
Proof.
  intros T cd exts nm. induction paths as [|p paths IH]; intros shadow s f sh' s' H; cbn [search] in H; [discriminate H|]. cbv zeta in H.
  set (sh := match aget p shadow with Some _ => shadow | None => aset p (is_dir p s) shadow end) in *.
  assert (Ow : forall q, owned sh s q = owned shadow s q).
  { intros q. unfold sh, owned. destruct (aget p shadow) eqn:A; [reflexivity|]. rewrite aget_aset. destruct (str_eqb_spec q p) as [->|]; [rewrite A; reflexivity | reflexivity]. }
  assert (Ap : aget p sh = Some (owned shadow s p)).
  { unfold sh, owned. destruct (aget p shadow) eqn:A; [exact A | apply aget_aset_same]. }
  rewrite Ap in H. destruct (owned shadow s p) eqn:O.
  - destruct (getmod T cd exts p nm s) as [[[f1|]|e] s1] eqn:G.
    + injection H as <- _ <-. exists [], p, paths. split; [reflexivity|]. split; [exact O|]. split; [exact G|]. intros q [].
    + pose proof (getmod_none _ _ _ _ _ _ _ G) as ->. destruct (IH sh s f sh' s' H) as (pre & p' & post & -> & P1 & P2 & P3).
      exists (p :: pre), p', post. split; [reflexivity|]. rewrite <- Ow. split; [exact P1|]. split; [exact P2|].
      intros q [<-|Hq] Oq; [exact G|]. apply P3; [exact Hq | rewrite Ow; exact Oq].
    + discriminate H.
  - destruct (IH sh s f sh' s' H) as (pre & p' & post & -> & P1 & P2 & P3).
    exists (p :: pre), p', post. split; [reflexivity|]. rewrite <- Ow. split; [exact P1|]. split; [exact P2|].
    intros q [<-|Hq] Oq; [congruence|]. apply P3; [exact Hq | rewrite Ow; exact Oq].
Qed.
