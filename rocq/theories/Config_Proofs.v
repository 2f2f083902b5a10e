(** Proofs about settings written in a template. *)
From Verif Require Import Base PyStr Alist Config_Model Config_Spec.

(** ** Words *)

Definition small (w : pystr) : Prop := Forall (fun c => ~ (65 <= c <= 90)%N) w.
Lemma lower_iff : forall s w, small w -> lower s = w <-> same_word s w.
Proof.
  induction s as [|c s IH]; intros w H.
  - split; intros E; [subst; constructor | inversion E; reflexivity].
  - destruct w as [|d w].
    + split; intros E; [discriminate E | inversion E].
    + assert (Hd := Forall_inv H). assert (Hw := Forall_inv_tail H). cbv beta in Hd.
      specialize (IH w Hw). unfold same_word in *. split; intros E.
      * cbn [lower map] in E. injection E as E1 E2. constructor; [|apply IH; exact E2].
        unfold same_letter. destruct ((65 <=? c)%N && (c <=? 90)%N) eqn:B;
          [apply andb_true_iff in B; destruct B as [B1 B2]; apply N.leb_le in B1, B2; right; left; lia | left; exact E1].
      * inversion E as [|? ? ? ? A1 A2]; subst. cbn [lower map]. f_equal; [|apply IH; exact A2].
        unfold same_letter in A1.
        destruct ((65 <=? c)%N && (c <=? 90)%N) eqn:B.
        -- apply andb_true_iff in B; destruct B as [B1 B2]; apply N.leb_le in B1, B2. lia.
        -- apply andb_false_iff in B; destruct B as [B|B]; apply N.leb_gt in B; lia.
Qed.
Lemma small_ok : forall w, forallb (fun c => negb ((65 <=? c) && (c <=? 90))%N) w = true -> small w.
Proof.
  intros w H. apply Forall_forall. intros c Hc. rewrite forallb_forall in H. specialize (H c Hc).
  apply negb_true_iff, andb_false_iff in H. destruct H as [H|H]; apply N.leb_gt in H; lia.
Qed.
Lemma lower_word : forall s w, small w -> str_eqb (lower s) w = true <-> same_word s w.
Proof.
  intros s w H. rewrite <- (lower_iff s w H). destruct (str_eqb_spec (lower s) w) as [E|E]; split; intros; auto; try discriminate; contradiction.
Qed.
Lemma lower_app : forall a b, lower (a ++ b) = lower a ++ lower b. Proof. intros. apply map_app. Qed.
Lemma same_word_len : forall a b, same_word a b -> length a = length b.
Proof. intros a b H. induction H; cbn; auto. Qed.
Lemma lower_prefix : forall s w, small w -> starts_with w (lower s) = true <-> exists a r, s = a ++ r /\ same_word a w.
Proof.
  intros s w H. rewrite starts_with_iff. split.
  - intros (r & E). exists (firstn (length w) s), (skipn (length w) s). rewrite firstn_skipn. split; [reflexivity|].
    apply lower_iff; [exact H|]. unfold lower in *. rewrite <- firstn_map, E.
    rewrite firstn_app, Nat.sub_diag, firstn_O, app_nil_r. apply firstn_all.
  - intros (a & r & -> & E). exists (lower r). rewrite lower_app. f_equal. apply lower_iff; assumption.
Qed.

Lemma strip_first : forall c r, is_space c = false -> exists r', strip (c :: r) = c :: r'.
Proof.
  intros c r H. destruct (strip_decomp (c :: r)) as (a & b & E & Ha & Hb).
  destruct a as [|x a].
  - cbn [app] in E. destruct (strip (c :: r)) as [|y q] eqn:K.
    + cbn [app] in E. subst b. inversion Hb; congruence.
    + cbn [app] in E. injection E as E1 E2. subst y. exists q. reflexivity.
  - cbn [app] in E. injection E as E1 E2. subst x. inversion Ha; congruence.
Qed.

(** ** Values *)
Section Values.
Variable P : pyenv.
Hypothesis Hs : sane P.

Lemma is_number_blank : forall s, strip s = [] -> is_number P s = Raise CIndex.
Proof. intros s H. unfold is_number. rewrite H. reflexivity. Qed.
Lemma covered_iff : forall s,
  match (match p_cnum P s with Some e => Some e | None => p_num P s end) with None => false | Some e => e =? length s end = true
  <-> covered P s.
Proof.
  intros s. unfold covered. destruct (p_cnum P s) as [e|].
  - rewrite Nat.eqb_eq. split; intros H; [left; congruence | destruct H as [H|[H _]]; congruence].
  - destruct (p_num P s) as [e|]; [rewrite Nat.eqb_eq|]; split; intros H; try discriminate;
      try (right; split; [reflexivity | congruence]); destruct H as [H|[_ H]]; congruence.
Qed.
Lemma is_number_iff : forall s, strip s <> [] ->
  exists b, is_number P s = Ok b /\ (b = true <-> numeral P (strip s)).
Proof.
  intros s H. unfold is_number. destruct (strip s) as [|c r] eqn:E; [contradiction|].
  eexists. split; [reflexivity|]. cbv zeta. rewrite covered_iff.
  destruct ((c =? 45) || (c =? 43))%N eqn:C.
  - apply orb_true_iff in C. rewrite !N.eqb_eq in C. destruct r as [|x r]; cbn [andb negb].
    + split; intros K.
      * exfalso. destruct K as [K|[_ K]]; [apply (fun z => Hs c [] _ (or_intror z)) in K | apply (fun z => Hs c [] _ (or_introl z)) in K]; destruct C; lia.
      * inversion K; subst; try congruence; destruct C; congruence.
    + split; intros K; [apply num_sign; [exact C | discriminate | exact K] | inversion K; subst; [destruct C; contradiction | assumption]].
  - apply orb_false_iff in C. rewrite !N.eqb_neq in C. cbn [andb]. destruct C as [C1 C2].
    split; intros K; [apply num_plain; assumption | inversion K; subst; [assumption | destruct H2; contradiction]].
Qed.

(** The four words and the prefix exclude each other and numbers. *)
Lemma first_of : forall a w, same_word a w -> match w with [] => a = [] | d :: w => exists c r, a = c :: r /\ same_letter c d /\ same_word r w end.
Proof. intros a w H. inversion H; subst; [reflexivity | do 2 eexists; repeat split; eassumption]. Qed.
Lemma letter_no_num : forall c r s, strip s = c :: r -> (65 <= c)%N -> ~ numeral P (strip s).
Proof.
  intros c r s E H K. rewrite E in K. inversion K as [c' r' H1 H2 H3 E3|c' r' H1 H2 H3 E3]; subst.
  - destruct H3 as [K1|[_ K1]]; [apply (fun z => Hs c r _ (or_intror z)) in K1 | apply (fun z => Hs c r _ (or_introl z)) in K1]; lia.
  - destruct H1; lia.
Qed.
Definition lettered (s : pystr) : Prop := exists c r, s = c :: r /\ (65 <= c <= 122)%N.
Lemma lettered_strip : forall s, lettered s -> strip s <> [] /\ ~ numeral P (strip s).
Proof.
  intros s (c & r & -> & H).
  assert (K : is_space c = false) by (unfold is_space; lia).
  destruct (strip_first c r K) as (r' & E). split; [rewrite E; discriminate|].
  apply (letter_no_num c r' (c :: r) E). lia.
Qed.
Lemma lettered_word : forall a b w d, same_word a (d :: w) -> (97 <= d <= 122)%N -> lettered (a ++ b).
Proof.
  intros a b w d H Hd. apply first_of in H. destruct H as (c & r & -> & [H|[H|H]] & _);
  exists c, (r ++ b); (split; [reflexivity|lia]).
Qed.

Lemma convert_ok : forall val r, convert P val = r <-> means P val r.
Proof.
  intros val r.
  assert (S1 : small (L "python:")) by (apply small_ok; reflexivity).
  assert (S2 : small (L "none")) by (apply small_ok; reflexivity).
  assert (S3 : small (L "true")) by (apply small_ok; reflexivity).
  assert (S4 : small (L "false")) by (apply small_ok; reflexivity).
  assert (LP : forall a b, same_word a (L "python:") -> lettered (a ++ b)) by (intros a b K; eapply lettered_word; [exact K | cbv; split; discriminate]).
  assert (LN : same_word val (L "none") -> lettered val) by (intros K; rewrite <- (app_nil_r val); eapply lettered_word; [exact K | cbv; split; discriminate]).
  assert (LT : same_word val (L "true") -> lettered val) by (intros K; rewrite <- (app_nil_r val); eapply lettered_word; [exact K | cbv; split; discriminate]).
  assert (LF : same_word val (L "false") -> lettered val) by (intros K; rewrite <- (app_nil_r val); eapply lettered_word; [exact K | cbv; split; discriminate]).
  unfold convert.
  destruct (starts_with (L "python:") (lower val)) eqn:EP.
  { apply (lower_prefix val _ S1) in EP. destruct EP as (a & b & -> & Ha).
    destruct (lettered_strip (a ++ b) (LP a b Ha)) as [HN HM].
    destruct (is_number_iff (a ++ b) HN) as (nb & En & Hn).
    assert (nb = false) as -> by (destruct nb; [exfalso; apply HM, Hn; reflexivity | reflexivity]).
    assert (La := same_word_len _ _ Ha).
    assert (EN : skipn 7 (a ++ b) = b) by (change 7 with (length (L "python:")); rewrite <- La, skipn_app, skipn_all, Nat.sub_diag; reflexivity).
    rewrite EN.
    assert (N2 : str_eqb (lower (a ++ b)) (L "none") = false).
    { apply not_true_is_false. intros K. apply (lower_word _ _ S2) in K. apply same_word_len in K. rewrite app_length, La in K. cbn in K. lia. }
    assert (N3 : str_eqb (lower (a ++ b)) (L "true") = false).
    { apply not_true_is_false. intros K. apply (lower_word _ _ S3) in K. apply same_word_len in K. rewrite app_length, La in K. cbn in K. lia. }
    assert (N4 : str_eqb (lower (a ++ b)) (L "false") = false).
    { apply not_true_is_false. intros K. apply (lower_word _ _ S4) in K. apply same_word_len in K. rewrite app_length, La in K. cbn in K. lia. }
    rewrite N2, N3, N4, En. cbn [bind].
    assert (EE : bind (p_eval P b) (fun v => Ok v) = p_eval P b) by (destruct (p_eval P b); reflexivity).
    cbv beta iota zeta. rewrite EE. split.
    - intros <-. eapply m_code; [reflexivity | exact Ha].
    - intros M. inversion M as [A1 A2|w q A1 A2|A|A|A|A|A1 A2 A3 A4 A5 A6]; subst.
      + exfalso. apply A2. exists a, b. split; [reflexivity | exact Ha].
      + assert (Lw := same_word_len _ _ A2). assert (b = q); [|congruence].
        apply (f_equal (skipn 7)) in A1. rewrite EN in A1. rewrite A1. change 7 with (length (L "python:")).
        rewrite <- Lw, skipn_app, skipn_all, Nat.sub_diag. reflexivity.
      + exfalso. apply same_word_len in A. rewrite app_length, La in A. cbn in A. lia.
      + exfalso. apply same_word_len in A. rewrite app_length, La in A. cbn in A. lia.
      + exfalso. apply same_word_len in A. rewrite app_length, La in A. cbn in A. lia.
      + contradiction.
      + exfalso. apply A2. exists a, b. split; [reflexivity | exact Ha]. }
  assert (HP : ~ (exists w q, val = w ++ q /\ same_word w (L "python:"))).
  { intros K. apply (lower_prefix val _ S1) in K. congruence. }
  cbn [bind].
  destruct (strip val) as [|c0 q0] eqn:ES.
  { rewrite is_number_blank by exact ES. cbn [bind].
    assert (NL : ~ lettered val) by (intros K; apply lettered_strip in K; destruct K; contradiction).
    split.
    - intros <-. apply m_blank; [exact ES | exact HP].
    - intros M. inversion M as [A1 A2|w q A1 A2|A|A|A|A|A1 A2 A3 A4 A5 A6]; subst.
      + reflexivity.
      + exfalso. apply HP. do 2 eexists. split; [reflexivity | exact A2].
      + exfalso; auto.
      + exfalso; auto.
      + exfalso; auto.
      + rewrite ES in A. inversion A.
      + contradiction. }
  assert (HN : strip val <> []) by (rewrite ES; discriminate).
  destruct (is_number_iff val HN) as (nb & En & Hn). rewrite En. cbn [bind].
  assert (LW : forall w1 w2, same_word val w1 -> small w1 -> same_word val w2 -> small w2 -> w1 = w2).
  { intros w1 w2 K1 T1 K2 T2. apply (lower_iff _ _ T1) in K1. apply (lower_iff _ _ T2) in K2. congruence. }
  destruct nb.
  { assert (HM : numeral P (strip val)) by (apply Hn; reflexivity).
    split.
    - intros <-. apply m_num. exact HM.
    - intros M. inversion M as [A1 A2|w q A1 A2|A|A|A|A|A1 A2 A3 A4 A5 A6]; subst.
      + congruence.
      + exfalso. apply HP. do 2 eexists. split; [reflexivity | exact A2].
      + exfalso. apply LN in A. apply lettered_strip in A. destruct A; contradiction.
      + exfalso. apply LT in A. apply lettered_strip in A. destruct A; contradiction.
      + exfalso. apply LF in A. apply lettered_strip in A. destruct A; contradiction.
      + reflexivity.
      + contradiction. }
  assert (HM : ~ numeral P (strip val)) by (intros K; apply Hn in K; discriminate K).
  destruct (str_eqb (lower val) (L "false")) eqn:E4.
  { apply (lower_word _ _ S4) in E4. split.
    - intros <-. apply m_false. exact E4.
    - intros M. inversion M as [A1 A2|w q A1 A2|A|A|A|A|A1 A2 A3 A4 A5 A6]; subst; try contradiction; try reflexivity.
      + exfalso. apply HP. do 2 eexists. split; [reflexivity | exact A2].
      + discriminate (LW _ _ A S2 E4 S4).
      + discriminate (LW _ _ A S3 E4 S4). }
  destruct (str_eqb (lower val) (L "true")) eqn:E3.
  { apply (lower_word _ _ S3) in E3. split.
    - intros <-. apply m_true. exact E3.
    - intros M. inversion M as [A1 A2|w q A1 A2|A|A|A|A|A1 A2 A3 A4 A5 A6]; subst; try contradiction; try reflexivity.
      + exfalso. apply HP. do 2 eexists. split; [reflexivity | exact A2].
      + discriminate (LW _ _ A S2 E3 S3).
      + discriminate (LW _ _ A S4 E3 S3). }
  destruct (str_eqb (lower val) (L "none")) eqn:E2.
  { apply (lower_word _ _ S2) in E2. split.
    - intros <-. apply m_none. exact E2.
    - intros M. inversion M as [A1 A2|w q A1 A2|A|A|A|A|A1 A2 A3 A4 A5 A6]; subst; try contradiction; try reflexivity.
      + exfalso. apply HP. do 2 eexists. split; [reflexivity | exact A2].
      + discriminate (LW _ _ A S3 E2 S2).
      + discriminate (LW _ _ A S4 E2 S2). }
  assert (D2 : ~ same_word val (L "none")) by (intros K; apply (lower_word _ _ S2) in K; congruence).
  assert (D3 : ~ same_word val (L "true")) by (intros K; apply (lower_word _ _ S3) in K; congruence).
  assert (D4 : ~ same_word val (L "false")) by (intros K; apply (lower_word _ _ S4) in K; congruence).
  split.
  - intros <-. apply m_text; assumption.
  - intros M. inversion M as [A1 A2|w q A1 A2|A|A|A|A|A1 A2 A3 A4 A5 A6]; subst; try contradiction; try reflexivity.
    + exfalso. apply HP. do 2 eexists. split; [reflexivity | exact A2].
Qed.
End Values.

(** ** Dictionaries *)
Lemma aget_update : forall A (d st : list (pystr * A)) k, NoDup (keys d) ->
  aget k (update st d) = match aget k d with Some v => Some v | None => aget k st end.
Proof.
  intros A. induction d as [|[n v] d IH]; intros st k H; [reflexivity|].
  cbn [keys map fst] in H. inversion H as [|? ? H1 H2]; subst. cbn [update]. rewrite (IH _ _ H2). cbn [aget].
  rewrite aget_aset. destruct (str_eqb_spec k n) as [E|E].
  - subst. apply aget_None_keys in H1. rewrite H1. reflexivity.
  - reflexivity.
Qed.
Lemma NoDup_update : forall A (d st : list (pystr * A)), NoDup (keys st) -> NoDup (keys (update st d)).
Proof. intros A. induction d as [|[n v] d IH]; intros st H; [exact H|]. cbn [update]. apply IH, NoDup_aset, H. Qed.
Lemma aget_map : forall A B (f : A -> B) d k, aget k (map (fun p => (fst p, f (snd p))) d) = option_map f (aget k d).
Proof.
  intros A B f. induction d as [|[n v] d IH]; intros k; [reflexivity|]. cbn [map aget fst snd].
  destruct (str_eqb k n); [reflexivity | apply IH].
Qed.
Lemma keys_map : forall A B (f : A -> B) d, keys (map (fun p => (fst p, f (snd p))) d) = keys d.
Proof. intros A B f d. unfold keys. rewrite map_map. reflexivity. Qed.
Lemma aget_merge : forall b a k, NoDup (keys b) ->
  aget k (merge a b) = match aget k b with Some w => Some (over (aget k a) w) | None => aget k a end.
Proof.
  induction b as [|[n v] d IH]; intros st k H; [reflexivity|].
  cbn [keys map fst] in H. inversion H as [|? ? H1 H2]; subst. cbn [merge]. rewrite (IH _ _ H2). cbn [aget].
  rewrite aget_aset. destruct (str_eqb_spec k n) as [E|E].
  - subst. apply aget_None_keys in H1. rewrite H1. reflexivity.
  - reflexivity.
Qed.
Lemma over_plain : forall old v, plain v -> over old v = v.
Proof. intros old v H. destruct v; try reflexivity. exfalso. exact (H d eq_refl). Qed.

(** ** Sections *)
Section Sections.
Variable P : pyenv.
Hypothesis Hs : sane P.

Lemma imp_small : small (L "importsettings"). Proof. apply small_ok. reflexivity. Qed.
Lemma glob_small : small (L "globals"). Proof. apply small_ok. reflexivity. Qed.

Lemma options_ok : forall o d, options P true o = Ok d <-> Forall2 (reads P) o d.
Proof.
  induction o as [|[k val] o IH]; intros d.
  - cbn [options]. split; intros H; [injection H as <-; constructor | inversion H; reflexivity].
  - cbn [options]. split; intros H.
    + destruct (convert P val) as [v|e] eqn:C; cbn [bind] in H; [|discriminate H].
      destruct (str_eqb (lower k) (L "importsettings")) eqn:I; [discriminate H|].
      destruct (options P true o) as [d'|e] eqn:D; cbn [bind] in H; [|discriminate H]. injection H as <-.
      constructor; [|apply IH; reflexivity]. split; [reflexivity|split].
      * apply (convert_ok P Hs). exact C.
      * cbn [fst]. intros K. apply (lower_word _ _ imp_small) in K. congruence.
    + inversion H as [|? [k' v] ? d' (E1 & E2 & E3) H2]; subst. cbn [fst snd] in *. subst k'.
      apply (convert_ok P Hs) in E2. rewrite E2. cbn [bind].
      assert (I : str_eqb (lower k) (L "importsettings") = false).
      { apply not_true_is_false. intros K. apply E3. apply (lower_word _ _ imp_small). exact K. }
      rewrite I. apply IH in H2. rewrite H2. reflexivity.
Qed.
Lemma reads_keys : forall o d, Forall2 (reads P) o d -> keys d = keys o.
Proof. intros o d H. induction H as [|x y o d (E & _) H IH]; [reflexivity|]. unfold keys in *. cbn [map]. congruence. Qed.
Lemma sect_keys : forall ss ds, Forall2 (sect_reads P) ss ds -> keys ds = keys ss.
Proof. intros o d H. induction H as [|x y o d (E & _) H IH]; [reflexivity|]. unfold keys in *. cbn [map]. congruence. Qed.

Lemma sections_reads : forall ss st st', sections P true ss st = Ok st' -> exists ds, Forall2 (sect_reads P) ss ds.
Proof.
  induction ss as [|[s o] ss IH]; intros st st' H; [exists []; constructor|].
  cbn [sections] in H. destruct (options P true o) as [d|e] eqn:D; cbn [bind] in H; [|discriminate H]. cbv zeta in H.
  assert (exists st, sections P true ss st = Ok st') as (st1 & K).
  { destruct (str_eqb (lower s) (L "globals")); [|eexists; exact H].
    match type of H with match ?x with _ => _ end = _ => destruct x as [[l|[]]|] end; try discriminate H. eexists; exact H. }
  destruct (IH _ _ K) as (ds & F). exists ((s, d) :: ds). constructor; [|exact F]. split; [reflexivity|].
  apply options_ok. exact D.
Qed.

Definition globalb (n : pystr) : bool := str_eqb (lower n) (L "globals").
Lemma globalb_iff : forall n, globalb n = true <-> global n.
Proof. intros n. apply lower_word. exact glob_small. Qed.
Lemma globalb_false : forall n, globalb n = false <-> ~ global n.
Proof. intros n. rewrite <- globalb_iff. destruct (globalb n); split; intros; congruence. Qed.

(** The last section globals with this option. *)
Fixpoint gl (ds : list (pystr * tree)) (k : pystr) : option cv :=
  match ds with
  | [] => None
  | (g, d) :: b => match gl b k with Some v => Some v | None => if globalb g then aget k d else None end
  end.
Lemma gl_snoc : forall a g d k, gl (a ++ [(g, d)]) k =
  match (if globalb g then aget k d else None) with Some v => Some v | None => gl a k end.
Proof.
  induction a as [|[g' d'] a IH]; intros g d k; cbn [app gl].
  - destruct (globalb g); [destruct (aget k d)|]; reflexivity.
  - rewrite IH. destruct (if globalb g then aget k d else None); reflexivity.
Qed.
Definition top (ds : list (pystr * tree)) (k : pystr) : option cv :=
  match gl ds k with
  | Some v => Some v
  | None => if globalb k then None else option_map CDict (aget k ds)
  end.
Definition unmixed_d (ds : list (pystr * tree)) : Prop :=
  forall g d n d', In (g, d) ds -> global g -> In (n, d') ds -> global n -> aget n d = None.

Lemma gl_none : forall ds k, gl ds k = None <-> forall g d, In (g, d) ds -> global g -> aget k d = None.
Proof.
  induction ds as [|[g d] ds IH]; intros k; cbn [gl].
  - split; [intros _ g d [] | reflexivity].
  - specialize (IH k). destruct (gl ds k) as [v|] eqn:E.
    + split; [discriminate|]. intros H. exfalso. assert (Some v = None); [|discriminate]. apply IH.
      intros g' d' HI. apply H. right; exact HI.
    + destruct (globalb g) eqn:G.
      * apply globalb_iff in G. split.
        -- intros K g' d' [HI|HI] HG; [injection HI as <- <-; exact K | apply (proj1 IH eq_refl _ _ HI HG)].
        -- intros H. apply (H g d (or_introl eq_refl) G).
      * split; [|reflexivity]. intros _ g' d' [HI|HI] HG.
        -- injection HI as <- <-. apply globalb_iff in HG. congruence.
        -- apply (proj1 IH eq_refl _ _ HI HG).
Qed.
Lemma gl_some : forall ds k v, gl ds k = Some v -> exists a g d b, ds = a ++ (g, d) :: b /\ global g /\ aget k d = Some v /\
  (forall g' d', In (g', d') b -> global g' -> aget k d' = None).
Proof.
  induction ds as [|[g d] ds IH]; intros k v; cbn [gl]; [discriminate|].
  destruct (gl ds k) as [w|] eqn:E.
  - intros H. injection H as ->. destruct (IH k v E) as (a & g' & d' & b & -> & H). exists ((g, d) :: a), g', d', b. split; [reflexivity | exact H].
  - destruct (globalb g) eqn:G; [|discriminate]. intros H. exists [], g, d, ds. split; [reflexivity|].
    split; [apply globalb_iff; exact G|]. split; [exact H|]. apply gl_none. exact E.
Qed.
Lemma top_sets : forall ds k, NoDup (keys ds) -> sets ds k (top ds k).
Proof.
  intros ds k ND. unfold top. destruct (gl ds k) as [v|] eqn:E.
  - destruct (gl_some _ _ _ E) as (a & g & d & b & E1 & E2 & E3 & E4). eapply sets_global; eassumption.
  - assert (H := proj1 (gl_none _ _) E). destruct (globalb k) eqn:G.
    + apply sets_none; [exact H | left; apply globalb_iff; exact G].
    + destruct (aget k ds) as [d|] eqn:A; cbn [option_map].
      * apply sets_section; [exact H | apply globalb_false; exact G | apply aget_Some_In; exact A].
      * apply sets_none; [exact H | right]. intros d HI. apply (In_aget _ _ _ ND) in HI. congruence.
Qed.
Lemma sets_det : forall ds k, NoDup (keys ds) -> forall v, sets ds k v -> top ds k = v.
Proof.
  intros ds k ND v H. unfold top. destruct H as [a g d b v E G A H|d H N I|H N].
  - assert (K : gl ds k = Some v); [|rewrite K; reflexivity]. subst ds. clear ND. induction a as [|[g' d'] a IH]; cbn [app gl].
    + apply gl_none in H. rewrite H. apply globalb_iff in G. rewrite G. exact A.
    + rewrite IH. reflexivity.
  - apply gl_none in H. rewrite H. apply globalb_false in N. rewrite N. apply (In_aget _ _ _ ND) in I. rewrite I. reflexivity.
  - apply gl_none in H. rewrite H. destruct N as [N|N]; [apply globalb_iff in N; rewrite N; reflexivity|].
    destruct (globalb k); [reflexivity|]. destruct (aget k ds) as [d|] eqn:A; [|reflexivity].
    apply aget_Some_In in A. exfalso. exact (N _ A).
Qed.

Definition inv (dpre : list (pystr * tree)) (rest : list (pystr * list (pystr * pystr))) (st : list (pystr * entry)) : Prop :=
  forall k, aget k st = match gl dpre k with
    | Some v => Some (Done v)
    | None => match aget k rest with
              | Some o => Some (Sec o)
              | None => if globalb k then None else option_map (fun d => Done (CDict d)) (aget k dpre)
              end
    end.
Lemma aget_app : forall A (a b : list (pystr * A)) k, aget k (a ++ b) = match aget k a with Some v => Some v | None => aget k b end.
Proof. intros A. induction a as [|[n v] a IH]; intros b k; [reflexivity|]. cbn [app aget]. destruct (str_eqb k n); [reflexivity | apply IH]. Qed.

Lemma sections_loop : forall rest drest, Forall2 (sect_reads P) rest drest -> forall dpre st,
  NoDup (keys (dpre ++ drest)) -> Forall (fun s => NoDup (keys (snd s))) rest -> unmixed_d (dpre ++ drest) ->
  NoDup (keys st) -> inv dpre rest st ->
  exists st', sections P true rest st = Ok st' /\ NoDup (keys st') /\ inv (dpre ++ drest) [] st'.
Proof.
  intros rest drest F. induction F as [|[s o] [s' d] rest drest (E1 & E2) F IH]; intros dpre st ND NO UM NS I.
  - exists st. rewrite app_nil_r. split; [reflexivity|split; assumption].
  - cbn [fst snd] in E1, E2. subst s'.
    assert (Kd := reads_keys _ _ E2). apply options_ok in E2. cbn [sections]. rewrite E2. cbn [bind]. cbv zeta.
    assert (NO1 := Forall_inv NO). assert (NO2 := Forall_inv_tail NO). cbn [snd] in NO1. rewrite <- Kd in NO1.
    assert (AS : dpre ++ (s, d) :: drest = (dpre ++ [(s, d)]) ++ drest) by (rewrite <- app_assoc; reflexivity).
    assert (Nsr : aget s rest = None).
    { apply aget_None_keys. rewrite <- (sect_keys _ _ F). unfold keys in ND. rewrite map_app in ND. cbn [map fst] in ND.
      apply NoDup_remove_2 in ND. intros K. apply ND, in_or_app. right. exact K. }
    assert (Nsp : aget s dpre = None).
    { apply aget_None_keys. unfold keys in ND. rewrite map_app in ND. cbn [map fst] in ND.
      apply NoDup_remove_2 in ND. intros K. apply ND, in_or_app. left. exact K. }
    assert (Is := I s). cbn [aget] in Is. rewrite str_eqb_refl in Is.
    destruct (str_eqb (lower s) (L "globals")) eqn:G.
    + assert (Gg : global s) by (apply globalb_iff; exact G).
      assert (GN : gl dpre s = None).
      { apply gl_none. intros g d0 HI HG. eapply (UM g d0 s d); [apply in_or_app; left; exact HI | exact HG | apply in_or_app; right; left; reflexivity | exact Gg]. }
      rewrite GN in Is. rewrite Is. rewrite aget_aset_same.
      assert (Nd : aget s d = None).
      { eapply (UM s d s d); try exact Gg; apply in_or_app; right; left; reflexivity. }
      set (st1 := aset s (Done (CDict d)) st).
      set (D := map (fun p => (fst p, Done (snd p))) d).
      assert (ND1 : NoDup (keys st1)) by (apply NoDup_aset; exact NS).
      assert (NDu : NoDup (keys (update st1 D))) by (apply NoDup_update; exact ND1).
      rewrite AS. apply IH; try assumption.
      * rewrite <- AS. exact ND.
      * rewrite <- AS. exact UM.
      * apply NoDup_adel. exact NDu.
      * intros k. rewrite (aget_adel k s _ NDu). rewrite gl_snoc. unfold globalb at 1. rewrite G.
        destruct (str_eqb_spec k s) as [E|E].
        -- subst k. rewrite Nd, GN, Nsr. unfold globalb. rewrite G. reflexivity.
        -- rewrite aget_update by (unfold D; rewrite keys_map; exact NO1). unfold D. rewrite aget_map.
           destruct (aget k d) as [v|]; cbn [option_map]; [reflexivity|].
           unfold st1. rewrite aget_aset_other by exact E. rewrite I. destruct (gl dpre k); [reflexivity|].
           cbn [aget]. destruct (str_eqb_spec k s) as [E'|E']; [contradiction|].
           destruct (aget k rest); [reflexivity|]. rewrite aget_app. cbn [aget].
           destruct (str_eqb_spec k s) as [E''|E'']; [contradiction|]. destruct (aget k dpre); reflexivity.
    + assert (exists st1, (match aget s st with Some (Sec _) => aset s (Done (CDict d)) st | _ => st end) = st1 /\
        NoDup (keys st1) /\ inv (dpre ++ [(s, d)]) rest st1) as (st1 & -> & N1 & I1).
      { eexists. split; [reflexivity|]. rewrite Is.
        assert (GS : forall k, gl (dpre ++ [(s, d)]) k = gl dpre k) by (intros k; rewrite gl_snoc; unfold globalb; rewrite G; reflexivity).
        destruct (gl dpre s) as [v|] eqn:GG.
        - split; [exact NS|]. intros k. rewrite GS, I. destruct (gl dpre k) eqn:GK; [reflexivity|]. cbn [aget].
          destruct (str_eqb_spec k s) as [E|E]; [subst; congruence|].
          destruct (aget k rest); [reflexivity|]. rewrite aget_app. cbn [aget].
          destruct (str_eqb_spec k s) as [E''|E'']; [contradiction|]. destruct (aget k dpre); reflexivity.
        - split; [apply NoDup_aset; exact NS|]. intros k. rewrite GS, aget_aset. destruct (str_eqb_spec k s) as [E|E].
          + subst k. rewrite GG, Nsr. unfold globalb. rewrite G. rewrite aget_app, Nsp. cbn [aget]. rewrite str_eqb_refl. reflexivity.
          + rewrite I. destruct (gl dpre k) eqn:GK; [reflexivity|]. cbn [aget].
            destruct (str_eqb_spec k s) as [E'|E']; [contradiction|].
            destruct (aget k rest); [reflexivity|]. rewrite aget_app. cbn [aget].
            destruct (str_eqb_spec k s) as [E''|E'']; [contradiction|]. destruct (aget k dpre); reflexivity. }
      rewrite AS. apply IH; try assumption; [rewrite <- AS; exact ND | rewrite <- AS; exact UM].
Qed.

Lemma unmixed_reads : forall ss ds, Forall2 (sect_reads P) ss ds -> unmixed ss -> unmixed_d ds.
Proof.
  intros ss ds F U g d n d' H1 H2 H3 H4.
  assert (B : forall n d, In (n, d) ds -> exists o, In (n, o) ss /\ keys d = keys o).
  { clear - F. induction F as [|[s o] [s' e] ss ds (E1 & E2) F IH]; intros n d H; [destruct H|].
    cbn [fst snd] in *. subst s'. destruct H as [H|H].
    - injection H as -> ->. exists o. split; [left; reflexivity | apply reads_keys; exact E2].
    - destruct (IH n d H) as (o' & K & Q). exists o'. split; [right; exact K | exact Q]. }
  destruct (B _ _ H1) as (o & K1 & Q1). destruct (B _ _ H3) as (o' & K3 & Q3).
  specialize (U g o n o' K1 H2 K3 H4). apply aget_None_keys. rewrite Q1. apply aget_None_keys. exact U.
Qed.

Lemma aget_sec : forall (ss : list (pystr * list (pystr * pystr))) k, aget k (map (fun p => (fst p, Sec (snd p))) ss) = option_map Sec (aget k ss).
Proof. intros. apply aget_map. Qed.
Lemma read_ok : forall ss ds, distinct ss -> unmixed ss -> Forall2 (sect_reads P) ss ds ->
  exists t, read_config P true ss = Ok t /\ NoDup (keys t) /\ forall k, aget k t = top ds k.
Proof.
  intros ss ds (D1 & D2) U F. assert (Kd := sect_keys _ _ F).
  destruct (sections_loop ss ds F [] (map (fun p => (fst p, Sec (snd p))) ss)) as (st & E & N & I).
  - cbn [app]. rewrite Kd. exact D1.
  - exact D2.
  - cbn [app]. exact (unmixed_reads _ _ F U).
  - rewrite keys_map. exact D1.
  - intros k. cbn [gl]. rewrite aget_sec. destruct (aget k ss); [reflexivity|]. cbn. destruct (globalb k); reflexivity.
  - unfold read_config. rewrite E. cbn [bind]. eexists. split; [reflexivity|]. split; [rewrite keys_map; exact N|].
    intros k. rewrite aget_map, I. unfold top. cbn [app aget]. destruct (gl ds k); [reflexivity|].
    destruct (globalb k); [reflexivity|]. destruct (aget k ds); reflexivity.
Qed.
Lemma read_sets : forall ss ds, distinct ss -> unmixed ss -> Forall2 (sect_reads P) ss ds ->
  exists t, read_config P true ss = Ok t /\ forall k v, aget k t = v <-> sets ds k v.
Proof.
  intros ss ds D U F. destruct (read_ok ss ds D U F) as (t & E & _ & A). exists t. split; [exact E|]. intros k v.
  assert (ND : NoDup (keys ds)) by (rewrite (sect_keys _ _ F); apply D).
  rewrite A. split; [intros <-; apply top_sets; exact ND | apply sets_det; exact ND].
Qed.
Lemma read_iff : forall ss, distinct ss -> unmixed ss ->
  (exists t, read_config P true ss = Ok t) <-> (exists ds, Forall2 (sect_reads P) ss ds).
Proof.
  intros ss D U. split.
  - intros (t & E). unfold read_config in E.
    match type of E with bind ?x _ = _ => destruct x as [st|e] eqn:S end; [|discriminate E]. exact (sections_reads _ _ _ S).
  - intros (ds & F). destruct (read_ok ss ds D U F) as (t & E & _). exists t. exact E.
Qed.

(** ** Directives *)
Lemma reset_small : small (L "reset"). Proof. apply small_ok. reflexivity. Qed.
Lemma has_iff : forall x l, has x l = true <-> In x l.
Proof.
  intros x l. unfold has. rewrite existsb_exists. split.
  - intros (y & H & E). apply str_eqb_eq in E. subst. exact H.
  - intros H. exists x. split; [exact H | apply str_eqb_refl].
Qed.
Lemma has_not : forall x l, ~ In x l -> has x l = false.
Proof. intros x l H. apply not_true_is_false. intros K. apply has_iff in K. contradiction. Qed.
Lemma aget_public : forall d k, aget k (filter public d) = match k with 95%N :: _ => None | _ => aget k d end.
Proof.
  intros d k.
  assert (Q : match k with 95%N :: _ => None | _ => aget k d end = if starts_with (L "_") k then None else aget k d).
  { destruct k as [|c k]; [reflexivity|]. change (starts_with (L "_") (c :: k)) with ((95 =? c)%N && true).
    destruct (95 =? c)%N eqn:C; [apply N.eqb_eq in C; subst c; reflexivity|]. cbn [andb].
    destruct c as [|p]; [reflexivity|]. do 8 (destruct p; try reflexivity; try discriminate C). }
  rewrite Q. clear Q. induction d as [|[n v] d IH]; [destruct (starts_with (L "_") k); reflexivity|].
  cbn [filter]. unfold public at 1. cbn [fst]. destruct (starts_with (L "_") n) eqn:S; cbn [negb].
  - rewrite IH. cbn [aget]. destruct (str_eqb_spec k n) as [E|E]; [subst; rewrite S; reflexivity | reflexivity].
  - cbn [aget]. destruct (str_eqb_spec k n) as [E|E]; [subst; rewrite S; reflexivity | exact IH].
Qed.
Lemma NoDup_filter_keys : forall A f (d : list (pystr * A)), NoDup (keys d) -> NoDup (keys (filter f d)).
Proof.
  intros A f. induction d as [|[n v] d IH]; intros H; [constructor|]. cbn [keys map fst] in H.
  inversion H as [|? ? H1 H2]; subst. cbn [filter]. destruct (f (n, v)); [|apply IH; exact H2].
  cbn [keys map fst]. constructor; [|apply IH; exact H2]. intros K. apply H1. unfold keys in *. apply in_map_iff in K.
  destruct K as (x & E & K). apply filter_In in K. apply in_map_iff. exists x. split; [exact E | apply K].
Qed.

Definition given (old new : option cv) : option cv := match new with Some v => Some v | None => old end.
Lemma take_given : forall st new k v, NoDup (keys new) -> aget k new = v -> (forall w, v = Some w -> plain w) ->
  aget k (take st new) = given (aget k st) v.
Proof.
  intros st new k v ND E H. unfold take, update_settings.
  match goal with |- context [if ?b then _ else _] => destruct b end.
  - rewrite aget_merge by exact ND. rewrite E. destruct v as [w|]; [|reflexivity]. cbn [given]. rewrite over_plain; [reflexivity | apply H; reflexivity].
  - rewrite aget_update by exact ND. rewrite E. destruct v; reflexivity.
Qed.
Lemma init_given : forall dflt st k v, NoDup (keys dflt) -> aget k dflt = v -> (forall w, v = Some w -> plain w) ->
  aget k (initialize dflt st) = given (aget k st) v.
Proof.
  intros dflt st k v ND E H. unfold initialize, update_settings. rewrite aget_merge by exact ND. rewrite E.
  destruct v as [w|]; [|reflexivity]. cbn [given]. rewrite over_plain; [reflexivity | apply H; reflexivity].
Qed.

Lemma op_given : forall dflt k o v, NoDup (keys dflt) -> writes P dflt k o v -> (forall w, v = Some w -> plain w) ->
  forall st, exists st', apply_op P dflt o st = Ok st' /\ aget k st' = given (aget k st) v.
Proof.
  intros dflt k o v ND W H st. unfold apply_op.
  destruct W as [n e v R E|n e R|kws s R|kws s new R Y E N|kws s ss ds v R Y E D U F T].
  - assert (str_eqb (lower n) (L "reset") = false) as ->.
    { apply not_true_is_false. intros K. apply (lower_word _ _ reset_small) in K. contradiction. }
    rewrite E. eexists. split; [reflexivity|]. rewrite aget_aset. destruct (str_eqb k n); reflexivity.
  - apply (lower_word _ _ reset_small) in R. rewrite R. eexists. split; [reflexivity|]. apply init_given; [exact ND | reflexivity | exact H].
  - apply has_iff in R. rewrite R. eexists. split; [reflexivity|]. apply init_given; [exact ND | reflexivity | exact H].
  - rewrite (has_not _ _ R). apply has_iff in Y. rewrite Y. unfold update_from_py. rewrite E. eexists. split; [reflexivity|].
    apply take_given; [apply NoDup_filter_keys; exact N | apply aget_public | exact H].
  - rewrite (has_not _ _ R), (has_not _ _ Y). unfold update_from_config. rewrite E. cbn [bind].
    destruct (read_ok ss ds D U F) as (t & ET & NT & AT). rewrite ET. eexists. split; [reflexivity|].
    apply take_given; [exact NT | | exact H]. rewrite AT. apply sets_det; [|exact T].
    rewrite (sect_keys _ _ F). apply D.
Qed.
Lemma ops_app : forall dflt a b st, apply_ops P dflt (a ++ b) st = bind (apply_ops P dflt a st) (apply_ops P dflt b).
Proof.
  intros dflt a b. induction a as [|o a IH]; intros st; [reflexivity|]. cbn [app apply_ops].
  destruct (apply_op P dflt o st) as [st'|e]; cbn [bind]; [apply IH | reflexivity].
Qed.
Lemma ops_kept : forall dflt k l, NoDup (keys dflt) -> Forall (fun o => writes P dflt k o None) l ->
  forall st, exists st', apply_ops P dflt l st = Ok st' /\ aget k st' = aget k st.
Proof.
  intros dflt k l ND F. induction F as [|o l H F IH]; intros st; [exists st; split; reflexivity|].
  cbn [apply_ops]. destruct (op_given dflt k o None ND H ltac:(discriminate) st) as (st1 & E & A).
  rewrite E. cbn [bind]. destruct (IH st1) as (st2 & E2 & A2). exists st2. split; [exact E2|]. rewrite A2. exact A.
Qed.
Lemma last_writer : forall dflt k l o v r st st1, NoDup (keys dflt) -> apply_ops P dflt l st = Ok st1 ->
  writes P dflt k o (Some v) -> plain v -> Forall (fun o => writes P dflt k o None) r ->
  exists st2, apply_ops P dflt (l ++ o :: r) st = Ok st2 /\ aget k st2 = Some v.
Proof.
  intros dflt k l o v r st st1 ND E W PV F. rewrite ops_app, E. cbn [bind apply_ops].
  destruct (op_given dflt k o (Some v) ND W ltac:(intros w Q; injection Q as <-; exact PV) st1) as (st2 & E2 & A2).
  rewrite E2. cbn [bind]. destruct (ops_kept dflt k r ND F st2) as (st3 & E3 & A3). exists st3. split; [exact E3|]. rewrite A3. exact A2.
Qed.
End Sections.
