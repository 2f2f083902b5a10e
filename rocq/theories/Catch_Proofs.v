(** Proofs for the error catchers. *)
From Verif Require Import Base PyStr StrConst_Model PyLiteral_Spec StrConst_Proofs Catch_Model Catch_Spec.
Local Open Scope N_scope.

(** ** Reading the literals *)

Lemma plain_tail : forall q c s, s <> [] -> plain_in3 q (c :: s) -> plain_in3 q s.
Proof.
  intros q c s Hs (H1 & H2 & H3). split; [|split].
  - intros d Hd. apply H1. right; assumption.
  - destruct s as [|a [|b r]]; try reflexivity.
    cbn [quotes3] in H2. apply orb_false_iff in H2. tauto.
  - destruct s; [congruence|]. exact H3.
Qed.

(** One step over a plain text: the closing quotes are not met early. *)
Lemma plain_step : forall q c s t, plain_in3 q (c :: s) -> c = q ->
  exists q1 q2 r, s ++ q :: q :: q :: t = q1 :: q2 :: r /\ (q1 =? q) && (q2 =? q) = false.
Proof.
  intros q c s t (H1 & H2 & H3) ->. destruct s as [|a [|b r]].
  - cbn in H3. congruence.
  - cbn [last] in H3. apply N.eqb_neq in H3. eexists _, _, _. split; [reflexivity|]. rewrite H3. reflexivity.
  - cbn [quotes3] in H2. apply orb_false_iff in H2 as [H2 _]. rewrite N.eqb_refl in H2.
    eexists _, _, _. split; [reflexivity|]. exact H2.
Qed.

Lemma plain_ind : forall q (P : pystr -> Prop), P [] ->
  (forall c s, plain_in3 q (c :: s) -> P s -> P (c :: s)) ->
  forall s, plain_in3 q s -> P s.
Proof.
  intros q P H0 HS. induction s as [|c s IH]; intros H; [exact H0|].
  apply HS; [exact H|]. destruct s; [exact H0|]. apply IH. eapply plain_tail; eauto. discriminate.
Qed.

Lemma lit_plain3 : forall q s, plain_in3 q s -> lit_body true q (s ++ [q; q; q]) = Some s.
Proof.
  intros q. apply plain_ind.
  - cbn [app lit_body]. rewrite !N.eqb_refl. reflexivity.
  - intros c s H HL. destruct (H) as (H1 & _ & _). destruct (H1 c (or_introl eq_refl)) as (Hb & _ & H0).
    cbn [app lit_body]. destruct (c =? q) eqn:E.
    + apply N.eqb_eq in E. destruct (plain_step q c s [] H E) as (q1 & q2 & r & Es & Eq).
      rewrite Es in *. rewrite Eq, HL. reflexivity.
    + apply N.eqb_neq in Hb, H0. rewrite Hb, H0, HL. destruct (c =? 10); reflexivity.
Qed.

Lemma scan_plain3 : forall q t s, plain_in3 q s -> q <> 92 ->
  lit_scan true q false (s ++ q :: q :: q :: t) = Some (length s + 3)%nat.
Proof.
  intros q t s Hs Hq. revert s Hs. apply plain_ind.
  - cbn [app lit_scan length]. apply N.eqb_neq in Hq. rewrite Hq, !N.eqb_refl. reflexivity.
  - intros c s H HL. destruct (H) as (H1 & _ & _). destruct (H1 c (or_introl eq_refl)) as (Hb & _ & _).
    apply N.eqb_neq in Hb. cbn [app lit_scan length]. rewrite Hb. destruct (c =? q) eqn:E.
    + apply N.eqb_eq in E. destruct (plain_step q c s t H E) as (q1 & q2 & r & Es & Eq).
      rewrite Es in *. rewrite Eq, HL. reflexivity.
    + rewrite HL. reflexivity.
Qed.

Lemma plain_nocr : forall q s, plain_in3 q s -> ~ In CR s.
Proof. intros q s (H & _) HI. apply H in HI. unfold CR in HI. tauto. Qed.

Lemma take_plain3 : forall q s t, q = SQ \/ q = DQ -> plain_in3 q s ->
  take_lit (q :: q :: q :: s ++ q :: q :: q :: t) = Some (s, t).
Proof.
  intros q s t HQ H. unfold take_lit.
  replace ((q =? 39) || (q =? 34)) with true by (destruct HQ as [-> | ->]; reflexivity).
  rewrite !N.eqb_refl. cbn [andb].
  rewrite scan_plain3 by (auto; destruct HQ as [-> | ->]; discriminate).
  cbn [option_map]. set (n := (3 + (length s + 3))%nat).
  assert (E : q :: q :: q :: s ++ q :: q :: q :: t = (q :: q :: q :: s ++ [q; q; q]) ++ t)
    by (cbn [app]; rewrite <- app_assoc; reflexivity).
  assert (En : n = length (q :: q :: q :: s ++ [q; q; q]))
    by (unfold n; cbn [length]; rewrite app_length; cbn [length]; lia).
  rewrite E, En, firstn_app, skipn_app, firstn_all, skipn_all, Nat.sub_diag, firstn_O, skipn_O, app_nil_r.
  cbn [app]. unfold eval_literal. rewrite universal_newlines_id.
  - replace ((q =? 39) || (q =? 34)) with true by (destruct HQ as [-> | ->]; reflexivity).
    rewrite !N.eqb_refl. cbn [andb]. rewrite lit_plain3 by assumption. reflexivity.
  - intros HI. assert (Hcr : q <> CR) by (destruct HQ as [-> | ->]; discriminate).
    destruct HI as [HI|[HI|[HI|HI]]]; try congruence.
    apply in_app_iff in HI as [HI|HI]; [eapply plain_nocr; eauto|].
    destruct HI as [HI|[HI|[HI|[]]]]; congruence.
Qed.

Section Repr.
Variable printable : N -> bool.

Lemma scan_word : forall q w t, (forall c, In c w -> c <> BS /\ c <> q) ->
  lit_scan false q false (w ++ t) = option_map (Nat.add (length w)) (lit_scan false q false t).
Proof.
  intros q w t. induction w as [|c w IH]; intros H.
  - cbn [app length]. destruct (lit_scan false q false t); reflexivity.
  - destruct (H c (or_introl eq_refl)) as [Hb Hc]. apply N.eqb_neq in Hb, Hc. unfold BS in Hb.
    cbn [app lit_scan length]. rewrite Hb, Hc, IH by (intros d Hd; apply H; right; assumption).
    destruct (lit_scan false q false t); reflexivity.
Qed.

(** The characters of the hexadecimal digits. *)
Lemma hexdigit_plain : forall d, d < 16 -> hexdigit d <> BS /\ hexdigit d <> SQ /\ hexdigit d <> DQ.
Proof.
  intros d H. unfold hexdigit, BS, SQ, DQ. destruct (d <? 10) eqn:E; [apply N.ltb_lt in E|]; lia.
Qed.

Lemma hexn_plain : forall q n v c, q = SQ \/ q = DQ -> In c (hexn n v) -> c <> BS /\ c <> q.
Proof.
  intros q n. induction n as [|n IH]; intros v c HQ H; [contradiction|].
  cbn [hexn] in H. apply in_app_iff in H as [H|[H|[]]].
  - eapply IH; eauto.
  - subst c. destruct (hexdigit_plain (v mod 16)) as (A & B & C); [apply N.mod_lt; lia|].
    split; [exact A|]. destruct HQ as [-> | ->]; assumption.
Qed.

Lemma scan_esc : forall q e w t, (forall c, In c w -> c <> BS /\ c <> q) ->
  lit_scan false q false (BS :: e :: w ++ t)
  = option_map (Nat.add (length (BS :: e :: w))) (lit_scan false q false t).
Proof.
  intros q e w t H. cbn [lit_scan]. change (BS =? 92) with true. cbv iota.
  rewrite scan_word by assumption. cbn [length]. destruct (lit_scan false q false t); reflexivity.
Qed.

Lemma scan_tok : forall q c t, q = SQ \/ q = DQ ->
  lit_scan false q false (repr_char printable q c ++ t)
  = option_map (Nat.add (length (repr_char printable q c))) (lit_scan false q false t).
Proof.
  intros q c t HQ.
  assert (HH : forall n v d, In d (hexn n v) -> d <> BS /\ d <> q) by (intros; eapply hexn_plain; eauto).
  assert (HN : forall d : N, In d [] -> d <> BS /\ d <> q) by (intros d []).
  unfold repr_char.
  destruct ((c =? q) || (c =? BS)) eqn:E1.
  { exact (scan_esc q c [] t HN). }
  apply orb_false_iff in E1 as [Eq Eb]. apply N.eqb_neq in Eq, Eb.
  assert (HP : forall d, In d [c] -> d <> BS /\ d <> q) by (intros d [<-|[]]; auto).
  destruct (c =? TAB); [exact (scan_esc q 116 [] t HN)|].
  destruct (c =? NL); [exact (scan_esc q 110 [] t HN)|].
  destruct (c =? CR); [exact (scan_esc q 114 [] t HN)|].
  destruct ((c <? 32) || (c =? 127)); [exact (scan_esc q 120 _ t (HH 2%nat c))|].
  destruct (c <? 127); [exact (scan_word q [c] t HP)|].
  destruct (printable c); [exact (scan_word q [c] t HP)|].
  destruct (c <=? 255); [exact (scan_esc q 120 _ t (HH 2%nat c))|].
  destruct (c <=? 65535); [exact (scan_esc q 117 _ t (HH 4%nat c))|exact (scan_esc q 85 _ t (HH 8%nat c))].
Qed.

Lemma scan_repr : forall q s t, q = SQ \/ q = DQ ->
  lit_scan false q false (concat (map (repr_char printable q) s) ++ q :: t)
  = Some (length (concat (map (repr_char printable q) s)) + 1)%nat.
Proof.
  intros q s t HQ. induction s as [|c s IH].
  - cbn [map concat app lit_scan length]. rewrite N.eqb_refl.
    replace (q =? 92) with false by (destruct HQ as [-> | ->]; reflexivity). reflexivity.
  - cbn [map concat]. rewrite <- app_assoc, scan_tok, IH, app_length by assumption.
    cbn [option_map]. f_equal. lia.
Qed.

Lemma take_repr : forall s t, valid_str s -> (forall r, t <> SQ :: r /\ t <> DQ :: r) ->
  take_lit (repr printable s ++ t) = Some (s, t).
Proof.
  intros s t HV Ht.
  pose proof (repr_roundtrip printable s HV) as HR.
  unfold take_lit. unfold repr in *. pose proof (repr_quote_cases s) as HQ.
  set (q := repr_quote s) in *. set (B := concat (map (repr_char printable q) s)) in *.
  cbn [app]. rewrite <- app_assoc. cbn [app].
  replace ((q =? 39) || (q =? 34)) with true by (destruct HQ as [-> | ->]; reflexivity).
  assert (HS : lit_scan false q false (B ++ q :: t) = Some (length B + 1)%nat)
    by (apply scan_repr; assumption).
  assert (HN : match B ++ q :: t with
               | q1 :: q2 :: r' =>
                   if (q1 =? q) && (q2 =? q) then option_map (Nat.add 3) (lit_scan true q false r')
                   else option_map (Nat.add 1) (lit_scan false q false (B ++ q :: t))
               | _ => option_map (Nat.add 1) (lit_scan false q false (B ++ q :: t))
               end = Some (length B + 2)%nat).
  { rewrite HS. cbn [option_map].
    assert (HF : forall q1 q2 r, B ++ q :: t = q1 :: q2 :: r -> (q1 =? q) && (q2 =? q) = false).
    { intros q1 q2 r HE. apply andb_false_iff. destruct s as [|c s'].
      - subst B. cbn [map concat app] in HE. inversion HE; subst q1 t. right. apply N.eqb_neq.
        destruct (Ht r) as [Ha Hb]. destruct HQ as [E|E]; rewrite E; congruence.
      - subst B. cbn [map concat] in HE. left. apply N.eqb_neq.
        destruct (tok_shape printable q HQ c) as [Hc|Hc|H1 H2 H2' H3 H4|x r' H1 H2 H3 H4 H5 H6];
          cbn [app] in HE; inversion HE; subst; auto; destruct HQ as [E|E]; rewrite E; discriminate. }
    destruct (B ++ q :: t) as [|q1 [|q2 r]] eqn:EB.
    - f_equal; lia.
    - f_equal; lia.
    - rewrite (HF q1 q2 r eq_refl). f_equal; lia. }
  rewrite HN.
  assert (E : q :: B ++ q :: t = (q :: B ++ [q]) ++ t) by (cbn [app]; rewrite <- app_assoc; reflexivity).
  assert (En : (length B + 2)%nat = length (q :: B ++ [q]))
    by (cbn [length]; rewrite app_length; cbn [length]; lia).
  rewrite E, En, firstn_app, skipn_app, firstn_all, skipn_all, Nat.sub_diag, firstn_O, skipn_O, app_nil_r.
  rewrite HR. reflexivity.
Qed.

Lemma after_app : forall p s, after p (p ++ s) = Some s.
Proof. induction p as [|c p IH]; intros s; cbn [app after]; [destruct s; reflexivity|]. rewrite N.eqb_refl. apply IH. Qed.

Lemma str_eqb_refl' : forall s, str_eqb s s = true.
Proof. intros s. destruct (str_eqb_spec s s); congruence. Qed.

Lemma read_eval_line : forall code, plain_in3 SQ code -> read_eval (eval_line code) = Some code.
Proof.
  intros code H. unfold read_eval, eval_line.
  change (L "return eval('''") with (L "return eval(" ++ [SQ; SQ; SQ]).
  rewrite <- app_assoc, after_app. cbn [app].
  change (L "''', globals(), localsDict)") with (SQ :: SQ :: SQ :: L ", globals(), localsDict)").
  rewrite take_plain3 by auto. rewrite str_eqb_refl'. reflexivity.
Qed.

Lemma read_warn_line : forall code raw pos, valid_str code -> valid_str raw ->
  read_warn (warn_line printable code raw pos) = Some (code, raw, pos_text pos).
Proof.
  intros code raw pos H1 H2. unfold read_warn, warn_line. rewrite after_app.
  rewrite take_repr by (auto; intros r; split; discriminate). rewrite after_app.
  rewrite take_repr by (auto; intros r; split; discriminate). rewrite after_app.
  rewrite rev_app_distr. change (rev (L ")")) with [41]. cbn [app]. rewrite rev_involutive. reflexivity.
Qed.

Lemma read_catch_lines : forall k, plain_in3 SQ (k_code k) -> valid_str (k_code k) -> valid_str (k_raw k) ->
  read_method (catch_lines printable k)
  = Some (k_code k, (k_code k, k_raw k, pos_text (k_pos k))).
Proof.
  intros k H1 H2 H3. unfold read_method, catch_lines. rewrite !str_eqb_refl'. cbn [Nat.eqb andb].
  rewrite read_eval_line, read_warn_line by assumption. reflexivity.
Qed.
End Repr.

(** ** The methods of a page *)

(** The part of a method that its code depends on. *)
Definition core (k : catcher) := (k_name k, k_code k, k_raw k, k_pos k).

Definition core_list (st : cstate) := map core (c_list st).

Fixpoint find_raw (raw : pystr) (l : list (pystr * pystr * pystr * (N * N))) : option (pystr * pystr * (N * N)) :=
  match l with
  | [] => None
  | (name, code, raw', pos) :: r => if str_eqb raw raw' then Some (name, code, pos) else find_raw raw r
  end.

Definition name_code_pos_inv (ps : list (pystr * pystr * (N * N))) (st : cstate) : Prop :=
  (forall raw, match find_raw raw (core_list st) with
               | Some (name, code, pos) =>
                   first_use raw ps = Some (code, pos) /\ find_key raw (c_map st) = Some name
               | None => first_use raw ps = None /\ find_key raw (c_map st) = None
               end)
  /\ map k_name (c_list st) = map (fun i => catcher_name (N.of_nat i)) (seq 1 (length (c_list st)))
  /\ c_count st = N.of_nat (length (c_list st))
  /\ NoDup (map k_raw (c_list st)).

Lemma inv_start : name_code_pos_inv [] c_start.
Proof. repeat split; constructor. Qed.

Lemma core_add_doc : forall name line k, core (add_doc name line k) = core k.
Proof. intros name line k. unfold add_doc. destruct (str_eqb _ _); reflexivity. Qed.

Lemma core_map_add_doc : forall name line l, map core (map (add_doc name line) l) = map core l.
Proof. intros name line l. rewrite map_map. apply map_ext. intros. apply core_add_doc. Qed.

Lemma core_names : forall l l', map core l = map core l' -> map k_name l = map k_name l'.
Proof.
  intros l l' H.
  assert (E : forall l, map k_name l = map (fun x => fst (fst (fst x))) (map core l))
    by (intros; rewrite map_map; reflexivity).
  rewrite !E, H. reflexivity.
Qed.

Lemma core_raws : forall l, map k_raw l = map (fun x => snd (fst x)) (map core l).
Proof. intros; rewrite map_map; reflexivity. Qed.

Lemma core_len : forall l l', map core l = map core l' -> length l = length l'.
Proof. intros l l' H. apply (f_equal (@length _)) in H. rewrite !map_length in H. exact H. Qed.

Lemma first_use_app : forall raw a b,
  first_use raw (a ++ b) = match first_use raw a with Some x => Some x | None => first_use raw b end.
Proof.
  intros raw a b. induction a as [|[[code raw'] pos] a IH]; cbn [app first_use]; [reflexivity|].
  destruct (str_eqb raw raw'); [reflexivity|]. exact IH.
Qed.

Lemma find_raw_app : forall raw a b,
  find_raw raw (a ++ b) = match find_raw raw a with Some x => Some x | None => find_raw raw b end.
Proof.
  intros raw a b. induction a as [|[[[n code] raw'] pos] a IH]; cbn [app find_raw]; [reflexivity|].
  destruct (str_eqb raw raw'); [reflexivity|]. exact IH.
Qed.

Lemma find_raw_none : forall raw l, find_raw raw l = None -> ~ In raw (map (fun x => snd (fst x)) l).
Proof.
  intros raw l. induction l as [|[[[n code] raw'] pos] l IH]; intros H HI; [contradiction|].
  cbn [find_raw map snd fst] in *. destruct (str_eqb_spec raw raw') as [E|E]; [discriminate|].
  destruct HI as [HI|HI]; [congruence|]. exact (IH H HI).
Qed.

Lemma NoDup_snoc : forall (A : Type) (l : list A) x, NoDup l -> ~ In x l -> NoDup (l ++ [x]).
Proof.
  intros A l x H Hx. induction H as [|y l Hy H IH]; cbn [app].
  - constructor; [intros []|constructor].
  - constructor.
    + rewrite in_app_iff. intros [HI|[HI|[]]]; [contradiction|]. subst. apply Hx. left; reflexivity.
    + apply IH. intros HI. apply Hx. right; assumption.
Qed.

Lemma inv_add : forall rc code raw pos ps st name st',
  add_catcher rc code raw pos st = (name, st') -> name_code_pos_inv ps st ->
  name_code_pos_inv (ps ++ [(code, raw, pos)]) st'
  /\ find_key raw (c_map st') = Some name
  /\ (forall r n, find_key r (c_map st) = Some n -> find_key r (c_map st') = Some n).
Proof.
  intros rc code raw pos ps st name st' H (I1 & I2 & I3 & I4). unfold add_catcher in H.
  pose proof (I1 raw) as Hr.
  destruct (find_key raw (c_map st)) as [n|] eqn:Ef.
  - assert (En : n = name) by congruence. subst n.
    assert (Est : c_map st' = c_map st /\ c_count st' = c_count st /\ core_list st' = core_list st).
    { injection H as H. destruct rc; subst st'; repeat split. unfold core_list. cbn [c_list].
      apply core_map_add_doc. }
    destruct Est as (E1 & E2 & E3).
    pose proof (core_len _ _ E3) as E4.
    split; [|split; [congruence|intros; congruence]].
    split; [|split; [|split]].
    + intros r. pose proof (I1 r) as Hr'. rewrite E3, E1.
      rewrite first_use_app. cbn [first_use].
      destruct (find_raw r (core_list st)) as [[[n' c'] p']|] eqn:F.
      * destruct Hr' as [Ha Hb]. rewrite Ha. split; [reflexivity|assumption].
      * destruct Hr' as [Ha Hb]. rewrite Ha.
        destruct (str_eqb_spec r raw) as [E|E]; [subst r; congruence|]. split; [reflexivity|assumption].
    + rewrite (core_names _ _ E3), E4. exact I2.
    + rewrite E2, E4. exact I3.
    + rewrite core_raws. unfold core_list in E3. rewrite E3, <- core_raws. exact I4.
  - injection H as H0 H. subst st'. subst name.
    assert (EL : core_list (mkCstate (c_count st + 1) ((raw, catcher_name (c_count st + 1)) :: c_map st)
                  (c_list st ++ [mkCatcher (catcher_name (c_count st + 1)) code raw pos []]))
                 = core_list st ++ [(catcher_name (c_count st + 1), code, raw, pos)]).
    { unfold core_list. cbn [c_list]. rewrite map_app. reflexivity. }
    destruct (find_raw raw (core_list st)) as [[[n' c'] p']|] eqn:F; [destruct Hr; congruence|].
    split; [|split].
    + split; [|split; [|split]].
      * intros r. rewrite EL, find_raw_app, first_use_app. cbn [find_raw first_use c_map find_key].
        pose proof (I1 r) as Hr'. destruct (str_eqb_spec r raw) as [E|E].
        -- subst r. rewrite F in Hr' |- *. destruct Hr as [Ha Hb]. rewrite Ha. split; reflexivity.
        -- destruct (find_raw r (core_list st)) as [[[n' c'] p']|].
           ++ destruct Hr' as [Ha Hb]. rewrite Ha. split; [reflexivity|assumption].
           ++ destruct Hr' as [Ha Hb]. rewrite Ha. split; [reflexivity|assumption].
      * cbn [c_list]. rewrite map_app, app_length, I2. cbn [map length].
        rewrite Nat.add_1_r, seq_S, map_app. cbn [map]. rewrite I3. do 3 f_equal. cbn [k_name]. f_equal. lia.
      * cbn [c_count c_list]. rewrite app_length. cbn [length]. lia.
      * cbn [c_list]. rewrite map_app. cbn [map k_raw]. apply NoDup_snoc; [exact I4|].
        rewrite core_raws. apply find_raw_none. exact F.
    + cbn [c_map find_key]. rewrite str_eqb_refl'. reflexivity.
    + intros r n Hn. cbn [c_map find_key]. destruct (str_eqb_spec r raw) as [E|E]; [subst r; congruence|assumption].
Qed.

Lemma inv_adds : forall rc ps done st es st',
  add_catchers rc ps st = (es, st') -> name_code_pos_inv done st ->
  name_code_pos_inv (done ++ ps) st'
  /\ (forall r n, find_key r (c_map st) = Some n -> find_key r (c_map st') = Some n)
  /\ Forall2 (fun p e => exists name, find_key (snd (fst p)) (c_map st') = Some name /\ e = catch_expr name) ps es.
Proof.
  intros rc ps. induction ps as [|[[code raw] pos] ps IH]; intros done st es st' H HI; cbn [add_catchers] in H.
  - injection H as H1 H2. subst. rewrite app_nil_r. split; [exact HI|]. split; [auto|constructor].
  - destruct (add_catcher rc code raw pos st) as [name st1] eqn:E1.
    destruct (add_catchers rc ps st1) as [es1 st2] eqn:E2. injection H as H1 H2. subst es st2.
    destruct (inv_add _ _ _ _ _ _ _ _ E1 HI) as (HI1 & Hn & Hm).
    destruct (IH _ _ _ _ E2 HI1) as (HI2 & Hm2 & HF).
    rewrite <- app_assoc in HI2. cbn [app] in HI2. split; [exact HI2|]. split; [auto|].
    constructor; [|exact HF]. exists name. split; [apply Hm2; exact Hn|reflexivity].
Qed.

Lemma catcher_name_inj : forall a b, catcher_name a = catcher_name b -> a = b.
Proof. intros a b H. unfold catcher_name in H. apply app_inv_head in H. apply str_of_N_inj in H. exact H. Qed.

Lemma names_nodup : forall n i, NoDup (map (fun i => catcher_name (N.of_nat i)) (seq i n)).
Proof.
  induction n as [|n IH]; intros i; cbn [seq map]; constructor; [|apply IH].
  intros HI. apply in_map_iff in HI as (j & Hj & HI). apply in_seq in HI.
  apply catcher_name_inj in Hj. lia.
Qed.

Lemma find_raw_some : forall raw l n c p, find_raw raw l = Some (n, c, p) -> In (n, c, raw, p) l.
Proof.
  intros raw l n c p. induction l as [|[[[n' c'] r'] p'] l IH]; intros H; [discriminate|].
  cbn [find_raw] in H. destruct (str_eqb_spec raw r') as [E|E].
  - injection H as -> -> ->. subst. left; reflexivity.
  - right. apply IH. exact H.
Qed.

Lemma find_raw_in : forall raw l n c p, NoDup (map (fun x => snd (fst x)) l) -> In (n, c, raw, p) l ->
  find_raw raw l = Some (n, c, p).
Proof.
  intros raw l n c p HN HI. induction l as [|[[[n' c'] r'] p'] l IH]; [contradiction|].
  cbn [map snd fst] in HN. inversion HN as [|? ? Ha Hb]; subst. cbn [find_raw].
  destruct HI as [HI|HI].
  - injection HI as -> -> -> ->. rewrite str_eqb_refl'. reflexivity.
  - destruct (str_eqb_spec raw r') as [E|E]; [|apply IH; assumption].
    subst r'. exfalso. apply Ha. apply in_map_iff. exists (n, c, raw, p). split; [reflexivity|assumption].
Qed.

Lemma Forall2_weaken : forall (A B : Type) (P Q : A -> B -> Prop) l m,
  (forall a b, P a b -> Q a b) -> Forall2 P l m -> Forall2 Q l m.
Proof. intros A B P Q l m H HF. induction HF; constructor; auto. Qed.

(** All methods of a page: one per source text, with different names; each placeholder calls the one
    that evaluates the code of the first placeholder with its source text. *)
Lemma catchers_of_page : forall printable rc ps es st,
  add_catchers rc ps c_start = (es, st) ->
  (forall code raw pos, In (code, raw, pos) ps -> plain_in3 SQ code /\ valid_str code /\ valid_str raw) ->
  NoDup (map k_name (c_list st)) /\ NoDup (map k_raw (c_list st))
  /\ (forall k, In k (c_list st) -> first_use (k_raw k) ps = Some (k_code k, k_pos k))
  /\ Forall2 (fun p e => exists k code pos,
       In k (c_list st)
       /\ e = L "self." ++ k_name k ++ L "(localsDict=locals())"
       /\ catch_sig k = L "def " ++ k_name k ++ L "(self, localsDict={})"
       /\ first_use (snd (fst p)) ps = Some (code, pos)
       /\ read_method (catch_lines printable k) = Some (code, (code, snd (fst p), pos_text pos))) ps es.
Proof.
  intros printable rc ps es st H HP.
  destruct (inv_adds _ _ _ _ _ _ H inv_start) as ((I1 & I2 & I3 & I4) & _ & HF). cbn [app] in I1.
  assert (HK : forall k, In k (c_list st) -> first_use (k_raw k) ps = Some (k_code k, k_pos k)).
  { intros k Hk. pose proof (I1 (k_raw k)) as Hr.
    rewrite (find_raw_in (k_raw k) (core_list st) (k_name k) (k_code k) (k_pos k)) in Hr.
    - tauto.
    - unfold core_list. rewrite <- core_raws. exact I4.
    - unfold core_list. apply in_map_iff. exists k. split; [reflexivity|assumption]. }
  split; [rewrite I2; apply names_nodup|]. split; [exact I4|]. split; [exact HK|].
  assert (HU : forall raw code pos, first_use raw ps = Some (code, pos) -> In (code, raw, pos) ps).
  { intros raw code pos. clear. induction ps as [|[[c r] p] ps IH]; cbn [first_use]; [discriminate|].
    destruct (str_eqb_spec raw r) as [E|E].
    - intros HE. injection HE as -> ->. subst. left; reflexivity.
    - intros HE. right. apply IH. exact HE. }
  revert HF. apply Forall2_weaken. intros [[code raw] pos] e (name & Hn & He). cbn [fst snd] in *.
  pose proof (I1 raw) as Hr. destruct (find_raw raw (core_list st)) as [[[n c] p]|] eqn:F; [|destruct Hr; congruence].
  destruct Hr as [Hf Hk]. assert (n = name) by congruence. subst n.
  apply find_raw_some in F. unfold core_list in F. apply in_map_iff in F as (k & Ek & Hki).
  unfold core in Ek. injection Ek as E1 E2 E3 E4.
  exists k, c, p. rewrite E1. split; [exact Hki|]. split; [exact He|].
  split; [unfold catch_sig; rewrite E1; reflexivity|]. split; [exact Hf|].
  destruct (HP _ _ _ (HU _ _ _ Hf)) as (P1 & P2 & P3).
  rewrite read_catch_lines by (rewrite ?E2, ?E3; assumption). rewrite E2, E3, E4. reflexivity.
Qed.

(** ** At run time *)

Lemma text_class : forall name, text_catcher name ->
  exists c, class_named name = Some c /\ c <> CKeyError
            /\ (c = CListErrors <-> name = L "ListErrors") /\ (c = CBigEcho <-> name = L "BigEcho").
Proof.
  intros name [<-|[<-|[<-|[<-|[]]]]]; eexists; (split; [reflexivity|]);
    (split; [discriminate|]); split; split; intros H; try discriminate H; reflexivity.
Qed.

Definition log_of (r : rstate) (log : list entry) : Prop :=
  match find_key (L "ListErrors") (r_dict r) with
  | Some i => nth_error (r_objs r) i = Some (CListErrors, log)
  | None => log = []
  end.

(** The objects behind the names. *)
Definition robjs (r : rstate) : Prop :=
  forall name i, text_catcher name -> find_key name (r_dict r) = Some i ->
    exists c l, nth_error (r_objs r) i = Some (c, l) /\ class_named name = Some c.

Definition rcur (cur : option pystr) (r : rstate) : Prop :=
  match cur with
  | None => r_cur r = None
  | Some name => text_catcher name /\ exists i, r_cur r = Some i /\ find_key name (r_dict r) = Some i
  end.

Definition rinj (r : rstate) : Prop :=
  forall a b i, find_key a (r_dict r) = Some i -> find_key b (r_dict r) = Some i -> a = b.

Lemma nth_log_same : forall e os i c l, nth_error os i = Some (c, l) ->
  nth_error (log_at i e os) i = Some (c, l ++ [e]).
Proof.
  intros e. induction os as [|[c0 l0] os IH]; intros [|i] c l H; cbn in *; try discriminate.
  - injection H as -> ->. reflexivity.
  - apply IH. exact H.
Qed.

Lemma nth_log_other : forall e os i j, i <> j -> nth_error (log_at i e os) j = nth_error os j.
Proof.
  intros e. induction os as [|[c0 l0] os IH]; intros [|i] [|j] H; cbn; try reflexivity; try congruence.
  apply IH. congruence.
Qed.

Definition rinv (cur : option pystr) (log : list entry) (r : rstate) : Prop :=
  robjs r /\ rcur cur r /\ log_of r log /\ rinj r
  /\ (forall name i, find_key name (r_dict r) = Some i -> (i < length (r_objs r))%nat).

Lemma rinv_init : rinv None [] (r_init None).
Proof.
  repeat split.
  - intros name i _ H. discriminate H.
  - intros a b i H. discriminate H.
  - intros name i H. discriminate H.
Qed.

Lemma rinv_set : forall name cur log r, text_catcher name -> rinv cur log r ->
  exists r', r_set name r = (None, r') /\ rinv (Some name) log r'.
Proof.
  intros name cur log r HT (H1 & H2 & H3 & H4 & H5). unfold r_set.
  destruct (find_key name (r_dict r)) as [i|] eqn:E.
  - eexists. split; [reflexivity|]. split; [exact H1|]. split; [split; [exact HT|exists i; split; [reflexivity|exact E]]|].
    split; [exact H3|]. split; [exact H4|exact H5].
  - destruct (text_class name HT) as (c & Ec & _ & EL & _). rewrite Ec. eexists. split; [reflexivity|].
    set (i := length (r_objs r)).
    assert (HF : forall n j, find_key n ((name, i) :: r_dict r) = Some j ->
                 (n = name /\ j = i) \/ (n <> name /\ find_key n (r_dict r) = Some j)).
    { intros n j Hn. cbn [find_key] in Hn. destruct (str_eqb_spec n name) as [En|En].
      - left. split; [assumption|congruence].
      - right. split; assumption. }
    split; [|split; [|split; [|split]]].
    + intros n j Hn Hj. cbn [r_objs r_dict] in *. apply HF in Hj as [[-> ->]|[Hne Hj]].
      * exists c, []. split; [|exact Ec]. rewrite nth_error_app2 by (unfold i; lia).
        unfold i. rewrite Nat.sub_diag. reflexivity.
      * destruct (H1 n j Hn Hj) as (c' & l & Ha & Hb). exists c', l. split; [|exact Hb].
        rewrite nth_error_app1 by (apply (H5 _ _ Hj)). exact Ha.
    + split; [exact HT|]. exists i. split; [reflexivity|]. cbn [r_dict find_key]. rewrite str_eqb_refl'. reflexivity.
    + unfold log_of in *. cbn [r_dict r_objs find_key].
      destruct (str_eqb_spec (L "ListErrors") name) as [En|En].
      * subst name. rewrite E in H3. subst log. rewrite nth_error_app2 by (unfold i; lia).
        unfold i. rewrite Nat.sub_diag. cbn. do 2 f_equal. apply EL. reflexivity.
      * destruct (find_key (L "ListErrors") (r_dict r)) as [j|] eqn:Ej; [|exact H3].
        rewrite nth_error_app1 by (apply (H5 _ _ Ej)). exact H3.
    + intros a b j Ha Hb. cbn [r_dict] in *. apply HF in Ha as [[-> ->]|[Hne Ha]]; apply HF in Hb as [[-> Hb]|[Hne' Hb]].
      * reflexivity.
      * apply H5 in Hb. unfold i in Hb. lia.
      * apply H5 in Ha. unfold i in Hb. lia.
      * apply (H4 _ _ _ Ha Hb).
    + intros n j Hj. cbn [r_dict r_objs] in *. rewrite app_length. cbn [length].
      apply HF in Hj as [[-> ->]|[Hne Hj]]; [unfold i; lia|]. apply H5 in Hj. lia.
Qed.

Lemma big_echo_text : forall raw,
  big_echo raw = L "===============&lt;" ++ raw ++ L " could not be found&gt;===============".
Proof. intros raw. unfold big_echo. cbn. rewrite <- ?app_assoc. reflexivity. Qed.

Lemma rinv_warn : forall name log r code raw lc, rinv (Some name) log r ->
  exists i r', r_cur r = Some i /\ r_warn i (code, raw, lc) r = (Done (stands_for name raw), r')
    /\ rinv (Some name) (if str_eqb name (L "ListErrors") then log ++ [(code, raw, lc)] else log) r'.
Proof.
  intros name log r code raw lc (H1 & (HT & i & Hi & Hf) & H3 & H4 & H5).
  destruct (H1 name i HT Hf) as (c & l & Ho & Hc).
  destruct (text_class name HT) as (c' & Ec & HK & HL & HB). assert (c' = c) by congruence. subst c'.
  exists i. unfold r_warn, stands_for. rewrite Ho.
  destruct (str_eqb_spec name (L "ListErrors")) as [EL|EL].
  - assert (c = CListErrors) by (apply HL; exact EL). subst c. subst name.
    eexists. split; [exact Hi|]. split; [reflexivity|].
    split; [|split; [|split; [|split]]].
    + intros n j Hn Hj. cbn [r_objs r_dict] in *. destruct (H1 n j Hn Hj) as (c' & l' & Ha & Hb).
      destruct (Nat.eq_dec i j) as [Eij|Eij].
      * subst j. rewrite (nth_log_same _ _ _ _ _ Ho). rewrite Ho in Ha. injection Ha as <- <-.
        eexists _, _. split; [reflexivity|exact Hb].
      * rewrite nth_log_other by assumption. exists c', l'. split; assumption.
    + split; [exact HT|]. exists i. split; assumption.
    + unfold log_of in *. cbn [r_dict r_objs]. rewrite Hf in *. rewrite Ho in H3. injection H3 as ->.
      apply nth_log_same. exact Ho.
    + exact H4.
    + intros n j Hj. cbn [r_dict r_objs] in *. apply H5 in Hj.
      assert (Hlen : length (log_at i (code, raw, lc) (r_objs r)) = length (r_objs r)).
      { clear. revert i. induction (r_objs r) as [|[c0 l0] os IH]; intros [|i]; cbn; auto. }
      rewrite Hlen. exact Hj.
  - exists r. split; [exact Hi|]. split.
    + destruct c; try congruence.
      * destruct (str_eqb_spec name (L "BigEcho")) as [EB|EB]; [apply HB in EB; discriminate|reflexivity].
      * assert (EB : name = L "BigEcho") by (apply HB; reflexivity). rewrite EB, str_eqb_refl', big_echo_text. reflexivity.
      * exfalso. apply EL. apply HL. reflexivity.
    + split; [exact H1|]. split; [split; [exact HT|exists i; split; assumption]|].
      split; [exact H3|]. split; [exact H4|exact H5].
Qed.

Lemma page_run : forall ss cur log r, selects_text ss -> rinv cur log r ->
  let '(out, x, r') := r_run ss r in
  let '(out', x', log') := page cur ss in
  out = out' /\ x = x' /\ log_of r' (log ++ log').
Proof.
  induction ss as [|[name|[[code raw] lc] o] ss IH]; intros cur log r HS HI.
  - cbn [r_run page]. destruct HI as (_ & _ & HL & _). rewrite app_nil_r. repeat split. exact HL.
  - cbn [r_run page]. destruct (rinv_set name cur log r (HS name (or_introl eq_refl)) HI) as (r' & E & HI').
    rewrite E. apply IH; [|exact HI']. intros n Hn. apply HS. right; exact Hn.
  - assert (HS' : selects_text ss) by (intros n Hn; apply HS; right; exact Hn).
    cbn [r_run page]. unfold r_call.
    assert (HIL : log_of r log) by (destruct HI as (_ & _ & HL & _); exact HL).
    assert (HE : log_of r (log ++ [])) by (rewrite app_nil_r; exact HIL).
    destruct o as [v| |n| |].
    + pose proof (IH cur log r HS' HI) as H.
      destruct (r_run ss r) as [[out x] r']. destruct (page cur ss) as [[out' x'] log'].
      destruct H as (-> & -> & H). repeat split. exact H.
    + destruct cur as [name|].
      * destruct (rinv_warn name log r code raw lc HI) as (i & r' & Ei & Ew & HI').
        rewrite Ei, Ew. pose proof (IH (Some name) _ r' HS' HI') as H.
        destruct (r_run ss r') as [[out x] r2]. destruct (page (Some name) ss) as [[out' x'] log'].
        destruct H as (-> & -> & H). repeat split.
        destruct (str_eqb name (L "ListErrors")); [rewrite <- app_assoc in H; exact H|exact H].
      * destruct HI as (_ & HC & _). cbn in HC. rewrite HC. repeat split. exact HE.
    + destruct cur as [name|].
      * destruct HI as (_ & (_ & i & Hi & _) & _). rewrite Hi. repeat split. exact HE.
      * destruct HI as (_ & HC & _). cbn in HC. rewrite HC. repeat split. exact HE.
    + destruct cur as [name|].
      * destruct HI as (_ & (_ & i & Hi & _) & _). rewrite Hi. repeat split. exact HE.
      * destruct HI as (_ & HC & _). cbn in HC. rewrite HC. repeat split. exact HE.
    + destruct cur as [name|].
      * destruct HI as (_ & (_ & i & Hi & _) & _). rewrite Hi. repeat split. exact HE.
      * destruct HI as (_ & HC & _). cbn in HC. rewrite HC. repeat split. exact HE.
Qed.

Lemma first_use_in : forall raw ps code pos, first_use raw ps = Some (code, pos) -> In (code, raw, pos) ps.
Proof.
  intros raw ps code pos. induction ps as [|[[c r] p] ps IH]; cbn [first_use]; [discriminate|].
  destruct (str_eqb_spec raw r) as [E|E].
  - intros HE. injection HE as -> ->. subst. left; reflexivity.
  - intros HE. right. apply IH. exact HE.
Qed.

Lemma Forall2_in_l : forall (A B : Type) (P Q : A -> B -> Prop) l m,
  (forall a b, In a l -> P a b -> Q a b) -> Forall2 P l m -> Forall2 Q l m.
Proof.
  intros A B P Q l m H HF. induction HF; constructor.
  - apply H; [left; reflexivity|assumption].
  - apply IHHF. intros a b Ha. apply H. right; assumption.
Qed.

Lemma own_code_of_page : forall printable rc ps es st,
  add_catchers rc ps c_start = (es, st) ->
  (forall code raw pos, In (code, raw, pos) ps -> plain_in3 SQ code /\ valid_str code /\ valid_str raw) ->
  (forall code code' raw pos pos',
     In (code, raw, pos) ps -> In (code', raw, pos') ps -> code = code') ->
  NoDup (map k_name (c_list st)) /\ NoDup (map k_raw (c_list st))
  /\ (forall k, In k (c_list st) -> exists code pos, In (code, k_raw k, pos) ps)
  /\ Forall2 (fun p e => let '(code, raw, _) := p in exists k pos,
       In k (c_list st)
       /\ e = L "self." ++ k_name k ++ L "(localsDict=locals())"
       /\ catch_sig k = L "def " ++ k_name k ++ L "(self, localsDict={})"
       /\ first_use raw ps = Some (code, pos)
       /\ read_method (catch_lines printable k) = Some (code, (code, raw, pos_text pos))) ps es.
Proof.
  intros printable rc ps es st H HP HS.
  destruct (catchers_of_page printable rc ps es st H HP) as (H1 & H2 & H3 & H4).
  split; [exact H1|]. split; [exact H2|]. split.
  - intros k Hk. apply H3 in Hk. exists (k_code k), (k_pos k). apply first_use_in. exact Hk.
  - revert H4. apply Forall2_in_l. intros [[code raw] pos] e Hin (k & c & p & Hk & He & Hs & Hf & Hr).
    cbn [fst snd] in *. assert (c = code) by (eapply HS; [apply first_use_in; exact Hf|exact Hin]). subst c.
    exists k, p. auto.
Qed.

Lemma page_from_start : forall ss out x r, selects_text ss -> r_run ss (r_init None) = (out, x, r) ->
  exists log, page None ss = (out, x, log)
    /\ match find_key (L "ListErrors") (r_dict r) with
       | Some i => nth_error (r_objs r) i = Some (CListErrors, log)
       | None => log = []
       end.
Proof.
  intros ss out x r HS H. pose proof (page_run ss None [] (r_init None) HS rinv_init) as HP.
  rewrite H in HP. destruct (page None ss) as [[out' x'] log']. destruct HP as (-> & -> & HL).
  exists log'. split; [reflexivity|exact HL].
Qed.

(** The conditions as a computation, for examples. *)
Definition plain_pageb (ps : list (pystr * pystr * (N * N))) : bool :=
  forallb (fun p : pystr * pystr * (N * N) =>
    let '(c, r, _) := p in
    forallb (fun x => negb (x =? 92) && negb (x =? 13) && negb (x =? 0) && (x <=? 1114111)) c
    && negb (quotes3 SQ c) && negb (last c 0 =? SQ)
    && forallb (fun x => (x <=? 1114111)) r) ps.

Lemma plain_page : forall ps, plain_pageb ps = true ->
  forall code raw pos, In (code, raw, pos) ps -> plain_in3 SQ code /\ valid_str code /\ valid_str raw.
Proof.
  intros ps HD code raw pos HI. unfold plain_pageb in HD.
  rewrite forallb_forall in HD. specialize (HD _ HI). cbv beta iota in HD.
  apply andb_true_iff in HD as [HD H4]. apply andb_true_iff in HD as [HD H3].
  apply andb_true_iff in HD as [H1 H2]. rewrite forallb_forall in H1, H4.
  split; [split; [|split]|split].
  - intros c Hc. specialize (H1 c Hc). lia.
  - destruct (quotes3 SQ code); [discriminate|reflexivity].
  - apply negb_true_iff in H3. apply N.eqb_neq in H3. exact H3.
  - apply Forall_forall. intros c Hc. specialize (H1 c Hc). lia.
  - apply Forall_forall. intros c Hc. specialize (H4 c Hc). lia.
Qed.
