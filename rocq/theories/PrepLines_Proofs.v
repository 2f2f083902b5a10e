(** Proofs about the preparation of a source: #encoding, and the lines of a source with #indent
    (Prep_Model.v). *)
From Verif Require Import Base PyStr Names_Model Names_Proofs StrConst_Model StrConst_Proofs PyLiteral_Spec.
From Verif Require Import Prep_Model Prep_Spec Prep_Proofs Small_Model.
Local Open Scope nat_scope.
Local Open Scope list_scope.

Definition ascii (s : pystr) : Prop := Forall (fun c => (c < 128)%N) s.

Lemma hexdigit_ascii : forall d, (d < 16)%N -> (hexdigit d < 128)%N.
Proof. intros d H. unfold hexdigit. destruct (d <? 10)%N; lia. Qed.
Lemma hexn_ascii : forall n c, ascii (hexn n c).
Proof.
  induction n as [|n IH]; intros c; [constructor|]. cbn [hexn]. apply Forall_app. split; [apply IH|].
  constructor; [|constructor]. apply hexdigit_ascii. apply N.mod_lt. lia.
Qed.

Lemma ascii_replace_id : forall s, ascii s -> ascii_replace s = s.
Proof.
  induction s as [|c s IH]; intros H; auto. inversion H; subst. unfold ascii_replace in *. cbn [map concat].
  rewrite IH by assumption. unfold ascii_char. replace (c <? 128)%N with true by lia. reflexivity.
Qed.

Lemma ascii_replace_app : forall a b, ascii_replace (a ++ b) = ascii_replace a ++ ascii_replace b.
Proof. intros a b. unfold ascii_replace. rewrite map_app, concat_app. reflexivity. Qed.

Definition none (c : N) : bool := false.

Lemma repr_char_ascii : forall q c, (q < 128)%N -> ascii (repr_char none q c).
Proof.
  intros q c Q. unfold repr_char, none.
  assert (A : forall a b, ascii b -> (a < 128)%N -> ascii (a :: b)) by (intros; constructor; assumption).
  assert (Z : ascii []) by constructor.
  destruct ((c =? q)%N || (c =? BS)%N) eqn:E1; [unfold BS in *; apply A; [apply A; auto; lia|lia]|].
  destruct (c =? TAB)%N; [apply A; [apply A; auto; lia|unfold BS; lia]|].
  destruct (c =? NL)%N; [apply A; [apply A; auto; lia|unfold BS; lia]|].
  destruct (c =? CR)%N; [apply A; [apply A; auto; lia|unfold BS; lia]|].
  destruct ((c <? 32)%N || (c =? 127)%N); [apply A; [apply A; [apply hexn_ascii|lia]|unfold BS; lia]|].
  destruct (c <? 127)%N eqn:E2; [apply A; auto; lia|].
  destruct (c <=? 255)%N; [apply A; [apply A; [apply hexn_ascii|lia]|unfold BS; lia]|].
  destruct (c <=? 65535)%N; apply A; try (apply A; [apply hexn_ascii|lia]); unfold BS; lia.
Qed.

Lemma repr_char_replace : forall printable q c, (q < 128)%N -> ascii_replace (repr_char printable q c) = repr_char none q c.
Proof.
  intros printable q c Q. pose proof (repr_char_ascii q c Q) as K. unfold repr_char in *.
  destruct ((c =? q)%N || (c =? BS)%N); [apply ascii_replace_id, K|].
  destruct (c =? TAB)%N; [apply ascii_replace_id, K|].
  destruct (c =? NL)%N; [apply ascii_replace_id, K|].
  destruct (c =? CR)%N; [apply ascii_replace_id, K|].
  destruct ((c <? 32)%N || (c =? 127)%N) eqn:E; [apply ascii_replace_id, K|].
  destruct (c <? 127)%N eqn:E2; [apply ascii_replace_id, K|].
  unfold none in *. destruct (printable c).
  - unfold ascii_replace. cbn [map concat]. rewrite app_nil_r. unfold ascii_char.
    replace (c <? 128)%N with false by lia. reflexivity.
  - apply ascii_replace_id, K.
Qed.

Lemma repr_quote_ascii : forall s, (repr_quote s < 128)%N.
Proof. intros s. unfold repr_quote, SQ, DQ. destruct (_ && _); lia. Qed.

Lemma repr_replace : forall printable s, ascii_replace (repr printable s) = repr none s.
Proof.
  intros printable s. unfold repr. pose proof (repr_quote_ascii s) as Q. set (q := repr_quote s) in *.
  change (q :: concat (map (repr_char printable q) s) ++ [q]) with ([q] ++ concat (map (repr_char printable q) s) ++ [q]).
  assert (K : ascii_replace [q] = [q]) by (apply ascii_replace_id; constructor; [exact Q|constructor]).
  rewrite !ascii_replace_app, K. cbn [app]. f_equal. f_equal.
  induction s as [|c s IH]; auto. cbn [map concat]. rewrite ascii_replace_app, repr_char_replace by exact Q.
  f_equal. assert (Hq : forall t, ascii_replace (concat (map (repr_char printable q) t)) = concat (map (repr_char none q) t)).
  { induction t as [|d t IHt]; auto. cbn [map concat]. rewrite ascii_replace_app, repr_char_replace by exact Q.
    rewrite IHt. reflexivity. }
  apply Hq.
Qed.

Lemma repr_none_ascii : forall s, ascii (repr none s).
Proof.
  intros s. unfold repr. pose proof (repr_quote_ascii s) as Q. set (q := repr_quote s) in *. constructor; [exact Q|].
  apply Forall_app. split; [|constructor; [exact Q|constructor]].
  clearbody q. induction s as [|c s IH]; [constructor|]. cbn [map concat]. apply Forall_app. split; [|exact IH].
  apply repr_char_ascii, Q.
Qed.

(** ** The whole of the preparation *)
Section Q.
Variables (uword printable : N -> bool) (decode : pystr -> pystr -> option pystr) (evals : pystr -> option pystr).
Notation prepare := (prepare uword printable decode evals).

Lemma uni_ok : word_ok (L "unicode").
Proof. split; [intros H; vm_compute in H; intuition discriminate|]. split; [reflexivity|discriminate]. Qed.
Lemma enc_ok : word_ok (L "encoding").
Proof. split; [intros H; vm_compute in H; intuition discriminate|]. split; [reflexivity|discriminate]. Qed.

Lemma prepare_plain : forall s, ~ within (L "unicode") s -> ~ within (L "encoding") s -> ~ within (L "#indent") s ->
  prepare s = POk s.
Proof.
  intros s U E I. unfold Prep_Model.prepare. destruct s as [|c s].
  - reflexivity.
  - rewrite !dir_search_none by assumption. rewrite has_text_not by assumption. reflexivity.
Qed.

Lemma dir_line_nonnil : forall pre w sep name trail rest, pre ++ dir_line w sep name trail ++ rest <> [].
Proof. intros [|c pre] w sep name trail rest; discriminate. Qed.

Lemma prepare_unicode : forall pre sep name trail rest, dir_parts sep name trail -> no_space_first rest ->
  before (L "unicode") pre -> ~ within (L "unicode") rest ->
  ~ within (L "encoding") (pre ++ dir_line (L "unicode") sep name trail ++ rest) ->
  ~ within (L "#indent") (removelast pre ++ rest) ->
  prepare (pre ++ dir_line (L "unicode") sep name trail ++ rest) = POk (removelast pre ++ rest).
Proof.
  intros pre sep name trail rest D R B U E I. unfold Prep_Model.prepare.
  pose proof (dir_found uword _ sep name trail pre rest uni_ok D R B) as F.
  assert (S : dir_sub uword (L "unicode") 0 true (pre ++ dir_line (L "unicode") sep name trail ++ rest) = removelast pre ++ rest).
  { destruct B as [->|(p & c & -> & C & H)].
    - cbn [app removelast]. apply sub_first; auto. apply uni_ok.
    - replace ((p ++ [c; 10%N]) ++ dir_line (L "unicode") sep name trail ++ rest)
        with ((p ++ [c]) ++ 10%N :: dir_line (L "unicode") sep name trail ++ rest) by (rewrite <- !app_assoc; reflexivity).
      rewrite sub_through; auto; [|apply uni_ok].
      change [c; 10%N] with ([c] ++ [10%N]). rewrite app_assoc. rewrite removelast_last. reflexivity. }
  pose proof (dir_line_nonnil pre (L "unicode") sep name trail rest) as NN.
  destruct (pre ++ dir_line (L "unicode") sep name trail ++ rest) as [|c s]; [congruence|].
  rewrite F. rewrite dir_search_none by exact E. rewrite S. rewrite has_text_not by exact I. reflexivity.
Qed.

Lemma prepare_encoding : forall pre sep name trail rest s, s = pre ++ dir_line (L "encoding") sep name trail ++ rest ->
  dir_parts sep name trail -> no_space_first rest -> before (L "encoding") pre ->
  ~ within (L "unicode") s -> ~ within (L "#indent") s -> valid_str s ->
  reads_ascii (decode name) -> (forall t v, eval_literal t = Some v -> evals t = Some v) -> prepare s = POk s.
Proof.
  intros pre sep name trail rest s Hs D R B U I V A Ev. unfold Prep_Model.prepare.
  pose proof (dir_found uword _ sep name trail pre rest enc_ok D R B) as F. rewrite <- Hs in F.
  rewrite dir_search_none with (w := L "unicode") by exact U. rewrite F. rewrite repr_replace.
  rewrite A by apply repr_none_ascii. rewrite (Ev _ s) by (apply repr_roundtrip, V).
  pose proof (has_text_not _ _ I) as K. clear - K. destruct s; rewrite K; reflexivity.
Qed.

Lemma prepare_unknown : forall pre sep name trail rest s, s = pre ++ dir_line (L "encoding") sep name trail ++ rest ->
  dir_parts sep name trail -> no_space_first rest -> before (L "encoding") pre ->
  ~ within (L "unicode") s -> (forall b, decode name b = None) -> prepare s = PErr BadCoding.
Proof.
  intros pre sep name trail rest s Hs D R B U Dn. unfold Prep_Model.prepare.
  pose proof (dir_found uword _ sep name trail pre rest enc_ok D R B) as F. rewrite <- Hs in F.
  pose proof (dir_line_nonnil pre (L "encoding") sep name trail rest) as NN. rewrite <- Hs in NN.
  destruct s as [|c s]; [congruence|].
  rewrite dir_search_none with (w := L "unicode") by exact U. rewrite F, Dn. reflexivity.
Qed.

Lemma prepare_both : forall s p1 s1 n1 t1 r1 p2 s2 n2 t2 r2,
  s = p1 ++ dir_line (L "unicode") s1 n1 t1 ++ r1 -> s = p2 ++ dir_line (L "encoding") s2 n2 t2 ++ r2 ->
  dir_parts s1 n1 t1 -> dir_parts s2 n2 t2 -> no_space_first r1 -> no_space_first r2 ->
  before (L "unicode") p1 -> before (L "encoding") p2 -> prepare s = PErr BothGiven.
Proof.
  intros s p1 s1 n1 t1 r1 p2 s2 n2 t2 r2 E1 E2 D1 D2 R1 R2 B1 B2. unfold Prep_Model.prepare.
  pose proof (dir_found uword _ s1 n1 t1 p1 r1 uni_ok D1 R1 B1) as F1. rewrite <- E1 in F1.
  pose proof (dir_found uword _ s2 n2 t2 p2 r2 enc_ok D2 R2 B2) as F2. rewrite <- E2 in F2.
  pose proof (dir_line_nonnil p1 (L "unicode") s1 n1 t1 r1) as NN. rewrite <- E1 in NN.
  destruct s as [|c s]; [congruence|]. rewrite F1, F2. reflexivity.
Qed.

(** ** Lines of a source with #indent *)
Lemma blanks_iblank : forall w, blanks w -> Forall (fun c => iblank c = true) w.
Proof. intros w H. eapply Forall_impl; [|exact H]. intros c [-> | ->]; reflexivity. Qed.

Lemma drop_blank_app : forall w r, blanks w -> match r with [] => True | c :: _ => iblank c = false end -> drop_blank (w ++ r) = r.
Proof.
  intros w r H R. apply blanks_iblank in H. induction H as [|c w C H IH].
  - destruct r as [|c r]; auto. cbn. rewrite R. reflexivity.
  - cbn [app drop_blank]. rewrite C. exact IH.
Qed.
Lemma take_blank_app : forall w r, blanks w -> match r with [] => True | c :: _ => iblank c = false end -> take_blank (w ++ r) = w.
Proof.
  intros w r H R. apply blanks_iblank in H. induction H as [|c w C H IH].
  - destruct r as [|c r]; auto. cbn. rewrite R. reflexivity.
  - cbn [app take_blank]. rewrite C, IH. reflexivity.
Qed.

Lemma blanks_space : forall w, blanks w -> Forall (fun c => is_space c = true) w.
Proof. intros w H. eapply Forall_impl; [|exact H]. intros c [-> | ->]; reflexivity. Qed.
Lemma lstrip_blanks : forall w r, blanks w -> match r with [] => True | c :: _ => is_space c = false end -> lstrip (w ++ r) = r.
Proof.
  intros w r H R. apply blanks_space in H. induction H as [|c w C H IH].
  - destruct r as [|c r]; auto. cbn. rewrite R. reflexivity.
  - cbn [app lstrip]. rewrite C. exact IH.
Qed.
Lemma rstrip_blanks : forall w r, blanks w -> rstrip r = r -> rstrip (r ++ w) = r.
Proof.
  intros w r H R. unfold rstrip in *. rewrite rev_app_distr.
  assert (K : lstrip (rev w ++ rev r) = lstrip (rev r)).
  { assert (B : Forall (fun c => is_space c = true) (rev w)) by (apply Forall_rev, blanks_space, H).
    induction B as [|c l C B IH]; auto. cbn [app lstrip]. rewrite C. exact IH. }
  rewrite K. exact R.
Qed.

Lemma expandtabs_width : forall w col, length (expandtabs col w) + col = fold_left col_step w col.
Proof.
  induction w as [|c w IH]; intros col; auto. cbn [expandtabs fold_left]. unfold col_step at 2.
  destruct (c =? 9)%N.
  - rewrite app_length, repeat_length. rewrite <- IH. pose proof (Nat.div_mod col 4 ltac:(lia)).
    pose proof (Nat.mod_upper_bound col 4 ltac:(lia)).
    replace (4 * (col / 4) + 4) with (col + (4 - col mod 4)) by lia. lia.
  - cbn [length]. rewrite <- IH. replace (S col) with (col + 1) by lia. lia.
Qed.

Lemma strip_fix : forall s, s <> [] -> Forall (fun c => is_space c = false) s -> lstrip s = s /\ rstrip s = s.
Proof.
  intros s N H. split.
  - destruct H; auto. cbn. rewrite H. reflexivity.
  - unfold rstrip. assert (K : lstrip (rev s) = rev s).
    { apply Forall_rev in H. destruct (rev s) as [|c r]; auto. inversion H; subst. cbn. rewrite H2. reflexivity. }
    rewrite K. apply rev_involutive.
Qed.

Lemma written_solid : forall x, written x <> [] /\ Forall (fun c => is_space c = false) (written x).
Proof.
  intros [| | | | | |n]; (split; [discriminate|]); try (repeat (constructor; [reflexivity|]); constructor).
  cbn [written]. apply Forall_app. split; [constructor; [reflexivity|constructor]|]. apply Forall_forall.
  intros c H. apply str_of_N_digits in H. unfold is_space. lia.
Qed.

Lemma strip_written : forall x w, blanks w -> strip (written x ++ w) = written x.
Proof.
  intros x w H. destruct (written_solid x) as [N F]. destruct (strip_fix _ N F) as [_ R]. unfold strip.
  assert (K : lstrip (written x ++ w) = written x ++ w).
  { destruct (written x) as [|c r]; [congruence|]. inversion F; subst. cbn. rewrite H2. reflexivity. }
  rewrite K. apply rstrip_blanks; auto.
Qed.

Lemma indent_args_written : forall lv line x, exists lv', indent_args evals lv line (written x) = POk (tell (called x), lv').
Proof.
  intros lv line x. destruct x as [| | | | | |n]; try (exists lv; reflexivity).
  exists (Some (Z.of_N n)). unfold indent_args, written. change (L "=") with [61%N].
  change (str_eqb ([61%N] ++ str_of_N n) (L "on")) with false. change (str_eqb ([61%N] ++ str_of_N n) (L "off")) with false.
  change (str_eqb ([61%N] ++ str_of_N n) (L "++")) with false. change (str_eqb ([61%N] ++ str_of_N n) (L "--")) with false.
  cbn [app starts_with tl]. rewrite N.eqb_refl. cbn [andb]. rewrite py_int_str_of_N.
  unfold zstr. replace (Z.of_N n <? 0)%Z with false by lia. rewrite N2Z.id. reflexivity.
Qed.

Lemma indent_line_ok : forall lv l l', line_to l l' -> exists lv', indent_line evals lv l = POk (l', lv').
Proof.
  intros lv l l' H. destruct H as [w1 w2 w3 x B1 B2 B3 | w r B H | w r B H]; unfold indent_line; cbv zeta.
  - rewrite drop_blank_app; [|exact B1|reflexivity]. rewrite starts_with_refl.
    change (skipn 7 (L "#indent" ++ w2 ++ written x ++ w3)) with (w2 ++ written x ++ w3).
    rewrite drop_blank_app; [|exact B2|].
    + rewrite strip_written by exact B3. apply indent_args_written.
    + destruct (written_solid x) as [N F]. destruct (written x) as [|c y]; [congruence|]. inversion F; subst. cbn.
      unfold iblank. unfold is_space in *. lia.
  - rewrite drop_blank_app; [|exact B|reflexivity]. exists lv.
    change (starts_with (L "#indent") (L "#" ++ r)) with (starts_with (L "indent") r). rewrite H. reflexivity.
  - assert (K : match r with [] => True | c :: _ => iblank c = false end).
    { destruct r as [|c r]; auto. destruct H as [H _]. unfold iblank. unfold is_space in H. lia. }
    rewrite drop_blank_app by assumption. rewrite take_blank_app by assumption.
    assert (K2 : lstrip (w ++ r) = r). { apply lstrip_blanks; auto. destruct r; tauto. }
    rewrite K2. exists lv.
    assert (K3 : starts_with (L "#indent") r = false /\ starts_with (L "#") r = false).
    { destruct r as [|c r]; [auto|]. destruct H as [_ H]. change (L "#indent") with (35%N :: L "indent"). change (L "#") with [35%N].
      cbn [starts_with]. replace (35 =? c)%N with false by lia. auto. }
    destruct K3 as [-> ->]. unfold indent_mark, ask, width. rewrite <- expandtabs_width, Nat.add_0_r. reflexivity.
Qed.

Lemma indent_lines_ok : forall ls os, Forall2 line_to ls os -> forall lv, indent_lines evals lv ls = POk os.
Proof.
  induction 1 as [|l o ls os H F IH]; intros lv; auto. cbn [indent_lines].
  destruct (indent_line_ok lv l o H) as [lv' ->]. rewrite IH. reflexivity.
Qed.

Lemma splitlines_join : forall ls cur l, (forall c, In c l -> is_linebreak c = false) ->
  (forall x c, In x ls -> In c x -> is_linebreak c = false) ->
  splitlines_aux false cur (l ++ 10%N :: concat (map (fun x => x ++ [10%N]) ls))
  = (rev cur ++ l) :: splitlines_aux false [] (concat (map (fun x => x ++ [10%N]) ls)).
Proof.
  intros ls cur l. revert cur. induction l as [|c l IH]; intros cur H1 H2.
  - cbn [app splitlines_aux andb]. change (is_linebreak 10) with true. cbv iota. rewrite app_nil_r. reflexivity.
  - cbn [app splitlines_aux andb]. rewrite (H1 c) by (left; reflexivity). rewrite IH; auto.
    + cbn [rev]. rewrite <- app_assoc. reflexivity.
    + intros d D. apply H1. right. exact D.
Qed.

Lemma splitlines_lines : forall ls, (forall x c, In x ls -> In c x -> is_linebreak c = false) ->
  splitlines (concat (map (fun x => x ++ [10%N]) ls)) = ls.
Proof.
  induction ls as [|l ls IH]; intros H; auto. cbn [map concat]. unfold splitlines. rewrite <- app_assoc. cbn [app].
  rewrite splitlines_join.
  - cbn [rev app]. f_equal. apply IH. intros x c X C. apply (H x c); [right|]; assumption.
  - intros c C. apply (H l c); [left; reflexivity|exact C].
  - intros x c X C. apply (H x c); [right|]; assumption.
Qed.

Lemma prepare_indent : forall ls os s, s = concat (map (fun x => x ++ [10%N]) ls) ->
  (forall x c, In x ls -> In c x -> is_linebreak c = false) -> within (L "#indent") s ->
  ~ within (L "unicode") s -> ~ within (L "encoding") s -> Forall2 line_to ls os ->
  prepare s = POk (join [10%N] os).
Proof.
  intros ls os s Hs B I U E F. unfold Prep_Model.prepare.
  rewrite !dir_search_none by assumption.
  assert (K : has_text (L "#indent") s = true) by (apply has_text_within, I).
  assert (X : indentize evals s = POk (join [10%N] os)).
  { unfold indentize. rewrite Hs. rewrite splitlines_lines by exact B. rewrite (indent_lines_ok ls os F). reflexivity. }
  destruct s as [|c s]; rewrite K; exact X.
Qed.

(** With the indenter off the indentation is what it was, with tabs expanded. *)
Lemma off_indent : forall o n, i_on o = false -> indent o (Z.of_nat n) = repeat 32%N n.
Proof.
  intros o n H. unfold indent. rewrite H. unfold str_times. rewrite Nat2Z.id. change (L " ") with [32%N].
  induction n as [|n IH]; auto. cbn. f_equal. exact IH.
Qed.
Lemma width_blanks : forall n, width (repeat 32%N n) = n.
Proof.
  intros n. unfold width. assert (K : forall n col, fold_left col_step (repeat 32%N n) col = col + n).
  { induction n0 as [|m IH]; intros col; cbn [repeat fold_left]; [lia|]. rewrite IH. unfold col_step.
    change (32 =? 9)%N with false. cbv iota. lia. }
  rewrite K. reflexivity.
Qed.
End Q.
