(** Proofs about versions, names, patterns and statistics. *)
From Coq Require Import DecimalN DecimalFacts DecimalPos.
From Verif Require Import Names_Model Names_Spec.

(** ** int(str(n)) = n *)
Lemma int_digits_step : forall acc b c s, (48 <= c <= 57)%N ->
  int_digits acc b (c :: s) = int_digits (acc * 10 + (c - 48)) true s.
Proof.
  intros acc b c s H. cbn [int_digits].
  destruct (N.leb_spec 48 c); [|lia]. destruct (N.leb_spec c 57); [|lia]. reflexivity.
Qed.

Lemma int_digits_pos : forall d acc,
  int_digits (Npos acc) true (uint_str d) = Some (Npos (Pos.of_uint_acc d acc)).
Proof.
  induction d; intros acc; cbn [uint_str]; [reflexivity|..];
    rewrite int_digits_step by lia; cbn [Pos.of_uint_acc]; rewrite <- IHd;
    apply (f_equal (fun x => int_digits x true (uint_str d))); lia.
Qed.

Lemma int_digits_zero : forall d, int_digits 0 true (uint_str d) = Some (Pos.of_uint d).
Proof.
  induction d; cbn [uint_str]; [reflexivity|..]; rewrite int_digits_step by lia; cbn [Pos.of_uint];
    [exact IHd|..]; rewrite <- int_digits_pos; reflexivity.
Qed.

Lemma int_digits_start : forall d, uint_str d <> [] ->
  int_digits 0 false (uint_str d) = int_digits 0 true (uint_str d).
Proof.
  destruct d; cbn [uint_str]; intros H; [congruence|..]; rewrite !int_digits_step by lia; reflexivity.
Qed.

Lemma strip_digits : forall n, strip (str_of_N n) = str_of_N n.
Proof.
  intro n. assert (H : forall c, In c (str_of_N n) -> is_space c = false).
  { intros c Hc. apply str_of_N_digits in Hc. unfold is_space. lia. }
  assert (Hl : forall s, (forall c, In c s -> is_space c = false) -> lstrip s = s).
  { intros s Hs. destruct s as [|c s]; [reflexivity|]. simpl.
    rewrite (Hs c); [reflexivity|left; reflexivity]. }
  unfold strip, rstrip. rewrite (Hl (str_of_N n) H), Hl, rev_involutive; [reflexivity|].
  intros c Hc. apply H. apply in_rev. exact Hc.
Qed.

Lemma py_int_str_of_N : forall n, py_int (str_of_N n) = Some (Z.of_N n).
Proof.
  intro n. unfold py_int. rewrite strip_digits. pose proof (str_of_N_nonempty n) as Hne.
  destruct (str_of_N n) as [|c r] eqn:E; [congruence|].
  assert (Hc : (48 <= c <= 57)%N) by (apply (str_of_N_digits n); rewrite E; left; reflexivity).
  destruct (N.eqb_spec c 45); [lia|]. destruct (N.eqb_spec c 43); [lia|].
  rewrite <- E. unfold str_of_N in *. rewrite int_digits_start by congruence.
  rewrite int_digits_zero. simpl. f_equal. f_equal. apply (DecimalN.Unsigned.of_to n).
Qed.

(** ** Reading a rendered release *)
Lemma digits_no : forall n c, (c < 48 \/ 57 < c)%N -> ~ In c (str_of_N n).
Proof. intros n c H Hi. apply str_of_N_digits in Hi. lia. Qed.

Lemma join_digits_no : forall ns c, (c < 48 \/ 57 < c)%N -> c <> 46%N ->
  ~ In c (join (L ".") (map str_of_N ns)).
Proof.
  induction ns as [|n ns IH]; intros c H H46 Hi; [exact Hi|].
  destruct ns as [|m ns].
  - exact (digits_no n c H Hi).
  - cbn [map join] in Hi. cbn [map] in IH. apply in_app_iff in Hi as [Hi|Hi].
    + exact (digits_no n c H Hi).
    + change (L ".") with [46%N] in *.
      apply in_app_iff in Hi as [[Hi|[]]|Hi]; [congruence|]. exact (IH c H H46 Hi).
Qed.

Lemma mem_char_In : forall c s, mem_char c s = true <-> In c s.
Proof.
  intros c s. unfold mem_char. rewrite existsb_exists. split.
  - intros (x & Hx & E). apply N.eqb_eq in E. congruence.
  - intro H. exists c. split; [exact H|apply N.eqb_refl].
Qed.

Lemma mem_char_false : forall c s, ~ In c s -> mem_char c s = false.
Proof. intros c s H. destruct (mem_char c s) eqn:E; [|reflexivity]. apply mem_char_In in E. contradiction. Qed.

Lemma mem_char_true : forall c a b, mem_char c (a ++ c :: b) = true.
Proof. intros. apply mem_char_In. apply in_app_iff. right. left. reflexivity. Qed.

Lemma has_rc_no_r : forall s, ~ In 114%N s -> has_rc s = false.
Proof.
  induction s as [|c s IH]; intros H; [reflexivity|]. cbn [has_rc].
  rewrite IH by (intro Hi; apply H; right; exact Hi). rewrite orb_false_r.
  change (L "rc") with [114; 99]%N. cbn [starts_with].
  destruct (N.eqb_spec 114 c) as [E|E]; [exfalso; apply H; left; congruence|reflexivity].
Qed.

Lemma has_rc_yes : forall a b, has_rc (a ++ L "rc" ++ b) = true.
Proof.
  induction a as [|c a IH]; intro b; [reflexivity|].
  cbn [app has_rc]. rewrite IH. apply orb_true_r.
Qed.

Lemma split_rc_no : forall s cur, ~ In 114%N s -> split_rc_aux false cur s = [rev cur ++ s].
Proof.
  induction s as [|c s IH]; intros cur H; [rewrite app_nil_r; reflexivity|].
  cbn [split_rc_aux]. change (L "rc") with [114; 99]%N. cbn [starts_with].
  destruct (N.eqb_spec 114 c) as [E|E]; [exfalso; apply H; left; congruence|].
  cbn [andb]. rewrite IH by (intro Hi; apply H; right; exact Hi). simpl. rewrite <- app_assoc. reflexivity.
Qed.

Lemma split_rc_two : forall a b cur, ~ In 114%N a -> ~ In 114%N b ->
  split_rc_aux false cur (a ++ L "rc" ++ b) = [rev cur ++ a; b].
Proof.
  induction a as [|c a IH]; intros b cur Ha Hb.
  - change (L "rc") with [114; 99]%N. cbn. rewrite split_rc_no by exact Hb. rewrite app_nil_r. reflexivity.
  - cbn [app split_rc_aux]. change (starts_with (L "rc") (c :: a ++ L "rc" ++ b))
      with ((114 =? c)%N && starts_with [99%N] (a ++ L "rc" ++ b)).
    destruct (N.eqb_spec 114 c) as [E|E]; [exfalso; apply Ha; left; congruence|].
    cbn [andb]. rewrite IH; [|intro Hi; apply Ha; right; exact Hi|exact Hb].
    simpl. rewrite <- app_assoc. reflexivity.
Qed.

Lemma store_nums_render : forall ns done pad, (length ns <= length pad)%nat ->
  store_nums done pad (map str_of_N ns) = Ok (done ++ map Z.of_N ns ++ skipn (length ns) pad).
Proof.
  induction ns as [|n ns IH]; intros done pad H; [reflexivity|].
  cbn [map store_nums]. rewrite py_int_str_of_N. destruct pad as [|p pad]; [simpl in H; lia|].
  rewrite IH by (simpl in H; lia). rewrite <- app_assoc. reflexivity.
Qed.

Definition pad3 (ns : list N) : list Z := map Z.of_N ns ++ skipn (length ns) [0; 0; 0]%Z.
Definition stage_name (s : stage) : pystr :=
  match s with Alpha => L "alpha" | Beta => L "beta" | Candidate => L "candidate"
             | Final => L "final" end.

Lemma split_dots : forall ns, ns <> [] ->
  split_char 46 (join (L ".") (map str_of_N ns)) = map str_of_N ns.
Proof.
  intros ns H. change (L ".") with [46%N]. apply split_join.
  - destruct ns; [congruence|discriminate].
  - intros w Hw. apply in_map_iff in Hw as (n & <- & _). apply digits_no. lia.
Qed.

Lemma split_char_two : forall c a b, ~ In c a -> ~ In c b -> split_char c (a ++ c :: b) = [a; b].
Proof. intros. rewrite split_char_app by assumption. rewrite split_char_word by assumption. reflexivity. Qed.

Lemma parse_render : forall r, proper r ->
  convertVersionStringToTuple (render r)
  = Ok (pad3 (r_nums r), stage_name (r_stage r), Z.of_N (r_sub r)).
Proof.
  intros [ns st sub] [[Hl1 Hl2] Hf]. cbn [r_nums r_stage r_sub] in *.
  assert (Hne : ns <> []) by (destruct ns; simpl in *; [lia|discriminate]).
  assert (Hstore : store_nums [] [0; 0; 0]%Z (map str_of_N ns) = Ok (pad3 ns)).
  { rewrite store_nums_render by exact Hl2. reflexivity. }
  unfold convertVersionStringToTuple, render. cbn [r_nums r_stage r_sub].
  set (b := join (L ".") (map str_of_N ns)).
  assert (Hb : forall c, (c < 48 \/ 57 < c)%N -> c <> 46%N -> ~ In c b)
    by (intros; apply join_digits_no; assumption).
  assert (Hd : split_char 46 b = map str_of_N ns) by (apply split_dots; exact Hne).
  destruct st.
  - change (L "a" ++ str_of_N sub) with (97%N :: str_of_N sub).
    rewrite mem_char_true, split_char_two; [|apply Hb; lia|apply digits_no; lia].
    rewrite Hd, Hstore, py_int_str_of_N. reflexivity.
  - change (L "b" ++ str_of_N sub) with (98%N :: str_of_N sub).
    rewrite (mem_char_false 97), mem_char_true, split_char_two;
      [|apply Hb; lia|apply digits_no; lia|].
    + rewrite Hd, Hstore, py_int_str_of_N. reflexivity.
    + intro H. apply in_app_iff in H as [H|[H|H]]; [apply Hb in H; [exact H|lia|lia]|discriminate|].
      apply digits_no in H; [exact H|lia].
  - rewrite (mem_char_false 97), (mem_char_false 98), has_rc_yes.
    + unfold split_rc. rewrite split_rc_two; [|apply Hb; lia|apply digits_no; lia].
      cbn [rev app]. rewrite Hd, Hstore, py_int_str_of_N. reflexivity.
    + intro H. apply in_app_iff in H as [H|[H|[H|H]]];
        [apply Hb in H; [exact H|lia|lia]|discriminate|discriminate|apply digits_no in H; [exact H|lia]].
    + intro H. apply in_app_iff in H as [H|[H|[H|H]]];
        [apply Hb in H; [exact H|lia|lia]|discriminate|discriminate|apply digits_no in H; [exact H|lia]].
  - rewrite app_nil_r. rewrite (mem_char_false 97), (mem_char_false 98), has_rc_no_r;
      [|apply Hb; lia|apply Hb; lia|apply Hb; lia].
    rewrite Hd, Hstore. rewrite Hf by reflexivity. reflexivity.
Qed.

Lemma pad3_nums : forall ns, (length ns <= 3)%nat ->
  pad3 ns = [Z.of_N (nth 0 ns 0%N); Z.of_N (nth 1 ns 0%N); Z.of_N (nth 2 ns 0%N)].
Proof.
  intros ns H. destruct ns as [|a [|b [|c [|d ns]]]]; try reflexivity. simpl in H. lia.
Qed.

Lemma stage_ltb : forall s t a b,
  (str_ltb (stage_name s) (stage_name t) || (str_eqb (stage_name s) (stage_name t) && (a <? b)%Z))%bool
  = true <-> (stage_rank s < stage_rank t)%N \/ (s = t /\ (a < b)%Z).
Proof.
  intros s t a b. destruct s, t; cbn; rewrite ?Z.ltb_lt; split; intros;
    try discriminate; try tauto; try lia; try (intuition (discriminate || lia)).
Qed.

Lemma tuple_order : forall a b, proper a -> proper b ->
  tuple_ltb (pad3 (r_nums a), stage_name (r_stage a), Z.of_N (r_sub a))
            (pad3 (r_nums b), stage_name (r_stage b), Z.of_N (r_sub b)) = true
  <-> older a b.
Proof.
  intros a b [[_ Ha] _] [[_ Hb] _]. unfold tuple_ltb.
  rewrite (pad3_nums _ Ha), (pad3_nums _ Hb). cbn [nums_ltb].
  unfold older. fold (num a 0) (num a 1) (num a 2) (num b 0) (num b 1) (num b 2).
  pose proof (stage_ltb (r_stage a) (r_stage b) (Z.of_N (r_sub a)) (Z.of_N (r_sub b))) as S.
  match type of S with (?t = true <-> _) => generalize dependent t end. intros tie S.
  rewrite !orb_true_iff, !andb_true_iff, !orb_true_iff, !andb_true_iff, !orb_true_iff,
    !andb_true_iff, S, !Z.ltb_lt, !Z.eqb_eq.
  assert (E : forall x y, (Z.of_N x < Z.of_N y)%Z <-> (x < y)%N) by (intros; lia).
  assert (F : forall x y, Z.of_N x = Z.of_N y <-> x = y) by (intros; lia).
  rewrite !E, !F. reflexivity.
Qed.

Lemma version_order : forall a b, proper a -> proper b ->
  exists ta tb, convertVersionStringToTuple (render a) = Ok ta
    /\ convertVersionStringToTuple (render b) = Ok tb
    /\ (tuple_ltb ta tb = true <-> older a b).
Proof.
  intros a b Ha Hb. do 2 eexists. split; [apply parse_render; exact Ha|].
  split; [apply parse_render; exact Hb|]. apply tuple_order; assumption.
Qed.

Lemma version_check : forall r, proper r ->
  version_check_rejects (render r) = true <-> older r (mkRel [3; 0; 0]%N Alpha 1).
Proof.
  intros r Hr. unfold version_check_rejects. rewrite parse_render by exact Hr.
  change minCompatible with (pad3 (r_nums (mkRel [3; 0; 0]%N Alpha 1)),
     stage_name (r_stage (mkRel [3; 0; 0]%N Alpha 1)), Z.of_N (r_sub (mkRel [3; 0; 0]%N Alpha 1))).
  apply tuple_order; [exact Hr|]. split; [simpl; lia|discriminate].
Qed.

(** ** Module names *)
Lemma path_char_ident : forall c, (c < 256)%N -> ident_char (path_char c).
Proof.
  intros c H. unfold path_char, is_alnum, ident_char.
  destruct (N.ltb_spec c 256); [|lia].
  match goal with |- context [if ?b then _ else _] => destruct b eqn:E end; lia.
Qed.

Lemma module_name_ident : forall p, Forall (fun c => (c < 256)%N) p ->
  Forall ident_char (convertTmplPathToModuleName p)
  /\ length (convertTmplPathToModuleName p) = length p.
Proof.
  intros p H. unfold convertTmplPathToModuleName. rewrite map_length. split; [|reflexivity].
  apply Forall_map. eapply Forall_impl; [|exact H]. intros; apply path_char_ident; assumption.
Qed.

Lemma path_char_alnum : forall c, letter_or_digit c -> path_char c = c.
Proof.
  intros c H. unfold letter_or_digit in H. unfold path_char, is_alnum.
  destruct (N.ltb_spec c 256); [|lia].
  match goal with |- context [if ?b then _ else _] => destruct b eqn:E end; lia.
Qed.

Lemma path_char_inj : forall sep x y, (sep < 256)%N ->
  letter_or_digit x \/ x = sep -> letter_or_digit y \/ y = sep ->
  path_char x = path_char y -> x = y.
Proof.
  intros sep x y Hs Hx Hy E.
  assert (C : letter_or_digit sep \/ ~ letter_or_digit sep) by (unfold letter_or_digit; lia).
  destruct C as [C|C].
  - assert (letter_or_digit x) by (destruct Hx; subst; assumption).
    assert (letter_or_digit y) by (destruct Hy; subst; assumption).
    rewrite !path_char_alnum in E by assumption. exact E.
  - assert (Hsep : path_char sep = 95%N).
    { unfold path_char, is_alnum. destruct (N.ltb_spec sep 256); [|lia].
      unfold letter_or_digit in C.
      match goal with |- context [if ?b then _ else _] => destruct b eqn:E1 end; lia. }
    destruct Hx as [Hx|Hx], Hy as [Hy|Hy]; subst;
      rewrite ?Hsep in E; repeat rewrite path_char_alnum in E by assumption; try congruence;
      unfold letter_or_digit in *; lia.
Qed.

Lemma module_name_inj : forall sep p q, (sep < 256)%N ->
  Forall (fun c => letter_or_digit c \/ c = sep) p ->
  Forall (fun c => letter_or_digit c \/ c = sep) q ->
  convertTmplPathToModuleName p = convertTmplPathToModuleName q -> p = q.
Proof.
  intros sep p q Hs Hp. revert q. induction Hp as [|x p Hx Hp IH]; intros q Hq E;
    destruct Hq as [|y q Hy Hq]; try discriminate; [reflexivity|].
  injection E as E1 E2. f_equal; [|apply IH; assumption].
  exact (path_char_inj sep x y Hs Hx Hy E1).
Qed.

(** ** Dotted names *)
Lemma last_dot_some : forall s k i, last_dot s k = Some i ->
  (i < k)%nat /\ nth_error s i = Some 46%N
  /\ forall j, (i < j < k)%nat -> nth_error s j <> Some 46%N.
Proof.
  induction k as [|k IH]; intros i H; [discriminate|]. cbn [last_dot] in H. unfold is_dot_at in H.
  destruct (nth_error s k) as [c|] eqn:E.
  - destruct (N.eqb_spec c 46) as [Ec|Ec].
    + injection H as <-. subst. repeat split; [lia|exact E|intros; lia].
    + apply IH in H as (H1 & H2 & H3). repeat split; [lia|exact H2|].
      intros j Hj. destruct (Nat.eq_dec j k); [subst; congruence|apply H3; lia].
  - apply IH in H as (H1 & H2 & H3). repeat split; [lia|exact H2|].
    intros j Hj. destruct (Nat.eq_dec j k); [subst; congruence|apply H3; lia].
Qed.

Lemma last_dot_none : forall s k, last_dot s k = None ->
  forall j, (j < k)%nat -> nth_error s j <> Some 46%N.
Proof.
  induction k as [|k IH]; intros H j Hj; [lia|]. cbn [last_dot] in H. unfold is_dot_at in H.
  destruct (nth_error s k) as [c|] eqn:E.
  - destruct (N.eqb_spec c 46) as [Ec|Ec]; [discriminate|].
    destruct (Nat.eq_dec j k); [subst; congruence|apply IH; [exact H|lia]].
  - destruct (Nat.eq_dec j k); [subst; congruence|apply IH; [exact H|lia]].
Qed.

Lemma In_nth : forall (s : pystr) c, In c s <-> exists j, (j < length s)%nat /\ nth_error s j = Some c.
Proof.
  intros s c. split.
  - intro H. apply In_nth_error in H as [j Hj]. exists j. split; [|exact Hj].
    apply nth_error_Some. congruence.
  - intros (j & _ & H). eapply nth_error_In. exact H.
Qed.

(** The position of the last dot, as a decomposition of the string. *)
Lemma last_dot_decomp : forall s,
  match last_dot s (length s) with
  | Some i => exists a b, s = a ++ 46%N :: b /\ ~ In 46%N b /\ length a = i
  | None => ~ In 46%N s
  end.
Proof.
  intro s. destruct (last_dot s (length s)) as [i|] eqn:E.
  - apply last_dot_some in E as (H1 & H2 & H3).
    apply nth_error_split in H2 as (a & b & -> & <-).
    exists a, b. repeat split. intro H. apply In_nth in H as (j & Hj1 & Hj2).
    apply (H3 (length a + S j)%nat).
    + rewrite app_length. simpl. lia.
    + rewrite nth_error_app2 by lia. replace (length a + S j - length a)%nat with (S j) by lia. exact Hj2.
  - intro H. apply In_nth in H as (j & Hj1 & Hj2).
    exact (last_dot_none s (length s) E j Hj1 Hj2).
Qed.

Lemma packageName_spec : forall s,
  (exists a b, s = a ++ 46%N :: b /\ ~ In 46%N b /\ packageName s = a)
  \/ (~ In 46%N s /\ packageName s = []).
Proof.
  intro s. unfold packageName. pose proof (last_dot_decomp s) as H.
  destruct (last_dot s (length s)) as [i|].
  - left. destruct H as (a & b & E & Hb & Hi). exists a, b. split; [exact E|]. split; [exact Hb|].
    unfold slice. rewrite Nat.sub_0_r. cbn [skipn]. rewrite E, <- Hi, firstn_app, firstn_all, Nat.sub_diag.
    cbn [firstn]. apply app_nil_r.
  - right. auto.
Qed.

Lemma getPathExt_spec : forall s,
  (exists a b, s = a ++ 46%N :: b /\ ~ In 46%N b /\ getPathExt s = 46%N :: b)
  \/ (~ In 46%N s /\ getPathExt s = []).
Proof.
  intro s. unfold getPathExt. pose proof (last_dot_decomp s) as H.
  destruct (last_dot s (length s)) as [i|].
  - left. destruct H as (a & b & E & Hb & Hi). exists a, b. split; [exact E|]. split; [exact Hb|].
    unfold slice. subst i. rewrite E at 2. rewrite skipn_app, skipn_all, Nat.sub_diag.
    cbn [skipn app]. apply firstn_all2. rewrite E, app_length. simpl. lia.
  - right. auto.
Qed.

(** The chunks of nameSplit: those of a split at dots, without a final empty one. *)
Definition drop_last_empty (l : list pystr) : list pystr :=
  match rev l with [] :: r => rev r | _ => l end.

Lemma slice_app : forall a b c : pystr, slice (a ++ b ++ c) (length a) (length a + length b) = b.
Proof.
  intros a b c. unfold slice. rewrite skipn_app, skipn_all, Nat.sub_diag. cbn [skipn app].
  replace (length a + length b - length a)%nat with (length b) by lia.
  rewrite firstn_app, firstn_all, Nat.sub_diag. cbn [firstn]. apply app_nil_r.
Qed.

Lemma nameSplit_loop_spec : forall post s pre cur rslt,
  s = pre ++ cur ++ post -> ~ In 46%N cur ->
  nameSplit_loop s (length post) (length pre) (length pre + length cur) rslt
  = rslt ++ drop_last_empty
      (match split_char 46 post with w :: ws => (cur ++ w) :: ws | [] => [cur] end).
Proof.
  induction post as [|c post IH]; intros s pre cur rslt Hs Hc.
  - cbn [length nameSplit_loop split_char]. rewrite app_nil_r in Hs.
    rewrite app_nil_r. destruct (Nat.ltb_spec (length pre) (length s)) as [Hl|Hl].
    + rewrite Hs, app_length in Hl. destruct cur as [|x cur]; [simpl in Hl; lia|].
      unfold drop_last_empty. cbn [rev app]. f_equal.
      rewrite Hs, app_length. rewrite <- (app_nil_r (x :: cur)) at 1. rewrite slice_app. reflexivity.
    + rewrite Hs, app_length in Hl. destruct cur as [|x cur]; [|simpl in Hl; lia].
      unfold drop_last_empty. cbn. rewrite app_nil_r. reflexivity.
  - cbn [length nameSplit_loop split_char].
    assert (Hd : is_dot_at s (length pre + length cur) = (c =? 46)%N).
    { unfold is_dot_at. rewrite Hs, app_assoc, nth_error_app2 by (rewrite app_length; lia).
      rewrite app_length, Nat.sub_diag. reflexivity. }
    rewrite Hd. destruct (N.eqb_spec c 46) as [E|E].
    + subst c. replace (slice s (length pre) (length pre + length cur)) with cur
        by (rewrite Hs; symmetry; apply slice_app).
      rewrite app_nil_r.
      specialize (IH s (pre ++ cur ++ [46%N]) [] (rslt ++ [cur])).
      rewrite !app_length in IH. cbn [length] in IH. rewrite Nat.add_0_r in IH.
      replace (length pre + length cur + 1)%nat with (length pre + (length cur + 1))%nat by lia.
      etransitivity; [apply IH; [rewrite Hs, <- !app_assoc; reflexivity|intros []]|].
      rewrite <- app_assoc. f_equal.
      pose proof (split_char_nonnil 46 post) as Hne.
      destruct (split_char 46 post) as [|w ws]; [congruence|]. cbn [app].
      unfold drop_last_empty. cbn [rev].
      destruct (rev ws) as [|y ys] eqn:Er.
      * cbn [app]. destruct w; reflexivity.
      * cbn [app]. destruct y; [|reflexivity]. rewrite !rev_app_distr. reflexivity.
    + specialize (IH s pre (cur ++ [c]) rslt).
      rewrite app_length in IH. cbn [length] in IH.
      replace (length pre + length cur + 1)%nat with (length pre + (length cur + 1))%nat by lia.
      etransitivity; [apply IH|].
      3:{ pose proof (split_char_nonnil 46 post) as Hne.
        destruct (split_char 46 post) as [|w ws]; [congruence|].
        rewrite <- app_assoc. reflexivity. }
      * rewrite Hs, <- !app_assoc. reflexivity.
      * intro Hi. apply in_app_iff in Hi as [Hi|[Hi|[]]]; [exact (Hc Hi)|congruence].
Qed.

Lemma nameSplit_eq : forall s, nameSplit s = drop_last_empty (split_char 46 s).
Proof.
  intro s. unfold nameSplit.
  etransitivity; [apply (nameSplit_loop_spec s s [] [] [] eq_refl); intros []|].
  pose proof (split_char_nonnil 46 s). destruct (split_char 46 s); [congruence|reflexivity].
Qed.

Lemma drop_last_empty_snoc : forall l, drop_last_empty (l ++ [[]]) = l.
Proof. intro l. unfold drop_last_empty. rewrite rev_app_distr. cbn. apply rev_involutive. Qed.

Lemma drop_last_empty_other : forall l w, w <> [] -> drop_last_empty (l ++ [w]) = l ++ [w].
Proof. intros l w H. unfold drop_last_empty. rewrite rev_app_distr. cbn. destruct w; [congruence|reflexivity]. Qed.

Lemma join_snoc : forall (sep : pystr) l w, l <> [] -> join sep (l ++ [w]) = join sep l ++ sep ++ w.
Proof.
  intros sep. induction l as [|x l IH]; intros w H; [congruence|].
  destruct l as [|y l]; [reflexivity|].
  change ((x :: y :: l) ++ [w]) with (x :: ((y :: l) ++ [w])).
  assert (E : join sep (x :: (y :: l) ++ [w]) = x ++ sep ++ join sep ((y :: l) ++ [w])) by reflexivity.
  rewrite E, IH by discriminate. cbn [join]. rewrite <- !app_assoc. reflexivity.
Qed.

Lemma nameSplit_chunks : forall s w, In w (nameSplit s) -> ~ In 46%N w.
Proof.
  intros s w H. rewrite nameSplit_eq in H. apply (split_char_notin 46 s).
  unfold drop_last_empty in H. destruct (rev (split_char 46 s)) as [|y ys] eqn:E; [exact H|].
  destruct y; [|exact H]. apply in_rev. rewrite E. right. apply in_rev. exact H.
Qed.

Lemma nameSplit_join : forall s, (forall a, s <> a ++ [46%N]) -> join (L ".") (nameSplit s) = s.
Proof.
  intros s H. rewrite nameSplit_eq. change (L ".") with [46%N].
  pose proof (split_char_join 46 s) as J. pose proof (split_char_nonnil 46 s) as Hne.
  destruct (exists_last Hne) as (l & w & E). rewrite E in *.
  destruct w as [|c w].
  - destruct l as [|x l].
    + cbn in J. subst. reflexivity.
    + exfalso. rewrite join_snoc in J by discriminate. apply (H (join [46%N] (x :: l))).
      rewrite <- J at 1. rewrite app_nil_r. reflexivity.
  - rewrite drop_last_empty_other by discriminate. exact J.
Qed.

Lemma nameSplit_trailing : forall a, nameSplit (a ++ [46%N]) = split_char 46 a.
Proof.
  intro a. rewrite nameSplit_eq. rewrite <- (drop_last_empty_snoc (split_char 46 a)). f_equal.
  pose proof (split_char_nonnil 46 a) as Hne.
  rewrite <- (split_char_join 46 a) at 1.
  assert (J : join [46%N] (split_char 46 a) ++ [46%N] = join [46%N] (split_char 46 a ++ [[]])).
  { rewrite join_snoc by exact Hne. rewrite app_nil_r. reflexivity. }
  rewrite J. apply split_join.
  - destruct (split_char 46 a); discriminate.
  - intros w Hw. apply in_app_iff in Hw as [Hw|[<-|[]]]; [|intros []].
    eapply split_char_notin. exact Hw.
Qed.

Lemma packageName_nameSplit : forall s, In 46%N s -> (forall a, s <> a ++ [46%N]) ->
  exists w, nameSplit s = nameSplit (packageName s ++ [46%N]) ++ [w]
            /\ s = packageName s ++ 46%N :: w.
Proof.
  intros s Hd Ht. destruct (packageName_spec s) as [(a & b & E & Hb & ->)|[Hn _]]; [|contradiction].
  exists b. split; [|exact E]. rewrite nameSplit_trailing, nameSplit_eq, E.
  assert (S : split_char 46 (a ++ 46%N :: b) = split_char 46 a ++ [b]).
  { rewrite <- (split_char_join 46 a) at 1.
    pose proof (split_char_nonnil 46 a) as Hne.
    assert (J : join [46%N] (split_char 46 a) ++ 46%N :: b = join [46%N] (split_char 46 a ++ [b])).
    { rewrite join_snoc by exact Hne. reflexivity. }
    rewrite J. apply split_join.
    - destruct (split_char 46 a); discriminate.
    - intros w Hw. apply in_app_iff in Hw as [Hw|[<-|[]]]; [|exact Hb].
      eapply split_char_notin. exact Hw. }
  rewrite S. apply drop_last_empty_other. intro. subst b. exact (Ht a E).
Qed.

(** ** Regex escaping *)
Lemma specials_not_alnum : forall c, mem_char c regex_specials = true -> ascii_alnum c = false.
Proof.
  intros c H. apply mem_char_In in H. cbn in H.
  repeat (destruct H as [<-|H]; [reflexivity|]). destruct H.
Qed.

Lemma metachars_escaped : forall c, existsb (N.eqb c) metachars = true ->
  mem_char c regex_specials = true.
Proof.
  intros c H. apply existsb_exists in H as (x & Hx & E). apply N.eqb_eq in E. subst x.
  cbn in Hx. repeat (destruct Hx as [<-|Hx]; [reflexivity|]). destruct Hx.
Qed.

Lemma escape_literal : forall s, literal_pattern (escapeRegexChars s) = Some s.
Proof.
  induction s as [|c s IH]; [reflexivity|]. cbn [escapeRegexChars].
  destruct (mem_char c regex_specials) eqn:E.
  - cbn [literal_pattern]. rewrite N.eqb_refl, (specials_not_alnum c E), IH. reflexivity.
  - cbn [literal_pattern]. destruct (N.eqb_spec c 92) as [Ec|Ec]; [subst; discriminate E|].
    destruct (existsb (N.eqb c) metachars) eqn:M; [rewrite (metachars_escaped c M) in E; discriminate|].
    rewrite IH. reflexivity.
Qed.

Lemma escape_inj : forall s t, escapeRegexChars s = escapeRegexChars t -> s = t.
Proof.
  intros s t H. pose proof (escape_literal s) as A. rewrite H, escape_literal in A. congruence.
Qed.

(** ** Statistics *)
Lemma count_lines_sum : forall ls c b m,
  let '(c', b', m') := count_lines ls c b m in (c' + b' + m' = c + b + m + length ls)%nat.
Proof.
  induction ls as [|l ls IH]; intros c b m; cbn [count_lines length]; [lia|].
  destruct (is_comment_line l); [|destruct (is_blank_line l)].
  - specialize (IH c b (S m)). destruct (count_lines ls c b (S m)) as [[? ?] ?]. lia.
  - specialize (IH c (S b) m). destruct (count_lines ls c (S b) m) as [[? ?] ?]. lia.
  - specialize (IH (S c) b m). destruct (count_lines ls (S c) b m) as [[? ?] ?]. lia.
Qed.

Lemma file_stats_sum : forall text,
  let f := getFileStats text in
  (f_code f + f_blank f + f_comment f = f_total f)%nat /\ f_total f = length (splitlines text).
Proof.
  intro text. unfold getFileStats. pose proof (count_lines_sum (splitlines text) 0 0 0) as H.
  destruct (count_lines (splitlines text) 0 0 0) as [[c b] m]. cbn in *. lia.
Qed.

Lemma summary_loop_sum : forall l acc,
  summary_loop l acc
  = mkF (f_code acc + list_sum (map f_code l)) (f_blank acc + list_sum (map f_blank l))
        (f_comment acc + list_sum (map f_comment l)) (f_total acc + list_sum (map f_total l)).
Proof.
  induction l as [|f l IH]; intros [a b c d]; cbn [summary_loop map list_sum fold_right f_code f_blank f_comment f_total].
  - rewrite !Nat.add_0_r. reflexivity.
  - rewrite IH. cbn [f_code f_blank f_comment f_total]. f_equal; unfold list_sum; lia.
Qed.

Lemma summary_sum : forall texts,
  let f := stats_summary (map getFileStats texts) in
  (f_code f + f_blank f + f_comment f = f_total f)%nat
  /\ f_total f = list_sum (map (fun t => length (splitlines t)) texts).
Proof.
  intro texts. unfold stats_summary. rewrite summary_loop_sum. cbn [f_code f_blank f_comment f_total].
  rewrite !map_map. induction texts as [|t texts IH]; [split; reflexivity|].
  cbn [map list_sum fold_right]. destruct (file_stats_sum t) as [E1 E2].
  fold (list_sum (map (fun x => f_code (getFileStats x)) texts)) in *.
  fold (list_sum (map (fun x => f_blank (getFileStats x)) texts)) in *.
  fold (list_sum (map (fun x => f_comment (getFileStats x)) texts)) in *.
  fold (list_sum (map (fun x => f_total (getFileStats x)) texts)) in *.
  fold (list_sum (map (fun t => length (splitlines t)) texts)) in *. lia.
Qed.

(** splitlines loses no text: every character that is no line boundary survives, in order. *)
Lemma splitlines_keeps : forall s cr cur,
  concat (splitlines_aux cr cur s) = rev cur ++ filter (fun c => negb (is_linebreak c)) s
  \/ (cr = true /\ cur <> []).
Proof.
  induction s as [|c s IH]; intros cr cur.
  - left. cbn. rewrite app_nil_r. destruct cur; cbn; rewrite ?app_nil_r; reflexivity.
  - cbn [splitlines_aux filter]. destruct (cr && (c =? 10)%N) eqn:E.
    + apply andb_true_iff in E as [-> E]. apply N.eqb_eq in E. subst c. cbn [is_linebreak negb].
      destruct cur as [|x cur]; [|right; split; [reflexivity|discriminate]].
      left. destruct (IH false []) as [H|[H _]]; [|discriminate]. rewrite H. reflexivity.
    + destruct (is_linebreak c) eqn:B; cbn [negb].
      * left. cbn [concat]. destruct (IH (c =? 13)%N []) as [H|[_ H]]; [|congruence].
        rewrite H. reflexivity.
      * left. destruct (IH false (c :: cur)) as [H|[H _]]; [|discriminate].
        rewrite H. cbn [rev]. rewrite <- app_assoc. reflexivity.
Qed.

Lemma splitlines_text : forall s,
  concat (splitlines s) = filter (fun c => negb (is_linebreak c)) s.
Proof.
  intro s. unfold splitlines. destruct (splitlines_keeps s false []) as [H|[H _]]; [exact H|discriminate].
Qed.
