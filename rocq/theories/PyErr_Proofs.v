(** Proofs about the report on errors in generated code. *)
From Verif Require Import Base PyStr Names_Model Reader_Model PyErr_Model PyErr_Spec.
From Verif Require Reader_Proofs.

(** ** Rows *)
Lemma before_ok : forall n lines p i, 1 <= i -> p <= length lines ->
  exists b, before lines p i n = Some b /\
    (forall k t, In (k, t) b <-> (2 <= k /\ k <= p + 1 - i /\ p + 2 <= k + i + n /\ nth_error lines (k - 1) = Some t)) /\
    ascends (rev b).
Proof.
  induction n as [|n IH]; intros lines p i Hi Hp; cbn [before].
  - exists []. split; [reflexivity|split; [|constructor]]. intros k t. split; [intros [] | lia].
  - destruct (p <=? i) eqn:E.
    + apply Nat.leb_le in E. exists []. split; [reflexivity|split; [|constructor]]. intros k t. split; [intros [] | lia].
    + apply Nat.leb_gt in E. destruct (nth_error lines (p - i)) as [l|] eqn:N.
      2: { apply nth_error_None in N. lia. }
      destruct (IH lines p (S i)) as (b & Eb & Hb & Sb); [lia | exact Hp |]. rewrite Eb.
      eexists. split; [reflexivity|]. split.
      * intros k t. cbn [In]. rewrite Hb. split.
        -- intros [H|H]; [injection H as <- <-; replace (p + 1 - i - 1) with (p - i) by lia; repeat split; try lia; exact N |].
           repeat split; try lia; apply H.
        -- intros (H1 & H2 & H3 & H4). destruct (Nat.eq_dec k (p + 1 - i)) as [K|K].
           ++ left. subst k. replace (p + 1 - i - 1) with (p - i) in H4 by lia. congruence.
           ++ right. repeat split; try lia. exact H4.
      * cbn [rev]. assert (Hin : forall x, In x (rev b) -> fst x < p + 1 - i).
        { intros [k t] HI. apply in_rev in HI. apply Hb in HI. cbn [fst]. lia. }
        clear - Sb Hin. unfold ascends in *. induction (rev b) as [|x r IHr]; cbn [app]; [repeat constructor|].
        apply StronglySorted_inv in Sb. destruct Sb as [Sb1 Sb2]. constructor.
        -- apply IHr; [exact Sb1 | intros y Hy; apply Hin; right; exact Hy].
        -- apply Forall_app. split; [exact Sb2 | constructor; [apply Hin; left; reflexivity | constructor]].
Qed.
Lemma after_ok : forall n lines p i,
  exists a, after lines p i n = Some a /\
    (forall k t, In (k, t) a <-> (p + i <= k /\ k < p + i + n /\ nth_error lines k = Some t)) /\ ascends a.
Proof.
  induction n as [|n IH]; intros lines p i; cbn [after].
  - exists []. split; [reflexivity|split; [|constructor]]. intros k t. split; [intros [] | lia].
  - destruct (negb (p + i <? length lines)) eqn:E.
    + apply negb_true_iff, Nat.ltb_ge in E. exists []. split; [reflexivity|split; [|constructor]].
      intros k t. split; [intros []|]. intros (H1 & H2 & H3). apply (f_equal (fun o => match o with Some _ => true | None => false end)) in H3.
      assert (nth_error lines k = None) as Q by (apply nth_error_None; lia). rewrite Q in H3. discriminate H3.
    + apply negb_false_iff, Nat.ltb_lt in E. destruct (nth_error lines (p + i)) as [l|] eqn:N.
      2: { apply nth_error_None in N. lia. }
      destruct (IH lines p (S i)) as (b & Eb & Hb & Sb). rewrite Eb.
      eexists. split; [reflexivity|]. split.
      * intros k t. cbn [In]. rewrite Hb. split.
        -- intros [H|H]; [injection H as <- <-; repeat split; try lia; exact N |]. repeat split; try lia; apply H.
        -- intros (H1 & H2 & H3). destruct (Nat.eq_dec k (p + i)) as [K|K].
           ++ left. subst k. congruence.
           ++ right. repeat split; try lia. exact H3.
      * constructor; [exact Sb|]. apply Forall_forall. intros [k t] HI. apply Hb in HI. cbn [fst]. lia.
Qed.

Lemma table_ok : forall lines p off, 1 <= p <= length lines ->
  exists b a, table lines p off = Some (map row_text b ++ caret off ++ map row_text a) /\
    ascends b /\ ascends a /\
    (forall n t, In (n, t) b <-> (2 <= n /\ p <= n + 2 /\ n <= p /\ is_line lines n t)) /\
    (forall n t, In (n, t) a <-> (p + 1 <= n <= p + 3 /\ is_line lines (n + 1) t)).
Proof.
  intros lines p off H. unfold table.
  destruct (before_ok 3 lines p 1) as (b & Eb & Hb & Sb); [lia | lia |].
  destruct (after_ok 3 lines p 1) as (a & Ea & Ha & Sa). rewrite Eb, Ea.
  exists (rev b), a. split; [reflexivity|]. split; [exact Sb|]. split; [exact Sa|]. split.
  - intros n t. rewrite <- in_rev, Hb. unfold is_line. intuition lia.
  - intros n t. rewrite Ha. unfold is_line. replace (n + 1 - 1) with n by lia. intuition lia.
Qed.
Lemma table_beyond : forall lines p off, 2 <= p -> length lines < p -> table lines p off = None.
Proof.
  intros lines p off H1 H2. unfold table. cbn [before]. assert (p <=? 1 = false) as -> by (apply Nat.leb_gt; lia).
  assert (nth_error lines (p - 1) = None) as -> by (apply nth_error_None; lia). reflexivity.
Qed.

(** ** The caret *)
Lemma row_no_len : forall n, length (str_of_N (N.of_nat n)) <= 4 -> length (row_no n) = 4.
Proof. intros n H. unfold row_no. rewrite app_length, repeat_length. lia. Qed.
Lemma row_char : forall n t k, length (str_of_N (N.of_nat n)) <= 4 -> nth_error (row_text (n, t)) (5 + k) = nth_error t k.
Proof.
  intros n t k H. unfold row_text. cbn [fst snd]. rewrite app_assoc, nth_error_app2.
  - f_equal. rewrite app_length, row_no_len by exact H. cbn [length]. lia.
  - rewrite app_length, row_no_len by exact H. cbn [length]. lia.
Qed.

(** ** Marks *)
Lemma digit_iff : forall c, is_digit c = true <-> (48 <= c <= 57)%N. Proof. intros c. unfold is_digit. lia. Qed.
Lemma span_ok : forall d t, Forall (fun c => (48 <= c <= 57)%N) d -> no_digit t -> span_digits (d ++ t) = (d, t).
Proof.
  induction d as [|c d IH]; intros t H Ht; cbn [app span_digits].
  - destruct t as [|c t]; [reflexivity|]. cbn [span_digits]. cbn [no_digit] in Ht.
    destruct (is_digit c) eqn:E; [apply digit_iff in E; contradiction | reflexivity].
  - inversion H as [|? ? H1 H2]; subst. apply digit_iff in H1. rewrite H1, (IH t H2 Ht). reflexivity.
Qed.
Lemma span_split : forall s d t, span_digits s = (d, t) -> s = d ++ t /\ Forall (fun c => (48 <= c <= 57)%N) d /\ no_digit t.
Proof.
  induction s as [|c s IH]; intros d t H; cbn [span_digits] in H.
  - injection H as <- <-. repeat split. constructor.
  - destruct (is_digit c) eqn:E.
    + destruct (span_digits s) as [d' t'] eqn:S. injection H as <- <-. destruct (IH d' t' eq_refl) as (-> & H2 & H3).
      split; [reflexivity|]. split; [constructor; [apply digit_iff; exact E | exact H2] | exact H3].
    + injection H as <- <-. split; [reflexivity|]. split; [constructor|]. cbn [no_digit]. rewrite <- digit_iff. congruence.
Qed.

Lemma of_acc : forall d a, fold_left (fun a c => (10 * a + (c - 48))%N) (uint_str d) (N.pos a) = N.pos (Pos.of_uint_acc d a).
Proof.
  induction d as [|d IH|d IH|d IH|d IH|d IH|d IH|d IH|d IH|d IH|d IH]; intros a; cbn [uint_str fold_left Pos.of_uint_acc]; [reflexivity|..];
    match goal with |- fold_left _ _ ?x = N.pos (Pos.of_uint_acc d ?y) => assert (x = N.pos y) as -> by lia end; apply IH.
Qed.
Lemma num_str : forall n, num (str_of_N n) = n.
Proof.
  intros n. unfold str_of_N. rewrite <- (DecimalN.Unsigned.of_to n) at 2. generalize (N.to_uint n). intros d. unfold num, N.of_uint.
  induction d as [|d IH|d IH|d IH|d IH|d IH|d IH|d IH|d IH|d IH|d IH]; cbn [uint_str fold_left Pos.of_uint]; [reflexivity|exact IH|..];
    apply of_acc.
Qed.
Lemma str_number : forall n, number (str_of_N n).
Proof. intros n. split; [apply str_of_N_nonempty|]. apply Forall_forall. intros c. apply str_of_N_digits. Qed.

Lemma match_some : forall d e t, number d -> number e -> no_digit t ->
  match_mark (L "line " ++ d ++ L ", col " ++ e ++ t) = Some (num d, num e).
Proof.
  intros d e t (D1 & D2) (E1 & E2) T. unfold match_mark.
  assert (starts_with (L "line ") (L "line " ++ d ++ L ", col " ++ e ++ t) = true) as -> by (apply starts_with_iff; eexists; reflexivity).
  change (skipn 5 (L "line " ++ d ++ L ", col " ++ e ++ t)) with (d ++ L ", col " ++ e ++ t).
  rewrite span_ok; [|exact D2 | cbn; lia]. destruct d as [|d0 d]; [contradiction|].
  assert (starts_with (L ", col ") (L ", col " ++ e ++ t) = true) as -> by (apply starts_with_iff; eexists; reflexivity).
  change (skipn 6 (L ", col " ++ e ++ t)) with (e ++ t).
  rewrite span_ok; [|exact E2 | exact T]. destruct e as [|e0 e]; [contradiction|]. reflexivity.
Qed.
Lemma match_inv : forall s m, match_mark s = Some m -> exists d e t, s = L "line " ++ d ++ L ", col " ++ e ++ t /\
  number d /\ number e /\ no_digit t /\ m = (num d, num e).
Proof.
  intros s m. unfold match_mark. destruct (starts_with (L "line ") s) eqn:S1; [|discriminate].
  apply starts_with_iff in S1. destruct S1 as (q & ->). change (skipn 5 (L "line " ++ q)) with q.
  destruct (span_digits q) as [d t] eqn:Q. apply span_split in Q. destruct Q as (-> & D & T).
  destruct d as [|d0 d]; [discriminate|]. destruct (starts_with (L ", col ") t) eqn:S2; [|discriminate].
  apply starts_with_iff in S2. destruct S2 as (q & ->). change (skipn 6 (L ", col " ++ q)) with q.
  destruct (span_digits q) as [e t] eqn:Q. apply span_split in Q. destruct Q as (-> & E & T2).
  destruct e as [|e0 e]; [discriminate|]. intros H. injection H as <-.
  exists (d0 :: d), (e0 :: e), t. repeat split; try assumption; try discriminate; exact T2.
Qed.
Lemma number_more : forall e b, number e -> exists e' t, e ++ b = e' ++ t /\ number e' /\ no_digit t.
Proof.
  intros e b (E1 & E2). destruct (span_digits (e ++ b)) as [e' t] eqn:Q. apply span_split in Q. destruct Q as (Q & D & T).
  exists e', t. split; [exact Q|]. split; [|exact T]. split; [|exact D].
  destruct e as [|c e]; [contradiction|]. destruct e' as [|c' e']; [|discriminate].
  cbn [app] in Q. subst t. cbn [no_digit] in T. inversion E2; subst. contradiction.
Qed.

Lemma search_none : forall s, search_mark s = None <-> ~ marked s.
Proof.
  intros s. split.
  - intros H (a & d & e & b & -> & D & E). destruct (number_more e b E) as (e' & t & Q & E' & T). rewrite Q in H. clear Q e b E.
    induction a as [|c a IH].
    + cbn [app] in H. assert (K := match_some d e' t D E' T). destruct (L "line " ++ d ++ L ", col " ++ e' ++ t) as [|x y] eqn:Z; [discriminate Z|].
      cbn [search_mark] in H. rewrite K in H. discriminate H.
    + apply IH. cbn [app search_mark] in H. destruct (match_mark _); [discriminate H | exact H].
  - intros H. induction s as [|c s IH].
    + reflexivity.
    + cbn [search_mark]. destruct (match_mark (c :: s)) as [m|] eqn:M.
      * exfalso. destruct (match_inv _ _ M) as (d & e & t & E & D1 & D2 & _). apply H. exists [], d, e, t. split; [exact E | split; assumption].
      * apply IH. intros (a & d & e & b & -> & K). apply H. exists (c :: a), d, e, b. split; [reflexivity | exact K].
Qed.
Lemma search_split : forall s m, search_mark s = Some m -> exists x d e t, s = x ++ L "line " ++ d ++ L ", col " ++ e ++ t /\
  number d /\ number e /\ no_digit t /\ m = (num d, num e).
Proof.
  induction s as [|c s IH]; intros m H; cbn [search_mark] in H; [discriminate H|].
  destruct (match_mark (c :: s)) as [m'|] eqn:M.
  - injection H as ->. destruct (match_inv _ _ M) as (d & e & t & E & D1 & D2 & T & ->). exists [], d, e, t. split; [exact E|].
    repeat split; assumption || apply D1 || apply D2.
  - destruct (IH m H) as (x & d & e & t & -> & K). exists (c :: x), d, e, t. split; [reflexivity | exact K].
Qed.

(** A mark cannot start in one text and end in the next one, if that starts with a newline or the letter l
    followed by i. *)
Definition fence (y : pystr) : Prop := exists r, y = 10%N :: r \/ y = 108%N :: 105%N :: r.
Lemma app_split : forall (a b c d : pystr), a ++ b = c ++ d -> (exists k, a = c ++ k /\ d = k ++ b) \/ (exists k, c = a ++ k /\ b = k ++ d /\ k <> []).
Proof.
  induction a as [|x a IH]; intros b c d H; cbn [app] in H.
  - destruct c as [|y c]; [left; exists []; split; [reflexivity | symmetry; exact H] |].
    right. exists (y :: c). repeat split; [exact H | discriminate].
  - destruct c as [|y c]; cbn [app] in H.
    + left. exists (x :: a). split; [reflexivity | symmetry; exact H].
    + injection H as -> H. destruct (IH _ _ _ H) as [(k & -> & ->)|(k & -> & -> & K)]; [left; exists k; split; reflexivity|].
      right. exists k. repeat split. exact K.
Qed.
Lemma fence_word : forall y w r, fence y -> y = w ++ r -> w <> [] ->
  match w with c :: w' => c = 10%N \/ (c = 108%N /\ match w' with [] => True | e :: _ => e = 105%N end) | [] => True end.
Proof.
  intros y w r (q & [H|H]) E K; subst y; destruct w as [|c w]; try exact I; cbn [app] in E.
  - injection E as <- _. left. reflexivity.
  - injection E as <- E. right. split; [reflexivity|]. destruct w as [|e w]; [exact I|]. cbn [app] in E. injection E as <- _. reflexivity.
Qed.
Ltac suffixes w K := repeat (destruct w as [|? w]; cbn [app] in K; try discriminate K).
(** [k]: a non-empty end of a word. *)
Lemma word_end : forall w x k : pystr, w = x ++ k -> exists n, k = skipn n w /\ x = firstn n w /\ n <= length w.
Proof.
  intros w x k ->. exists (length x). rewrite skipn_app, skipn_all, Nat.sub_diag. rewrite firstn_app, firstn_all, Nat.sub_diag, firstn_O, app_nil_r.
  rewrite app_length. split; [reflexivity|]. split; [reflexivity | lia].
Qed.
Lemma fence_mark : forall x y d e t, x <> [] -> fence y -> number d -> number e -> no_digit t ->
  x ++ y = L "line " ++ d ++ L ", col " ++ e ++ t ->
  exists t', x = L "line " ++ d ++ L ", col " ++ e ++ t' /\ t = t' ++ y.
Proof.
  intros x y d e t X F (D1 & D2) (E1 & E2) T H.
  assert (FD : forall k (g : pystr), Forall (fun c => (48 <= c <= 57)%N) g -> (exists h, g = h ++ k) -> forall r, y = k ++ r -> k <> [] -> False).
  { intros k g G (h & ->) r Y K. assert (Q := fence_word _ _ _ F Y K). destruct k as [|c k]; [contradiction|].
    apply Forall_app in G. destruct G as [_ G]. inversion G; subst. destruct Q as [Q|[Q _]]; lia. }
  apply app_split in H. destruct H as [(k & -> & H)|(k & H & Y & K)].
  2: { exfalso. assert (Q := fence_word _ _ _ F Y K). destruct (word_end _ _ _ H) as (n & -> & -> & N). cbn [length] in N.
       do 6 (destruct n as [|n]; [first [apply X; reflexivity | vm_compute in Q; destruct Q as [Q|[Q _]]; discriminate Q | apply K; reflexivity]|]). cbn in N. lia. }
  apply eq_sym, app_split in H. destruct H as [(k2 & -> & H)|(k2 & H & Y & K)].
  2: { exfalso. eapply (FD k2 d D2); [exists k; exact H | exact Y | exact K]. }
  apply eq_sym, app_split in H. destruct H as [(k3 & -> & H)|(k3 & H & Y & K)].
  2: { exfalso. destruct (word_end _ _ _ H) as (n & -> & -> & N). cbn [length] in N.
       destruct n as [|n].
       - assert (Q := fence_word _ _ _ F Y K). vm_compute in Q. destruct Q as [Q|[Q _]]; discriminate Q.
       - assert (Q := fence_word _ _ _ F Y K).
         do 6 (destruct n as [|n]; [first [vm_compute in Q; destruct Q as [Q|[Q Q2]]; discriminate | apply K; reflexivity]|]). cbn in N. lia. }
  apply eq_sym, app_split in H. destruct H as [(k4 & -> & H)|(k4 & H & Y & K)].
  2: { exfalso. eapply (FD k4 e E2); [exists k3; exact H | exact Y | exact K]. }
  exists k4. split; [reflexivity | exact H].
Qed.
Lemma search_fence : forall x y, fence y -> search_mark (x ++ y) = match search_mark x with Some m => Some m | None => search_mark y end.
Proof.
  intros x y F. induction x as [|c x IH]; [reflexivity|].
  cbn [app search_mark]. rewrite IH.
  destruct (match_mark (c :: x)) as [m|] eqn:M.
  - destruct (match_inv _ _ M) as (d & e & t & E & D1 & D2 & T & ->).
    change (c :: x ++ y) with ((c :: x) ++ y). rewrite E. rewrite <- !app_assoc. rewrite match_some; [reflexivity | assumption | assumption |].
    destruct t as [|z t]; [|exact T]. destruct F as (r & [->| ->]); cbn; lia.
  - destruct (match_mark (c :: x ++ y)) as [m|] eqn:M2; [|reflexivity]. exfalso.
    destruct (match_inv _ _ M2) as (d & e & t & E & D1 & D2 & T & ->).
    destruct (fence_mark (c :: x) y d e t) as (t' & E' & Et); try assumption; [discriminate|].
    rewrite E' in M. rewrite match_some in M; [discriminate M | assumption | assumption |].
    subst t. destruct t' as [|z t']; [exact I | exact T].
Qed.
Lemma mark_found : forall x r c y, ~ marked x -> no_digit y -> search_mark (x ++ mark r c ++ y) = Some (r, c).
Proof.
  intros x r c y X Y. rewrite search_fence.
  - apply search_none in X. rewrite X. unfold mark. rewrite <- !app_assoc.
    change (L "line " ++ str_of_N r ++ L ", col " ++ str_of_N c ++ y) with (108%N :: L "ine " ++ str_of_N r ++ L ", col " ++ str_of_N c ++ y).
    cbn [search_mark].
    change (108%N :: L "ine " ++ str_of_N r ++ L ", col " ++ str_of_N c ++ y) with (L "line " ++ str_of_N r ++ L ", col " ++ str_of_N c ++ y).
    rewrite match_some; [|apply str_number | apply str_number | exact Y]. rewrite !num_str. reflexivity.
  - eexists. right. reflexivity.
Qed.
Lemma join_cons : forall (l : pystr) b, b <> [] -> join [10%N] (l :: b) = l ++ 10%N :: join [10%N] b.
Proof. intros l b H. destruct b; [contradiction | reflexivity]. Qed.
Lemma search_lines : forall ls, search_mark (join [10%N] ls) =
  fold_right (fun l o => match search_mark l with Some m => Some m | None => o end) None ls.
Proof.
  induction ls as [|l ls IH]; [reflexivity|]. destruct ls as [|l2 ls].
  - cbn [join fold_right]. destruct (search_mark l); reflexivity.
  - rewrite join_cons by discriminate. rewrite search_fence by (eexists; left; reflexivity).
    cbn [fold_right]. cbn [fold_right] in IH. rewrite <- IH. destruct (search_mark l); [reflexivity|].
    cbn [search_mark]. destruct (match_mark (10%N :: join [10%N] (l2 :: ls))) as [m|] eqn:M; [|reflexivity].
    exfalso. destruct (match_inv _ _ M) as (d & e & t & E & _). discriminate E.
Qed.

Lemma pos_sure : forall x r c y lines p, ~ marked x -> no_digit y -> position (x ++ mark r c ++ y) lines p = (Some (r, c), false).
Proof. intros. unfold position. rewrite mark_found by assumption. reflexivity. Qed.
Lemma pos_guess : forall exc a x r c y b p, ~ marked exc -> p <= length a + 2 -> Forall (fun l => ~ marked l) (skipn (p - 2) a) ->
  ~ marked x -> no_digit y -> position exc (a ++ (x ++ mark r c ++ y) :: b) p = (Some (r, c), true).
Proof.
  intros exc a x r c y b p E P F X Y. unfold position. apply search_none in E. rewrite E. f_equal.
  rewrite skipn_app. replace (p - 2 - length a) with 0 by lia. cbn [skipn]. rewrite search_lines.
  induction F as [|l q H F IH]; cbn [app fold_right].
  - rewrite mark_found by assumption. reflexivity.
  - apply search_none in H. rewrite H. exact IH.
Qed.
Lemma pos_none : forall exc lines p, ~ marked exc -> Forall (fun l => ~ marked l) (skipn (p - 2) lines) -> position exc lines p = (None, true).
Proof.
  intros exc lines p E F. unfold position. apply search_none in E. rewrite E. f_equal. rewrite search_lines.
  induction F as [|l q H F IH]; cbn [fold_right]; [reflexivity|]. apply search_none in H. rewrite H. exact IH.
Qed.

(** ** Printing *)
Lemma printed : forall src n, (1 <= n)%N ->
  (exists rows, report_rows src n = Ok rows /\
     exists l, is_line (splitlines src) (N.to_nat n) l /\ In (Z.of_N n, l) rows /\
     forall k t, In (k, t) rows -> (1 <= k)%Z /\ is_line (splitlines src) (Z.to_nat k) t)
  <-> N.to_nat n <= length (splitlines src).
Proof.
  intros src n H. split.
  - intros (rows & E & _). unfold report_rows in E. cbv zeta in E.
    destruct (nth_error (splitlines src) (N.to_nat n - 1)) as [l|] eqn:N; [|discriminate E].
    assert (nth_error (splitlines src) (N.to_nat n - 1) <> None) as K by congruence. apply nth_error_Some in K. lia.
  - intros K. unfold report_rows. cbv zeta.
    destruct (nth_error (splitlines src) (N.to_nat n - 1)) as [l|] eqn:N; [|apply nth_error_None in N; lia].
    destruct (Reader_Proofs.prev_lines_ok 3 (splitlines src) (Z.of_N n) 1) as (a & Ea & Ha); [lia | lia |].
    destruct (Reader_Proofs.next_lines_ok 3 (splitlines src) (Z.of_N n) 1) as (b & Eb & Hb); [lia |].
    rewrite Ea, Eb. eexists. split; [reflexivity|]. exists l. split; [|split].
    + split; [lia | exact N].
    + apply in_or_app. right. left. reflexivity.
    + intros k t HI. apply in_app_or in HI. destruct HI as [HI|[HI|HI]].
      * apply in_rev in HI. apply Ha in HI. destruct HI as (H1 & H2). split; [lia|]. split; [lia|].
        replace (Z.to_nat k - 1) with (Z.to_nat (k - 1)) by lia. exact H2.
      * injection HI as <- <-. split; [lia|]. split; [lia|]. replace (Z.to_nat (Z.of_N n) - 1) with (N.to_nat n - 1) by lia. exact N.
      * apply Hb in HI. destruct HI as (H1 & H2). split; [lia|]. split; [lia|].
        replace (Z.to_nat k - 1) with (Z.to_nat (k - 1)) by lia. exact H2.
Qed.

Lemma error_pos : forall code descr exc p off m g, 1 <= p <= length (splitlines code) -> position exc (splitlines code) p = (m, g) ->
  exists e, gen_error code descr exc p off = Some e /\ e_pos e = m.
Proof.
  intros code descr exc p off m g H E. unfold gen_error. cbv zeta.
  destruct (table_ok (splitlines code) p off H) as (b & a & T & _). rewrite T, E. eexists. split; reflexivity.
Qed.
Lemma error_sure : forall code descr p off x r c y, 1 <= p <= length (splitlines code) -> ~ marked x -> no_digit y ->
  exists e, gen_error code descr (x ++ mark r c ++ y) p off = Some e /\ e_pos e = Some (r, c).
Proof. intros. eapply error_pos; [assumption | apply pos_sure; assumption]. Qed.
Lemma error_guess : forall code descr exc p off a x r c y b, 1 <= p <= length (splitlines code) -> ~ marked exc ->
  splitlines code = a ++ (x ++ mark r c ++ y) :: b -> p <= length a + 2 -> Forall (fun l => ~ marked l) (skipn (p - 2) a) ->
  ~ marked x -> no_digit y ->
  exists e, gen_error code descr exc p off = Some e /\ e_pos e = Some (r, c).
Proof. intros. eapply error_pos; [assumption|]. rewrite H1. apply pos_guess; assumption. Qed.
Lemma error_unknown : forall code descr exc p off, 1 <= p <= length (splitlines code) -> ~ marked exc ->
  Forall (fun l => ~ marked l) (skipn (p - 2) (splitlines code)) ->
  exists e, gen_error code descr exc p off = Some e /\ e_pos e = None.
Proof. intros. eapply error_pos; [assumption|]. apply pos_none; assumption. Qed.
Lemma under_caret : forall n t o, length (str_of_N (N.of_nat n)) <= 4 -> 2 <= o ->
  exists k, caret (Some (Some o)) = [repeat 32%N k ++ [94%N]] /\ nth_error (row_text (n, t)) k = nth_error t (o - 2).
Proof.
  intros n t o H K. exists (3 + o). split; [reflexivity|]. replace (3 + o) with (5 + (o - 2)) by lia. apply row_char. exact H.
Qed.

Lemma io_skip : forall l a s, in_order l s -> in_order l (a ++ s).
Proof. intros l a s H. destruct H as [s|a' x b l H]; [constructor|]. rewrite app_assoc. constructor. exact H. Qed.
Lemma io_char : forall l (c : N) s, in_order l s -> in_order l (c :: s).
Proof. intros l c s H. exact (io_skip l [c] s H). Qed.
Lemma io_take : forall x l b, in_order l b -> in_order (x :: l) (x ++ b).
Proof. intros x l b H. exact (io_cons [] x b l H). Qed.
Lemma message_ok : forall descr rows pos, in_order
  [descr; concat (map (fun l => l ++ [10%N]) rows);
   match pos with (Some _, false) => L "Here is the corresponding Cheetah code:" | (Some _, true) => L "** I had to guess" | (None, _) => [] end]
  (message descr rows pos).
Proof.
  intros descr rows pos. unfold message. cbv zeta. cbn [app join map concat].
  apply io_skip, io_char, io_skip, io_char, io_char, io_take, io_char, io_char. rewrite <- !app_assoc.
  apply io_skip, io_skip, io_skip, io_skip, io_take, io_char.
  destruct pos as [[m|] []].
  - apply io_skip, io_char. cbn [join]. apply io_skip, io_skip.
    change (L "** I had to guess the line & column numbers, so they are probably incorrect:") with (L "** I had to guess" ++ L " the line & column numbers, so they are probably incorrect:").
    rewrite <- app_assoc. apply io_take. constructor.
  - apply io_skip, io_char. cbn [join]. apply io_char, io_take. constructor.
  - rewrite <- (app_nil_r rule). apply io_skip. exact (io_take [] [] [] (io_nil [])).
  - rewrite <- (app_nil_r rule). apply io_skip. exact (io_take [] [] [] (io_nil [])).
Qed.
