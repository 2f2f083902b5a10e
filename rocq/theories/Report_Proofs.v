(** Proofs about the report helpers. *)
From Coq Require Import Permutation Sorted.
From Verif Require Import Report_Model Report_Spec.
Local Open Scope Z_scope.

Lemma roman_while_eq : forall fuel d c n r,
  0 < d -> 0 <= n -> (Z.to_nat (n / d) < fuel)%nat ->
  roman_while fuel d c n r = Some (n mod d, r ++ repeat c (Z.to_nat (n / d))).
Proof.
  induction fuel as [|f IH]; intros d c n r Hd Hn Hf; [lia|].
  cbn [roman_while]. destruct (Z.leb_spec d n) as [Hle|Hlt].
  - assert (E : n / d = (n - d) / d + 1).
    { replace n with ((n - d) + 1 * d) at 1 by lia. rewrite Z.div_add by lia. lia. }
    assert (0 <= (n - d) / d) by (apply Z.div_pos; lia).
    rewrite IH; [|lia|lia|lia].
    replace ((n - d) mod d) with (n mod d).
    2:{ replace n with ((n - d) + 1 * d) at 1 by lia. rewrite Z.mod_add by lia. reflexivity. }
    rewrite E. replace (Z.to_nat ((n - d) / d + 1)) with (S (Z.to_nat ((n - d) / d))) by lia.
    cbn [repeat]. rewrite <- app_assoc. reflexivity.
  - rewrite Z.mod_small by lia. rewrite Z.div_small by lia. simpl. rewrite app_nil_r. reflexivity.
Qed.

Lemma roman_ones_eq : forall fuel n r,
  0 <= n < 5 -> (Z.to_nat n < fuel)%nat ->
  roman_ones fuel n r = Some (0, r ++ repeat 73%N (Z.to_nat n)).
Proof.
  induction fuel as [|f IH]; intros n r Hn Hf; [lia|].
  cbn [roman_ones]. destruct (Z.ltb_spec n 5); [|lia]. destruct (Z.leb_spec 1 n) as [Hle|Hlt]; simpl.
  - rewrite IH by lia. replace (Z.to_nat n) with (S (Z.to_nat (n - 1))) by lia.
    cbn [repeat]. rewrite <- app_assoc. reflexivity.
  - replace n with 0 by lia. simpl. rewrite app_nil_r. reflexivity.
Qed.

(** The letters below M that the loops write for a number below 1000. *)
Definition low_letters (m : Z) : pystr :=
  repeat 68%N (Z.to_nat (m / 500)) ++ repeat 67%N (Z.to_nat (m mod 500 / 100))
  ++ repeat 76%N (Z.to_nat (m mod 500 mod 100 / 50))
  ++ repeat 88%N (Z.to_nat (m mod 500 mod 100 mod 50 / 10))
  ++ repeat 86%N (Z.to_nat (m mod 500 mod 100 mod 50 mod 10 / 5))
  ++ repeat 73%N (Z.to_nat (m mod 500 mod 100 mod 50 mod 10 mod 5)).

Ltac fuel_ok n :=
  repeat match goal with
  | |- context [?a mod ?b] =>
      lazymatch goal with
      | _ : 0 <= a mod b < b |- _ => fail
      | _ => pose proof (Z.mod_pos_bound a b eq_refl)
      end
  end.

Lemma div_le : forall a d, 0 <= a -> 0 < d -> 0 <= a / d <= a.
Proof. intros a d Ha Hd. split; [apply Z.div_pos; lia|]. apply Z.div_le_upper_bound; nia. Qed.

Lemma mod_le : forall a d, 0 <= a -> 0 < d -> 0 <= a mod d <= a.
Proof. intros a d Ha Hd. split; [apply Z.mod_pos_bound; lia|]. apply Z.mod_le; lia. Qed.

Lemma roman_while_fuel : forall n0 d c n r,
  0 < d -> 0 <= n <= n0 ->
  roman_while (S (Z.to_nat n0)) d c n r = Some (n mod d, r ++ repeat c (Z.to_nat (n / d))).
Proof.
  intros. apply roman_while_eq; try lia.
  assert (0 <= n / d <= n) by (apply div_le; lia). lia.
Qed.

Lemma Roman_letters : forall n, 1 <= n ->
  Roman n = Some (Ok (roman_replace (repeat 77%N (Z.to_nat (n / 1000)) ++ low_letters (n mod 1000)))).
Proof.
  intros n Hn. unfold Roman. destruct (Z.ltb_spec n 1); [lia|].
  unfold roman_steps. cbn [roman_loops].
  pose proof (mod_le n 1000 ltac:(lia) eq_refl) as B0. set (m0 := n mod 1000) in *.
  rewrite roman_while_fuel by lia.
  pose proof (mod_le m0 500 ltac:(lia) eq_refl) as B1. fold m0. rewrite roman_while_fuel by lia.
  unfold low_letters. set (m1 := m0 mod 500) in *.
  pose proof (mod_le m1 100 ltac:(lia) eq_refl) as B2. rewrite roman_while_fuel by lia.
  set (m2 := m1 mod 100) in *.
  pose proof (mod_le m2 50 ltac:(lia) eq_refl) as B3. rewrite roman_while_fuel by lia.
  set (m3 := m2 mod 50) in *.
  pose proof (mod_le m3 10 ltac:(lia) eq_refl) as B4. rewrite roman_while_fuel by lia.
  set (m4 := m3 mod 10) in *.
  pose proof (mod_le m4 5 ltac:(lia) eq_refl) as B5. rewrite roman_while_fuel by lia.
  set (m5 := m4 mod 5) in *.
  assert (m5 < 5) by (apply Z.mod_pos_bound; reflexivity).
  rewrite roman_ones_eq by lia. rewrite app_nil_l, <- !app_assoc. reflexivity.
Qed.

Lemma starts_with_M : forall x p s, x <> 77%N -> starts_with (x :: p) (77%N :: s) = false.
Proof. intros x p s H. simpl. apply N.eqb_neq in H. rewrite H. reflexivity. Qed.

Lemma replace_Ms : forall x p r k s, x <> 77%N ->
  replace_str (x :: p) r (repeat 77%N k ++ s) = repeat 77%N k ++ replace_str (x :: p) r s.
Proof.
  intros x p r k s H. unfold replace_str. induction k as [|k IH]; [reflexivity|].
  cbn [repeat app replace_aux]. rewrite starts_with_M by assumption. rewrite IH. reflexivity.
Qed.

Lemma roman_replace_Ms : forall k s,
  roman_replace (repeat 77%N k ++ s) = repeat 77%N k ++ roman_replace s.
Proof.
  intros k s. unfold roman_replace.
  change (L "DCCCC") with (68%N :: L "CCCC"). change (L "LXXXX") with (76%N :: L "XXXX").
  change (L "VIIII") with (86%N :: L "IIII").
  change (L "CCCC") with (67%N :: L "CCC"). change (L "XXXX") with (88%N :: L "XXX").
  change (L "IIII") with (73%N :: L "III").
  cbv zeta. rewrite !replace_Ms by discriminate. reflexivity.
Qed.

Definition low_standard (m : Z) : pystr :=
  nth (digit_of m 100) hundreds [] ++ nth (digit_of m 10) tens [] ++ nth (digit_of m 1) ones [].

Definition low_ok (m : Z) : bool :=
  str_eqb (roman_replace (low_letters m)) (low_standard m)
  && (numeral_value (low_standard m) =? m)
  && forallb (fun c => letter_value c <=? 1000) (low_standard m).

Lemma low_all : forallb low_ok (map Z.of_nat (seq 0 1000)) = true.
Proof. vm_compute. reflexivity. Qed.

Lemma low_ok_lt : forall m, 0 <= m < 1000 -> low_ok m = true.
Proof.
  intros m H. pose proof low_all as A. rewrite forallb_forall in A. apply A.
  replace m with (Z.of_nat (Z.to_nat m)) by lia. apply in_map. apply in_seq. lia.
Qed.

Lemma low_standard_mod : forall n, 0 <= n -> low_standard n = low_standard (n mod 1000).
Proof.
  intros n H. unfold low_standard, digit_of.
  assert (E : forall p q, 0 < p -> 0 < q -> p * q * 10 = 1000 ->
              (n mod 1000 / p) mod 10 = (n / p) mod 10).
  { intros p q Hp Hq E.
    rewrite (Z.div_mod n 1000) at 2 by lia.
    replace (1000 * (n / 1000) + n mod 1000) with (n mod 1000 + (q * (n / 1000) * 10) * p) by nia.
    rewrite Z.div_add by lia. rewrite Z.mod_add by lia. reflexivity. }
  rewrite (E 100 1), (E 10 10), (E 1 100) by lia. reflexivity.
Qed.

Lemma Roman_standard : forall n, 1 <= n -> Roman n = Some (Ok (standard_numeral n)).
Proof.
  intros n Hn. rewrite Roman_letters by assumption. do 2 f_equal.
  rewrite roman_replace_Ms. unfold standard_numeral. f_equal.
  change (roman_replace (low_letters (n mod 1000)) = low_standard n).
  rewrite low_standard_mod by lia.
  pose proof (low_ok_lt (n mod 1000) (Z.mod_pos_bound n 1000 eq_refl)) as H.
  unfold low_ok in H. apply andb_true_iff in H as [H _]. apply andb_true_iff in H as [H _].
  apply str_eqb_eq. exact H.
Qed.

Lemma numeral_value_Ms : forall k s, (forall c, In c s -> letter_value c <= 1000) ->
  numeral_value (repeat 77%N k ++ s) = 1000 * Z.of_nat k + numeral_value s.
Proof.
  induction k as [|k IH]; intros s H; [simpl; lia|].
  cbn [repeat app numeral_value]. rewrite IH by assumption.
  change (letter_value 77) with 1000.
  destruct (repeat 77%N k ++ s) as [|d t] eqn:E; [lia|].
  assert (letter_value d <= 1000).
  { assert (In d (repeat 77%N k ++ s)) as Hi by (rewrite E; left; reflexivity).
    apply in_app_iff in Hi as [Hi|Hi]; [|auto].
    apply repeat_spec in Hi. subst. reflexivity. }
  destruct (Z.ltb_spec 1000 (letter_value d)); lia.
Qed.

Lemma standard_value : forall n, 1 <= n -> numeral_value (standard_numeral n) = n.
Proof.
  intros n Hn. unfold standard_numeral. fold (low_standard n).
  pose proof (low_ok_lt (n mod 1000) (Z.mod_pos_bound n 1000 eq_refl)) as H.
  rewrite low_standard_mod by lia.
  unfold low_ok in H. apply andb_true_iff in H as [H H3]. apply andb_true_iff in H as [_ H2].
  rewrite forallb_forall in H3. apply Z.eqb_eq in H2.
  rewrite numeral_value_Ms.
  - rewrite H2. pose proof (Z.div_mod n 1000). assert (0 <= n / 1000) by (apply Z.div_pos; lia). lia.
  - intros c Hc. apply Z.leb_le. apply H3. exact Hc.
Qed.

Lemma Roman_value : forall n, 1 <= n ->
  exists s, Roman n = Some (Ok s) /\ numeral_value s = n.
Proof.
  intros n Hn. exists (standard_numeral n). split; [apply Roman_standard|apply standard_value]; lia.
Qed.

Lemma Roman_inj : forall n m, 1 <= n -> 1 <= m -> Roman n = Roman m -> n = m.
Proof.
  intros n m Hn Hm E. rewrite !Roman_standard in E by assumption.
  injection E as E. rewrite <- (standard_value n), <- (standard_value m) by assumption. congruence.
Qed.

Lemma Roman_bad : forall n, n < 1 -> Roman n = Some (Raise TypeError).
Proof. intros n H. unfold Roman. destruct (Z.ltb_spec n 1); [reflexivity|lia]. Qed.

(** ** Pages *)
Lemma py_get_nat : forall {A} (l : list A) i x, nth_error l i = Some x ->
  py_get l (Z.of_nat i) = Ok x.
Proof.
  intros A l i x H. unfold py_get. destruct (Z.ltb_spec (Z.of_nat i) 0); [lia|].
  destruct (Z.ltb_spec (Z.of_nat i) 0); [lia|]. rewrite Nat2Z.id, H. reflexivity.
Qed.

Lemma py_get_out : forall {A} (l : list A) i, nth_error l i = None ->
  py_get l (Z.of_nat i) = Raise IndexError.
Proof.
  intros A l i H. unfold py_get. destruct (Z.ltb_spec (Z.of_nat i) 0); [lia|].
  destruct (Z.ltb_spec (Z.of_nat i) 0); [lia|]. rewrite Nat2Z.id, H. reflexivity.
Qed.

Lemma record_stats_nat : forall {A} (l : list A) i x, nth_error l i = Some x ->
  record_stats l (Z.of_nat i) = Ok (mkStats l (Z.of_nat i) x).
Proof. intros A l i x H. unfold record_stats. rewrite (py_get_nat l i x H). reflexivity. Qed.

Definition entry {A} (l my : list A) (start rel : nat) (x : A) : A * stats A * stats A :=
  (x, mkStats l (Z.of_nat (start + rel)) x, mkStats my (Z.of_nat rel) x).

Fixpoint entries {A} (l my : list A) (start rel : nat) (xs : list A) : list (A * stats A * stats A) :=
  match xs with
  | [] => []
  | x :: r => entry l my start rel x :: entries l my start (S rel) r
  end.

Lemma nth_error_skipn : forall {A} (l : list A) a i, nth_error (skipn a l) i = nth_error l (a + i).
Proof.
  induction l as [|x l IH]; intros a i.
  - rewrite skipn_nil. destruct i, (a + 0)%nat, a; simpl; auto; destruct a; reflexivity.
  - destruct a; simpl; [reflexivity|apply IH].
Qed.

Lemma nth_error_firstn : forall {A} (l : list A) k i, (i < k)%nat ->
  nth_error (firstn k l) i = nth_error l i.
Proof.
  induction l as [|x l IH]; intros k i H; [rewrite firstn_nil; reflexivity|].
  destruct k; [lia|]. destruct i; simpl; [reflexivity|]. apply IH. lia.
Qed.

Lemma skipn_cons : forall {A} (l : list A) k x, nth_error l k = Some x ->
  skipn k l = x :: skipn (S k) l.
Proof.
  induction l as [|y l IH]; intros k x H; [destruct k; discriminate|].
  destruct k; simpl in *; [congruence|]. apply IH. exact H.
Qed.

Lemma page_loop_ok : forall {A} (l my : list A) start k rel,
  (forall i, (i < length my)%nat -> nth_error my i = nth_error l (start + i)) ->
  (rel + k = length my)%nat ->
  page_loop l my (Z.of_nat start) k (Z.of_nat rel)
  = Ok (entries l my start rel (skipn rel my)).
Proof.
  intros A l my start k. induction k as [|k IH]; intros rel Hm Hk.
  - rewrite skipn_all2 by lia. reflexivity.
  - destruct (nth_error my rel) as [x|] eqn:E.
    2:{ apply nth_error_None in E. lia. }
    rewrite (skipn_cons my rel x E).
    cbn [page_loop entries]. rewrite (py_get_nat my rel x E).
    replace (Z.of_nat start + Z.of_nat rel) with (Z.of_nat (start + rel)) by lia.
    rewrite (record_stats_nat l (start + rel) x) by (rewrite <- Hm by lia; exact E).
    rewrite (record_stats_nat my rel x E).
    replace (Z.of_nat rel + 1) with (Z.of_nat (S rel)) by lia.
    rewrite IH by (assumption || lia). reflexivity.
Qed.

Lemma page_loop_short : forall {A} (l my : list A) start k rel,
  (forall i, (i < length my)%nat -> nth_error my i = nth_error l (start + i)) ->
  (rel <= length my)%nat -> (rel + k > length my)%nat ->
  page_loop l my (Z.of_nat start) k (Z.of_nat rel) = Raise IndexError.
Proof.
  intros A l my start k. induction k as [|k IH]; intros rel Hm Hle Hk; [lia|].
  cbn [page_loop]. destruct (nth_error my rel) as [x|] eqn:E.
  - rewrite (py_get_nat my rel x E).
    assert (rel < length my)%nat by (apply nth_error_Some; congruence).
    replace (Z.of_nat start + Z.of_nat rel) with (Z.of_nat (start + rel)) by lia.
    rewrite (record_stats_nat l (start + rel) x) by (rewrite <- Hm by lia; exact E).
    rewrite (record_stats_nat my rel x E).
    replace (Z.of_nat rel + 1) with (Z.of_nat (S rel)) by lia.
    rewrite IH by (assumption || lia). reflexivity.
  - rewrite (py_get_out my rel E). reflexivity.
Qed.

Lemma slice_records : forall {A} (l : list A) size start,
  py_slice l (Z.of_nat start) (Z.min (Z.of_nat start + Z.of_nat size) (Z.of_nat (length l)))
  = page_records l size start.
Proof.
  intros A l size start. unfold py_slice, page_records. rewrite Nat2Z.id.
  destruct (Nat.le_gt_cases (start + size) (length l)) as [H|H].
  - f_equal. lia.
  - rewrite !firstn_all2; [reflexivity| |]; rewrite skipn_length; lia.
Qed.

Lemma records_nth : forall {A} (l : list A) size start i,
  (i < length (page_records l size start))%nat ->
  nth_error (page_records l size start) i = nth_error l (start + i).
Proof.
  intros A l size start i H. unfold page_records in *.
  rewrite firstn_length in H. rewrite nth_error_firstn by lia. apply nth_error_skipn.
Qed.

Lemma page_unfold : forall {A} (l : list A) size start,
  page l (Z.of_nat size) (Z.of_nat start)
  = page_loop l (page_records l size start) (Z.of_nat start) size (Z.of_nat 0).
Proof.
  intros A l size start. unfold page. replace (Z.max 0 (Z.of_nat start)) with (Z.of_nat start) by lia.
  rewrite slice_records, Nat2Z.id. reflexivity.
Qed.

Lemma page_full : forall {A} (l : list A) size start,
  (start + size <= length l)%nat ->
  page l (Z.of_nat size) (Z.of_nat start)
  = Ok (entries l (page_records l size start) start 0 (page_records l size start)).
Proof.
  intros A l size start H. rewrite page_unfold.
  rewrite page_loop_ok.
  - reflexivity.
  - intros i Hi. apply records_nth. exact Hi.
  - unfold page_records. rewrite firstn_length, skipn_length. lia.
Qed.

Lemma page_short : forall {A} (l : list A) size start,
  (0 < size)%nat -> (length l < start + size)%nat ->
  page l (Z.of_nat size) (Z.of_nat start) = Raise IndexError.
Proof.
  intros A l size start Hs H. rewrite page_unfold.
  apply page_loop_short.
  - intros i Hi. apply records_nth. exact Hi.
  - lia.
  - unfold page_records. rewrite firstn_length, skipn_length. lia.
Qed.

Lemma entries_records : forall {A} (l my : list A) start xs rel,
  map (fun t => fst (fst t)) (entries l my start rel xs) = xs.
Proof. intros A l my start. induction xs as [|x xs IH]; intro rel; [reflexivity|]. simpl. rewrite IH. reflexivity. Qed.

Lemma entries_nth : forall {A} (l my : list A) start xs rel i x,
  nth_error xs i = Some x ->
  nth_error (entries l my start rel xs) i = Some (entry l my start (rel + i) x).
Proof.
  intros A l my start. induction xs as [|y xs IH]; intros rel i x H; [destruct i; discriminate|].
  destruct i; simpl in *.
  - injection H as ->. rewrite Nat.add_0_r. reflexivity.
  - rewrite (IH (S rel) i x H). f_equal. f_equal. lia.
Qed.

Lemma entries_length : forall {A} (l my : list A) start xs rel,
  length (entries l my start rel xs) = length xs.
Proof. intros A l my start. induction xs; intro rel; simpl; auto. Qed.

(** What a full page holds, entry by entry. *)
Lemma page_entries : forall {A} (l : list A) size start,
  (start + size <= length l)%nat ->
  exists es, page l (Z.of_nat size) (Z.of_nat start) = Ok es
    /\ length es = size
    /\ forall i, (i < size)%nat -> exists x, nth_error l (start + i) = Some x
       /\ nth_error es i
          = Some (x, mkStats l (Z.of_nat (start + i)) x,
                  mkStats (page_records l size start) (Z.of_nat i) x).
Proof.
  intros A l size start H. eexists. split; [apply page_full; exact H|].
  assert (Hl : length (page_records l size start) = size)
    by (unfold page_records; rewrite firstn_length, skipn_length; lia).
  split; [rewrite entries_length; exact Hl|].
  intros i Hi. destruct (nth_error l (start + i)) as [x|] eqn:E.
  2:{ apply nth_error_None in E. lia. }
  exists x. split; [reflexivity|].
  rewrite (entries_nth l _ start _ 0 i x); [reflexivity|].
  rewrite records_nth by lia. exact E.
Qed.

Lemma page_zero : forall {A} (l : list A) size start, size <= 0 -> page l size start = Ok [].
Proof. intros A l size start H. unfold page. replace (Z.to_nat size) with O by lia. reflexivity. Qed.

Lemma page_neg_start : forall {A} (l : list A) size start, start < 0 ->
  page l size start = page l size 0.
Proof. intros A l size start H. unfold page. replace (Z.max 0 start) with 0 by lia. reflexivity. Qed.

Definition page_rows {A} (r : res rexn (list (A * stats A * stats A))) : list A :=
  match r with Ok es => map (fun t => fst (fst t)) es | Raise _ => [] end.

Lemma page_all_records : forall {A} (l : list A),
  exists es, page_all l = Ok es /\ map (fun t => fst (fst t)) es = l.
Proof.
  intros A l. unfold page_all. exists (entries l l 0 0 l).
  change 0 with (Z.of_nat 0). rewrite page_full by lia.
  unfold page_records. simpl. rewrite firstn_all. split; [reflexivity|]. apply entries_records.
Qed.

Lemma skipn_skipn : forall {A} (l : list A) a b, skipn a (skipn b l) = skipn (b + a) l.
Proof.
  induction l as [|x l IH]; intros a b; [rewrite !skipn_nil; reflexivity|].
  destruct b; simpl; [reflexivity|apply IH].
Qed.

Lemma pages_partition : forall {A} (l : list A) size k start,
  (start + k * size = length l)%nat ->
  concat (map (fun st => page_rows (page l (Z.of_nat size) (Z.of_nat st)))
              (consecutive size start k)) = skipn start l.
Proof.
  intros A l size. induction k as [|k IH]; intros start H.
  - simpl in *. rewrite skipn_all2 by lia. reflexivity.
  - cbn [consecutive map concat]. rewrite IH by lia.
    rewrite page_full by lia. cbn [page_rows]. rewrite entries_records.
    unfold page_records. rewrite <- (firstn_skipn size (skipn start l)) at 2.
    rewrite skipn_skipn. reflexivity.
Qed.

(** ** Per-record statistics *)
Lemma firstValue_later : forall {A} (neq : A -> A -> bool) (l : list A) i x y,
  nth_error l i = Some x -> nth_error l (S i) = Some y ->
  firstValue neq (mkStats l (Z.of_nat (S i)) y) = Ok (neq y x).
Proof.
  intros A neq l i x y Hx Hy. unfold firstValue, firstOrLastValue. cbn [st_list st_index].
  rewrite (py_get_nat l (S i) y Hy). replace (Z.of_nat (S i) - 1) with (Z.of_nat i) by lia.
  rewrite (py_get_nat l i x Hx). reflexivity.
Qed.

Lemma lastValue_spec : forall {A} (neq : A -> A -> bool) (l : list A) i x,
  nth_error l i = Some x ->
  lastValue neq (mkStats l (Z.of_nat i) x)
  = Ok (match nth_error l (S i) with Some y => neq x y | None => true end).
Proof.
  intros A neq l i x Hx. unfold lastValue, firstOrLastValue. cbn [st_list st_index].
  rewrite (py_get_nat l i x Hx). replace (Z.of_nat i + 1) with (Z.of_nat (S i)) by lia.
  destruct (nth_error l (S i)) as [y|] eqn:E.
  - rewrite (py_get_nat l (S i) y E). reflexivity.
  - rewrite (py_get_out l (S i) E). reflexivity.
Qed.

Lemma first_last_flags : forall {A} (l : list A) i x, nth_error l i = Some x ->
  let s := mkStats l (Z.of_nat i) x in
  (st_first s = true <-> i = 0%nat) /\ (st_last s = true <-> nth_error l (S i) = None)
  /\ st_number s = Z.of_nat (S i).
Proof.
  intros A l i x H s. assert (i < length l)%nat by (apply nth_error_Some; congruence).
  unfold s, st_first, st_last, st_number. cbn [st_list st_index].
  rewrite nth_error_None. repeat split; intros; lia.
Qed.

(** ** Summary *)
Lemma zinsert_perm : forall x l, Permutation (x :: l) (zinsert x l).
Proof.
  induction l as [|y l IH]; simpl; [reflexivity|]. destruct (x <=? y); [reflexivity|].
  rewrite perm_swap. constructor. exact IH.
Qed.

Lemma zsort_perm : forall l, Permutation l (zsort l).
Proof.
  induction l as [|x l IH]; simpl; [reflexivity|]. rewrite <- zinsert_perm. constructor. exact IH.
Qed.

Lemma zinsert_sorted : forall x l, StronglySorted Z.le l -> StronglySorted Z.le (zinsert x l).
Proof.
  induction l as [|y l IH]; intros H; simpl; [repeat constructor|].
  inversion H; subst. destruct (Z.leb_spec x y) as [Hle|Hlt].
  - constructor; [assumption|]. constructor; [assumption|].
    eapply Forall_impl; [|eassumption]. simpl. intros; lia.
  - constructor; [auto|]. apply Forall_forall. intros z Hz.
    apply (Permutation_in _ (Permutation_sym (zinsert_perm x l))) in Hz.
    rewrite Forall_forall in H3. destruct Hz as [->|Hz]; [lia|auto].
Qed.

Lemma zsort_sorted : forall l, StronglySorted Z.le (zsort l).
Proof. induction l; simpl; [constructor|apply zinsert_sorted; assumption]. Qed.

Lemma sorted_filter_le : forall l k m, StronglySorted Z.le l -> nth_error l k = Some m ->
  (k < length (filter (fun x => (x <=? m)%Z) l))%nat
  /\ (length l - k <= length (filter (fun x => (m <=? x)%Z) l))%nat.
Proof.
  induction l as [|y l IH]; intros k m Hs Hk; [destruct k; discriminate|].
  inversion Hs; subst. rewrite Forall_forall in H2. destruct k as [|k].
  - simpl in Hk. injection Hk as ->. simpl. rewrite Z.leb_refl. simpl. split; [lia|].
    assert (E : filter (fun x => m <=? x) l = l).
    { clear - H2. induction l as [|z l IH]; [reflexivity|]. simpl.
      destruct (Z.leb_spec m z) as [_|Hc]; [f_equal; apply IH; intros; apply H2; right; auto|].
      exfalso. specialize (H2 z (or_introl eq_refl)). lia. }
    rewrite E. lia.
  - simpl in Hk. specialize (IH k m H1 Hk) as [I1 I2].
    assert (Hym : y <= m) by (apply H2; eapply nth_error_In; eassumption).
    simpl. destruct (Z.leb_spec y m); [|lia]. simpl.
    split; [lia|]. destruct (m <=? y); simpl; lia.
Qed.

Lemma filter_perm_length : forall {A} (f : A -> bool) l1 l2, Permutation l1 l2 ->
  length (filter f l1) = length (filter f l2).
Proof.
  intros A f l1 l2 H. induction H; simpl; auto.
  - destruct (f x); simpl; auto.
  - destruct (f x), (f y); simpl; auto.
  - congruence.
Qed.

Lemma median_spec : forall vals, getNumeric vals <> [] ->
  exists m, median vals = Ok m /\ In m (getNumeric vals)
    /\ (length (getNumeric vals) <= 2 * length (filter (fun x => (x <=? m)%Z) (getNumeric vals)))%nat
    /\ (length (getNumeric vals) <= 2 * length (filter (fun x => (m <=? x)%Z) (getNumeric vals)))%nat.
Proof.
  intros vals H. unfold median. set (l := getNumeric vals) in *.
  pose proof (zsort_perm l) as P. pose proof (Permutation_length P) as PL.
  assert (length l <> 0)%nat by (destruct l; simpl; congruence).
  assert (Hd : (2 * Nat.div2 (length (zsort l)) <= length (zsort l)
               < 2 * Nat.div2 (length (zsort l)) + 2)%nat).
  { pose proof (Nat.div2_odd (length (zsort l))) as D.
    destruct (Nat.odd (length (zsort l))); cbn [Nat.b2n] in D; lia. }
  destruct (nth_error (zsort l) (Nat.div2 (length (zsort l)))) as [m|] eqn:E.
  2:{ apply nth_error_None in E. lia. }
  exists m. split; [apply py_get_nat; exact E|].
  split; [apply (Permutation_in m (Permutation_sym P)); eapply nth_error_In; eassumption|].
  destruct (sorted_filter_le _ _ _ (zsort_sorted l) E) as [A B].
  rewrite (filter_perm_length _ _ _ P), (filter_perm_length _ l (zsort l) P), PL. lia.
Qed.

Lemma fold_add : forall l a, fold_left Z.add l a = a + fold_right Z.add 0 l.
Proof. induction l as [|x l IH]; intro a; simpl; [lia|]. rewrite IH. lia. Qed.

Lemma getNumeric_app : forall a b, getNumeric (a ++ b) = getNumeric a ++ getNumeric b.
Proof. intros. unfold getNumeric. apply flat_map_app. Qed.

Lemma sum_app : forall a b, summary_sum (a ++ b) = summary_sum a + summary_sum b.
Proof.
  intros a b. unfold summary_sum. rewrite getNumeric_app, fold_left_app, !fold_add.
  lia.
Qed.

Lemma pages_partition_ok : forall {A} (l : list A) size k start,
  (start + k * size = length l)%nat ->
  exists pages,
    map (fun st => page l (Z.of_nat size) (Z.of_nat st)) (consecutive size start k)
    = map Ok pages
    /\ concat (map (map (fun t => fst (fst t))) pages) = skipn start l.
Proof.
  intros A l size. induction k as [|k IH]; intros start H.
  - exists []. simpl in *. rewrite skipn_all2 by lia. auto.
  - destruct (IH (start + size)%nat ltac:(lia)) as (ps & E1 & E2).
    eexists (_ :: ps). cbn [consecutive map concat]. rewrite E1, E2. split.
    + f_equal. apply page_full. lia.
    + rewrite entries_records. unfold page_records.
      rewrite <- (firstn_skipn size (skipn start l)) at 2. rewrite skipn_skipn. reflexivity.
Qed.

Lemma sum_laws :
  (forall a b, summary_sum (a ++ b) = summary_sum a + summary_sum b)
  /\ (forall n, summary_sum [Some n] = n) /\ summary_sum [None] = 0 /\ summary_sum [] = 0.
Proof. repeat split; [exact sum_app]. Qed.
