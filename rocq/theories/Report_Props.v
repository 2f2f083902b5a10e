(** C28 Roman numerals, C48 report pages, C58 report summaries. *)
From Verif Require Import Report_Model Report_Spec Report_Proofs.
Local Open Scope Z_scope.

(** C28: the numeral denotes n. *)
Theorem C28_roman_value : forall n, 1 <= n ->
  exists s, Roman n = Some (Ok s) /\ numeral_value s = n.
Proof. exact Roman_value. Qed.
Print Assumptions C28_roman_value.
Example C28_roman_value_ex :
  Roman 1994 = Some (Ok (L "MCMXCIV")) /\ numeral_value (L "MCMXCIV") = 1994.
Proof. vm_compute. auto. Qed.

(** C28: it is the standard form. *)
Theorem C28_roman_standard : forall n, 1 <= n -> Roman n = Some (Ok (standard_numeral n)).
Proof. exact Roman_standard. Qed.
Print Assumptions C28_roman_standard.
Example C28_roman_standard_ex : standard_numeral 4449 = L "MMMMCDXLIX".
Proof. reflexivity. Qed.

(** C28: different numbers get different numerals. *)
Theorem C28_roman_injective : forall n m, 1 <= n -> 1 <= m -> Roman n = Roman m -> n = m.
Proof. exact Roman_inj. Qed.
Print Assumptions C28_roman_injective.
Example C28_roman_injective_ex : Roman 4 <> Roman 6 /\ 1 <= 4 /\ 1 <= 6.
Proof. split; [discriminate|lia]. Qed.

(** C28, the numbers outside the claim: zero and negatives raise (TypeError, not the
    ValueError the source asks for). *)
Theorem C28_nonpositive_raises : forall n, n < 1 -> Roman n = Some (Raise TypeError).
Proof. exact Roman_bad. Qed.
Print Assumptions C28_nonpositive_raises.
Example C28_nonpositive_raises_ex : Roman 0 = Some (Raise TypeError).
Proof. reflexivity. Qed.

(** C48, partial: a page lying inside the list holds exactly the records start..start+size-1,
    each with its absolute and its page-relative statistics.  Missing: pages reaching beyond
    the end, for which the claim is false (next theorems). *)
Theorem C48_full_page_partial : forall (A : Type) (l : list A) size start,
  (start + size <= length l)%nat ->
  exists es, page l (Z.of_nat size) (Z.of_nat start) = Ok es
    /\ length es = size
    /\ forall i, (i < size)%nat -> exists x, nth_error l (start + i) = Some x
       /\ nth_error es i
          = Some (x, mkStats l (Z.of_nat (start + i)) x,
                  mkStats (page_records l size start) (Z.of_nat i) x).
Proof. exact @page_entries. Qed.
Print Assumptions C48_full_page_partial.
Example C48_full_page_partial_ex :
  exists es, page [10;20;30;40]%nat 2 1 = Ok es /\ map (fun t => fst (fst t)) es = [20;30]%nat.
Proof. eexists. split; reflexivity. Qed.

(** C48, partial: pages of consecutive starts partition the records when the page size divides
    their number. *)
Theorem C48_pages_partition_partial : forall (A : Type) (l : list A) size k,
  (k * size = length l)%nat ->
  exists pages,
    map (fun st => page l (Z.of_nat size) (Z.of_nat st)) (consecutive size 0 k) = map Ok pages
    /\ concat (map (map (fun t => fst (fst t))) pages) = l.
Proof. intros A l size k H. exact (pages_partition_ok l size k 0 H). Qed.
Print Assumptions C48_pages_partition_partial.
Example C48_pages_partition_partial_ex : (3 * 2 = length [1;2;3;4;5;6]%nat)%nat.
Proof. reflexivity. Qed.

(** C48: a start below zero means the first page. *)
Theorem C48_negative_start_first_page : forall (A : Type) (l : list A) size start, (start < 0)%Z ->
  page l size start = page l size 0.
Proof. exact @page_neg_start. Qed.
Print Assumptions C48_negative_start_first_page.
Example C48_negative_start_first_page_ex :
  exists es, page [1;2;3]%nat 2 (-1) = Ok es /\ map (fun t => fst (fst t)) es = [1;2]%nat.
Proof. eexists. split; reflexivity. Qed.

(** C48: [all()] returns every record once, in order. *)
Theorem C48_all_records : forall (A : Type) (l : list A),
  exists es, page_all l = Ok es /\ map (fun t => fst (fst t)) es = l.
Proof. exact @page_all_records. Qed.
Print Assumptions C48_all_records.
Example C48_all_records_ex : exists es, page_all [7;8]%nat = Ok es /\ length es = 2%nat.
Proof. eexists. split; reflexivity. Qed.

(** C48 is false for every last partial page: it raises IndexError instead of returning the
    records that exist. *)
Theorem C48_short_page_raises : forall (A : Type) (l : list A) size start,
  (0 < size)%nat -> (length l < start + size)%nat ->
  page l (Z.of_nat size) (Z.of_nat start) = Raise IndexError.
Proof. exact @page_short. Qed.
Print Assumptions C48_short_page_raises.
Example C48_short_page_raises_ex : page [1;2;3]%nat 2 2 = Raise IndexError.
Proof. reflexivity. Qed.

Theorem C48_short_page_refuted : exists (l : list nat) (size start : nat),
  page_records l size start <> []
  /\ ~ exists es, page l (Z.of_nat size) (Z.of_nat start) = Ok es
                  /\ map (fun t => fst (fst t)) es = page_records l size start.
Proof.
  exists [1;2;3]%nat, 2%nat, 2%nat. split; [discriminate|].
  intros (es & E & _). vm_compute in E. discriminate E.
Qed.
Print Assumptions C48_short_page_refuted.

(** C58: the flags of a record, and the end-of-run test, say what they should. *)
Theorem C58_first_last_number : forall (A : Type) (l : list A) i x,
  nth_error l i = Some x ->
  let s := mkStats l (Z.of_nat i) x in
  (st_first s = true <-> i = 0%nat) /\ (st_last s = true <-> nth_error l (S i) = None)
  /\ st_number s = Z.of_nat (S i).
Proof. exact @first_last_flags. Qed.
Print Assumptions C58_first_last_number.
Example C58_first_last_number_ex :
  st_last (mkStats [5;6]%nat 1 6%nat) = true /\ st_first (mkStats [5;6]%nat 1 6%nat) = false.
Proof. auto. Qed.

Theorem C58_last_of_run : forall (A : Type) (neq : A -> A -> bool) (l : list A) i x,
  nth_error l i = Some x ->
  lastValue neq (mkStats l (Z.of_nat i) x)
  = Ok (match nth_error l (S i) with Some y => neq x y | None => true end).
Proof. exact @lastValue_spec. Qed.
Print Assumptions C58_last_of_run.
Example C58_last_of_run_ex :
  lastValue (fun a b => negb (Nat.eqb a b)) (mkStats [5;5;6]%nat 1 5%nat) = Ok true.
Proof. reflexivity. Qed.

(** C58, partial: the start-of-run test is right except at the first record. *)
Theorem C58_first_of_run_partial : forall (A : Type) (neq : A -> A -> bool) (l : list A) i x y,
  nth_error l i = Some x -> nth_error l (S i) = Some y ->
  firstValue neq (mkStats l (Z.of_nat (S i)) y) = Ok (neq y x).
Proof. exact @firstValue_later. Qed.
Print Assumptions C58_first_of_run_partial.
Example C58_first_of_run_partial_ex :
  firstValue (fun a b => negb (Nat.eqb a b)) (mkStats [5;5;6]%nat 1 5%nat) = Ok false.
Proof. reflexivity. Qed.

(** C58 is false at the first record: index -1 is the last record, not "none". *)
Theorem C58_first_of_run_refuted : exists l : list nat,
  firstValue (fun a b => negb (Nat.eqb a b)) (mkStats l 0 (hd 0%nat l)) = Ok false.
Proof. exists [5;6;5]%nat. reflexivity. Qed.
Print Assumptions C58_first_of_run_refuted.

(** C58: the median is one of the numbers, with at least half of them on either side. *)
Theorem C58_median_halves : forall vals, getNumeric vals <> [] ->
  exists m, median vals = Ok m /\ In m (getNumeric vals)
    /\ (length (getNumeric vals)
        <= 2 * length (filter (fun x => (x <=? m)%Z) (getNumeric vals)))%nat
    /\ (length (getNumeric vals)
        <= 2 * length (filter (fun x => (m <=? x)%Z) (getNumeric vals)))%nat.
Proof. exact median_spec. Qed.
Print Assumptions C58_median_halves.
Example C58_median_halves_ex : median [Some 9; None; Some 1; Some 5] = Ok 5.
Proof. reflexivity. Qed.

(** C58: the sum over a report is the sum over its parts; a number counts as itself and None
    as nothing. *)
Theorem C58_sum_of_parts :
  (forall a b, summary_sum (a ++ b) = summary_sum a + summary_sum b)
  /\ (forall n, summary_sum [Some n] = n) /\ summary_sum [None] = 0 /\ summary_sum [] = 0.
Proof. exact sum_laws. Qed.
Print Assumptions C58_sum_of_parts.
Example C58_sum_of_parts_ex : summary_sum [Some 1; None; Some 41] = 42.
Proof. reflexivity. Qed.

(** C58, refuted: the letter of a record is not always a letter. *)
Theorem C58_letter_refuted : exists (l : list nat) i x,
  nth_error l i = Some x
  /\ st_Letter (mkStats l (Z.of_nat i) x) = L "[".
Proof. exists (repeat 0%nat 27), 26%nat, 0%nat. split; reflexivity. Qed.
Print Assumptions C58_letter_refuted.
