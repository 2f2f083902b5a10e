(** Model of the report helpers in Cheetah/Tools/MondoReport.py.

    Not modelled: mean, percentOfTotal (floating point), and the methods that only raise
    NotImplementedError (108-121, 273-283, 368-378). *)
From Verif Require Export PyStr.

(** The exceptions that can leave the modelled functions
    (Cheetah/Tools/MondoReport.py:57 TypeError, 192 and 412 IndexError). *)
Inductive rexn := TypeError | IndexError.

(** One [while n >= d: n = n - d; roman = roman + c] loop (Cheetah/Tools/MondoReport.py:59-76).
    [None]: the fuel ran out. *)
Fixpoint roman_while (fuel : nat) (d : Z) (c : N) (n : Z) (roman : pystr) : option (Z * pystr) :=
  match fuel with
  | O => None
  | S f => if (d <=? n)%Z then roman_while f d c (n - d)%Z (roman ++ [c]) else Some (n, roman)
  end.

(** The last loop, [while n < 5 and n >= 1] (Cheetah/Tools/MondoReport.py:77-79). *)
Fixpoint roman_ones (fuel : nat) (n : Z) (roman : pystr) : option (Z * pystr) :=
  match fuel with
  | O => None
  | S f => if (n <? 5)%Z && (1 <=? n)%Z then roman_ones f (n - 1)%Z (roman ++ L "I")
           else Some (n, roman)
  end.

(** The six textual replacements (Cheetah/Tools/MondoReport.py:80-85). *)
Definition roman_replace (roman : pystr) : pystr :=
  let roman := replace_str (L "DCCCC") (L "CM") roman in
  let roman := replace_str (L "CCCC") (L "CD") roman in
  let roman := replace_str (L "LXXXX") (L "XC") roman in
  let roman := replace_str (L "XXXX") (L "XL") roman in
  let roman := replace_str (L "VIIII") (L "IX") roman in
  replace_str (L "IIII") (L "IV") roman.

(** The loops run one after the other on the pair (n, roman)
    (Cheetah/Tools/MondoReport.py:58-76). *)
Fixpoint roman_loops (fuel : nat) (l : list (Z * N)) (n : Z) (roman : pystr)
  : option (Z * pystr) :=
  match l with
  | [] => Some (n, roman)
  | (d, c) :: r =>
      match roman_while fuel d c n roman with
      | Some (n', roman') => roman_loops fuel r n' roman'
      | None => None
      end
  end.

(** The bounds and letters of the six loops (Cheetah/Tools/MondoReport.py:59-76). *)
Definition roman_steps : list (Z * N) :=
  [(1000%Z, 77%N); (500%Z, 68%N); (100%Z, 67%N); (50%Z, 76%N); (10%Z, 88%N); (5%Z, 86%N)].

(** [Roman(n)] for an integer (Cheetah/Tools/MondoReport.py:54-86).  For n < 1 line 57 meant to
    raise ValueError, but concatenating a str and an int raises TypeError first. *)
Definition Roman (n : Z) : option (res rexn pystr) :=
  if (n <? 1)%Z then Some (Raise TypeError)
  else
    let fuel := S (Z.to_nat n) in
    match roman_loops fuel roman_steps n [] with
    | None => None
    | Some (n, roman) =>
        match roman_ones fuel n roman with
        | None => None
        | Some (_, roman) => Some (Ok (roman_replace roman))
        end
    end.

(** [l[i]] with Python's negative indices (Cheetah/Tools/MondoReport.py:192, 206, 208, 412). *)
Definition py_get {A} (l : list A) (i : Z) : res rexn A :=
  let j := if (i <? 0)%Z then (i + Z.of_nat (length l))%Z else i in
  if (j <? 0)%Z then Raise IndexError
  else match nth_error l (Z.to_nat j) with Some x => Ok x | None => Raise IndexError end.

(** [l[a:b]] for a, b not below zero (Cheetah/Tools/MondoReport.py:408, where 406 makes
    [start] non-negative; a negative [end] needs a negative size, for which the slice is not
    used because 410 loops zero times). *)
Definition py_slice {A} (l : list A) (a b : Z) : list A :=
  firstn (Z.to_nat (b - a)) (skipn (Z.to_nat a) l).

(** A RecordStats object: the list and the index (Cheetah/Tools/MondoReport.py:188-194). *)
Record stats (A : Type) := mkStats { st_list : list A; st_index : Z; st_item : A }.
Arguments mkStats {A}. Arguments st_list {A}. Arguments st_index {A}. Arguments st_item {A}.

(** [RecordStats(origList, index)] (Cheetah/Tools/MondoReport.py:191-194). *)
Definition record_stats {A} (l : list A) (i : Z) : res rexn (stats A) :=
  match py_get l i with
  | Ok r => Ok (mkStats l i r)
  | Raise e => Raise e
  end.

(** [number], [first], [last] (Cheetah/Tools/MondoReport.py:130, 138-139, 199-203). *)
Definition st_number {A} (s : stats A) : Z := (st_index s + 1)%Z.
(** Goes with the definition above (Cheetah/Tools/MondoReport.py:130, 138-139, 199-203). *)
Definition st_first {A} (s : stats A) : bool := (st_index s =? 0)%Z.
(** Goes with the definition above (Cheetah/Tools/MondoReport.py:130, 138-139, 199-203). *)
Definition st_last {A} (s : stats A) : bool :=
  (Z.of_nat (length (st_list s)) - 1 <=? st_index s)%Z.

(** [even], [odd] and [even_i], [odd_i] (Cheetah/Tools/MondoReport.py:141-151). *)
Definition st_even {A} (s : stats A) : bool := (st_number s mod 2 =? 0)%Z.
(** Goes with the definition above (Cheetah/Tools/MondoReport.py:141-151). *)
Definition st_odd {A} (s : stats A) : bool := negb (st_even s).
(** Goes with the definition above (Cheetah/Tools/MondoReport.py:141-151). *)
Definition st_even_i {A} (s : stats A) : bool := (st_index s mod 2 =? 0)%Z.
(** Goes with the definition above (Cheetah/Tools/MondoReport.py:141-151). *)
Definition st_odd_i {A} (s : stats A) : bool := negb (st_even_i s).

(** [Letter()]: chr(ord('A') + index), a ValueError outside range(0x110000) being left out
    (Cheetah/Tools/MondoReport.py:156-158). *)
Definition st_Letter {A} (s : stats A) : pystr := [Z.to_N (65 + st_index s)].

(** [_firstOrLastValue(None, currentIndex, otherIndex)]; [neq] is the records' [!=], after
    looking the field up when one is given (Cheetah/Tools/MondoReport.py:205-214). *)
Definition firstOrLastValue {A} (neq : A -> A -> bool) (l : list A) (cur other : Z)
  : res rexn bool :=
  match py_get l cur with
  | Raise e => Raise e
  | Ok v => match py_get l other with
            | Raise _ => Ok true
            | Ok w => Ok (neq v w)
            end
  end.

(** [firstValue()], [lastValue()] (Cheetah/Tools/MondoReport.py:216-220). *)
Definition firstValue {A} (neq : A -> A -> bool) (s : stats A) : res rexn bool :=
  firstOrLastValue neq (st_list s) (st_index s) (st_index s - 1).
(** Goes with the definition above (Cheetah/Tools/MondoReport.py:216-220). *)
Definition lastValue {A} (neq : A -> A -> bool) (s : stats A) : res rexn bool :=
  firstOrLastValue neq (st_list s) (st_index s) (st_index s + 1).

(** The loop of [page] (Cheetah/Tools/MondoReport.py:410-416); [k] iterations are left,
    [rel] is the next relative index. *)
Fixpoint page_loop {A} (orig my : list A) (start : Z) (k : nat) (rel : Z)
  : res rexn (list (A * stats A * stats A)) :=
  match k with
  | O => Ok []
  | S k' =>
      match py_get my rel with
      | Raise e => Raise e
      | Ok r =>
          match record_stats orig (start + rel) with
          | Raise e => Raise e
          | Ok a =>
              match record_stats my rel with
              | Raise e => Raise e
              | Ok b =>
                  match page_loop orig my start k' (rel + 1) with
                  | Raise e => Raise e
                  | Ok rest => Ok ((r, a, b) :: rest)
                  end
              end
          end
      end
  end.

(** [MondoReport(l).page(size, start)] with overlap and orphan 0
    (Cheetah/Tools/MondoReport.py:398-417; any other overlap or orphan raises
    NotImplementedError, 401-404). *)
Definition page {A} (l : list A) (size start : Z) : res rexn (list (A * stats A * stats A)) :=
  let start := Z.max 0 start in
  let e := Z.min (start + size) (Z.of_nat (length l)) in
  page_loop l (py_slice l start e) start (Z.to_nat size) 0.

(** [all()] (Cheetah/Tools/MondoReport.py:421-423). *)
Definition page_all {A} (l : list A) := page l (Z.of_nat (length l)) 0.

(** Summary statistics on integers: [sum] and [count] (Cheetah/Tools/MondoReport.py:89-90,
    338-346), [median] (103-105, 364-366).  A field value is [Some n] for an integer and [None]
    for Python's None; floats and booleans are left out. *)
Definition getNumeric (vals : list (option Z)) : list Z :=
  flat_map (fun v => match v with Some n => [n] | None => [] end) vals.
(** Goes with the definition above (Cheetah/Tools/MondoReport.py:89-90). *)
Definition summary_sum (vals : list (option Z)) : Z := fold_left Z.add (getNumeric vals) 0%Z.
(** Goes with the definition above (Cheetah/Tools/MondoReport.py:89-90). *)
Definition summary_count (vals : list (option Z)) : nat := length (getNumeric vals).

(** [sorted] on integers (Cheetah/Tools/MondoReport.py:104). *)
Fixpoint zinsert (x : Z) (l : list Z) : list Z :=
  match l with
  | [] => [x]
  | y :: r => if (x <=? y)%Z then x :: l else y :: zinsert x r
  end.
(** Goes with the definition above (Cheetah/Tools/MondoReport.py:104). *)
Fixpoint zsort (l : list Z) : list Z :=
  match l with [] => [] | x :: r => zinsert x (zsort r) end.

(** [median] (Cheetah/Tools/MondoReport.py:103-105). *)
Definition median (vals : list (option Z)) : res rexn Z :=
  let lis := zsort (getNumeric vals) in
  py_get lis (Z.of_nat (Nat.div2 (length lis))).
