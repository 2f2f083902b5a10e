(** Specification for C100: counting. *)
From Coq Require Import Permutation.
From Verif Require Import Base.

Definition same (a b : pystr) : {a = b} + {a <> b} := list_eq_dec N.eq_dec a b.

(** How often [k] is in [l]. *)
Definition times (k : pystr) (l : list pystr) : nat := count_occ same l k.

(** [d] says [n] of [k]: the number under the key, 0 if there is none. *)
Definition says (d : list (pystr * nat)) (k : pystr) (n : nat) : Prop := In (k, n) d \/ (~ In k (map fst d) /\ n = 0%nat).

(** [d] is a count of [l]: each directive of [l] once, with its number, and no others. *)
Definition count_of (d : list (pystr * nat)) (l : list pystr) : Prop :=
  NoDup (map fst d) /\ (forall k, In k (map fst d) <-> In k l) /\ forall k, says d k (times k l).

(** A name with an ending. *)
Definition named_with (suffix f : pystr) : Prop := exists p, f = p ++ suffix.
