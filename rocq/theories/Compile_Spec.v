(** Equality of settings as Python sees it, independent of key order. *)
From Coq Require Import Permutation.
From Verif Require Import Compile_Model.

Section Eq.
(** Equality of values other than dicts and lists. *)
Variable aeq : atom -> atom -> Prop.

(** Two settings values are equal: equal atoms, lists equal element by element, dicts with the
    same keys and equal values, in whatever order the items are. *)
Inductive veq : value -> value -> Prop :=
| veq_atom : forall a b, aeq a b -> veq (VAtom a) (VAtom b)
| veq_list : forall l m, Forall2 veq l m -> veq (VList l) (VList m)
| veq_dict : forall d e e', Permutation e e' ->
    Forall2 (fun p q => fst p = fst q /\ veq (snd p) (snd q)) d e' -> veq (VDict d) (VDict e).

(** Dictionaries have distinct keys, at every level. *)
Inductive dwf : value -> Prop :=
| dwf_atom : forall a, dwf (VAtom a)
| dwf_list : forall l, Forall dwf l -> dwf (VList l)
| dwf_dict : forall d, NoDup (map fst d) -> Forall (fun p => dwf (snd p)) d -> dwf (VDict d).

(** Equal tuple elements. *)
Inductive eeq : elem -> elem -> Prop :=
| eeq_val : forall a b, aeq a b -> eeq (EVal a) (EVal b)
| eeq_pair : forall k a b, aeq a b -> eeq (EPair k a) (EPair k b).

(** The contract of the built-in hash: equal ints are equal, and equal hashable tuples hash
    equal. *)
Definition hash_contract (hash_tuple : list elem -> Z) : Prop :=
  (forall z, aeq (AInt z) (AInt z))
  /\ forall l m, Forall2 eeq l m -> forallb hashable l = true -> forallb hashable m = true ->
       hash_tuple l = hash_tuple m.
End Eq.

(** Two option sets are the same in everything but the contents of settings and globals. *)
Definition same_text_options (a b : copts) : Prop :=
  o_source a = o_source b /\ o_file a = o_file b /\ o_mtime a = o_mtime b
  /\ o_class a = o_class b /\ o_module a = o_module b /\ o_main a = o_main b
  /\ o_compiler a = o_compiler b /\ o_base a = o_base b /\ o_cachedir a = o_cachedir b.

(** Two lists differ in at most one position. *)
Inductive differ_at_most_once {A} : list A -> list A -> Prop :=
| dao_one : forall p x y q, differ_at_most_once (p ++ x :: q) (p ++ y :: q).
