(** Specification for C103: which directories of a tree are searched. *)
From Verif Require Import Base Finder_Model.

(** [inside ok d es d' es']: from the directory [d] one gets to [d'] through directories that are allowed. *)
Inductive inside (ok : pystr -> pystr -> Prop) : pystr -> list (pystr * node) -> pystr -> list (pystr * node) -> Prop :=
| inside_here : forall d es, inside ok d es d es
| inside_sub : forall d es n sub d' es', In (n, NDir sub) es -> ok n (d ++ L "/" ++ n) -> inside ok (d ++ L "/" ++ n) sub d' es' -> inside ok d es d' es'.
