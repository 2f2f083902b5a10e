(** Vocabulary for directory creation and for site hierarchies. *)
From Verif Require Import Tree_Model.

(** ** Directories *)

(** A place lies on the way to another one (or is it). *)
Definition on_the_way (x y : place) : Prop := fst x = fst y /\ exists r, snd y = snd x ++ r.

(** Every existing place lies in an existing directory. *)
Definition tree_shaped (f : fs) : Prop :=
  forall x n, fget f x = Some n -> snd x <> [] -> fget f (parent x) = Some Dir.

(** A name inside a directory. *)
Definition child (x : place) (name : pystr) : place := (fst x, snd x ++ [name]).

(** The file that marks a package. *)
Definition init : pystr := L "__init__.py".

(** Everything there already on the way is a directory. *)
Definition way_clear (f : fs) (q : place) : Prop :=
  forall x n, on_the_way x q -> fget f x = Some n -> n = Dir.

(** ** Hierarchies *)
Definition label (x : item) : page := match x with Leaf p | Node p _ => p end.

(** [rooted x l y]: [l] are the pages on the way from [x] down to its descendant [y], both
    included. *)
Inductive rooted : item -> list page -> item -> Prop :=
| rooted_here : forall x, rooted x [label x] x
| rooted_child : forall p cs c l y, In c cs -> rooted c l y -> rooted (Node p cs) (p :: l) y.

(** The page with this URL is in the subtree. *)
Definition occurs (url : pystr) (x : item) : Prop :=
  exists l y, rooted x l y /\ fst (label y) = url.

(** Every page below the root in reading order, with its depth and the items above it. *)
Fixpoint listing (depth : nat) (above : list item) (x : item) : list (page * nat * list item) :=
  match x with
  | Leaf p => [(p, depth, above)]
  | Node p cs => (p, depth, above) :: flat_map (listing (S depth) (Node p cs :: above)) cs
  end.
