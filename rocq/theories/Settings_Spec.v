(** Settings as plain trees; what merging means; how a tree is laid out in a heap. *)
From Verif Require Import Base Alist Settings_Model.

Inductive sval := SAtom (n : N) | SDict (items : list (pystr * sval)).
Definition tree := list (pystr * sval).

(** The value found under a path of keys. *)
Fixpoint look (p : list pystr) (v : sval) : option sval :=
  match p with
  | [] => Some v
  | k :: r =>
      match v with
      | SAtom _ => None
      | SDict d => match aget k d with Some w => look r w | None => None end
      end
  end.

(** The merge of [new] over [old]. *)
Fixpoint over (old : option sval) (new : sval) : sval :=
  match new with
  | SAtom n => SAtom n
  | SDict b =>
      match old with
      | Some (SDict a) =>
          SDict ((fix go (acc : tree) (l : tree) : tree :=
                    match l with
                    | [] => acc
                    | (k, w) :: r => go (aset k (over (aget k acc) w) acc) r
                    end) a b)
      | _ => SDict b
      end
  end.
Fixpoint merge (a b : tree) : tree :=
  match b with
  | [] => a
  | (k, w) :: r => merge (aset k (over (aget k a) w) a) r
  end.

(** Dictionaries have distinct keys, at every level. *)
Inductive wf : sval -> Prop :=
| wf_atom n : wf (SAtom n)
| wf_dict d : NoDup (keys d) -> (forall k v, In (k, v) d -> wf v) -> wf (SDict d).

(** The tree [t] laid out at value [v] of the heap, using exactly the objects of the list. *)
Inductive rep (h : heap) : hval -> sval -> list nat -> Prop :=
| rep_atom n : rep h (HAtom n) (SAtom n) []
| rep_dict l d ts fp : nth_error h l = Some d -> NoDup (keys d) -> reps h d ts fp ->
    rep h (HRef l) (SDict ts) (l :: fp)
with reps (h : heap) : hdict -> tree -> list nat -> Prop :=
| reps_nil : reps h [] [] []
| reps_cons k v d t ts f1 f2 : rep h v t f1 -> reps h d ts f2 ->
    reps h ((k, v) :: d) ((k, t) :: ts) (f1 ++ f2).

Definition disjoint (a b : list nat) := forall x, In x a -> ~ In x b.
Definition same_outside (h h' : heap) (fp : list nat) :=
  forall l, ~ In l fp -> nth_error h' l = nth_error h l.

(** Where associativity holds: no value of [b] other than a dictionary hides a dictionary of [a]
    from a dictionary of [c]. *)
Inductive layered : option sval -> option sval -> option sval -> Prop :=
| lay_dict a b c : (forall k, layered (aget k a) (aget k b) (aget k c)) ->
    layered (Some (SDict a)) (Some (SDict b)) (Some (SDict c))
| lay_left b c : layered None b c
| lay_atom n b c : layered (Some (SAtom n)) b c
| lay_nomid a c : layered a None c
| lay_right a b : layered a b None
| lay_ratom a b n : layered a b (Some (SAtom n)).
