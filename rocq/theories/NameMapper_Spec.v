(** Specification side of C04-C09. *)
From Verif Require Import Base NameMapper_Model.

Section Spec.
Context {obj St : Type}.
Variable Y : psys obj St.

(** [o] has key [k] as a mapping. *)
Definition in_mapping (s : St) (o : obj) (k : pystr) : Prop := ismap Y o = true /\ contains Y s o k = true.

Definition attr_present (s : St) (o : obj) (k : pystr) : Prop := exists v, getattr Y s o k = Ok v.
Definition attr_absent (s : St) (o : obj) (k : pystr) : Prop := getattr Y s o k = Raise AttributeError.

(** A namespace has a name: as mapping key or as attribute; it lacks it when neither. *)
Definition has (s : St) (o : obj) (k : pystr) : Prop := in_mapping s o k \/ attr_present s o k.
Definition lacks (s : St) (o : obj) (k : pystr) : Prop := ~ in_mapping s o k /\ attr_absent s o k.

(** One chunk: mapping key first, attribute second. *)
Inductive chunk_value (s : St) (o : obj) (k : pystr) : res nexn obj -> Prop :=
| by_key : forall r, in_mapping s o k -> getitem Y s o k = r -> chunk_value s o k r
| by_attr : forall v, ~ in_mapping s o k -> getattr Y s o k = Ok v -> chunk_value s o k (Ok v)
| by_none : lacks s o k -> chunk_value s o k (Raise (NotFound k))
| by_error : forall e, ~ in_mapping s o k -> getattr Y s o k = Raise e -> e <> AttributeError ->
    chunk_value s o k (Raise e).

(** A class: an instance of type, or something that has an [mro]. *)
Definition is_class (s : St) (o : obj) : Prop := istype Y o = true \/ attr_present s o (L "mro").

(** A function, method or builtin function. *)
Definition function_like (s : St) (o : obj) : Prop :=
  attr_present s o (L "__func__") \/ attr_present s o (L "__code__") \/ attr_present s o (L "__self__").

(** The attributes every Python 3 object has. *)
Definition modern : Prop :=
  forall s o, attr_present s o (L "__class__") /\ attr_present s o (L "__init__").

(** Asking for the introspection attributes does not raise anything but AttributeError. *)
Definition introspectable : Prop :=
  forall s o k, In k [L "__class__"; L "mro"; L "__func__"; L "__code__"; L "__self__"; L "__init__"] ->
    attr_present s o k \/ attr_absent s o k.

(** Which values are called: callables that are functions or methods, not classes, not instances. *)
Definition to_call (s : St) (ac : bool) (o : obj) : Prop :=
  ac = true /\ iscallable Y o = true /\ ~ is_class s o /\ function_like s o.

Inductive step_value (s : St) (ac : bool) (o : obj) : res nexn obj * St -> Prop :=
| step_call : to_call s ac o -> step_value s ac o (call0 Y s o)
| step_keep : ~ to_call s ac o -> step_value s ac o (Ok o, s).

(** The left-to-right fold over the chunks. *)
Inductive walk (ac : bool) : St -> obj -> list pystr -> res nexn obj * St -> Prop :=
| walk_nil : forall s o, walk ac s o [] (Ok o, s)
| walk_miss : forall s o k r e, chunk_value s o k (Raise e) -> walk ac s o (k :: r) (Raise e, s)
| walk_fail : forall s o k r v e s', chunk_value s o k (Ok v) -> step_value s ac v (Raise e, s') ->
    walk ac s o (k :: r) (Raise e, s')
| walk_step : forall s o k r v v' s' x, chunk_value s o k (Ok v) -> step_value s ac v (Ok v', s') ->
    walk ac s' v' r x -> walk ac s o (k :: r) x.

(** NotFound raised by user code (a called function, or a key or attribute read) while walking. *)
Inductive foreign (ac : bool) : St -> obj -> list pystr -> pystr -> Prop :=
| foreign_read : forall s o k r key, chunk_value s o k (Raise (NotFound key)) -> ~ lacks s o k ->
    foreign ac s o (k :: r) key
| foreign_call : forall s o k r v key, chunk_value s o k (Ok v) -> to_call s ac v ->
    fst (call0 Y s v) = Raise (NotFound key) -> foreign ac s o (k :: r) key
| foreign_next : forall s o k r v v' s' key, chunk_value s o k (Ok v) -> step_value s ac v (Ok v', s') ->
    foreign ac s' v' r key -> foreign ac s o (k :: r) key.

(** Some intermediate value lacks the next chunk. *)
Inductive lacks_chunk (ac : bool) : St -> obj -> list pystr -> pystr -> Prop :=
| lacks_here : forall s o k r, lacks s o k -> lacks_chunk ac s o (k :: r) k
| lacks_later : forall s o k r v v' s' key, chunk_value s o k (Ok v) -> step_value s ac v (Ok v', s') ->
    lacks_chunk ac s' v' r key -> lacks_chunk ac s o (k :: r) key.

(** User code never raises NotFound itself. *)
Definition no_foreign_notfound : Prop :=
  (forall s o k key, getitem Y s o k <> Raise (NotFound key)) /\
  (forall s o k key, getattr Y s o k <> Raise (NotFound key)) /\
  (forall s o key, fst (call0 Y s o) <> Raise (NotFound key)).

(** ** C08: what the object system must satisfy for the two versions to see the same objects. *)
Definition c_compatible : Prop :=
  (* mapping protocol objects are exactly registered Mappings, or subscripting them by name fails *)
  (forall s o k, ismap Y o = true -> cmap Y o = true /\
     (contains Y s o k = true <-> exists v, getitem Y s o k = Ok v)) /\
  (forall s o k v, ismap Y o = false -> cmap Y o = true -> getitem Y s o k <> Ok v) /\
  (* reading attributes raises nothing but AttributeError *)
  (forall s o k, attr_present s o k \/ attr_absent s o k) /\
  (* a type called function is the builtin one *)
  (forall s o, tname Y o = L "function" -> function_like s o).
End Spec.
