(** What a field lookup should deliver, stated without the lookup function. *)
From Verif Require Import WebInput_Model.

(** [name_parts name short ext]: [short] is the name up to the first colon, [ext] what follows;
    without a colon the whole name and the empty suffix. *)
Definition name_parts (name short ext : pystr) : Prop :=
  ~ In 58%N short /\ (name = short ++ 58%N :: ext \/ (name = short /\ ext = [])).

(** The values the source holds for a request: those stored under the full name if there are
    any, else those under the short name. *)
Definition as_list (v : fval) : list pystr :=
  match v with FNone => [] | FStr s => [s] | FList l => l end.
Definition field_values (func : pystr -> fval) (name short : pystr) (vals : list pystr) : Prop :=
  (truthy (func name) = true /\ vals = as_list (func name))
  \/ (truthy (func name) = false /\ vals = as_list (func short)).

(** One element through a converter. *)
Inductive converted {V} (sv : pystr -> V) (c : converter V) (x : pystr) : res wexn V -> Prop :=
| conv_none : cv_func c = None -> converted sv c x (Ok (sv x))
| conv_good : forall f v, cv_func c = Some f -> f x = Ok v -> converted sv c x (Ok v)
| conv_bad_use : forall f e v, cv_func c = Some f -> f x = Raise e ->
    e = TypeError \/ e = ValueError -> cv_error c = Use v -> converted sv c x (Ok v)
| conv_bad_raise : forall f e e', cv_func c = Some f -> f x = Raise e ->
    e = TypeError \/ e = ValueError -> cv_error c = RaiseClass e' -> converted sv c x (Raise e')
| conv_other : forall f e, cv_func c = Some f -> f x = Raise e ->
    e <> TypeError -> e <> ValueError -> converted sv c x (Raise e).

(** All elements converted, in order; or the exception of the first one that raises. *)
Inductive all_converted {V} (sv : pystr -> V) (c : converter V)
  : list pystr -> res wexn (list V) -> Prop :=
| ac_nil : all_converted sv c [] (Ok [])
| ac_cons : forall x v l vs, converted sv c x (Ok v) -> all_converted sv c l (Ok vs) ->
    all_converted sv c (x :: l) (Ok (v :: vs))
| ac_raise_here : forall x e l, converted sv c x (Raise e) -> all_converted sv c (x :: l) (Raise e)
| ac_raise_later : forall x v l e, converted sv c x (Ok v) -> all_converted sv c l (Raise e) ->
    all_converted sv c (x :: l) (Raise e).
