(** What imports should guarantee. *)
From Verif Require Import Base PyStr Alist Names_Model Hook_Model.

(** The module of a name. *)
Definition loaded (w : world) (fq : pystr) (m : nat) : Prop := aget fq (w_mods w) = Some (Some m) /\ m < length (w_objs w).
(** A module object has an attribute. *)
Definition has_attr (w : world) (m : nat) (a : pystr) : Prop := exists o, nth_error (w_objs w) m = Some o /\ In a (keys (o_attrs o)).

(** A consistent state: every module in sys.modules exists, a module with a dotted name hangs on its parent, and
    a module whose code was started is there; no name
    occurs twice in sys.modules, and the names in __all__ have no dots. *)
Definition consistent (w : world) : Prop :=
  (forall fq m, aget fq (w_mods w) = Some (Some m) -> m < length (w_objs w)) /\
  (forall p nm m, ~ In 46%N nm -> aget (p ++ [46%N] ++ nm) (w_mods w) = Some (Some m) -> exists pm, loaded w p pm /\ has_attr w pm nm) /\
  (forall fq, In fq (w_runs w) -> exists m, loaded w fq m) /\
  NoDup (keys (w_mods w)) /\
  Forall (fun o => Forall (fun a => ~ In 46%N a) (o_all o)) (w_objs w).

(** Names in from statements and in __all__ have no dots. *)
Definition plain_names (l : list pystr) : Prop := Forall (fun a => ~ In 46%N a) l.
Definition good_stmt (s : stmt) : Prop := match s with SFrom _ _ names => plain_names names | _ => True end.
Definition good_src (s : src) : Prop := plain_names (s_all s) /\ Forall good_stmt (s_code s).
Definition good_finder (F : option pystr -> pystr -> option src) : Prop := forall p nm s, F p nm = Some s -> good_src s.

(** The names a, a.b, a.b.c of a dotted name under a package. *)
Fixpoint prefixes (ctx : option pystr) (parts : list pystr) : list pystr :=
  match parts with
  | [] => []
  | nm :: parts => dotted ctx nm :: prefixes (Some (dotted ctx nm)) parts
  end.

(** The name a package and parts stand for. *)
Definition full (ctx : option pystr) (parts : list pystr) : option pystr := fold_left (fun c nm => Some (dotted c nm)) parts ctx.
(** Every name of a list has its module. *)
Definition all_loaded (w : world) (l : list pystr) : Prop := Forall (fun x => exists m, loaded w x m) l.
(** The part of the name after some loaded parts is an attribute of the last of them. *)
Definition attribute_of (w : world) (ctx : option pystr) (parts : list pystr) : Prop :=
  exists a nm b p pm, parts = a ++ nm :: b /\ all_loaded w (prefixes ctx a) /\ full ctx a = Some p /\
    aget p (w_mods w) = Some (Some pm) /\ has_attr w pm nm.
(** The names a from statement asks for: a star stands for the names in __all__. *)
Definition asked (w : world) (m : nat) (names : list pystr) (a : pystr) : Prop :=
  (In a names /\ a <> L "*") \/ (In (L "*") names /\ exists o, nth_error (w_objs w) m = Some o /\ In a (o_all o)).
(** The module object is a package. *)
Definition package (w : world) (m : nat) : Prop := exists o, nth_error (w_objs w) m = Some o /\ o_pkg o = true.
(** The same modules under the same names. *)
Definition same_modules (w w' : world) : Prop := forall x, aget x (w_mods w') = aget x (w_mods w).
