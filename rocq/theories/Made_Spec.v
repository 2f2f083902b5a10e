(** What the messages and the documentation of [Template.__init__] say about its arguments, and what becomes of the attributes of
    a class (Cheetah/Template.py:1121-1230, 1232-1274, 1643-1652). *)
From Verif Require Import Base Alist Made_Model.

(** The arguments in the order of the checks, each with whether it is what the message about it says it must be
    (Cheetah/Template.py:1236-1271). *)
Definition documented (w : world) (a : args) : list (pystr * bool) :=
  [ (L "source", match a_source a with ANone | AStr _ => true | _ => false end);
    (L "file", match a_file a with ANone | AStr _ | AFile => true | _ => false end);
    (L "filter", match a_filter a with AStr _ => true | AClass c => w_filter w c | _ => false end);
    (L "filtersLib", match a_lib a with AStr _ | AMod _ => true | _ => false end);
    (L "errorCatcher", match a_catcher a with ANone | AStr _ => true | AClass c => w_catcher w c | _ => false end);
    (L "compilerSettings", match a_settings a with AUnspec | ADict _ => true | _ => false end) ].

(** All arguments are. *)
Definition fit (w : world) (a : args) : Prop := forall n, ~ In (n, false) (documented w a).
(** This is the first that is not. *)
Definition first_misfit (w : world) (a : args) (n : pystr) : Prop :=
  exists before after, documented w a = before ++ (n, false) :: after /\ forall m, ~ In (m, false) before.
(** Classes that are handed over are subclasses of what they must be. *)
Definition right_classes (w : world) (a : args) : Prop :=
  (forall c, a_filter a = AClass c -> w_filter w c = true) /\ (forall c, a_catcher a = AClass c -> w_catcher w c = true).

(** The filter that is meant: a name in a module, or the class (Cheetah/Template.py:1199-1214). *)
Definition meant_filter (w : world) (a : args) (c : nat) : Prop :=
  (a_filter a = AClass c \/ exists n m, a_filter a = AStr n /\ a_lib a = AMod m /\ w_mod w m n = Some c) /\ w_makes w c = true.
(** The error catcher that is meant (Cheetah/Template.py:1216-1226); the empty name is none. *)
Definition meant_catcher (w : world) (a : args) (o : option nat) : Prop :=
  match o with
  | None => a_catcher a = ANone \/ a_catcher a = AStr []
  | Some c => (a_catcher a = AClass c \/ exists n, n <> [] /\ a_catcher a = AStr n /\ w_catchers w n = Some c) /\ w_catches w c = true
  end.
(** The namespaces that are meant (Cheetah/Template.py:1102-1104: use either or). *)
Definition spaces (s : slarg) : list ns := match s with SNone => [] | SSeq _ l => l | SOne n => [n] end.
Definition meant_spaces (a : args) (l : list ns) : Prop :=
  (a_ns a = SNone /\ l = spaces (a_sl a)) \/ (a_sl a = SNone /\ l = spaces (a_ns a)).
(** One object that cannot be iterated over. *)
Definition lone (w : world) (s : slarg) : Prop := exists o, s = SOne (NObj o) /\ w_true w o = true /\ w_iter w o = false.
(** The same arguments with these namespaces, under the one name or the other. *)
Definition as_search_list (a : args) (s : slarg) : args :=
  mkArgs (a_source a) (a_file a) (a_filter a) (a_lib a) (a_catcher a) (a_settings a) s SNone.
Definition as_namespaces (a : args) (s : slarg) : args :=
  mkArgs (a_source a) (a_file a) (a_filter a) (a_lib a) (a_catcher a) (a_settings a) SNone s.

(** Attributes of Python's own (Cheetah/Template.py:1647). *)
Definition dunder (k : pystr) : Prop := exists r, k = L "__" ++ r.
(** A property of one of these classes. *)
Definition is_property (k : pystr) (mro : list dict) : Prop := exists g s, class_attr k mro = Some (Property g s).
(** The names of a dictionary are different. *)
Definition distinct (d : dict) : Prop := NoDup (keys d).
