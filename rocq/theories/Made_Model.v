(** Model of making an instance: the checks, the warnings and the set-up in [Template.__init__]
    (Cheetah/Template.py:1100-1341, 1527-1617), and what [_compile] does with the instance of a subclass that is given a source
    (Cheetah/Template.py:1619-1662).

    Simplified: an object is known by a number, with what the code asks about it in [world]; an object that can be iterated over
    does not yield dictionaries; a string has no attribute that is a filter.  The version check is in Names_Model, the two
    internal arguments are in Tmpl_Model. *)
From Verif Require Import Base PyStr Alist.

(** ** The arguments *)

(** What is handed over, as far as the checks tell it (Cheetah/Template.py:1235-1271); [ADict]: whether
    prioritizeSearchListOverSelf is true in it (Cheetah/Template.py:1310-1312). *)
Inductive arg := ANone | AUnspec | AStr (s : pystr) | AFile | AClass (c : nat) | AMod (m : nat) | ADict (prio : bool) | AOther.

(** A namespace: a dictionary with its keys, or an object (Cheetah/Template.py:1304). *)
Inductive ns := NDict (keys : list pystr) | NObj (o : nat).

(** searchList, or namespaces: nothing, a list or a tuple, or one namespace (Cheetah/Template.py:1302, 1553-1555). *)
Inductive slarg := SNone | SSeq (tuple : bool) (l : list ns) | SOne (n : ns).

(** What is asked about the objects: whether a class is a subclass of Filter or of ErrorCatcher; whether [klass(self).filter] and
    [klass(self)] work; the classes in a module and in ErrorCatchers; whether an object is true and whether it can be iterated
    over; and Reserved_SearchList (Cheetah/Template.py:1244, 1261, 1591-1592, 1604, 1587, 1598, 1302-1303, 1979). *)
Record world := mkWorld {
  w_filter : nat -> bool; w_catcher : nat -> bool; w_makes : nat -> bool; w_catches : nat -> bool;
  w_mod : nat -> pystr -> option nat; w_catchers : pystr -> option nat;
  w_true : nat -> bool; w_iter : nat -> bool; w_reserved : list pystr }.

(** The arguments (Cheetah/Template.py:1100-1120). *)
Record args := mkArgs {
  a_source : arg; a_file : arg; a_filter : arg; a_lib : arg; a_catcher : arg; a_settings : arg;
  a_sl : slarg; a_ns : slarg }.

(** The exceptions: a TypeError that names an argument; source and file; namespaces and searchList; an object that is not
    iterable; a tuple before a list; an attribute that is not there; whatever making a filter or a catcher of the class raises
    (Cheetah/Template.py:1236-1274, 1549-1550, 1303, 1573, 1587, 1598, 1591, 1604). *)
Inductive err := TypeE (a : pystr) | Both | AssertE | NotIterable | Concat | AttrE (n : pystr) | Fails (c : nat).

(** [isinstance(x, string_type)], [isinstance(x, type)], [x is not None] (Cheetah/Template.py:1235-1271). *)
Definition is_str (a : arg) : bool := match a with AStr _ => true | _ => false end.
(** Goes with the definition above (Cheetah/Template.py:1235-1271). *)
Definition is_class (a : arg) : bool := match a with AClass _ => true | _ => false end.
(** Goes with the definition above (Cheetah/Template.py:1235-1271). *)
Definition is_none (a : arg) : bool := match a with ANone => true | _ => false end.
(** [issubclass(x, Filters.Filter)] and [issubclass(x, ErrorCatchers.ErrorCatcher)], of a class
    (Cheetah/Template.py:1244, 1261). *)
Definition sub_of (p : nat -> bool) (a : arg) : bool := match a with AClass c => p c | _ => false end.

(** The checks (Cheetah/Template.py:1232-1274), in their order. *)
Definition check (w : world) (a : args) : option err :=
  if negb (is_none (a_source a) || is_str (a_source a)) then Some (TypeE (L "source"))
  else if negb (is_none (a_file a) || is_str (a_file a) || match a_file a with AFile => true | _ => false end) then Some (TypeE (L "file"))
  else if negb (is_str (a_filter a) || is_class (a_filter a)) && negb (is_class (a_filter a) && sub_of (w_filter w) (a_filter a))
  then Some (TypeE (L "filter"))
  else if negb (is_str (a_lib a) || match a_lib a with AMod _ => true | _ => false end) then Some (TypeE (L "filtersLib"))
  else if negb (is_none (a_catcher a))
          && (let err := true in
              let err := if is_str (a_catcher a) || is_class (a_catcher a) then false else err in
              if is_class (a_catcher a) && sub_of (w_catcher w) (a_catcher a) then false else err)
  then Some (TypeE (L "errorCatcher"))
  else if match a_settings a with AUnspec => false | ADict _ => false | _ => true end then Some (TypeE (L "compilerSettings"))
  else if negb (is_none (a_source a)) && negb (is_none (a_file a)) then Some Both
  else None.

(** [isinstance(compilerSettings, dict) and compilerSettings.get('prioritizeSearchListOverSelf')]
    (Cheetah/Template.py:1310-1312, 1571-1572). *)
Definition prio (a : args) : bool := match a_settings a with ADict p => p | _ => false end.

(** [self.Reserved_SearchList & set(namespace.keys())] (Cheetah/Template.py:1305-1306). *)
Definition reserved (w : world) (keys : list pystr) : list pystr := filter (fun k => existsb (str_eqb k) (w_reserved w)) keys.

(** The warnings (Cheetah/Template.py:1302-1327): the keys in each.  One namespace is gone through like a list: a dictionary by
    its keys, an object if it can be iterated over. *)
Definition warn (w : world) (a : args) : res err (list (list pystr)) :=
  match a_sl a with
  | SNone => Ok []
  | SSeq _ l =>
      Ok (flat_map (fun n => match n with
                             | NDict ks => match reserved w ks with
                                           | [] => []
                                           | i => if prio a then [] else [i]
                                           end
                             | NObj _ => []
                             end) l)
  | SOne (NDict _) => Ok []
  | SOne (NObj o) => if w_true w o then (if w_iter w o then Ok [] else Raise NotIterable) else Ok []
  end.

(** What is on the search list: the dictionary of #set global, the instance, a namespace (Cheetah/Template.py:1570). *)
Inductive entry := EGlobals | ESelf | ENs (n : ns).

(** [_initCheetahInstance] up to the search list (Cheetah/Template.py:1548-1577). *)
Definition search_list (a : args) : res err (list entry) :=
  match a_ns a, a_sl a with
  | SNone, s | s, SNone =>
      let own := [EGlobals; ESelf] in
      match s with
      | SNone => Ok own
      | SSeq t l => if prio a then (if t then Raise Concat else Ok (map ENs l ++ own)) else Ok (own ++ map ENs l)
      | SOne n => if prio a then Ok (map ENs [n] ++ own) else Ok (own ++ map ENs [n])
      end
  | _, _ => Raise AssertE
  end.

(** The filter (Cheetah/Template.py:1583-1593). *)
Definition pick_filter (w : world) (a : args) : res err nat :=
  let klass :=
    match a_filter a with
    | AStr n => match a_lib a with
                | AMod m => match w_mod w m n with Some c => Ok c | None => Raise (AttrE n) end
                | _ => Raise (AttrE n)
                end
    | AClass c => Ok c
    | _ => Raise (AttrE (L "__name__"))
    end in
  match klass with
  | Raise e => Raise e
  | Ok c => if w_makes w c then Ok c else Raise (Fails c)
  end.

(** The error catcher (Cheetah/Template.py:1595-1607). *)
Definition pick_catcher (w : world) (a : args) : res err (option nat) :=
  let made c := if w_catches w c then Ok (Some c) else Raise (Fails c) in
  match a_catcher a with
  | AStr [] => Ok None
  | AStr n => match w_catchers w n with Some c => made c | None => Raise (AttrE n) end
  | AClass c => made c
  | _ => Ok None
  end.

(** The instance (Cheetah/Template.py:1566-1610), and the source or the file that is compiled now
    (Cheetah/Template.py:1339-1341). *)
Record made := mkMade { m_sl : list entry; m_filter : nat; m_catcher : option nat; m_code : option (arg * arg) }.

(** [Template.__init__] (Cheetah/Template.py:1232-1341): the warnings, and the instance or the exception. *)
Definition make (w : world) (a : args) : list (list pystr) * res err made :=
  match check w a with
  | Some e => ([], Raise e)
  | None =>
      match warn w a with
      | Raise e => ([], Raise e)
      | Ok ws =>
          (ws,
           match search_list a with
           | Raise e => Raise e
           | Ok sl =>
               match pick_filter w a with
               | Raise e => Raise e
               | Ok f =>
                   match pick_catcher w a with
                   | Raise e => Raise e
                   | Ok c =>
                       Ok (mkMade sl f c (if negb (is_none (a_source a)) || negb (is_none (a_file a))
                                          then Some (a_source a, a_file a) else None))
                   end
               end
           end)
      end
  end.

(** ** Attributes *)

(** What stands in the dictionary of a class or of an instance: a value and whether it is true, a function, a classmethod, a
    staticmethod, a property with or without a setter (Cheetah/Template.py:1646-1652). *)
Inductive obj := Plain (truth : bool) (v : nat) | Func (f : nat) | ClassM (f : nat) | StaticM (f : nat) | Property (g : nat) (setter : bool).

(** Dictionaries of classes and instances (Cheetah/Template.py:1646). *)
Definition dict := list (pystr * obj).

(** What asking for an attribute gives: the very object; a function that is given the instance, or the class; what a property
    answers (Python's attribute lookup; Cheetah/Template.py:1652-1654). *)
Inductive got := GObj (o : obj) | GBound (f : nat) | GClass (f : nat) | GProp (g : nat).

(** The attribute in the first class that has it (Cheetah/Template.py:1654). *)
Fixpoint class_attr (k : pystr) (mro : list dict) : option obj :=
  match mro with
  | [] => None
  | d :: r => match aget k d with Some o => Some o | None => class_attr k r end
  end.

(** An attribute of a class, asked for through an instance (Cheetah/Template.py:1654). *)
Definition bind (o : obj) : got :=
  match o with
  | Plain t v => GObj (Plain t v)
  | Func f => GBound f
  | ClassM f => GClass f
  | StaticM f => GObj (Func f)
  | Property g _ => GProp g
  end.

(** [getattr(self, k)]: properties of the class come before the dictionary of the instance, everything else after it
    (Cheetah/Template.py:1654). *)
Definition get_attr (k : pystr) (mro : list dict) (d : dict) : option got :=
  match class_attr k mro with
  | Some (Property g _) => Some (GProp g)
  | c => match aget k d with
         | Some o => Some (GObj o)
         | None => option_map bind c
         end
  end.

(** An instance: its dictionary, and what its properties were set to (Cheetah/Template.py:1646-1654). *)
Record inst := mkInst { i_dict : dict; i_sets : list (nat * obj) }.

(** [setattr(self, k, v)] (Cheetah/Template.py:1652); None: AttributeError, the property cannot be set. *)
Definition set_attr (k : pystr) (v : obj) (mro : list dict) (i : inst) : option inst :=
  match class_attr k mro with
  | Some (Property g true) => Some (mkInst (i_dict i) (i_sets i ++ [(g, v)]))
  | Some (Property g false) => None
  | _ => Some (mkInst (aset k v (i_dict i)) (i_sets i))
  end.

(** [not v] (Cheetah/Template.py:1647). *)
Definition falsy (o : obj) : bool := match o with Plain t _ => negb t | _ => false end.

(** The loop over [self.__class__.__dict__.items()] (Cheetah/Template.py:1646-1652); [mro]: the class and its bases. *)
Fixpoint propagate (items : dict) (mro : list dict) (i : inst) : option inst :=
  match items with
  | [] => Some i
  | (k, v) :: r =>
      if falsy v || starts_with (L "__") k then propagate r mro i
      else match set_attr k v mro i with
           | None => None
           | Some i' => propagate r mro i'
           end
  end.

(** [_compile] (Cheetah/Template.py:1643-1654): [base]: whether the class is Template itself; [own] the dictionary of the class,
    [bases] those of its bases; [tmpl] those of the new class and its bases, which from now on is the class of the instance. *)
Definition compile_into (base : bool) (own : dict) (bases tmpl : list dict) (i : inst) : option (list dict * inst) :=
  match (if base then Some i else propagate own (own :: bases) i) with
  | None => None
  | Some i' => Some (tmpl, i')
  end.
