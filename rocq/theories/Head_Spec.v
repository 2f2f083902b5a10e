(** Specification of the directives about the class and the module, and of #include: their text, which of them can be
    written down, and what each of them asks the compiler for.  Nothing here reads a source. *)
From Verif Require Import Base PyStr Lex_Model Expr_Model Front_Model Front_Spec Head_Model.
From Verif Require Gen_Model.

(** A dotted name; one in a list, with the white space around it. *)
Definition dots (ids : list pystr) : pystr := join (L ".") ids.
Record listed := mkLi { li_before : pystr; li_ids : list pystr; li_after : pystr }.
Definition gap (w : pystr) : Prop := forallb (fun c => (c =? 32) || (c =? 9))%N w = true.
Definition listed_ok (n : listed) : Prop :=
  gap (li_before n) /\ gap (li_after n) /\ li_ids n <> [] /\ Forall ident (li_ids n).
Definition show_listed (n : listed) : pystr := li_before n ++ dots (li_ids n) ++ li_after n.

(** The directives. *)
Inductive hdir :=
| HExtends (l : list listed)
| HImplements (n : pystr) (a : option sargs)
| HSuper (a : option sargs)
| HAttr (dollar : bool) (n : pystr) (e : xp)
| HModule (lv : xp) (op : pystr) (e : xp)
| HInclude (raw str : bool) (e : xp)
| HCatcher (n : pystr)
| HTransform (n : pystr).

Definition hname (d : hdir) : pystr :=
  match d with
  | HExtends _ => L "extends" | HImplements _ _ => L "implements" | HSuper _ => L "super" | HAttr _ _ _ => L "attr"
  | HModule _ _ _ => L "set" | HInclude _ _ _ => L "include" | HCatcher _ => L "errorCatcher" | HTransform _ => L "transform"
  end.
Definition hargs (d : hdir) : pystr :=
  match d with
  | HExtends l => L " " ++ join (L ",") (map show_listed l)
  | HImplements n a => L " " ++ n ++ show_args a
  | HSuper a => show_args a
  | HAttr v n e => L " " ++ (if v then L "$" else []) ++ n ++ L " = " ++ x_src e
  | HModule lv op e => L " module " ++ x_src lv ++ L " " ++ op ++ L " " ++ x_src e
  | HInclude raw str e => L " " ++ (if raw then L "raw " else []) ++ (if str then L "source=" else []) ++ x_src e
  | HCatcher n | HTransform n => L " " ++ n
  end.
Definition show_hdir (d : hdir) : pystr := L "#" ++ hname d ++ hargs d.

(** ** What they ask for *)

(** ... the arguments that count: a first one with the name self is there already. *)
Definition given (a : option sargs) : list (pystr * option pystr) :=
  match args_val a with
  | x :: l => if list_eq_dec N.eq_dec (fst x) (L "self") then l else x :: l
  | [] => []
  end.

(** ... of the class and the module: the base classes, name and arguments of the main method, an attribute, a line of
    the module, an error catcher. *)
Definition asks (d : hdir) : call :=
  match d with
  | HExtends l => CBase (join (L ", ") (map (fun n => dots (li_ids n)) l))
  | HImplements n a => CMain n (given a)
  | HAttr _ n e => CAttr (n ++ L " = " ++ x_code e)
  | HModule lv op e => CGlobal (x_code lv ++ L " " ++ op ++ L " " ++ x_code e)
  | HCatcher n => CCatcher n
  | _ => CNone
  end.

(** ... of the active method: statements, and an expression whose value is put out (#super: the method of the same name of
    the base class, with the arguments). *)
Definition arg_text (a : pystr * option pystr) : pystr :=
  fst a ++ match snd a with Some d => L "=" ++ d | None => [] end.
Definition asks_body (G : Gen_Model.gset) (cls : pystr) (d : hdir) (c : Gen_Model.cs) : res Gen_Model.gerr Gen_Model.cs :=
  let says x := Gen_Model.on_top (fun m => Ok (Gen_Model.add (Gen_Model.GStmt x) m)) in
  match d with
  | HInclude raw str e =>
      says (L "self._handleCheetahInclude(" ++ x_code e ++ L ", trans=trans, includeFrom=" ++
            (if str then L """str""" else L """file""") ++ L ", raw=" ++ (if raw then L "True" else L "False") ++ L ")") c
  | HSuper a =>
      Gen_Model.on_top (fun m => Ok (Gen_Model.add_filtered G
        (Gen_Model.XUser (L "super(" ++ cls ++ L ", self)." ++ fst (Gen_Model.m_head m) ++
                          L "(" ++ join (L ",") (map arg_text (given a)) ++ L ")")) [] [] None m)) c
  | HTransform n =>
      Gen_Model.bind (says (L "trans = TransformerTransaction()") c) (fun c =>
      Gen_Model.bind (says (L "trans._response = trans.response()") c) (fun c =>
      Gen_Model.bind (says (L "trans._response._filter = " ++ n) c) (fun c =>
      says (L "write = trans._response.write") c)))
  | _ => Ok c
  end.

(** ** Which of them can be written down *)

(** #transform reads the character behind its name. *)
Definition reads_on (d : hdir) : bool := match d with HTransform _ => true | _ => false end.

(** The arguments are read up to their closing bracket, wherever they stand (as in Front_Spec.v, but the first may have
    the name self). *)
Definition args_read (E : env) (a : option sargs) : Prop :=
  match a with
  | None => True
  | Some a =>
      (forall c b r, Gen_Model.s_sl c = true ->
        def_args E c false b (L "(" ++ sa_src a ++ L ")" ++ r)
        = fok (sa_val a, (rev (L "(" ++ sa_src a) ++ b, L ")" ++ r))) /\
      one_line (sa_src a)
  end.

Definition hdir_ok (E : env) (d : hdir) : Prop :=
  match d with
  | HExtends l => l <> [] /\ Forall listed_ok l
  | HImplements n a => ident n /\ args_read E a
  | HSuper a => args_read E a
  | HAttr _ n e => ident n /\ xok E [] e /\ (forall r, x_tok (e_X E) (L "= " ++ r) = Some 1) /\
                   contains (L "VFN(") (n ++ L " = " ++ x_code e) = false /\
                   contains (L "VFFSL(") (n ++ L " = " ++ x_code e) = false
  | HModule lv op e => lvalue_ok E lv op /\ In op assign_ops /\ xok E [] e /\
                       (forall r, x_tok (e_X E) (op ++ L " " ++ r) = Some (length op))
  | HInclude raw str e => xok E [] e /\
                          (str = false -> forall r, starts_with (L "source") (x_src e ++ r) = false) /\
                          (raw = false -> str = false -> forall r, starts_with (L "raw") (x_src e ++ r) = false)
  | HCatcher n | HTransform n => ident n
  end.
