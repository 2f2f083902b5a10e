(** Specification side for the methods of a class: pages as trees; what methods they define; how Python
    resolves a name in a class body (the last binding counts). *)
From Verif Require Import Base PyStr Class_Model.

(** A page: text and calls, definitions and blocks with decorators directly in front, #implements and #extends,
    attributes, methods of error catchers. *)
Inductive page : Type :=
| PEnd
| PText (c : pystr) (k : page)
| PDef (ds : list pystr) (n : pystr) (args : list pystr) (b k : page)
| PBlock (ds : list pystr) (n : pystr) (args : list pystr) (b k : page)
| PImpl (n : pystr) (args : list pystr) (k : page)
| PExt (n : pystr) (k : page)
| PAttr (n e : pystr) (k : page)
| PCatch (n : pystr) (body : list pystr) (k : page).

(** The calls made for a page, in the order of the text. *)
Fixpoint calls (p : page) : list op :=
  match p with
  | PEnd => []
  | PText c k => OText c :: calls k
  | PDef ds n args b k => map ODeco ds ++ OStart n args :: calls b ++ OEndDef :: calls k
  | PBlock ds n args b k => map ODeco ds ++ OStart n args :: calls b ++ OEndBlock :: calls k
  | PImpl n args k => OImplements n args :: calls k
  | PExt n k => OExtends n :: calls k
  | PAttr n e k => OAttr n e :: calls k
  | PCatch n body k => OCatch n body :: calls k
  end.

(** A method as written: name, decorators, arguments, chunks. *)
Definition method : Type := (pystr * list pystr * list pystr * list pystr)%type.

(** The chunks of the level itself: its text, and a call where a block stands. *)
Fixpoint own (p : page) : list pystr :=
  match p with
  | PEnd => []
  | PText c k => c :: own k
  | PDef _ _ _ _ k => own k
  | PBlock _ n _ _ k => (L "self." ++ n ++ L "(trans=trans)") :: own k
  | PImpl _ _ k | PExt _ k | PAttr _ _ k | PCatch _ _ k => own k
  end.

(** The methods defined, inner ones before outer ones. *)
Fixpoint defs (p : page) : list method :=
  match p with
  | PEnd => []
  | PText _ k => defs k
  | PDef ds n args b k => defs b ++ (n, ds, args, own b) :: defs k
  | PBlock ds n args b k => defs b ++ (n, ds, args, own b) :: defs k
  | PCatch n body k => (n, [], [], body) :: defs k
  | PImpl _ _ k | PExt _ k | PAttr _ _ k => defs k
  end.

(** The names of #implements and #extends, in order, with the arguments. *)
Fixpoint impls (p : page) : list (pystr * list pystr) :=
  match p with
  | PEnd => []
  | PText _ k | PAttr _ _ k | PCatch _ _ k => impls k
  | PDef _ _ _ b k | PBlock _ _ _ b k => impls b ++ impls k
  | PImpl n args k => (n, args) :: impls k
  | PExt n k => (n, []) :: impls k
  end.

Fixpoint attrs (p : page) : list (pystr * pystr) :=
  match p with
  | PEnd => []
  | PText _ k | PCatch _ _ k | PImpl _ _ k | PExt _ k => attrs k
  | PDef _ _ _ b k | PBlock _ _ _ b k => attrs b ++ attrs k
  | PAttr n e k => (n, e) :: attrs k
  end.

Definition name_of (m : method) : pystr := fst (fst (fst m)).
Definition def_names (p : page) : list pystr := map name_of (defs p).

(** The main method's name: the last one given. *)
Definition main_name (main : pystr) (p : page) : pystr := last (map fst (impls p)) main.

(** No definition has a name that the main method has or gets; no chunk is a call of the form that the
    change of the name rewrites. *)
Definition no_clash (main : pystr) (p : page) : Prop :=
  impls p = []
  \/ (forall n, In n (def_names p) -> n <> main /\ ~ In n (map fst (impls p)))
     /\ (forall c, In c (own p) -> starts_with (L "write(self.") c = false).

(** Resolution of a name in a class body. *)
Fixpoint lookup {A : Type} (n : pystr) (bs : list (pystr * A)) : option A :=
  match bs with
  | [] => None
  | (k, v) :: r => match lookup n r with
                   | Some w => Some w
                   | None => if str_eqb n k then Some v else None
                   end
  end.
