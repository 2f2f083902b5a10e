(** Specification side for imports and #extends: import statements by their parts (Python Language
    Reference 7.11) and what they bind; class paths by their parts. *)
From Verif Require Import Base PyStr.

(** White space, as written between words. *)
Definition gap (s : pystr) : Prop := forall c, In c s -> is_space c = true.
Definition gap1 (s : pystr) : Prop := gap s /\ s <> [].

(** A word: no white space and no comma. *)
Definition word (s : pystr) : Prop := s <> [] /\ forall c, In c s -> is_space c = false /\ c <> 44%N.

(** One item of an import statement: the white space in front, the name or path, the alias with the white
    space around [as], the white space behind. *)
Record item : Type := mkItem {
  it_lead : pystr;
  it_path : pystr;
  it_alias : option (pystr * pystr * pystr);
  it_trail : pystr
}.

Definition item_ok (it : item) : Prop :=
  gap (it_lead it) /\ word (it_path it) /\ gap (it_trail it)
  /\ match it_alias it with Some (a, b, n) => gap1 a /\ gap1 b /\ word n | None => True end.

Definition item_text (it : item) : pystr :=
  it_lead it ++ it_path it
  ++ match it_alias it with Some (a, b, n) => a ++ L "as" ++ b ++ n | None => [] end
  ++ it_trail it.

(** The name an item makes known: the alias, else the name or path itself. *)
Definition item_name (it : item) : pystr :=
  match it_alias it with Some (_, _, n) => n | None => it_path it end.

(** [import ITEMS] or [from MODULE import ITEMS]. *)
Inductive stmt : Type :=
| SImport (items : list item)
| SFrom (g1 m g2 : pystr) (items : list item).

Definition items_text (items : list item) : pystr := join (L ",") (map item_text items).

Definition stmt_text (s : stmt) : pystr :=
  match s with
  | SImport items => L "import" ++ items_text items
  | SFrom g1 m g2 items => L "from" ++ g1 ++ m ++ g2 ++ L "import" ++ items_text items
  end.

Definition items_ok (items : list item) : Prop :=
  match items with
  | [] => False
  | it :: _ => it_lead it <> []
  end /\ forall it, In it items -> item_ok it.

Definition stmt_ok (s : stmt) : Prop :=
  match s with
  | SImport items => items_ok items
  | SFrom g1 m g2 items => gap1 g1 /\ word m /\ gap1 g2 /\ items_ok items
  end.

(** The names a statement makes known; a star gives none that can be told from the text. *)
Definition stmt_names (s : stmt) : list pystr :=
  filter (fun n => negb (str_eqb n (L "*")))
    (map item_name (match s with SImport items | SFrom _ _ _ items => items end)).

(** The statement [from M import K], with single spaces. *)
Definition plain_from (m k : pystr) : stmt := SFrom (L " ") m (L " ") [mkItem (L " ") k None []].

(** The path of a class: its parts, in order; the last is the class.  A part has no dot, comma or white space. *)
Definition part (s : pystr) : Prop := s <> [] /\ forall c, In c s -> is_space c = false /\ c <> 44%N /\ c <> 46%N.
Definition path_ok (p : list pystr) : Prop := p <> [] /\ forall x, In x p -> part x.
Definition path_text (p : list pystr) : pystr := join (L ".") p.

(** The module that a class path stands for when nothing is imported (Users' Guide, #extends): the
    class has the name of its module; if this is not written twice, the path is the module. *)
Definition module_of (p : list pystr) : pystr :=
  match rev p with
  | k :: m :: r => if str_eqb k m then path_text (rev (m :: r)) else path_text p
  | _ => path_text p
  end.

Definition class_of (p : list pystr) : pystr := last p [].

(** What #extends of a list of paths writes when the modules are not imported, given the names
    known: the statements added. *)
Fixpoint wanted (ns : list pystr) (ps : list (list pystr)) : list stmt :=
  match ps with
  | [] => []
  | p :: r =>
      match p with
      | [k] => if existsb (str_eqb k) ns then wanted ns r
               else plain_from k k :: wanted (ns ++ [k]) r
      | _ => plain_from (module_of p) (class_of p) :: wanted (ns ++ [class_of p]) r
      end
  end.

(** A list of class paths as written, each with the white space around it. *)
Definition base : Type := (pystr * list pystr * pystr)%type.
Definition base_path (b : base) : list pystr := snd (fst b).
Definition base_ok (b : base) : Prop := gap (fst (fst b)) /\ path_ok (base_path b) /\ gap (snd b).
Definition base_text (b : base) : pystr := fst (fst b) ++ path_text (base_path b) ++ snd b.
Definition bases_text (bs : list base) : pystr := join (L ",") (map base_text bs).

(** A path goes through a known name: a leading part of it, with two parts or more behind, is known. *)
Definition through (ns : list pystr) (p : list pystr) : Prop :=
  exists q r, p = q ++ r /\ q <> [] /\ (2 <= length r)%nat /\ In (path_text q) ns.
