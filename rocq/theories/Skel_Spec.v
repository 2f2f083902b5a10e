(** Specification for C99: a reader of tags, written without looking at the page: < name, attributes with a value in double quotes,
    each behind one blank, an optional slash behind a blank, and >; between tags there may be ends of lines. *)
From Verif Require Import Base.

Record tag := mkT { t_name : pystr; t_atts : list (pystr * pystr) }.

(** Where the reader is; names and values are kept with the last character first. *)
Inductive place :=
| Outside
| InName (n : pystr)
| InAtt (n : pystr) (atts : list (pystr * pystr)) (a : pystr)
| AtQuote (n : pystr) (atts : list (pystr * pystr)) (a : pystr)
| InValue (n : pystr) (atts : list (pystr * pystr)) (a v : pystr)
| Behind (n : pystr) (atts : list (pystr * pystr))
| AtEnd (n : pystr) (atts : list (pystr * pystr)).

Definition more (n : pystr) (atts : list (pystr * pystr)) (r : option (list tag)) : option (list tag) :=
  match r with Some l => Some (mkT (rev n) (rev atts) :: l) | None => None end.

Definition LT : N := 60. Definition GT : N := 62. Definition BLANK : N := 32. Definition EQUALS : N := 61. Definition QUOTE : N := 34.
Definition SLASH : N := 47. Definition EOL : N := 10.

Fixpoint read (p : place) (s : pystr) : option (list tag) :=
  match s with
  | [] => match p with Outside => Some [] | _ => None end
  | c :: r =>
      match p with
      | Outside => if N.eqb c LT then read (InName []) r else if N.eqb c EOL then read Outside r else None
      | InName n => if N.eqb c BLANK then read (InAtt n [] []) r else if N.eqb c GT then more n [] (read Outside r) else read (InName (c :: n)) r
      | InAtt n atts a =>
          if N.eqb c EQUALS then read (AtQuote n atts a) r
          else if N.eqb c SLASH then match a with [] => read (AtEnd n atts) r | _ => None end
          else read (InAtt n atts (c :: a)) r
      | AtQuote n atts a => if N.eqb c QUOTE then read (InValue n atts a []) r else None
      | InValue n atts a v => if N.eqb c QUOTE then read (Behind n ((rev a, rev v) :: atts)) r else read (InValue n atts a (c :: v)) r
      | Behind n atts => if N.eqb c BLANK then read (InAtt n atts []) r else if N.eqb c GT then more n atts (read Outside r) else None
      | AtEnd n atts => if N.eqb c GT then more n atts (read Outside r) else None
      end
  end.
Definition tags_of (s : pystr) : option (list tag) := read Outside s.

(** What may be the name of a tag or of an attribute, and a value. *)
Definition is_name (s : pystr) : Prop := forall c, In c s -> ~ In c [BLANK; GT; EQUALS; SLASH].
Definition is_value (s : pystr) : Prop := ~ In QUOTE s.

Definition atts_ok (l : list (pystr * pystr)) : Prop := forall a v, In (a, v) l -> is_name a /\ is_value v.
Definition values_ok (d : list (pystr * pystr)) : Prop := forall a v, In (a, v) d -> is_value a /\ is_value v.

(** [e] is what is under the key [k]; nothing, if the key is not there. *)
Definition entry (k : pystr) (d : list (pystr * list (pystr * pystr))) (e : list (pystr * pystr)) : Prop :=
  In (k, e) d \/ (~ In k (map fst d) /\ e = []).

(** The small letters of a name. *)
Definition small (c : N) : N := if (N.leb 65 c && N.leb c 90)%bool then (c + 32)%N else c.

(** Pieces with a separator between them. *)
Fixpoint joined (sep : pystr) (l : list pystr) : pystr :=
  match l with
  | [] => []
  | [x] => x
  | x :: r => x ++ sep ++ joined sep r
  end.

(** A rule of a style sheet: the identifier and the declarations in braces. *)
Definition declared (atts : list (pystr * pystr)) : pystr := joined (L "; ") (map (fun p => fst p ++ L ": " ++ snd p) atts).
Definition rule (i : pystr) (atts : list (pystr * pystr)) : pystr := i ++ L " {" ++ declared atts ++ L "}".

(** A size that is asked for, or else [a]; the attribute for a size, if there is one. *)
Definition or_else (o : option pystr) (a : pystr) : pystr := match o with Some (c :: r) => c :: r | _ => a end.
Definition shown (name : pystr) (o : option pystr) : list (pystr * pystr) := match o with Some (c :: r) => [(name, c :: r)] | _ => [] end.
Definition COMMA : N := 44.
