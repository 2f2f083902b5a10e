(** Specification side for documentation comments.  String literals are read by the Python Language
    Reference ([take_lit] in Catch_Spec.v); what comments mean is the Users' Guide's. *)
From Verif Require Import Base PyStr Names_Model Catch_Spec.

(** Comments of the kinds described (Users' Guide, section on comments), by the text in them: plain
    ones (with a space in front), bars of hashes, variables, documentation and headers. *)
Inductive comment : Type :=
| CPlain (t : pystr)
| CBar (n : nat)
| CVar (name t : pystr)
| CDoc (t : pystr)
| CDocMethod (t : pystr)
| CDocClass (t : pystr)
| CDocModule (t : pystr)
| CHeader (t : pystr).

(** How they are written, behind the comment token. *)
Definition written (c : comment) : pystr :=
  match c with
  | CPlain t => 32%N :: t
  | CBar n => repeat 35%N (S n)
  | CVar name t => name ++ 64%N :: t
  | CDoc t => L "doc:" ++ t
  | CDocMethod t => L "doc-method:" ++ t
  | CDocClass t => L "doc-class:" ++ t
  | CDocModule t => L "doc-module:" ++ t
  | CHeader t => L "header:" ++ t
  end.

(** The lines that a documentation comment with this text gives. *)
Definition doc_text (t : pystr) : list pystr := splitlines (strip t).

(** Texts that a string literal takes as they are: no backslash and no null. *)
Definition literal_text (t : pystr) : Prop := forall c, In c t -> c <> 92%N /\ c <> 0%N.

(** Three double quotes occur. *)
Definition has_quotes3 (t : pystr) : Prop := exists a b, t = a ++ [34; 34; 34]%N ++ b.

(** Spaces and tabs. *)
Definition blanks (ind : pystr) : Prop := forall c, In c ind -> c = 32%N \/ c = 9%N.

(** [src] is, behind the indentation, one string literal on its own with the given lines, each one
    indented by [ind], between an empty line and a line with the closing quotes. *)
Definition indented_doc (ind src : pystr) (lines : list pystr) : Prop :=
  exists lit v, src = ind ++ lit /\ take_lit lit = Some (v, [10%N])
    /\ split_char 10 v = [] :: map (app ind) lines ++ [ind].

(** The same without indentation, the first line right behind the quotes. *)
Definition flat_doc (src : pystr) (lines : list pystr) : Prop :=
  exists v, take_lit src = Some (v, [10%N]) /\ split_char 10 v = lines ++ [[]].

(** An assignment [NAME = LITERAL]; the name is all in front of the first space. *)
Fixpoint read_name (acc s : pystr) : option (pystr * pystr) :=
  match s with
  | [] => None
  | c :: r => if (c =? 32)%N then Some (rev acc, s) else read_name (c :: acc) r
  end.

Definition read_assign (l : pystr) : option (pystr * pystr) :=
  match read_name [] l with
  | Some (n, r) =>
      match after (L " = ") r with
      | Some t => match take_lit t with Some (v, []) => Some (n, v) | _ => None end
      | None => None
      end
  | None => None
  end.

(** The value of a variable after these lines have run in order. *)
Fixpoint run_assigns (ls : list pystr) (env : pystr -> option pystr) : option (pystr -> option pystr) :=
  match ls with
  | [] => Some env
  | l :: r =>
      match read_assign l with
      | Some (n, v) => run_assigns r (fun m => if str_eqb m n then Some v else env m)
      | None => None
      end
  end.

(** A Python name of ASCII characters. *)
Definition ascii_name (s : pystr) : bool :=
  match s with
  | [] => false
  | c :: _ => negb ((48 <=? c) && (c <=? 57))%N
  end
  && forallb (fun c => (48 <=? c) && (c <=? 57) || (65 <=? c) && (c <=? 90)
                       || (97 <=? c) && (c <=? 122) || (c =? 95))%N s.

(** Letters and underscores. *)
Definition letters (s : pystr) : Prop :=
  s <> [] /\ forall c, In c s -> (65 <= c <= 90 \/ 97 <= c <= 122 \/ c = 95)%N.

(** What each kind gives, over all comments of a page. *)
Definition method_lines (cs : list comment) : list pystr :=
  concat (map (fun c => match c with CDoc t | CDocMethod t => doc_text t | _ => [] end) cs).
Definition class_lines (cs : list comment) : list pystr :=
  concat (map (fun c => match c with CDocClass t => doc_text t | _ => [] end) cs).
Definition module_lines (cs : list comment) : list pystr :=
  concat (map (fun c => match c with CDocModule t => doc_text t | _ => [] end) cs).
Definition header_lines (cs : list comment) : list pystr :=
  concat (map (fun c => match c with CHeader t => doc_text t | _ => [] end) cs).
Definition plain_lines (cs : list comment) : list pystr :=
  concat (map (fun c => match c with CPlain t => splitlines (32%N :: t) | _ => [] end) cs).
Definition variables (cs : list comment) : list (pystr * pystr) :=
  concat (map (fun c => match c with CVar n t => [(n, t)] | _ => [] end) cs).

(** The names of variables are of letters and underscores. *)
Definition named (cs : list comment) : Prop := forall n t, In (CVar n t) cs -> letters n.

(** The last text given for a name, by comments [##NAME@TEXT] with the given names and texts. *)
Fixpoint last_text (name : pystr) (vs : list (pystr * pystr)) (acc : option pystr) : option pystr :=
  match vs with
  | [] => acc
  | (n, t) :: r => last_text name r (if str_eqb name (L "__" ++ n ++ L "__") then Some (strip t) else acc)
  end.
