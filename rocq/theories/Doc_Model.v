(** Model of comments that become documentation, file headers and module variables: [addComment]
    (Cheetah/Compiler.py:2001-2030) with the methods it calls and those that write the result. *)
From Verif Require Import Base PyStr StrConst_Model Names_Model Compile_Model Catch_Model.

(** What the comments of a page are collected in, for one active method: its body comments and its
    documentation, those of the class and the module, the lines of the header and the module
    variables (Cheetah/Compiler.py:348, 1278, 1751-1753). *)
Record docs : Type := mkDocs {
  d_body : list pystr;
  d_meth : list pystr;
  d_class : list pystr;
  d_module : list pystr;
  d_header : list pystr;
  d_vars : list (pystr * pystr)
}.

(** The state at the start (Cheetah/Compiler.py:348, 1278, 1751-1753). *)
Definition no_docs : docs := mkDocs [] [] [] [] [] [].

(** [addMethDocString] (Cheetah/Compiler.py:429-430). *)
Definition add_meth_doc (d : docs) (l : pystr) : docs :=
  mkDocs (d_body d) (d_meth d ++ [replace_str (L "%") (L "%%") l]) (d_class d) (d_module d) (d_header d) (d_vars d).

(** [addClassDocString] (Cheetah/Compiler.py:1432-1433). *)
Definition add_class_doc (d : docs) (l : pystr) : docs :=
  mkDocs (d_body d) (d_meth d) (d_class d ++ [replace_str (L "%") (L "%%") l]) (d_module d) (d_header d) (d_vars d).

(** [addModuleDocString] (Cheetah/Compiler.py:1963-1966). *)
Definition add_module_doc (d : docs) (l : pystr) : docs :=
  mkDocs (d_body d) (d_meth d) (d_class d) (d_module d ++ [l]) (d_header d) (d_vars d).

(** [addModuleHeader] (Cheetah/Compiler.py:1957-1961). *)
Definition add_header (d : docs) (l : pystr) : docs :=
  mkDocs (d_body d) (d_meth d) (d_class d) (d_module d) (d_header d ++ [l]) (d_vars d).

(** [addMethComment] (Cheetah/Compiler.py:532-534); [off] is the setting [commentOffset]. *)
Definition add_meth_comment (off : nat) (d : docs) (l : pystr) : docs :=
  mkDocs (d_body d ++ [35%N :: repeat 32%N off ++ l]) (d_meth d) (d_class d) (d_module d) (d_header d) (d_vars d).

(** Setting a key of a dictionary (Cheetah/Compiler.py:1978). *)
Fixpoint set_key (k v : pystr) (l : list (pystr * pystr)) : list (pystr * pystr) :=
  match l with
  | [] => [(k, v)]
  | (k', v') :: r => if str_eqb k k' then (k', v) :: r else (k', v') :: set_key k v r
  end.

(** [addSpecialVar] (Cheetah/Compiler.py:1974-1978). *)
Definition add_special (base contents : pystr) (d : docs) : docs :=
  mkDocs (d_body d) (d_meth d) (d_class d) (d_module d) (d_header d)
    (set_key (L "__" ++ base ++ L "__") (strip contents) (d_vars d)).

(** The character class of the pattern [([a-zA-z_]+)@], which reaches from A to z (Cheetah/Parser.py:159). *)
Definition var_char (c : N) : bool := ((65 <=? c) && (c <=? 122))%N.

(** [specialVarRE.match(comm)] (Cheetah/Parser.py:159, Cheetah/Compiler.py:2005-2010): the group and the text behind the match;
    the sign @ is not in the class, so that there is nothing to backtrack.  [acc]: characters of the
    group read so far, reversed. *)
Fixpoint var_match (acc : pystr) (s : pystr) : option (pystr * pystr) :=
  match s with
  | [] => None
  | c :: r =>
      if var_char c then var_match (c :: acc) r
      else if (c =? 64)%N then match acc with [] => None | _ => Some (rev acc, r) end
      else None
  end.

(** [re.match(r'#+$', comm)]: hashes up to the end or up to a final newline (Cheetah/Compiler.py:2002). *)
Fixpoint is_bar (some : bool) (s : pystr) : bool :=
  match s with
  | [] => some
  | c :: r => if (c =? 35)%N then is_bar true r
              else some && (c =? 10)%N && match r with [] => true | _ => false end
  end.

(** [for line in comm.splitlines(): addLine(line)] (Cheetah/Compiler.py:2029-2030). *)
Definition add_lines (f : docs -> pystr -> docs) (comm : pystr) (d : docs) : docs :=
  fold_left f (splitlines comm) d.

(** [comm[len(p):].strip()] (Cheetah/Compiler.py:2012-2025). *)
Definition rest_of (p comm : pystr) : pystr := strip (skipn (length p) comm).

(** [addComment] (Cheetah/Compiler.py:2001-2030). *)
Definition doc_comment (off : nat) (d : docs) (comm : pystr) : docs :=
  if is_bar false comm then d
  else match var_match [] comm with
  | Some (base, contents) => add_special base contents d
  | None =>
      if starts_with (L "doc:") comm then add_lines add_meth_doc (rest_of (L "doc:") comm) d
      else if starts_with (L "doc-method:") comm then add_lines add_meth_doc (rest_of (L "doc-method:") comm) d
      else if starts_with (L "doc-module:") comm then add_lines add_module_doc (rest_of (L "doc-module:") comm) d
      else if starts_with (L "doc-class:") comm then add_lines add_class_doc (rest_of (L "doc-class:") comm) d
      else if starts_with (L "header:") comm then add_lines add_header (rest_of (L "header:") comm) d
      else add_lines (add_meth_comment off) comm d
  end.

(** All comments of a page in order (Cheetah/Compiler.py:2001-2030). *)
Definition doc_comments (off : nat) (cs : list pystr) : docs := fold_left (doc_comment off) cs no_docs.

(** ** Writing *)

(** [docString] of a method (Cheetah/Compiler.py:417-425); [ind] is [self._indent*2]. *)
Definition meth_doc (ind : pystr) (lines : list pystr) : pystr :=
  match lines with
  | [] => []
  | _ => ind ++ [34; 34; 34; 10]%N ++ ind
         ++ join (10%N :: ind) (map (replace_str [34; 34; 34]%N [39; 39; 39]%N) lines)
         ++ 10%N :: ind ++ [34; 34; 34; 10]%N
  end.

(** [text % {'ind': ind}] (Cheetah/Compiler.py:1582-1585): two percent signs stand for one, [%(ind)s] for [ind]; any other
    use of the sign is an error ([None]).  [skip]: characters of the field still to pass over. *)
Fixpoint pct (ind : pystr) (skip : nat) (s : pystr) : option pystr :=
  match s with
  | [] => Some []
  | c :: r =>
      match skip with
      | S k => pct ind k r
      | O =>
          if (c =? 37)%N then
            if starts_with (L "%") r then option_map (cons 37%N) (pct ind 1 r)
            else if starts_with (L "(ind)s") r then option_map (app ind) (pct ind 6 r)
            else None
          else option_map (cons c) (pct ind 0 r)
      end
  end.

(** [classDocstring] (Cheetah/Compiler.py:1578-1586). *)
Definition class_doc (ind : pystr) (lines : list pystr) : option pystr :=
  match lines with
  | [] => Some []
  | _ => pct ind 0 (L "%(ind)s" ++ [34; 34; 34; 10]%N ++ L "%(ind)s"
                    ++ join (10%N :: L "%(ind)s") lines
                    ++ 10%N :: L "%(ind)s" ++ [34; 34; 34; 10]%N)
  end.

(** [moduleDocstring] (Cheetah/Compiler.py:2142-2147). *)
Definition module_doc (lines : list pystr) : pystr :=
  match lines with
  | [] => []
  | _ => [34; 34; 34]%N ++ join [10%N] lines ++ [10; 34; 34; 34; 10]%N
  end.

(** [moduleHeader] (Cheetah/Compiler.py:2129-2140); the first two lines are parameters. *)
Definition module_header (shbang enc : pystr) (off : nat) (lines : list pystr) : pystr :=
  shbang ++ 10%N :: enc ++ 10%N ::
  match lines with
  | [] => []
  | _ => (35%N :: repeat 32%N off) ++ join (10%N :: 35%N :: repeat 32%N off) lines ++ [10%N]
  end.

Section Vars.
Variable printable : N -> bool.

(** One line of [specialVars] (Cheetah/Compiler.py:2154). *)
Definition var_line (p : pystr * pystr) : pystr := fst p ++ L " = " ++ repr printable (snd p).

(** [specialVars] (Cheetah/Compiler.py:2149-2155): the keys in order. *)
Definition special_vars (vars : list (pystr * pystr)) : pystr :=
  join [10%N] (map var_line (ksort vars)).
End Vars.
