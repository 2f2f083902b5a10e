(** Model of imports and of #extends: [addImportStatement], [addImportedVarNames] and [setBaseClass]
    (Cheetah/Compiler.py:1847-1925, 1980-1995). *)
From Verif Require Import Base PyStr.

(** The parts of the compiler's state that are used: [_importStatements], [_importedVarNames], the
    chunks of the active method's body and the base class (Cheetah/Compiler.py:1754-1790, 349, 1277). *)
Record istate : Type := mkI {
  i_stmts : list pystr;
  i_names : list pystr;
  i_body : list pystr;
  i_base : pystr
}.

(** The names known at the start (Cheetah/Compiler.py:1785-1796). *)
Definition start_names : list pystr :=
  [L "sys"; L "os"; L "os.path"; L "time"; L "types"; L "Template"; L "DummyTransaction";
   L "NotFound"; L "Filters"; L "ErrorCatchers"; L "CacheRegion"].

(** The exception of [var.split()[-1]] (Cheetah/Compiler.py:1992). *)
Inductive ierr : Type := IndexError.

(** Membership in a list of names (Cheetah/Compiler.py:1871). *)
Definition known (n : pystr) (ns : list pystr) : bool := existsb (str_eqb n) ns.

(** [addImportedVarNames] (Cheetah/Compiler.py:1847-1855); [legacy] is the setting [useLegacyImportMode]. *)
Definition add_names (legacy : bool) (vars : list pystr) (raw : option pystr) (st : istate) : istate :=
  match vars with
  | [] => st
  | _ =>
      if legacy then mkI (i_stmts st) (i_names st ++ vars) (i_body st) (i_base st)
      else match raw, i_body st with
           | Some s, _ :: _ => mkI (i_stmts st) (i_names st) (i_body st ++ [s]) (i_base st)
           | _, _ => st
           end
  end.

(** [s[s.find(p) + len(p):]] (Cheetah/Compiler.py:1989-1990); when [p] is not found [find] gives -1. *)
Fixpoint behind_first (p s : pystr) : option pystr :=
  if starts_with p s then Some (skipn (length p) s)
  else match s with [] => None | _ :: r => behind_first p r end.
(** Goes with the definition above (Cheetah/Compiler.py:1989-1990). *)
Definition behind (p s : pystr) : pystr :=
  match behind_first p s with Some r => r | None => skipn (length p - 1) s end.

(** [[var.split()[-1] for var in vars]] (Cheetah/Compiler.py:1992). *)
Fixpoint last_words (vars : list pystr) : res ierr (list pystr) :=
  match vars with
  | [] => Ok []
  | v :: r =>
      match rev (split_ws v) with
      | [] => Raise IndexError
      | w :: _ => match last_words r with Ok ws => Ok (w :: ws) | Raise e => Raise e end
      end
  end.

(** [addImportStatement] (Cheetah/Compiler.py:1980-1995). *)
Definition add_import (legacy : bool) (stmt : pystr) (st : istate) : res ierr istate :=
  let st1 := match i_body st with
             | [] => mkI (i_stmts st ++ [stmt]) (i_names st) (i_body st) (i_base st)
             | _ => if legacy then mkI (i_stmts st ++ [stmt]) (i_names st) (i_body st) (i_base st) else st
             end in
  match last_words (split_char 44 (behind (L "import") stmt)) with
  | Raise e => Raise e
  | Ok vars => Ok (add_names legacy (filter (fun v => negb (str_eqb v (L "*"))) vars) (Some stmt) st1)
  end.

(** The loop over the inner parts of a dotted class (Cheetah/Compiler.py:1900-1909): the imported module it goes through. *)
Fixpoint via (ns : list pystr) (m : pystr) (inner : list pystr) : option pystr :=
  match inner with
  | [] => None
  | c :: r => if known m ns then Some m else via ns (m ++ L "." ++ c) r
  end.

(** ["from %s import %s"] (Cheetah/Compiler.py:1893, 1918). *)
Definition from_import (m k : pystr) : pystr := L "from " ++ m ++ L " import " ++ k.

(** One class of the list: the base written and the new state (Cheetah/Compiler.py:1884-1921). *)
Definition add_base (legacy : bool) (klass : pystr) (st : istate) : res ierr (pystr * istate) :=
  let chunks := split_char 46 klass in
  let inner := removelast chunks in
  let k := last chunks [] in
  let import m := match add_import legacy (from_import m k) st with
                  | Raise e => Raise e
                  | Ok st1 => Ok (k, add_names legacy [k] None st1)
                  end in
  match inner with
  | [] => if known klass (i_names st) then Ok (klass, st) else import klass
  | c0 :: mids =>
      match via (i_names st) c0 mids with
      | Some m => Ok (replace_str (m ++ L ".") [] klass, st)
      | None => if str_eqb k (last inner []) then import (join (L ".") inner)
                else import (join (L ".") chunks)
      end
  end.

(** The loop over the list (Cheetah/Compiler.py:1884). *)
Fixpoint add_bases (legacy : bool) (ks : list pystr) (st : istate) : res ierr (list pystr * istate) :=
  match ks with
  | [] => Ok ([], st)
  | k :: r =>
      match add_base legacy (strip k) st with
      | Raise e => Raise e
      | Ok (b, st1) =>
          match add_bases legacy r st1 with
          | Raise e => Raise e
          | Ok (bs, st2) => Ok (b :: bs, st2)
          end
      end
  end.

(** [ClassCompiler.setBaseClass] (Cheetah/Compiler.py:1356-1357). *)
Definition put_base (b : pystr) (st : istate) : istate := mkI (i_stmts st) (i_names st) (i_body st) b.

(** [setBaseClass] without a handler and without the change of the main method's name
    (Cheetah/Compiler.py:1859-1923); [auto] is the setting [autoImportForExtendsDirective]. *)
Definition set_base (legacy auto : bool) (name : pystr) (st : istate) : res ierr istate :=
  if negb auto || str_eqb name (L "object") || known name (i_names st) then Ok (put_base name st)
  else match add_bases legacy (split_char 44 name) st with
       | Raise e => Raise e
       | Ok (bs, st1) => Ok (put_base (join (L ", ") bs) st1)
       end.

(** The import directives of a template in turn (Cheetah/Parser.py:1662-1668). *)
Fixpoint run_imports (legacy : bool) (ss : list pystr) (st : istate) : res ierr istate :=
  match ss with
  | [] => Ok st
  | s :: r => match add_import legacy s st with Ok st1 => run_imports legacy r st1 | Raise e => Raise e end
  end.
