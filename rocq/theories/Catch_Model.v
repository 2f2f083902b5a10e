(** Model of error catchers: the methods that the compiler adds for placeholders after an #errorCatcher
    directive ([addErrorCatcherCall], Cheetah/Compiler.py:1466-1503; called at Cheetah/Compiler.py:545-548), the code that selects a
    catcher at run time ([setErrorCatcher], Cheetah/Compiler.py:987-1003; Cheetah/Template.py:1595-1607) and the catchers
    themselves (Cheetah/ErrorCatchers.py). *)
From Verif Require Import Base PyStr StrConst_Model.

(** ** The methods *)

(** One added method: its name, the code and the source text of the placeholder, the position of its
    first use, and the lines of its documentation (Cheetah/Compiler.py:1474-1503, 1470). *)
Record catcher : Type := mkCatcher {
  k_name : pystr;
  k_code : pystr;
  k_raw : pystr;
  k_pos : N * N;
  k_docs : list pystr
}.

(** The part of the class compiler's state that is used: [_errorCatcherCount],
    [_placeholderToErrorCatcherMap] and the finished methods (Cheetah/Compiler.py:1299-1301, 1502). *)
Record cstate : Type := mkCstate {
  c_count : N;
  c_map : list (pystr * pystr);
  c_list : list catcher
}.

(** The state at the start (Cheetah/Compiler.py:1299-1301). *)
Definition c_start : cstate := mkCstate 0 [] [].

(** Looking a key up in a dictionary (Cheetah/Compiler.py:1467-1468). *)
Fixpoint find_key {A} (k : pystr) (d : list (pystr * A)) : option A :=
  match d with
  | [] => None
  | (k', v) :: r => if str_eqb k k' then Some v else find_key k r
  end.

(** ['__errorCatcher' + str(n)] (Cheetah/Compiler.py:1475). *)
Definition catcher_name (n : N) : pystr := L "__errorCatcher" ++ str_of_N n.

(** ['plus at line %s, col %s' % lineCol] (Cheetah/Compiler.py:1470-1471). *)
Definition plus_line (pos : N * N) : pystr :=
  L "plus at line " ++ str_of_N (fst pos) ++ L ", col " ++ str_of_N (snd pos).

(** [addMethDocString] on the method of that name (Cheetah/Compiler.py:429-430, 1470): percent signs are doubled. *)
Definition add_doc (name line : pystr) (k : catcher) : catcher :=
  if str_eqb (k_name k) name
  then mkCatcher (k_name k) (k_code k) (k_raw k) (k_pos k)
         (k_docs k ++ [replace_str (L "%") (L "%%") line])
  else k.

(** [addErrorCatcherCall] (Cheetah/Compiler.py:1466-1503); [row_col] is the setting
    [outputRowColComments]. *)
Definition add_catcher (row_col : bool) (code raw : pystr) (pos : N * N) (st : cstate)
  : pystr * cstate :=
  match find_key raw (c_map st) with
  | Some name =>
      (name, if row_col then st
             else mkCstate (c_count st) (c_map st) (map (add_doc name (plus_line pos)) (c_list st)))
  | None =>
      let n := (c_count st + 1)%N in
      let name := catcher_name n in
      (name, mkCstate n ((raw, name) :: c_map st)
               (c_list st ++ [mkCatcher name code raw pos []]))
  end.

(** The expression that takes the place of the code of the placeholder (Cheetah/Compiler.py:548). *)
Definition catch_expr (name : pystr) : pystr :=
  L "self." ++ name ++ L "(localsDict=locals())".

(** All placeholders of a class in turn: code, source text and position of each
    (Cheetah/Compiler.py:545-548). *)
Fixpoint add_catchers (row_col : bool) (ps : list (pystr * pystr * (N * N))) (st : cstate)
  : list pystr * cstate :=
  match ps with
  | [] => ([], st)
  | (code, raw, pos) :: r =>
      let (name, st1) := add_catcher row_col code raw pos st in
      let (es, st2) := add_catchers row_col r st1 in
      (catch_expr name :: es, st2)
  end.

Section Lines.
Variable printable : N -> bool.

(** The signature (Cheetah/Compiler.py:1485-1487). *)
Definition catch_sig (k : catcher) : pystr :=
  L "def " ++ k_name k ++ L "(self, localsDict={})".

(** [str(lineCol)] of a pair of numbers (Cheetah/Compiler.py:1500). *)
Definition pos_text (pos : N * N) : pystr :=
  L "(" ++ str_of_N (fst pos) ++ L ", " ++ str_of_N (snd pos) ++ L ")".

(** The line that evaluates the code (Cheetah/Compiler.py:1490-1491). *)
Definition eval_line (code : pystr) : pystr :=
  L "return eval('''" ++ code ++ L "''', globals(), localsDict)".

(** The line that reports (Cheetah/Compiler.py:1496-1499). *)
Definition warn_line (code raw : pystr) (pos : N * N) : pystr :=
  L "return self._CHEETAH__errorCatcher.warn(exc_val=e, code= " ++ repr printable code
  ++ L " , rawCode= " ++ repr printable raw ++ L " , lineCol=" ++ pos_text pos ++ L ")".

(** The lines of the body with their levels; a method starts at level 2
    (Cheetah/Compiler.py:1488-1499, 343). *)
Definition catch_lines (k : catcher) : list (nat * pystr) :=
  [ (2, L "try:");
    (3, eval_line (k_code k));
    (2, L "except self._CHEETAH__errorCatcher.exceptions() as e:");
    (3, warn_line (k_code k) (k_raw k) (k_pos k)) ].
End Lines.

(** ** At run time *)

(** The catchers of the module (Cheetah/ErrorCatchers.py:9-56). *)
Inductive cls : Type := CEcho | CBigEcho | CKeyError | CListErrors.

(** [ErrorCatchers.NAME] (Cheetah/ErrorCatchers.py:9-56; Cheetah/Compiler.py:1000-1002); [None]: no such class. *)
Definition class_named (name : pystr) : option cls :=
  if str_eqb name (L "ErrorCatcher") || str_eqb name (L "Echo") then Some CEcho
  else if str_eqb name (L "BigEcho") then Some CBigEcho
  else if str_eqb name (L "KeyError") then Some CKeyError
  else if str_eqb name (L "ListErrors") then Some CListErrors
  else None.

(** One remembered error: code, source text, position (Cheetah/ErrorCatchers.py:44-48; the time and the exception
    are left out). *)
Definition entry : Type := (pystr * pystr * pystr)%type.

(** Ends of a step: a text, or the exception raised (Cheetah/ErrorCatchers.py:17-18, 31-34). *)
Inductive result : Type :=
| Done (v : pystr)
| NotFoundErr
| OtherErr (n : N)
| TypeErr
| AttributeErr.

(** The attributes of the template that are used: the catcher objects made so far (class and errors),
    [_CHEETAH__errorCatchers] and [_CHEETAH__errorCatcher] (Cheetah/Template.py:1595-1607). *)
Record rstate : Type := mkR {
  r_objs : list (cls * list entry);
  r_dict : list (pystr * nat);
  r_cur : option nat
}.

(** [_initCheetahInstance] (Cheetah/Template.py:1595-1607): the argument is the class given as the option
    [errorCatcher], by name ([true]) or as a class; the dictionary key is the name of the class of
    the argument. *)
Definition r_init (arg : option (bool * cls)) : rstate :=
  match arg with
  | Some (by_name, c) =>
      mkR [(c, [])] [(if by_name then L "str" else L "type", 0)] (Some 0)
  | None => mkR [] [] None
  end.

(** The code of [setErrorCatcher] (Cheetah/Compiler.py:987-1003). *)
Definition r_set (name : pystr) (r : rstate) : option result * rstate :=
  match find_key name (r_dict r) with
  | Some i => (None, mkR (r_objs r) (r_dict r) (Some i))
  | None =>
      match class_named name with
      | None => (Some AttributeErr, r)
      | Some c =>
          let i := length (r_objs r) in
          (None, mkR (r_objs r ++ [(c, [])]) ((name, i) :: r_dict r) (Some i))
      end
  end.

(** The text of [BigEcho] (Cheetah/ErrorCatchers.py:27-29). *)
Definition big_echo (raw : pystr) : pystr :=
  repeat 61%N 15 ++ L "&lt;" ++ raw ++ L " could not be found&gt;" ++ repeat 61%N 15.

(** Adding an error to the [i]th object (Cheetah/ErrorCatchers.py:49). *)
Fixpoint log_at (i : nat) (e : entry) (os : list (cls * list entry)) : list (cls * list entry) :=
  match os, i with
  | [], _ => []
  | (c, l) :: r, O => (c, l ++ [e]) :: r
  | o :: r, S i' => o :: log_at i' e r
  end.

(** [warn] of the catcher selected (Cheetah/ErrorCatchers.py:19-50).  In [KeyError.warn] the name [KeyError] is the
    class itself, which is no exception: [raise] gives a [TypeError] (Cheetah/ErrorCatchers.py:32-35). *)
Definition r_warn (i : nat) (e : entry) (r : rstate) : result * rstate :=
  let '(code, raw, lc) := e in
  match nth_error (r_objs r) i with
  | Some (CEcho, _) => (Done raw, r)
  | Some (CBigEcho, _) => (Done (big_echo raw), r)
  | Some (CKeyError, _) => (TypeErr, r)
  | Some (CListErrors, _) => (Done raw, mkR (log_at i e (r_objs r)) (r_dict r) (r_cur r))
  | None => (AttributeErr, r)
  end.

(** The call of an added method whose [eval] ends as given (Cheetah/Compiler.py:1488-1499): only [NotFound] is
    caught (Cheetah/ErrorCatchers.py:10); without a catcher [None.exceptions] is an [AttributeError], met only when
    there is an exception. *)
Definition r_call (e : entry) (o : result) (r : rstate) : result * rstate :=
  match o with
  | Done v => (Done v, r)
  | _ =>
      match r_cur r with
      | None => (AttributeErr, r)
      | Some i => match o with NotFoundErr => r_warn i e r | _ => (o, r) end
      end
  end.

(** The steps of a page: selecting a catcher, calling an added method (Cheetah/Compiler.py:548, 987-1003). *)
Inductive step : Type :=
| SSet (name : pystr)
| SCall (e : entry) (o : result).

(** A run of such steps up to the first exception; [None]: no exception (Cheetah/Compiler.py:548, 987-1003). *)
Fixpoint r_run (ss : list step) (r : rstate) : list pystr * option result * rstate :=
  match ss with
  | [] => ([], None, r)
  | SSet name :: t =>
      match r_set name r with
      | (None, r1) => r_run t r1
      | (Some x, r1) => ([], Some x, r1)
      end
  | SCall e o :: t =>
      match r_call e o r with
      | (Done v, r1) => let '(out, x, r2) := r_run t r1 in (v :: out, x, r2)
      | (x, r1) => ([], Some x, r1)
      end
  end.
