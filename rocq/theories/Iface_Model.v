(** Model of a compiled template as a program: [getopt] and [CmdLineIface] (Cheetah/TemplateCmdLineIface.py:18-79), and of
    the class named with --templateAPIClass (Cheetah/CheetahWrapper.py:522-556).

    Simplified: the values that are loaded are dictionaries. *)
From Verif Require Import Base PyStr Alist.

(** ** getopt.getopt, of the Python library (Cheetah/TemplateCmdLineIface.py:38-40) *)

(** GetoptError: the option is not recognized, not a unique prefix, requires or must not have an argument
    (Cheetah/TemplateCmdLineIface.py:42). *)
Inductive gerr := Unknown (o : pystr) | NotUnique (o : pystr) | Requires (o : pystr) | MustNot (o : pystr).

(** [s.endswith('=')], and the text before it (Cheetah/TemplateCmdLineIface.py:39; long_has_args in getopt). *)
Definition eq_end (s : pystr) : option pystr :=
  match rev s with c :: r => if (c =? 61)%N then Some (rev r) else None | [] => None end.

(** long_has_args: whether the option has an argument, and its full name. (Cheetah/TemplateCmdLineIface.py:39) *)
Definition long_has_args (o : pystr) (longs : list pystr) : res gerr (bool * pystr) :=
  let poss := filter (starts_with o) longs in
  match poss with
  | [] => Raise (Unknown (L "--" ++ o))
  | [m] => if str_eqb o m then Ok (false, o)
           else match eq_end m with Some m' => Ok (true, m') | None => Ok (false, m) end
  | _ => if existsb (str_eqb o) poss then Ok (false, o)
         else if existsb (str_eqb (o ++ L "=")) poss then Ok (true, o)
         else Raise (NotUnique (L "--" ++ o))
  end.

(** [opt.index('=')]: the parts before and after the first one. (Cheetah/TemplateCmdLineIface.py:39) *)
Fixpoint cut_eq (s : pystr) : pystr * option pystr :=
  match s with
  | [] => ([], None)
  | c :: r => if (c =? 61)%N then ([], Some r) else let '(a, b) := cut_eq r in (c :: a, b)
  end.

(** do_longs: the option as it is listed, and the arguments left. (Cheetah/TemplateCmdLineIface.py:39) *)
Definition do_longs (s : pystr) (longs args : list pystr) : res gerr ((pystr * pystr) * list pystr) :=
  let '(o, v) := cut_eq s in
  match long_has_args o longs with
  | Raise e => Raise e
  | Ok (true, n) =>
      match v with
      | Some x => Ok ((L "--" ++ n, x), args)
      | None => match args with x :: r => Ok ((L "--" ++ n, x), r) | [] => Raise (Requires (L "--" ++ n)) end
      end
  | Ok (false, n) => match v with Some _ => Raise (MustNot (L "--" ++ n)) | None => Ok ((L "--" ++ n, []), args) end
  end.

(** do_shorts, for short options without arguments. (Cheetah/TemplateCmdLineIface.py:39) *)
Fixpoint do_shorts (s : pystr) (shorts : pystr) : res gerr (list (pystr * pystr)) :=
  match s with
  | [] => Ok []
  | c :: r =>
      if existsb (N.eqb c) shorts
      then match do_shorts r shorts with Ok l => Ok ((L "-" ++ [c], []) :: l) | Raise e => Raise e end
      else Raise (Unknown (L "-" ++ [c]))
  end.

(** getopt: the options, and the arguments that are not; [n]: at least the number of arguments ([None]: too small). (Cheetah/TemplateCmdLineIface.py:39) *)
Fixpoint getopt (n : nat) (args : list pystr) (shorts : pystr) (longs : list pystr)
  : option (res gerr (list (pystr * pystr) * list pystr)) :=
  let more l rest n' := match getopt n' rest shorts longs with
                        | Some (Ok (m, r)) => Some (Ok (l ++ m, r))
                        | x => x
                        end in
  match args with
  | [] => Some (Ok ([], []))
  | a :: r =>
      if negb (starts_with (L "-") a) || str_eqb a (L "-") then Some (Ok ([], args))
      else if str_eqb a (L "--") then Some (Ok ([], r))
      else match n with
           | O => None
           | S n' =>
               if starts_with (L "--") a
               then match do_longs (skipn 2 a) longs r with Raise e => Some (Raise e) | Ok (o, r') => more [o] r' n' end
               else match do_shorts (skipn 1 a) shorts with Raise e => Some (Raise e) | Ok l => more l r n' end
           end
  end.

(** ** The program *)

Section Iface.
Variable V : Type.
(** A dictionary or the attributes of the template. (Cheetah/TemplateCmdLineIface.py:50-79) *)
Definition space := list (pystr * V).

(** What loading gives, for pickle or json, given the argument (a file or - for standard input) and how many were loaded
    before; os.environ (Cheetah/TemplateCmdLineIface.py:50-79). *)
Variable load : bool -> pystr -> nat -> option space.
Variable environ : space.

(** How a run ends (Cheetah/TemplateCmdLineIface.py:30-79): the template is printed with a search list, the help is printed
    (status 0), the error and the help (status 2), an exception while loading. *)
Inductive irun := Prints (sl : list space) | Help | Wrong (e : gerr) | LoadFails (arg : pystr).

(** The loop over the options (Cheetah/TemplateCmdLineIface.py:46-79); [k]: how many were loaded. *)
Fixpoint apply_opts (os : list (pystr * pystr)) (k : nat) (sl : list space) : irun :=
  match os with
  | [] => Prints sl
  | (o, a) :: r =>
      if str_eqb o (L "-h") || str_eqb o (L "--help") then Help
      else if str_eqb o (L "--env") then apply_opts r k (environ :: sl)
      else if str_eqb o (L "--pickle") then match load false a k with Some d => apply_opts r (S k) (d :: sl) | None => LoadFails a end
      else if str_eqb o (L "--json") then match load true a k with Some d => apply_opts r (S k) (d :: sl) | None => LoadFails a end
      else apply_opts r k sl
  end.

(** [run] (Cheetah/TemplateCmdLineIface.py:30-44). *)
Definition longs : list pystr := map L ["help"; "env"; "pickle="; "json="]%string.
(** Goes with the definition above (Cheetah/TemplateCmdLineIface.py:30-44). *)
Definition run (args : list pystr) (sl : list space) : option irun :=
  match getopt (length args) args (L "h") longs with
  | None => None
  | Some (Raise e) => Some (Wrong e)
  | Some (Ok (os, _)) => Some (apply_opts os 0 sl)
  end.

(** The value of a name: of the first namespace that has it (Cheetah/NameMapper.py:292-298; attributes of
    the dictionaries themselves are left out). *)
Fixpoint value (x : pystr) (sl : list space) : option V :=
  match sl with [] => None | s :: r => match aget x s with Some v => Some v | None => value x r end end.

(** #set global: in the dictionary for it, wherever that is on the search list (Cheetah/Compiler.py:577-594,
    Cheetah/Template.py:1570). *)
Fixpoint set_global (i : nat) (x : pystr) (v : V) (sl : list space) : list space :=
  match sl, i with
  | s :: r, O => aset x v s :: r
  | s :: r, S j => s :: set_global j x v r
  | [], _ => []
  end.
End Iface.

(** ** --templateAPIClass *)

(** The value of the option, and what becomes of it: the standard class, the class of a module (imported by its whole name),
    an attribute of the module before the colon, the message about the form and the exit, a ValueError
    (Cheetah/CheetahWrapper.py:522-556). *)
Inductive tclass := Standard | Class (m : pystr) (c : pystr) | SubAttr (m a c : pystr) | BadForm | TooMany.
(** Goes with the definition above (Cheetah/CheetahWrapper.py:522-556). *)
Fixpoint rfind_dot (s : pystr) : option nat :=
  match s with
  | [] => None
  | c :: r => match rfind_dot r with Some i => Some (S i) | None => if (c =? 46)%N then Some 0 else None end
  end.
(** Goes with the definition above (Cheetah/CheetahWrapper.py:522-556). *)
Definition template_class (v : pystr) : tclass :=
  match v with
  | [] => Standard
  | _ =>
      match split_char 58 v with
      | [] | [_] => BadForm
      | [m; c] => match rfind_dot v with
                  | Some p => SubAttr (firstn p m) (skipn (S p) m) c
                  | None => Class m c
                  end
      | _ => TooMany
      end
  end.
