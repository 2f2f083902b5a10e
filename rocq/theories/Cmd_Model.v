(** Model of the command line: the choice of the command ([main]), and how [cheetah compile] and [cheetah fill] find
    their source files ([_compileOrFill], [_expandSourceFiles]) and work through them, also in parallel
    (Cheetah/CheetahWrapper.py:119-151, 239-247, 350-419, 446-480, 602-625).  What becomes of the source files is in Wrapper_Model.v.

    Simplified: the file system does not change meanwhile; what optparse makes of the options is a parameter. *)
From Verif Require Import Base PyStr.
From Verif Require Export Wrapper_Model.

(** ** Files *)

(** What a path can lead to, as os.walk and os.path see it (Cheetah/CheetahWrapper.py:363-367, 459-477): a plain file
    (or a link to one), a directory, a symbolic link to a directory, something else. *)
Inductive node := File | Dir (es : list (pystr * node)) | Link (es : list (pystr * node)) | Other.
(** Goes with the definition above (Cheetah/CheetahWrapper.py:363-367, 459-477). *)
Definition is_dir (n : node) : bool := match n with Dir _ | Link _ => true | _ => false end.
(** Goes with the definition above (Cheetah/CheetahWrapper.py:363-367, 459-477). *)
Definition is_file (n : node) : bool := match n with File => true | _ => false end.

(** The pairs of [os.path.join(root, f)] and the file, for the files [os.walk] lists; it does not follow links
    (Cheetah/CheetahWrapper.py:363-365, 462-464). *)
Fixpoint walk (root : pystr) (n : node) {struct n} : list (pystr * node) :=
  match n with
  | Dir es | Link es =>
      map (fun e => (os_join root (fst e), snd e)) (filter (fun e => negb (is_dir (snd e))) es)
      ++ (fix sub (l : list (pystr * node)) :=
            match l with
            | [] => []
            | (f, m) :: r => (match m with Dir _ => walk (os_join root f) m | _ => [] end) ++ sub r
            end) es
  | _ => []
  end.

(** The files among them that count (Cheetah/CheetahWrapper.py:366-367, 465-466). *)
Definition templates (iext : pystr) (l : list (pystr * node)) : list pystr :=
  map fst (filter (fun e => ends_with iext (fst e) && is_file (snd e)) l).

(** ** os.path.normpath (Cheetah/CheetahWrapper.py:372; posixpath) *)
Definition norm_step (abs : bool) (new : list pystr) (comp : pystr) : list pystr :=
  if str_eqb comp [] || str_eqb comp (L ".") then new
  else if negb (str_eqb comp (L "..")) || (negb abs && match new with [] => true | _ => false end)
          || match new with x :: _ => str_eqb x (L "..") | [] => false end
       then comp :: new
       else match new with _ :: r => r | [] => [] end.
(** Goes with the definition above (Cheetah/CheetahWrapper.py:372). *)
Definition normpath (p : pystr) : pystr :=
  match p with
  | [] => L "."
  | _ =>
      let slashes := if starts_with (L "/") p
                     then if starts_with (L "//") p && negb (starts_with (L "///") p) then L "//" else L "/"
                     else [] in
      let new := fold_left (norm_step (match slashes with [] => false | _ => true end)) (split_char 47 p) [] in
      match slashes ++ join (L "/") (rev new) with [] => L "." | r => r end
  end.

(** ** The source files *)

Section Sources.
(** os.path.isdir, isfile, exists and the listing of a path; [None]: there is nothing (Cheetah/CheetahWrapper.py:459-477). *)
Variable look : pystr -> option node.

(** What [W] prints (Cheetah/CheetahWrapper.py:475, 477). *)
Inductive warning := NotPlain (p : pystr) | NotFound (p : pystr).
(** The exception (Cheetah/CheetahWrapper.py:467). *)
Inductive cerr := IsDirectory (p : pystr).

(** [os.walk] of a path (Cheetah/CheetahWrapper.py:362, 461). *)
Definition walk_at (p : pystr) : list (pystr * node) :=
  match look p with Some n => walk p n | None => [] end.

(** One round of the loop in [_expandSourceFiles] (Cheetah/CheetahWrapper.py:454-477). *)
Definition expand_one (o : wopts) (recurse : bool) (f : pystr) : res cerr (list pystr * list warning) :=
  let path := os_join (w_idir o) f in
  let with_ext := path ++ w_iext o in
  let isfile p := match look p with Some n => is_file n | None => false end in
  if match look path with Some n => is_dir n | None => false end then
    if recurse then Ok (templates (w_iext o) (walk_at path), []) else Raise (IsDirectory path)
  else if isfile path then Ok ([path], [])
  else if negb (ends_with (w_iext o) path) && isfile with_ext then Ok ([with_ext], [])
  else match look path with Some _ => Ok ([], [NotPlain path]) | None => Ok ([], [NotFound path]) end.

(** [_expandSourceFiles] (Cheetah/CheetahWrapper.py:446-480). *)
Fixpoint expand (o : wopts) (recurse : bool) (args : list pystr) : res cerr (list pystr * list warning) :=
  match args with
  | [] => Ok ([], [])
  | a :: r =>
      match expand_one o recurse a with
      | Raise e => Raise e
      | Ok (l, ws) => match expand o recurse r with Raise e => Raise e | Ok (l', ws') => Ok (l ++ l', ws ++ ws') end
      end
  end.

(** [_compileOrFill] (Cheetah/CheetahWrapper.py:350-376): standard input, the usage message, an exception, or the
    bundles (see Wrapper_Model.v) and the warnings. *)
Inductive crun := CStdin | CUsage | CError (e : cerr) | CRun (w : option wrun) (ws : list warning).
(** Goes with the definition above (Cheetah/CheetahWrapper.py:350-376). *)
Definition compile_or_fill (o : wopts) (recurse : bool) (args : list pystr) : crun :=
  if match args with [a] => str_eqb a (L "-") | _ => false end then CStdin
  else match args with
       | [] => if recurse
               then CRun (run_wrapper o (map normpath (templates (w_iext o) (walk_at (os_join (w_idir o) (L "."))))) ) []
               else CUsage
       | _ => match expand o recurse args with
              | Raise e => CError e
              | Ok (l, ws) => CRun (run_wrapper o (map normpath l)) ws
              end
       end.
End Sources.

(** ** Compiling the bundles *)

(** [moduleNameRE] (Cheetah/CheetahWrapper.py:24); the dollar also matches before a line feed at the end. *)
Definition letter (c : N) : bool := ((97 <=? c) && (c <=? 122) || (65 <=? c) && (c <=? 90) || (c =? 95))%N.
(** Goes with the definition above (Cheetah/CheetahWrapper.py:24). *)
Definition module_chars (s : pystr) : bool :=
  match s with c :: r => letter c && forallb (fun c => letter c || (48 <=? c) && (c <=? 57))%N r | [] => false end.
(** Goes with the definition above (Cheetah/CheetahWrapper.py:24). *)
Definition module_name (s : pystr) : bool :=
  module_chars s || match rev s with c :: r => (c =? 10)%N && module_chars (rev r) | [] => false end.

(** The loop over the bundles and the check of the name in [_compileOrFillBundle] for cheetah compile
    (Cheetah/CheetahWrapper.py:417-419, 616-620): the sources that are compiled, and the one the exception names.
    Simplified: compiling succeeds. *)
Fixpoint compile_all (o : wopts) (bs : list bundle) : list pystr * option pystr :=
  match bs with
  | [] => ([], None)
  | (src, _) :: r =>
      if module_name (snd (path_split (bundle_base o src)))
      then let '(l, e) := compile_all o r in (src :: l, e)
      else ([], Some src)
  end.

(** ** Compiling them in parallel *)

Section Parallel.
Variable B : Type.
(** How a child process ends: with a status, or by a signal; what [os.WEXITSTATUS] makes of it
    (Cheetah/CheetahWrapper.py:391-394). *)
Inductive ending := Exit (code : nat) | Signal (sig : nat).
(** Goes with the definition above (Cheetah/CheetahWrapper.py:391-394). *)
Definition wexitstatus (e : ending) : nat := match e with Exit c => c | Signal _ => 0 end.
(** How the child with a bundle ends, and which child of the pool is the next to end (the number of waits so far, the
    pool; Cheetah/CheetahWrapper.py:391-394, 402-403). *)
Variable ends : B -> ending.
Variable next : nat -> list B -> nat.
(** Goes with the definition above (Cheetah/CheetahWrapper.py:391-394, 402-403). *)
Definition take_out (i : nat) (l : list B) : list B := firstn i l ++ skipn (S i) l.

(** What is seen of a run: the children started, those waited for with the sizes of the pool at the time, the last value
    of bad_child_exit (Cheetah/CheetahWrapper.py:387-416). *)
Record prun := mkP { p_started : list B; p_waited : list (B * nat); p_bad : nat }.

(** [child_wait] (Cheetah/CheetahWrapper.py:391-394); [None]: the pool is empty. *)
Definition child_wait (t : nat) (pool : list B) : option (B * list B) :=
  let i := next t pool mod length pool in
  match nth_error pool i with Some b => Some (b, take_out i pool) | None => None end.

(** The second loop (Cheetah/CheetahWrapper.py:410-413); [n]: the size of the pool. *)
Fixpoint drain (n t : nat) (pool : list B) (bad : nat) : list (B * nat) * nat :=
  match n with
  | O => ([], bad)
  | S n' =>
      match child_wait t pool with
      | None => ([], bad)
      | Some (b, pool') =>
          let '(w, e) := drain n' (S t) pool' (if bad =? 0 then wexitstatus (ends b) else bad) in
          ((b, length pool) :: w, e)
      end
  end.

(** The first loop (Cheetah/CheetahWrapper.py:396-408); the bundles in the order [pop] takes them; [k]: the option parallel. *)
Fixpoint par_loop (k : nat) (bs : list B) (t : nat) (pool : list B) : prun :=
  match bs with
  | [] => let '(w, e) := drain (length pool) t pool 0 in mkP [] w e
  | b :: r =>
      let pool1 := b :: pool in
      if length pool1 =? k then
        match child_wait t pool1 with
        | None => mkP [b] [] 0
        | Some (c, pool2) =>
            let bad := wexitstatus (ends c) in
            if bad =? 0 then let p := par_loop k r (S t) pool2 in mkP (b :: p_started p) ((c, k) :: p_waited p) (p_bad p)
            else let '(w, e) := drain (length pool2) (S t) pool2 bad in mkP [b] ((c, k) :: w) e
        end
      else let p := par_loop k r t pool1 in mkP (b :: p_started p) (p_waited p) (p_bad p)
  end.
(** The branch for parallel > 1 (Cheetah/CheetahWrapper.py:386-416); the exit with a message is [p_bad] not 0. *)
Definition in_parallel (k : nat) (bs : list B) : prun := par_loop k (rev bs) 0 [].
End Parallel.

(** ** The command *)

Section Main.
(** The options as optparse gives them, for compile or not; [None]: it prints a message and exits
    (Cheetah/CheetahWrapper.py:153-212). *)
Variable Opts : Type.
Variable parse : bool -> list pystr -> option Opts.

(** [optionDashesRE.sub] (Cheetah/CheetahWrapper.py:23, 128). *)
Definition undash (s : pystr) : pystr :=
  match s with
  | a :: r => if (a =? 45)%N then match r with b :: r' => if (b =? 45)%N then r' else r | [] => [] end else s
  | [] => []
  end.

(** The commands, in their order (Cheetah/CheetahWrapper.py:137-138). *)
Definition commands : list pystr := map L ["compile"; "fill"; "help"; "options"; "test"; "version"]%string.

(** How a run goes: the usage message with an error and status 1, optparse's exit, a command with its options, the
    tests with their arguments, an AttributeError (Cheetah/CheetahWrapper.py:119-151, 297). *)
Inductive mrun := Usage (msg : pystr) | BadOption | Does (name : pystr) (o : Opts) | Tests (args : list pystr) | Attribute.

(** [main] (Cheetah/CheetahWrapper.py:119-151); the method test reads self.testOpts (297, 299). *)
Definition main (argv : list pystr) : mrun :=
  match argv with
  | _ :: a :: args =>
      let command := undash a in
      let found := find (fun n => str_eqb command n || str_eqb command (firstn 1 n)) commands in
      let unknown := Usage (L "unknown command '" ++ command ++ L "'") in
      if str_eqb command (L "test") then Tests args
      else match command with
           | [] => Usage (L "not enough command-line arguments")
           | c :: _ =>
               match parse (c =? 99)%N args with
               | None => BadOption
               | Some o =>
                   match found with
                   | Some n => if str_eqb n (L "test") then Attribute else Does n o
                   | None => unknown
                   end
               end
           end
  | _ => Usage (L "not enough command-line arguments")
  end.
End Main.
