(** Model of the settings hash, the compilation cache key and the compilation cache of
    Template.compile (Cheetah/Template.py:90-110, 682, 720-772, 850-860). *)
From Verif Require Export Names_Model Alist.

(** ** Hashing of settings *)

(** Values inside settings that are neither dict nor list: an int, or anything else with a flag
    that says whether it is hashable (Cheetah/Template.py:91-96). *)
Inductive atom := AInt (z : Z) | AOther (n : nat) (hashable : bool).
(** Settings values (Cheetah/Template.py:91-96, 103-108); dict keys are strings. *)
Inductive value := VAtom (a : atom) | VList (l : list value) | VDict (d : list (pystr * value)).

(** The elements of the tuple that is hashed: values (hashList) or pairs (hashDict)
    (Cheetah/Template.py:96-97, 108-109). *)
Inductive elem := EVal (a : atom) | EPair (k : pystr) (a : atom).

(** TypeError: unhashable value in the tuple (Cheetah/Template.py:97, 109). *)
Inductive hexn := TypeError.

(** [sorted(d.items())]: keys are distinct, so the pairs are ordered by key alone
    (Cheetah/Template.py:101). *)
Fixpoint kinsert {A} (x : pystr * A) (l : list (pystr * A)) : list (pystr * A) :=
  match l with
  | [] => [x]
  | y :: r => if str_ltb (fst x) (fst y) then x :: l else y :: kinsert x r
  end.
(** Goes with the definition above (Cheetah/Template.py:101). *)
Fixpoint ksort {A} (l : list (pystr * A)) : list (pystr * A) :=
  match l with [] => [] | x :: r => kinsert x (ksort r) end.

Section Hash.
(** The built-in hash of a tuple of hashable elements (Cheetah/Template.py:97, 109). *)
Variable hash_tuple : list elem -> Z.

(** Whether an element of the tuple is hashable (Cheetah/Template.py:97, 109). *)
Definition hashable (e : elem) : bool :=
  match e with
  | EVal (AOther _ h) | EPair _ (AOther _ h) => h
  | _ => true
  end.

(** [hash(tuple(hashedList))] (Cheetah/Template.py:97, 109). *)
Definition py_hash (l : list elem) : res hexn Z :=
  if forallb hashable l then Ok (hash_tuple l) else Raise TypeError.

(** The value put into the tuple: nested dicts and lists become their hash, an int
    (Cheetah/Template.py:90-110).  The values of a dict are hashed before the items are sorted;
    the sort only looks at the keys. *)
Fixpoint reduce (v : value) : res hexn atom :=
  match v with
  | VAtom a => Ok a
  | VList l =>
      match (fix go (l : list value) : res hexn (list elem) :=
               match l with
               | [] => Ok []
               | x :: r => match reduce x, go r with
                           | Ok a, Ok t => Ok (EVal a :: t)
                           | _, _ => Raise TypeError
                           end
               end) l with
      | Ok es => match py_hash es with Ok z => Ok (AInt z) | Raise e => Raise e end
      | Raise e => Raise e
      end
  | VDict d =>
      match (fix go (d : list (pystr * value)) : res hexn (list (pystr * atom)) :=
               match d with
               | [] => Ok []
               | (k, x) :: r => match reduce x, go r with
                                | Ok a, Ok t => Ok ((k, a) :: t)
                                | _, _ => Raise TypeError
                                end
               end) d with
      | Ok ps => match py_hash (map (fun '(k, a) => EPair k a) (ksort ps)) with
                 | Ok z => Ok (AInt z)
                 | Raise e => Raise e
                 end
      | Raise e => Raise e
      end
  end.

(** [hashDict(d)] (Cheetah/Template.py:101-110) and [hashList(l)] (90-98). *)
Definition hashDict (d : list (pystr * value)) : res hexn atom := reduce (VDict d).
(** Goes with the definition above (Cheetah/Template.py:101-110). *)
Definition hashList (l : list value) : res hexn atom := reduce (VList l).
End Hash.

(** ** The cache key *)

(** [str(n)] for an int (Cheetah/Template.py:750). *)
Definition str_of_Z (z : Z) : pystr :=
  match z with
  | Zneg p => 45%N :: str_of_N (Npos p)
  | _ => str_of_N (Z.to_N z)
  end.

(** Number of leading underscores (Cheetah/Template.py:682). *)
Fixpoint underscores (s : pystr) : nat :=
  match s with c :: r => if (c =? 95)%N then S (underscores r) else 0 | [] => 0 end.

(** [re.sub(r'^_+([^0-9])', r'\1', name)] (Cheetah/Template.py:682): the greedy run gives back one
    underscore when a digit or the end follows it. *)
Definition strip_underscores (s : pystr) : pystr :=
  let k := underscores s in
  match skipn k s with
  | c :: _ => if (48 <=? c)%N && (c <=? 57)%N then skipn (k - 1) s else skipn k s
  | [] => skipn (k - 1) s
  end.

(** The options of a compile call that reach the key, after defaults were filled in
    (Cheetah/Template.py:666-700): None or a string for source, file, className, moduleName,
    mainMethodName and cache directory; classes by number; settings and globals.  [o_mtime] is
    the text of the file's modification time at the call, empty when checkFileMtime is off
    (Cheetah/Template.py:741-742). *)
Record copts := mkO {
  o_source : option pystr; o_file : option pystr; o_mtime : pystr; o_class : option pystr; o_module : pystr;
  o_main : option pystr; o_compiler : nat; o_base : nat;
  o_settings : list (pystr * value); o_globals : list (pystr * value);
  o_cachedir : option pystr }.

(** [className or moduleName] with the underscores removed (Cheetah/Template.py:682). *)
Definition final_class (o : copts) : pystr :=
  strip_underscores (match o_class o with Some (c :: r) => c :: r | _ => o_module o end).

(** [str(v)] of a string or None (Cheetah/Template.py:750). *)
Definition str_opt (s : option pystr) : pystr := match s with Some s => s | None => L "None" end.

Section Key.
(** The built-in hashes of strings/None, classes and tuples (Cheetah/Template.py:736-761). *)
Variable hash_str : option pystr -> Z.
Variable hash_obj : nat -> Z.
Variable hash_tuple : list elem -> Z.

(** The hash of a settings dictionary, None when it is empty (Cheetah/Template.py:724-730). *)
Definition dict_piece (d : list (pystr * value)) : res hexn pystr :=
  match d with
  | [] => Ok (L "None")
  | _ => match hashDict hash_tuple d with
         | Ok (AInt z) => Ok (str_of_Z z)
         | Ok _ => Raise TypeError
         | Raise e => Raise e
         end
  end.

(** The ten strings that are joined (Cheetah/Template.py:724-761). *)
Definition pieces (o : copts) : res hexn (list pystr) :=
  match dict_piece (o_settings o), dict_piece (o_globals o) with
  | Ok sh, Ok gh =>
      Ok [ str_of_Z (hash_str (o_source o));
           match o_file o with
           | Some (c :: r) => str_of_Z (hash_str (Some (c :: r))) ++ o_mtime o
           | _ => L "None"
           end;
           final_class o;
           o_module o;
           str_opt (o_main o);
           str_of_Z (hash_obj (o_compiler o));
           str_of_Z (hash_obj (o_base o));
           sh;
           gh;
           str_of_Z (hash_str (o_cachedir o)) ]
  | _, _ => Raise TypeError
  end.

(** [cacheHash] (Cheetah/Template.py:720-761); [None] when there is neither source nor a file
    name.  A TypeError of hashDict is not caught. *)
Definition cacheHash (o : copts) : res hexn (option pystr) :=
  match o_source o, o_file o with
  | (Some (_ :: _)), _ | _, Some _ =>
      match pieces o with Ok ps => Ok (Some (concat ps)) | Raise e => Raise e end
  | _, _ => Ok None
  end.

(** ** The compilation cache *)

(** Compiling: what class the options give (an oracle for the whole compiler, or an exception)
    (Cheetah/Template.py:774-848). *)
Context {K E : Type}.
Variable build : copts -> res E K.

(** The cache: classes by key (Cheetah/Template.py:766-768, 850-857). *)
Definition cache := list (pystr * K).

(** What a call of [compile] with returnAClass gives (Cheetah/Template.py:764-870); [useCache] and
    [keep] are the flags useCache and cacheCompilationResults. *)
Inductive outcome := Class (k : K) | BuildError (e : E) | HashError.
(** Goes with the definition above (Cheetah/Template.py:764-870). *)
Definition compile (useCache keep : bool) (o : copts) (c : cache) : outcome * cache :=
  match cacheHash o with
  | Raise _ => (HashError, c)
  | Ok key =>
      let hit := match key with
                 | Some (x :: r) => if useCache then aget (x :: r) c else None
                 | _ => None
                 end in
      match hit with
      | Some k => (Class k, c)
      | None =>
          match build o with
          | Raise e => (BuildError e, c)
          | Ok k =>
              match key with
              | Some (x :: r) =>
                  if keep && negb (ahas (x :: r) c) then (Class k, aset (x :: r) k c)
                  else (Class k, c)
              | _ => (Class k, c)
              end
          end
      end
  end.

(** A history of calls (Cheetah/Template.py:764-870). *)
Record call := mkCall { c_use : bool; c_keep : bool; c_opts : copts }.
(** Goes with the definition above (Cheetah/Template.py:764-870). *)
Fixpoint run_calls (l : list call) (c : cache) : list outcome * cache :=
  match l with
  | [] => ([], c)
  | x :: r =>
      let '(out, c1) := compile (c_use x) (c_keep x) (c_opts x) c in
      let '(outs, c2) := run_calls r c1 in
      (out :: outs, c2)
  end.
End Key.
