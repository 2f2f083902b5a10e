(** Model of the replacement strings of FindAndReplace (Cheetah/FileUtils.py:119-216) and of the object that is nothing
    (Cheetah/Tools/RecursiveNull.py:11-39), as Python 3 runs them.

    Simplified: the position in the source is what is left of it; a chunk of code is what it evaluates to (a constant with [repr], or a
    call of [m.group]); of a match only its groups are there. *)
From Verif Require Import Base.

(** The character classes of the two regular expressions (Cheetah/FileUtils.py:125-126). *)
Definition digit (c : N) : bool := (48 <=? c)%N && (c <=? 57)%N.
(** Goes with the definition above (Cheetah/FileUtils.py:125-126). *)
Definition digit1 (c : N) : bool := (49 <=? c)%N && (c <=? 57)%N.
(** Goes with the definition above (Cheetah/FileUtils.py:125-126). *)
Definition letter (c : N) : bool := ((65 <=? c)%N && (c <=? 90)%N) || ((97 <=? c)%N && (c <=? 122)%N) || (c =? 95)%N.

(** The longest run of characters of a class (built-in [re]; Cheetah/FileUtils.py:125-126). *)
Fixpoint run_of (p : N -> bool) (s : pystr) : pystr * pystr :=
  match s with
  | [] => ([], [])
  | c :: r => if p c then let '(a, b) := run_of p r in (c :: a, b) else ([], s)
  end.

(** [matchBackref] and [getBackref]: the number and what is behind it (Cheetah/FileUtils.py:125, 160-166). *)
Definition match_backref (s : pystr) : option (pystr * pystr) :=
  match s with
  | b :: c :: r => if (b =? 92)%N && digit1 c then let '(ds, rest) := run_of digit r in Some (c :: ds, rest) else None
  | _ => None
  end.
(** [matchGroup] and [getGroup]: the name and what is behind it (Cheetah/FileUtils.py:126, 168-174). *)
Definition match_group (s : pystr) : option (pystr * pystr) :=
  match s with
  | b :: g :: l :: r =>
      if (b =? 92)%N && (g =? 103)%N && (l =? 60)%N then
        match run_of letter r with
        | (c :: n, q :: rest) => if (q =? 62)%N then Some (c :: n, rest) else None
        | _ => None
        end
      else None
  | _ => None
  end.

(** The chunks (Cheetah/FileUtils.py:187-204). *)
Inductive chunk := CText (s : pystr) | CRef (n : pystr) | CName (n : pystr).

(** [eatStrConst]: up to the next reference or the end (Cheetah/FileUtils.py:187-195). *)
Fixpoint eat_const (s : pystr) : pystr * pystr :=
  match s with
  | [] => ([], [])
  | c :: r =>
      match match_backref s, match_group s with
      | None, None => let '(k, rest) := eat_const r in (c :: k, rest)
      | _, _ => ([], s)
      end
  end.

(** [parse] (Cheetah/FileUtils.py:178-185); [None]: the fuel does not suffice. *)
Fixpoint parse (fuel : nat) (s : pystr) : option (list chunk) :=
  match fuel with
  | O => None
  | S fuel =>
      match s with
      | [] => Some []
      | _ =>
          let '(c, rest) :=
            match match_backref s with
            | Some (n, rest) => (CRef n, rest)
            | None =>
                match match_group s with
                | Some (n, rest) => (CName n, rest)
                | None => let '(k, rest) := eat_const s in (CText k, rest)
                end
            end in
          match parse fuel rest with Some l => Some (c :: l) | None => None end
      end
  end.
(** [_GenSubberFunc(replaceStr)] (Cheetah/FileUtils.py:128-132). *)
Definition chunks (s : pystr) : option (list chunk) := parse (S (length s)) s.

(** [m.group(n)]: the text, None for a group that took no part, an IndexError (built-in; Cheetah/FileUtils.py:198, 201). *)
Inductive group := GText (s : pystr) | GNone | GMissing.
(** Goes with the definition above (Cheetah/FileUtils.py:198, 201). *)
Inductive suberr := IndexE (n : pystr) | JoinE | NameE.
(** The list of the generated function: every element is evaluated, in order (Cheetah/FileUtils.py:212). *)
Fixpoint elements (m : pystr -> group) (l : list chunk) : res suberr (list (option pystr)) :=
  match l with
  | [] => Ok []
  | c :: r =>
      match (match c with
             | CText s => Ok (Some s)
             | CRef n | CName n => match m n with GText s => Ok (Some s) | GNone => Ok None | GMissing => Raise (IndexE n) end
             end) with
      | Raise e => Raise e
      | Ok x => match elements m r with Raise e => Raise e | Ok l => Ok (x :: l) end
      end
  end.
(** [''.join(l)]: None is a TypeError (built-in; Cheetah/FileUtils.py:212). *)
Fixpoint join_all (l : list (option pystr)) : res suberr pystr :=
  match l with
  | [] => Ok []
  | None :: _ => Raise JoinE
  | Some s :: r => match join_all r with Raise e => Raise e | Ok t => Ok (s ++ t) end
  end.
(** [subber(m)] (Cheetah/FileUtils.py:211-212). *)
Definition subber (m : pystr -> group) (l : list chunk) : res suberr pystr :=
  match elements m l with Raise e => Raise e | Ok x => join_all x end.

(** [subberFunc()]: [exec] in a function defines no local name on Python 3, so that [subber] is looked up in the globals of the module
    (Cheetah/FileUtils.py:214-216). *)
Definition subber_func {A} (globals : pystr -> option A) (l : list chunk) : res suberr A :=
  match globals (L "subber") with Some f => Ok f | None => Raise NameE end.

(** An object: nothing, or another one of which only its truth is of interest (Cheetah/Tools/RecursiveNull.py:11). *)
Inductive obj := ONull | OOther (truth : bool).
(** What is done with it: attribute, item, call (Cheetah/Tools/RecursiveNull.py:12-19). *)
Inductive use := UAttr (n : pystr) | UItem (k : pystr) | UCall (args : list obj).
(** [__getattr__], [__getitem__], [__call__] (Cheetah/Tools/RecursiveNull.py:12-19). *)
Definition use_null (u : use) : obj := match u with UAttr _ => ONull | UItem _ => ONull | UCall _ => ONull end.
(** [__str__], [__repr__] (Cheetah/Tools/RecursiveNull.py:21-25). *)
Definition str_null : pystr := [].
(** [bool(x)]: [__bool__] returns 0, which is not a bool: a TypeError (Cheetah/Tools/RecursiveNull.py:26-28). *)
Inductive nerr := BoolE.
(** Goes with the definition above (Cheetah/Tools/RecursiveNull.py:26-28). *)
Definition truth (x : obj) : res nerr bool := match x with ONull => Raise BoolE | OOther b => Ok b end.
(** [__eq__] (Cheetah/Tools/RecursiveNull.py:33-36). *)
Definition eq_null (x : obj) : res nerr bool := match truth x with Raise e => Raise e | Ok true => Ok false | Ok false => Ok true end.
(** [__ne__] (Cheetah/Tools/RecursiveNull.py:38-39). *)
Definition ne_null (x : obj) : res nerr bool := match truth x with Raise e => Raise e | Ok true => Ok true | Ok false => Ok false end.
