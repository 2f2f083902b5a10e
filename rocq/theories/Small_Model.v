(** Models of cache intervals (Cheetah/Compiler.py), the response buffer
    (Cheetah/DummyTransaction.py) and the indenter (Cheetah/Utils/Indenter.py). *)
From Coq Require Export QArith.
From Verif Require Export PyStr Alist.
Close Scope Q_scope.

(** ** Cache intervals *)

(** Exceptions of genTimeInterval: float() of something else than a number, and the empty
    string (Cheetah/Compiler.py:148-159). *)
Inductive iexn := ValueError | IndexError | TypeError.

(** Value of a digit string (part of the built-in float(), Cheetah/Compiler.py:149). *)
Fixpoint digits_value (acc : N) (s : pystr) : option N :=
  match s with
  | [] => Some acc
  | c :: r => if (48 <=? c)%N && (c <=? 57)%N then digits_value (acc * 10 + (c - 48))%N r else None
  end.

(** [10 ** k] as a positive (used to read the digits after the point). (Cheetah/Compiler.py:149) *)
Fixpoint ten_pow (k : nat) : positive :=
  match k with O => 1%positive | S k' => (10 * ten_pow k')%positive end.

(** [float(s)] for strings of digits and points, the only ones the interval grammar lets through
    (Cheetah/Parser.py:453-460).  Simplified: the exact rational instead of the nearest double,
    and no exponents, signs, underscores, blanks, inf or nan. *)
Definition py_float (s : pystr) : res iexn Q :=
  match split_char 46 s with
  | [a] =>
      match a, digits_value 0 a with
      | _ :: _, Some n => Ok (Qmake (Z.of_N n) 1)
      | _, _ => Raise ValueError
      end
  | [a; b] =>
      match a ++ b, digits_value 0 (a ++ b) with
      | _ :: _, Some n => Ok (Qmake (Z.of_N n) (ten_pow (length b)))
      | _, _ => Raise ValueError
      end
  | _ => Raise ValueError
  end.

(** Multiplying a float by an integer constant (Cheetah/Compiler.py:151-159). *)
Definition scale (r : res iexn Q) (k : Z) : res iexn Q :=
  match r with Ok q => Ok (Qmult q (inject_Z k)) | Raise e => Raise e end.

(** [timeString[-1]] and [timeString[:-1]] (Cheetah/Compiler.py:148-149). *)
Fixpoint split_last (s : pystr) : option (pystr * N) :=
  match s with
  | [] => None
  | [c] => Some ([], c)
  | c :: r => match split_last r with Some (a, d) => Some (c :: a, d) | None => None end
  end.

(** [genTimeInterval] (Cheetah/Compiler.py:146-160). *)
Definition genTimeInterval (s : pystr) : res iexn Q :=
  match split_last s with
  | None => Raise IndexError
  | Some (a, c) =>
      if (c =? 115)%N then py_float a
      else if (c =? 109)%N then scale (py_float a) 60
      else if (c =? 104)%N then scale (py_float a) (60 * 60)
      else if (c =? 100)%N then scale (py_float a) (60 * 60 * 24)
      else if (c =? 119)%N then scale (py_float a) (60 * 60 * 24 * 7)
      else scale (py_float s) 60
  end.

(** Values of a cacheInfo dictionary: strings and the computed interval. (Cheetah/Compiler.py:146-160) *)
Inductive cval := CText (s : pystr) | CNum (q : Q).

(** Removing the quotes of an argument (Cheetah/Compiler.py:177-178). *)
Definition unquote (v : pystr) : pystr :=
  match v with
  | c :: r => if (c =? 34)%N || (c =? 39)%N
              then match split_last r with Some (a, _) => a | None => [] end
              else v
  | [] => []
  end.

(** [genCacheInfoFromArgList] (Cheetah/Compiler.py:174-185) after the first entry
    (type: REFRESH_CACHE, which a type argument replaces and which is left out here); an argument
    without a value is None. *)
Fixpoint cacheInfo_loop (args : list (pystr * option pystr)) (info : list (pystr * cval))
  : res iexn (list (pystr * cval)) :=
  match args with
  | [] => Ok info
  | (key, val) :: r =>
      match val with
      | None => Raise TypeError
      | Some [] => Raise IndexError
      | Some v =>
          let v := unquote v in
          if str_eqb key (L "timer")
          then match genTimeInterval v with
               | Ok q => cacheInfo_loop r (aset (L "interval") (CNum q) info)
               | Raise e => Raise e
               end
          else cacheInfo_loop r (aset key (CText v) info)
      end
  end.
(** Goes with the definition above (Cheetah/Compiler.py:174-185). *)
Definition genCacheInfoFromArgList (args : list (pystr * option pystr)) : res iexn (list (pystr * cval)) :=
  cacheInfo_loop args [].

(** ** Response buffer *)

(** Written values: strings, and anything else (None, numbers), which [''.join] refuses
    (Cheetah/DummyTransaction.py:49-50, 59). *)
Inductive chunk := CStr (s : pystr) | COther.

(** [u''.join(chunks)] (Cheetah/DummyTransaction.py:59). *)
Fixpoint join_chunks (l : list chunk) : res iexn pystr :=
  match l with
  | [] => Ok []
  | CStr s :: r => match join_chunks r with Ok t => Ok (s ++ t) | Raise e => Raise e end
  | COther :: _ => Raise TypeError
  end.

(** [write], [writeln], [writelines] (Cheetah/DummyTransaction.py:49-54, 67-69) on the chunk list. *)
Definition resp_write (v : chunk) (chunks : list chunk) : list chunk := chunks ++ [v].
(** Goes with the definition above (Cheetah/DummyTransaction.py:49-54, 67-69). *)
Definition resp_writeln (v : chunk) (chunks : list chunk) : list chunk :=
  resp_write (CStr [10%N]) (resp_write v chunks).
(** Goes with the definition above (Cheetah/DummyTransaction.py:49-54, 67-69). *)
Definition resp_writelines (vs : list chunk) (chunks : list chunk) : list chunk :=
  fold_left (fun c v => resp_writeln v c) vs chunks.

(** [getvalue(outputChunks=None)] (Cheetah/DummyTransaction.py:56-65); an empty list counts as
    not given.  The UnicodeDecodeError branch is dead in Python 3. *)
Definition resp_getvalue (outputChunks : option (list chunk)) (chunks : list chunk)
  : res iexn pystr :=
  match outputChunks with
  | Some (x :: l) => join_chunks (x :: l)
  | _ => join_chunks chunks
  end.

(** Operations on one response, and a run of them (Cheetah/DummyTransaction.py:28-69). *)
Inductive rop := Write (v : chunk) | Writeln (v : chunk) | Writelines (vs : list chunk)
               | Flush | GetValue.
(** Goes with the definition above (Cheetah/DummyTransaction.py:28-69). *)
Definition rstep (o : rop) (chunks : list chunk) : list chunk :=
  match o with
  | Write v => resp_write v chunks
  | Writeln v => resp_writeln v chunks
  | Writelines vs => resp_writelines vs chunks
  | Flush | GetValue => chunks
  end.
(** Goes with the definition above (Cheetah/DummyTransaction.py:28-69). *)
Definition rrun (ops : list rop) : list chunk := fold_left (fun c o => rstep o c) ops [].

(** [TransformerResponse.getvalue] (Cheetah/DummyTransaction.py:95-102); [filter]: the instance's
    filter function, if one is set. *)
Definition transformer_getvalue (filter : option (pystr -> pystr)) (chunks : list chunk)
  : res iexn pystr :=
  match join_chunks chunks with
  | Raise e => Raise e
  | Ok out => Ok (match filter with Some f => f out | None => out end)
  end.

(** Transactions: the memoised response, as an index into the list of responses made so far
    (Cheetah/DummyTransaction.py:81-87 DummyTransaction, 105-112 TransformerTransaction). *)
Record world := mkW { w_resps : list (list chunk); w_tr : option nat }.

(** [DummyTransaction.response()] (Cheetah/DummyTransaction.py:84-87). *)
Definition dummy_response (w : world) : nat * world :=
  match w_tr w with
  | Some i => (i, w)
  | None => let i := length (w_resps w) in (i, mkW (w_resps w ++ [[]]) (Some i))
  end.

(** [TransformerTransaction.response()] (Cheetah/DummyTransaction.py:109-112). *)
Definition transformer_response (w : world) : nat * world :=
  match w_tr w with
  | Some i => (i, w)
  | None => (length (w_resps w), mkW (w_resps w ++ [[]]) None)
  end.

(** ** Indenter *)

(** State of the program: each indenter's own On, Level and Chars (class attributes 1, 0 and four
    blanks until assigned), and the LevelStack list, which belongs to the class and is shared
    (Cheetah/Utils/Indenter.py:94-97). *)
Record indenter := mkInd { i_on : bool; i_level : Z; i_chars : pystr }.
(** Goes with the definition above (Cheetah/Utils/Indenter.py:94-97). *)
Definition new_indenter : indenter := mkInd true 0 (L "    ").
(** Goes with the definition above (Cheetah/Utils/Indenter.py:94-97). *)
Record istate := mkIS { is_obj : nat -> indenter; is_stack : list Z }.
(** Goes with the definition above (Cheetah/Utils/Indenter.py:94-97). *)
Definition is_init : istate := mkIS (fun _ => new_indenter) [].

(** Calls on an indenter (Cheetah/Utils/Indenter.py:99-134). *)
Inductive icall := On | Off | Inc | Dec | Push | Pop | SetLevel (l : Z) | SetChar (c : pystr).

(** Goes with the definition above (Cheetah/Utils/Indenter.py:99-134). *)
Definition upd (f : nat -> indenter) (i : nat) (v : indenter) : nat -> indenter :=
  fun j => if Nat.eqb j i then v else f j.

(** One call on indenter [i] (Cheetah/Utils/Indenter.py:99-134); the end of the stack is the
    head of the list here. *)
Definition istep (i : nat) (c : icall) (s : istate) : istate :=
  let o := is_obj s i in
  let set v := mkIS (upd (is_obj s) i v) (is_stack s) in
  match c with
  | On => set (mkInd true (i_level o) (i_chars o))
  | Off => set (mkInd false (i_level o) (i_chars o))
  | Inc => set (mkInd (i_on o) (i_level o + 1) (i_chars o))
  | Dec => if (0 <? i_level o)%Z then set (mkInd (i_on o) (i_level o - 1) (i_chars o)) else s
  | Push => mkIS (is_obj s) (i_level o :: is_stack s)
  | Pop => match is_stack s with
           | l :: r => mkIS (upd (is_obj s) i (mkInd (i_on o) l (i_chars o))) r
           | [] => set (mkInd (i_on o) 0 (i_chars o))
           end
  | SetLevel l => set (mkInd (i_on o) (if (l <? 0)%Z then 0 else l)%Z (i_chars o))
  | SetChar c => set (mkInd (i_on o) (i_level o) c)
  end.
(** Goes with the definition above (Cheetah/Utils/Indenter.py:99-134). *)
Definition irun (cs : list (nat * icall)) (s : istate) : istate :=
  fold_left (fun s c => istep (fst c) (snd c) s) cs s.

(** [s * n] for a string (built-in, Cheetah/Utils/Indenter.py:138-139). *)
Definition str_times (s : pystr) (n : Z) : pystr := concat (repeat s (Z.to_nat n)).

(** [indent(_default)] (Cheetah/Utils/Indenter.py:136-139). *)
Definition indent (o : indenter) (default : Z) : pystr :=
  if i_on o then str_times (i_chars o) (i_level o) else str_times (L " ") default.
