(** Model of the emission of static text: Cheetah/Compiler.py:476-505 ([commitStrConst]) and the
    regular expression Cheetah/Parser.py:169 ([escapedNewlineRE]). *)
From Verif Require Import Base.

Definition BS : N := 92.   (* backslash; Cheetah/Parser.py:169 *)
Definition NL : N := 10.   (* newline; Cheetah/Compiler.py:495 *)
Definition CR : N := 13.   (* carriage return; Cheetah/Compiler.py:512 *)
Definition TAB : N := 9.   (* tab, written \t by repr; Cheetah/Compiler.py:489 *)
Definition SQ : N := 39.   (* single quote; Cheetah/Compiler.py:497 *)
Definition DQ : N := 34.   (* double quote; Cheetah/Compiler.py:502 *)

(** ** Python's [repr] for [str] (CPython [unicode_repr]); used at Cheetah/Compiler.py:489.
    [printable] is [str.isprintable] of one non-ASCII character; it is a parameter because
    its table depends on the Unicode version. *)
Section Repr.
Variable printable : N -> bool.

(** Lower-case hexadecimal digit (part of [repr], Cheetah/Compiler.py:489). *)
Definition hexdigit (d : N) : N := (if d <? 10 then 48 + d else 87 + d)%N.

(** [n] hexadecimal digits of [c], most significant first (part of [repr],
    Cheetah/Compiler.py:489). *)
Fixpoint hexn (n : nat) (c : N) : pystr :=
  match n with
  | O => []
  | S n' => hexn n' (c / 16)%N ++ [hexdigit (c mod 16)%N]
  end.

(** Choice of the quote character (part of [repr], Cheetah/Compiler.py:489): double quotes
    exactly when the text has a single quote and no double quote. *)
Definition repr_quote (s : pystr) : N :=
  if mem_char SQ s && negb (mem_char DQ s) then DQ else SQ.

(** Representation of one character (part of [repr], Cheetah/Compiler.py:489). *)
Definition repr_char (q c : N) : pystr :=
  if (c =? q)%N || (c =? BS)%N then [BS; c]
  else if (c =? TAB)%N then [BS; 116%N]
  else if (c =? NL)%N then [BS; 110%N]
  else if (c =? CR)%N then [BS; 114%N]
  else if (c <? 32)%N || (c =? 127)%N then BS :: 120%N :: hexn 2 c
  else if (c <? 127)%N then [c]
  else if printable c then [c]
  else if (c <=? 255)%N then BS :: 120%N :: hexn 2 c
  else if (c <=? 65535)%N then BS :: 117%N :: hexn 4 c
  else BS :: 85%N :: hexn 8 c.

(** [repr(s)] (Cheetah/Compiler.py:489). *)
Definition repr (s : pystr) : pystr :=
  let q := repr_quote s in
  q :: concat (map (repr_char q) s) ++ [q].

(** ** [escapedNewlineRE.sub('\\1\n', ...)]: Cheetah/Parser.py:169, Cheetah/Compiler.py:495. *)

(** [\\(n|012)]: the part of the pattern after group 1 (Cheetah/Parser.py:169); the result is
    the number of characters matched. *)
Definition rx_tail (s : pystr) : option nat :=
  match s with
  | b :: c :: r =>
      if (b =? BS)%N then
        if (c =? 110)%N then Some 2
        else if starts_with (L "012") (c :: r) then Some 4
        else None
      else None
  | _ => None
  end.

(** The whole pattern after the look-behind (a starred group of backslash pairs, then
    [rx_tail]): greedy with backtracking; result: number of backslash pairs in
    group 1 and length of the rest of the match (Cheetah/Parser.py:169). *)
Fixpoint rx_match (s : pystr) : option (nat * nat) :=
  match s with
  | b1 :: ((b2 :: r) as s') =>
      if (b1 =? BS)%N && (b2 =? BS)%N then
        match rx_match r with
        | Some (k, n) => Some (S k, n)
        | None => match rx_tail s with Some n => Some (0, n) | None => None end
        end
      else match rx_tail s with Some n => Some (0, n) | None => None end
  | _ => None
  end.

(** The substitution loop of [re.sub] (Cheetah/Compiler.py:495).  [prevbs]: is the preceding
    character a backslash (the look-behind of Cheetah/Parser.py:169); [skip]: characters of
    the current match still to be passed over. *)
Fixpoint rx_sub (prevbs : bool) (skip : nat) (s : pystr) : pystr :=
  match s with
  | [] => []
  | c :: r =>
      match skip with
      | S k => rx_sub (c =? BS)%N k r
      | O =>
          if prevbs then c :: rx_sub (c =? BS)%N 0 r
          else match rx_match s with
               | Some (k, n) =>
                   repeat BS (2 * k) ++ [NL] ++ rx_sub (c =? BS)%N (2 * k + n - 1) r
               | None => c :: rx_sub (c =? BS)%N 0 r
               end
      end
  end.

(** [s[a:-1]] for [a] = 0, 1, 2 (Cheetah/Compiler.py:495). *)
Definition slice_to_last (a : nat) (s : pystr) : pystr := removelast (skipn a s).

(** The literal written for a static text (Cheetah/Compiler.py:489-505).  [None]: nothing is
    emitted (lines 486-487).  Simplified: the final [addWriteChunk] wrapping is modelled in
    the code-generation model. *)
Definition str_const_literal (strConst : pystr) : option pystr :=
  match strConst with
  | [] => None
  | _ =>
      let reprstr := repr strConst in
      let i := if starts_with (L "u") reprstr then 1 else 0 in
      let out := if starts_with (L "u") reprstr then L "u" else [] in
      let body := rx_sub false 0 (slice_to_last (i + 1) reprstr) in
      if (nth i reprstr 0 =? SQ)%N
      then Some (out ++ L "'''" ++ body ++ L "'''")
      else Some (out ++ [DQ; DQ; DQ] ++ body ++ [DQ; DQ; DQ])
  end.

End Repr.
