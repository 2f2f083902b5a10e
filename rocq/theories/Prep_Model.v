(** Model of what ModuleCompiler.__init__ does to the source before it is parsed
    (Cheetah/Compiler.py:1683-1716): the #unicode and #encoding directives, which are looked for with
    regular expressions (Cheetah/Parser.py:162-167), and the preprocessor for #indent
    (Cheetah/Utils/Indenter.py:41-86).  The source is a str here: a bytes source is turned into a str
    first (Cheetah/Compiler.py:1683-1686), so the branches for bytes are never taken. *)
From Verif Require Import Base PyStr Names_Model StrConst_Model.

(** ** Regular expressions with greedy repetition and backtracking *)

(** The parts the two expressions consist of (Cheetah/Parser.py:162-167): a class repeated at most [m]
    times (without end if None), literal text, and (?:\r\n|\r|\n). *)
Inductive rx := RStar (p : N -> bool) (m : option nat) | RLit (w : pystr) | REol.

(** A repeated class followed by the rest [k] of the expression: as many characters as possible are taken
    first (engine of Cheetah/Parser.py:162-167).  The result has the number taken. *)
Fixpoint rstar (k : pystr -> option (list nat)) (p : N -> bool) (m : option nat) (s : pystr)
  : option (list nat) :=
  let less := match k s with Some x => Some (0 :: x) | None => None end in
  match s with
  | [] => less
  | c :: r =>
      if p c && match m with Some O => false | _ => true end then
        match rstar k p (option_map pred m) r with
        | Some (n :: x) => Some (S n :: x)
        | _ => less
        end
      else less
  end.

(** Matching a sequence of parts at the start of [s]: how many characters each part takes
    (engine of Cheetah/Parser.py:162-167). *)
Fixpoint rmatch (l : list rx) (s : pystr) {struct l} : option (list nat) :=
  match l with
  | [] => Some []
  | RStar p m :: l' => rstar (rmatch l') p m s
  | RLit w :: l' =>
      if starts_with w s then option_map (cons (length w)) (rmatch l' (skipn (length w) s)) else None
  | REol :: l' =>
      match s with
      | c :: r =>
          match (if starts_with [13; 10]%N s then option_map (cons 2) (rmatch l' (skipn 2 s)) else None) with
          | Some x => Some x
          | None => if ((c =? 13) || (c =? 10))%N then option_map (cons 1) (rmatch l' r) else None
          end
      | [] => None
      end
  end.

Section Prep.
(** A character outside ASCII that \w matches; what a codec makes of bytes (None: it is not known or fails);
    what eval makes of a text (None: it raises or the value is no str); all three are Python's
    (Cheetah/Parser.py:162-167, Cheetah/Compiler.py:1707-1709). *)
Variable uword : N -> bool.
Variable printable : N -> bool.
Variable decode : pystr -> pystr -> option pystr.
Variable evals : pystr -> option pystr.

(** [-\w.] (Cheetah/Parser.py:163, 166). *)
Definition encchar (c : N) : bool :=
  ((48 <=? c) && (c <=? 57) || (65 <=? c) && (c <=? 90) || (97 <=? c) && (c <=? 122) || (c =? 95)
   || (c =? 45) || (c =? 46) || (128 <=? c) && uword c)%N.

(** [:\s] (Cheetah/Parser.py:163, 166). *)
Definition colon_space (c : N) : bool := (c =? 58)%N || is_space c.

(** The expression after its first group (Cheetah/Parser.py:162-167). *)
Definition dir_rx (word : pystr) : list rx :=
  [RStar is_space None; RLit (L "#"); RStar is_space (Some 5); RLit word; RStar colon_space None;
   RStar encchar None; RStar is_space None; REol].

(** One try of the expression (Cheetah/Parser.py:162-167); [bol]: the position is at the start of the source
    or after a newline, where ^ matches.  Result: length of the match and group 1. *)
Definition dir_at (word : pystr) (bol : bool) (s : pystr) : option (nat * pystr) :=
  match (if bol then rmatch (dir_rx word) s else None) with
  | Some ((n1 :: n2 :: n3 :: n4 :: n5 :: n6 :: _) as x) =>
      Some (list_sum x, firstn n6 (skipn (n1 + n2 + n3 + n4 + n5) s))
  | _ =>
      match rmatch (REol :: dir_rx word) s with
      | Some ((n0 :: n1 :: n2 :: n3 :: n4 :: n5 :: n6 :: _) as x) =>
          Some (list_sum x, firstn n6 (skipn (n0 + n1 + n2 + n3 + n4 + n5) s))
      | _ => None
      end
  end.

(** [unicodeDirectiveRE.search(source)] and the same for encoding (Cheetah/Compiler.py:1695-1696): group 1 of
    the first match. *)
Fixpoint dir_search (word : pystr) (bol : bool) (s : pystr) : option pystr :=
  match dir_at word bol s with
  | Some (_, g) => Some g
  | None => match s with [] => None | c :: r => dir_search word (c =? 10)%N r end
  end.

(** [unicodeDirectiveRE.sub('', source)] (Cheetah/Compiler.py:1702); [skip]: characters of the current match
    still to be passed over. *)
Fixpoint dir_sub (word : pystr) (skip : nat) (bol : bool) (s : pystr) : pystr :=
  match s with
  | [] => []
  | c :: r =>
      match skip with
      | S k => dir_sub word k (c =? 10)%N r
      | O => match dir_at word bol s with
             | Some (n, _) => dir_sub word (n - 1) (c =? 10)%N r
             | None => c :: dir_sub word 0 (c =? 10)%N r
             end
      end
  end.

(** [text.encode("ascii", "backslashreplace")], one character (Cheetah/Compiler.py:1708). *)
Definition ascii_char (c : N) : pystr :=
  if (c <? 128)%N then [c]
  else if (c <=? 255)%N then BS :: 120%N :: hexn 2 c
  else if (c <=? 65535)%N then BS :: 117%N :: hexn 4 c
  else BS :: 85%N :: hexn 8 c.
(** Goes with the definition above (Cheetah/Compiler.py:1708). *)
Definition ascii_replace (s : pystr) : pystr := concat (map ascii_char s).

(** ** The preprocessor for #indent *)

(** Exceptions while the source is prepared: ParseError (Cheetah/Compiler.py:1699), LookupError, UnicodeError or
    whatever eval raises (Cheetah/Compiler.py:1707-1709), ValueError of int (Cheetah/Utils/Indenter.py:57),
    IndexError or whatever eval raises, and UnboundLocalError (Cheetah/Utils/Indenter.py:62-65). *)
Inductive perr := BothGiven | BadCoding | BadLevel | BadChars | NoLevel.
(** Goes with the definition above (Cheetah/Utils/Indenter.py:62-65). *)
Inductive pres (A : Type) := POk (a : A) | PErr (e : perr).
Arguments POk {A} _. Arguments PErr {A} _.

(** [ \t] (Cheetah/Utils/Indenter.py:25-28). *)
Definition iblank (c : N) : bool := ((c =? 32) || (c =? 9))%N.
(** Goes with the definition above (Cheetah/Utils/Indenter.py:25-28). *)
Fixpoint take_blank (s : pystr) : pystr :=
  match s with c :: r => if iblank c then c :: take_blank r else [] | [] => [] end.
(** Goes with the definition above (Cheetah/Utils/Indenter.py:25-28). *)
Fixpoint drop_blank (s : pystr) : pystr :=
  match s with c :: r => if iblank c then drop_blank r else s | [] => [] end.

(** [ws.expandtabs(4)] for a text of blanks and tabs (Cheetah/Utils/Indenter.py:76); [col]: the column. *)
Fixpoint expandtabs (col : nat) (s : pystr) : pystr :=
  match s with
  | [] => []
  | c :: r => if (c =? 9)%N then repeat 32%N (4 - col mod 4) ++ expandtabs (col + (4 - col mod 4)) r
              else c :: expandtabs (S col) r
  end.

(** ["%d" % n] (Cheetah/Utils/Indenter.py:58-60). *)
Definition zstr (z : Z) : pystr :=
  if (z <? 0)%Z then L "-" ++ str_of_N (Z.to_N (- z)) else str_of_N (Z.to_N z).

(** The calls written into the source (Cheetah/Utils/Indenter.py:50-69). *)
Definition silent_call (c : pystr) : pystr := L "#silent $self._CHEETAH__indenter." ++ c.
(** Goes with the definition above (Cheetah/Utils/Indenter.py:50-69). *)
Definition indent_mark (n : nat) : pystr :=
  L "${self._CHEETAH__indenter.indent(" ++ str_of_N (N.of_nat n) ++ L ")}".

(** One line whose start matches INDENT_DIR, with the text after the name stripped (Cheetah/Utils/Indenter.py:47-69).
    [level] is the local variable of that name, None while it is unbound. *)
Definition indent_args (level : option Z) (line args : pystr) : pres (pystr * option Z) :=
  if str_eqb args (L "on") then POk (silent_call (L "on()"), level)
  else if str_eqb args (L "off") then POk (silent_call (L "off()"), level)
  else if str_eqb args (L "++") then POk (silent_call (L "inc()"), level)
  else if str_eqb args (L "--") then POk (silent_call (L "dec()"), level)
  else if starts_with (L "=") args then
    match py_int (tl args) with
    | Some z => POk (silent_call (L "setLevel(" ++ zstr z ++ L ")"), Some z)
    | None => PErr BadLevel
    end
  else if starts_with (L "chars") args then
    match split_char 61 args with
    | _ :: x :: _ =>
        match evals x with
        | Some _ => match level with
                    | Some z => POk (silent_call (L "setChars(" ++ zstr z ++ L ")"), level)
                    | None => PErr NoLevel
                    end
        | None => PErr BadChars
        end
    | _ => PErr BadChars
    end
  else if starts_with (L "push") args then POk (silent_call (L "push()"), level)
  else if starts_with (L "pop") args then POk (silent_call (L "pop()"), level)
  else POk (line, level).

(** One line (Cheetah/Utils/Indenter.py:44-82).  The expression for leading blanks always matches. *)
Definition indent_line (level : option Z) (line : pystr) : pres (pystr * option Z) :=
  let rest := drop_blank line in
  if starts_with (L "#indent") rest then
    indent_args level line (strip (drop_blank (skipn 7 rest)))
  else if starts_with (L "#") rest then POk (line, level)
  else POk (indent_mark (length (expandtabs 0 (take_blank line))) ++ lstrip line, level).

(** All lines in turn (Cheetah/Utils/Indenter.py:44, 83). *)
Fixpoint indent_lines (level : option Z) (ls : list pystr) : pres (list pystr) :=
  match ls with
  | [] => POk []
  | l :: r => match indent_line level l with
              | PErr e => PErr e
              | POk (l', level') => match indent_lines level' r with
                                    | POk r' => POk (l' :: r')
                                    | PErr e => PErr e
                                    end
              end
  end.

(** [indentize(source)] (Cheetah/Utils/Indenter.py:16-17, 41-86). *)
Definition indentize (s : pystr) : pres pystr :=
  match indent_lines None (splitlines s) with
  | POk ls => POk (join (L (String "010" EmptyString)) ls)
  | PErr e => PErr e
  end.

(** [source.find(w) != -1] (Cheetah/Compiler.py:1715). *)
Fixpoint has_text (w s : pystr) : bool :=
  starts_with w s || match s with [] => false | _ :: r => has_text w r end.

(** What the parser is given (Cheetah/Compiler.py:1688-1718). *)
Definition prepare (s : pystr) : pres pystr :=
  match (match s with
         | [] => POk s
         | _ =>
             match dir_search (L "unicode") true s, dir_search (L "encoding") true s with
             | Some _, Some _ => PErr BothGiven
             | Some _, None => POk (dir_sub (L "unicode") 0 true s)
             | None, Some enc =>
                 match decode enc (ascii_replace (repr printable s)) with
                 | Some t => match evals t with Some v => POk v | None => PErr BadCoding end
                 | None => PErr BadCoding
                 end
             | None, None => POk s
             end
         end) with
  | PErr e => PErr e
  | POk t => if has_text (L "#indent") t then indentize t else POk t
  end.
End Prep.
Arguments POk {A} _. Arguments PErr {A} _.
