(** Model of the source reader: Cheetah/SourceReader.py, class [SourceReader].
    Positions are integers ([Z]); the source is a [pystr].  Not modelled: the file name, [splitlines]
    being memoised, [__getslice__] (Python 2 only) and the reverse bookmark map (never read). *)
From Verif Require Export Base PyStr Alist.
From Verif Require Import Names_Model.
Local Open Scope Z_scope.

(** [len(src)] (Cheetah/SourceReader.py:20). *)
Definition slen (s : pystr) : Z := Z.of_nat (length s).

(** [SourceReader.Error], and the built-in errors that can escape
    (Cheetah/SourceReader.py:11; 79, 153, 159, 167). *)
Inductive rerr := RError | RIndexError | RTypeError | RValueError.

(** The instance attributes [_src], [_breakPoint], [_pos], [_bookmarks]
    (Cheetah/SourceReader.py:17-25). *)
Record reader := mkR { r_src : pystr; r_bp : Z; r_pos : Z; r_marks : list (pystr * Z) }.

(** Assigning [self._pos] (Cheetah/SourceReader.py:99, 142, 158, 165, 171, 175, 180, 187). *)
Definition with_pos (r : reader) (p : Z) : reader := mkR (r_src r) (r_bp r) p (r_marks r).

(** [src[i]] with Python's negative indices (Cheetah/SourceReader.py:153, 159). *)
Definition char_at (s : pystr) (i : Z) : res rerr N :=
  let j := if i <? 0 then slen s + i else i in
  if j <? 0 then Raise RIndexError
  else match nth_error s (Z.to_nat j) with Some c => Ok c | None => Raise RIndexError end.

(** A slice bound brought into the range of the sequence (built-in slicing;
    Cheetah/SourceReader.py:181, 188). *)
Definition norm_bound (n i : Z) : Z := if i <? 0 then Z.max 0 (n + i) else Z.min i n.

(** [src[i:j]] (Cheetah/SourceReader.py:181, 188, 236, 258, 271). *)
Definition zslice (s : pystr) (i j : Z) : pystr :=
  let a := norm_bound (slen s) i in
  let b := norm_bound (slen s) j in
  firstn (Z.to_nat (b - a)) (skipn (Z.to_nat a) s).

(** [validPos] (Cheetah/SourceReader.py:101-102). *)
Definition validPos (r : reader) (p : Z) : bool := (p <=? r_bp r) && (p >=? 0).

(** [checkPos] (Cheetah/SourceReader.py:104-110). *)
Definition checkPos (r : reader) (p : Z) : option rerr :=
  if negb (p <=? r_bp r) then Some RError
  else if negb (p >=? 0) then Some RError
  else None.

(** [setBreakPoint] (Cheetah/SourceReader.py:115-125). *)
Definition setBreakPoint (r : reader) (p : Z) : res rerr reader :=
  if p >? slen (r_src r) then Raise RError
  else if negb (p >=? 0) then Raise RError
  else Ok (mkR (r_src r) p (r_pos r) (r_marks r)).

(** [__init__] up to the line tables (Cheetah/SourceReader.py:16-25). *)
Definition new_reader (s : pystr) (bp : option Z) : res rerr reader :=
  match bp with
  | None => Ok (mkR s (slen s) 0 [])
  | Some p => setBreakPoint (mkR s 0 0 []) p
  end.

(** [atEnd], [atStart] (Cheetah/SourceReader.py:144-148). *)
Definition atEnd (r : reader) : bool := r_pos r >=? r_bp r.
(** Goes with the definition above (Cheetah/SourceReader.py:144-148). *)
Definition atStart (r : reader) : bool := r_pos r =? 0.

(** [peek] (Cheetah/SourceReader.py:150-153). *)
Definition peek (r : reader) (off : Z) : res rerr N :=
  match checkPos r (r_pos r + off) with
  | Some e => Raise e
  | None => char_at (r_src r) (r_pos r + off)
  end.

(** Scanning for [(?:\r\n|\r|\n|\Z)]: start and end of the match, relative to the start of the
    scan (Cheetah/SourceReader.py:7). *)
Fixpoint eolz (s : pystr) : nat * nat :=
  match s with
  | [] => (0, 0)%nat
  | c :: r =>
      if (c =? 13)%N then
        match r with
        | d :: _ => if (d =? 10)%N then (0, 2)%nat else (0, 1)%nat
        | [] => (0, 1)%nat
        end
      else if (c =? 10)%N then (0, 1)%nat
      else let '(a, b) := eolz r in (S a, S b)
  end.

(** [EOLZre.search(src, pos)]; [re] clamps [pos] to the ends of the string
    (Cheetah/SourceReader.py:31, 191, 224). *)
Definition eol_search (s : pystr) (pos : Z) : Z * Z :=
  let p := Z.max 0 (Z.min pos (slen s)) in
  let '(a, b) := eolz (skipn (Z.to_nat p) s) in (p + Z.of_nat a, p + Z.of_nat b).

(** [src.rfind(c, 0, pos)] for one character and a non-negative [pos]
    (Cheetah/SourceReader.py:218). *)
Fixpoint rfind_char_aux (c : N) (i best : Z) (s : pystr) : Z :=
  match s with
  | [] => best
  | x :: r => rfind_char_aux c (i + 1) (if (x =? c)%N then i else best) r
  end.
(** Goes with the definition above (Cheetah/SourceReader.py:218). *)
Definition rfind_char (c : N) (s : pystr) (pos : Z) : Z :=
  rfind_char_aux c 0 (-1) (firstn (Z.to_nat pos) s).

(** [findBOL] (Cheetah/SourceReader.py:214-218). *)
Definition findBOL (s : pystr) (pos : Z) : Z :=
  Z.max (Z.max (rfind_char 10 s pos + 1) (rfind_char 13 s pos + 1)) 0.

(** [findEOL] (Cheetah/SourceReader.py:220-228). *)
Definition findEOL (s : pystr) (pos : Z) (gobble : bool) : Z :=
  let '(a, b) := eol_search s pos in if gobble then b else a.

(** [src.find(it, pos)] for [0 <= pos] (Cheetah/SourceReader.py:198-201). *)
Fixpoint find_from (it s : pystr) (i : Z) : Z :=
  if starts_with it s then i
  else match s with [] => -1 | _ :: r => find_from it r (i + 1) end.
(** Goes with the definition above (Cheetah/SourceReader.py:198-201). *)
Definition find_str (it s : pystr) (pos : Z) : Z :=
  if pos >? slen s then -1 else find_from it (skipn (Z.to_nat pos) s) pos.

(** [startswith] (Cheetah/SourceReader.py:203-207). *)
Definition r_startswith (r : reader) (it : pystr) (pos : option Z) : bool :=
  find_str it (r_src r) (match pos with None => r_pos r | Some p => p end) =? r_pos r.

(** [isLineClearToPos] (Cheetah/SourceReader.py:230-236); note that the beginning of the line is
    that of the current position, whatever [pos] is. *)
Definition isLineClearToPos (r : reader) (pos : option Z) : res rerr bool :=
  let p := match pos with None => r_pos r | Some p => p end in
  match checkPos r p with
  | Some e => Raise e
  | None =>
      let bol := findBOL (r_src r) (r_pos r) in
      let t := zslice (r_src r) bol p in
      Ok ((bol =? p) || match t with [] => false | _ => forallb is_space t end)
  end.

(** [matchWhiteSpace], [matchNonWhiteSpace] at a position (Cheetah/SourceReader.py:244-245, 260-261);
    the peek cannot fail there because the end is tested first. *)
Definition ws_at (r : reader) (WS : pystr) (p : Z) : bool :=
  negb (p >=? r_bp r)
  && match char_at (r_src r) p with Ok c => mem_char c WS | Raise _ => false end.
(** Goes with the definition above (Cheetah/SourceReader.py:244-245, 260-261). *)
Definition nonws_at (r : reader) (WS : pystr) (p : Z) : bool :=
  (p >=? r_bp r)
  || negb match char_at (r_src r) p with Ok c => mem_char c WS | Raise _ => false end.

(** [while self.pos() < limit: self.advance(); if not again: break], [n] being
    [limit - self.pos()] (Cheetah/SourceReader.py:254-257, 267-270). *)
Fixpoint advance_while (again : Z -> bool) (n : nat) (p : Z) : Z :=
  match n with
  | O => p
  | S n' => if again (p + 1) then advance_while again n' (p + 1) else p + 1
  end.

(** [getWhiteSpace] (Cheetah/SourceReader.py:247-258). *)
Definition getWhiteSpace (r : reader) (mx : option Z) (WS : pystr) : pystr * reader :=
  if negb (ws_at r WS (r_pos r)) then ([], r)
  else
    let limit := match mx with None => r_bp r | Some m => Z.min (r_bp r) (r_pos r + m) end in
    let p := advance_while (ws_at r WS) (Z.to_nat (limit - r_pos r)) (r_pos r) in
    (zslice (r_src r) (r_pos r) p, with_pos r p).

(** [getNonWhiteSpace] (Cheetah/SourceReader.py:263-271). *)
Definition getNonWhiteSpace (r : reader) (WS : pystr) : pystr * reader :=
  if negb (nonws_at r WS (r_pos r)) then ([], r)
  else
    let p := advance_while (nonws_at r WS) (Z.to_nat (r_bp r - r_pos r)) (r_pos r) in
    (zslice (r_src r) (r_pos r) p, with_pos r p).

(** The operations that move the reader or read from it, with their arguments
    (Cheetah/SourceReader.py:97-99, 115-196, 247-271). *)
Inductive rop :=
| SetPos (p : Z) | SetBreak (p : Z) | SetMark (name : pystr) | GotoMark (name : pystr)
| Peek (off : Z) | Getc | Ungetc (c : option N) | Advance (off : Z) | Rev (off : Z)
| Read (off : Z) | ReadTo (to : Z) (start : option Z) | ReadToEOL (start : option Z) (gobble : bool)
| GetWS (mx : option Z) (WS : pystr) | GetNonWS (WS : pystr).

(** What a call returns: [None], one character, or a string (Cheetah/SourceReader.py:97-196). *)
Inductive rval := VNone | VChar (c : N) | VText (s : pystr).

(** Moving after [checkPos] (Cheetah/SourceReader.py:97-99, 169-175). *)
Definition move_to (r : reader) (p : Z) : res rerr rval * reader :=
  match checkPos r p with
  | Some e => (Raise e, r)
  | None => (Ok VNone, with_pos r p)
  end.

(** [readTo] (Cheetah/SourceReader.py:183-188). *)
Definition readTo (r : reader) (to : Z) (start : option Z) : res rerr rval * reader :=
  match checkPos r to with
  | Some e => (Raise e, r)
  | None => (Ok (VText (zslice (r_src r) (match start with None => r_pos r | Some a => a end) to)),
             with_pos r to)
  end.

(** One operation: outcome and the reader afterwards (Cheetah/SourceReader.py, lines as
    cited per case). *)
Definition rstep (o : rop) (r : reader) : res rerr rval * reader :=
  match o with
  | SetPos p => move_to r p                                       (* 97-99 *)
  | SetBreak p => match setBreakPoint r p with                    (* 115-125 *)
                  | Ok r' => (Ok VNone, r') | Raise e => (Raise e, r) end
  | SetMark n => (Ok VNone, mkR (r_src r) (r_bp r) (r_pos r) (aset n (r_pos r) (r_marks r))) (* 127-129 *)
  | GotoMark n => match aget n (r_marks r) with                   (* 134-142 *)
                  | None => (Raise RError, r)
                  | Some p => if validPos r p then (Ok VNone, with_pos r p) else (Raise RError, r)
                  end
  | Peek off => (match peek r off with Ok c => Ok (VChar c) | Raise e => Raise e end, r) (* 150-153 *)
  | Getc =>                                                       (* 155-159 *)
      let r' := if validPos r (r_pos r + 1) then with_pos r (r_pos r + 1) else r in
      (match char_at (r_src r) (r_pos r) with Ok c => Ok (VChar c) | Raise e => Raise e end, r')
  | Ungetc c =>                                                   (* 161-167 *)
      if negb (atStart r) then (Raise RError, r)
      else (match c with None => Ok VNone | Some _ => Raise RTypeError end, with_pos r (r_pos r - 1))
  | Advance off => move_to r (r_pos r + off)                      (* 169-171 *)
  | Rev off => move_to r (r_pos r - off)                          (* 173-175 *)
  | Read off => readTo r (r_pos r + off) None                     (* 177-181 *)
  | ReadTo to start => readTo r to start                          (* 183-188 *)
  | ReadToEOL start gobble =>                                     (* 190-196 *)
      readTo r (findEOL (r_src r) (r_pos r) gobble) start
  | GetWS mx WS => let '(t, r') := getWhiteSpace r mx WS in (Ok (VText t), r')   (* 247-258 *)
  | GetNonWS WS => let '(t, r') := getNonWhiteSpace r WS in (Ok (VText t), r')   (* 263-271 *)
  end.

(** A sequence of calls by one user of the reader; a raised error is caught by the caller, who goes
    on (as the parser does, e.g. Cheetah/Parser.py:1142-1250). *)
Fixpoint rrun_ops (ops : list rop) (r : reader) : reader :=
  match ops with
  | [] => r
  | o :: rest => rrun_ops rest (snd (rstep o r))
  end.

(** ** Lines *)

(** The loop filling [_EOLs] (Cheetah/SourceReader.py:28-33); [None]: the model's fuel is used up. *)
Fixpoint eols_from (fuel : nat) (s : pystr) (bp pos : Z) : option (list Z) :=
  if pos <? bp then
    match fuel with
    | O => None
    | S n => let '(a, b) := eol_search s pos in
             match eols_from n s bp b with Some l => Some (a :: l) | None => None end
    end
  else Some [].

(** [_EOLs] and [_BOLs] after construction without break point (Cheetah/SourceReader.py:27-38). *)
Definition line_table (s : pystr) : option (list (Z * Z)) :=
  match eols_from (length s) s (slen s) 0 with
  | Some es => Some (map (fun e => (findBOL s e, e)) es)
  | None => None
  end.

(** The loop of [lineNum] (Cheetah/SourceReader.py:71-73); [None] is Python's [None]. *)
Fixpoint line_num (t : list (Z * Z)) (i pos : Z) : option Z :=
  match t with
  | [] => None
  | (b, e) :: r => if (pos >=? b) && (pos <=? e) then Some i else line_num r (i + 1) pos
  end.

(** [getRowCol] (Cheetah/SourceReader.py:75-80): indexing a list with [None] is a TypeError. *)
Definition getRowCol (t : list (Z * Z)) (pos : Z) : res rerr (Z * Z) :=
  match line_num t 0 pos with
  | None => Raise RTypeError
  | Some i => match nth_error t (Z.to_nat i) with
              | Some (b, _) => Ok (i + 1, pos - b + 1)
              | None => Raise RIndexError
              end
  end.

(** [getRowColLine] (Cheetah/SourceReader.py:82-86). *)
Definition getRowColLine (s : pystr) (t : list (Z * Z)) (pos : Z) : res rerr (Z * Z * pystr) :=
  match getRowCol t pos with
  | Raise e => Raise e
  | Ok (row, col) => match nth_error (splitlines s) (Z.to_nat (row - 1)) with
                     | Some l => Ok (row, col, l)
                     | None => Raise RIndexError
                     end
  end.

(** ** Error reports *)

(** The position of the stream after [ParseError.__init__] (Cheetah/Parser.py:268-276). *)
Definition parse_error_pos (r : reader) : res rerr reader :=
  if r_pos r >=? r_bp r then
    match rstep (SetPos (r_bp r - 1)) r with
    | (Ok _, r') => Ok r'
    | (Raise e, _) => Raise e
    end
  else Ok r.

(** [for i in range(1, 4): if row - 1 - i <= 0: break; prevLines.append(...)]
    (Cheetah/Parser.py:298-301), [n] rounds being left, this one with the given [i]. *)
Fixpoint prev_lines (lines : list pystr) (row i : Z) (n : nat) : res rerr (list (Z * pystr)) :=
  match n with
  | O => Ok []
  | S n' =>
      if row - 1 - i <=? 0 then Ok []
      else match nth_error lines (Z.to_nat (row - 1 - i)) with
           | None => Raise RIndexError
           | Some l => match prev_lines lines row (i + 1) n' with
                       | Ok r => Ok ((row - i, l) :: r)
                       | Raise e => Raise e
                       end
           end
  end.

(** [for i in range(1, 4): if not row - 1 + i < len(lines): break; nextLines.append(...)]
    (Cheetah/Parser.py:303-307). *)
Fixpoint next_lines (lines : list pystr) (row i : Z) (n : nat) : res rerr (list (Z * pystr)) :=
  match n with
  | O => Ok []
  | S n' =>
      if negb (row - 1 + i <? Z.of_nat (length lines)) then Ok []
      else match nth_error lines (Z.to_nat (row - 1 + i)) with
           | None => Raise RIndexError
           | Some l => match next_lines lines row (i + 1) n' with
                       | Ok r => Ok ((row + i, l) :: r)
                       | Raise e => Raise e
                       end
           end
  end.

(** What [ParseError.report] prints: row, column and the numbered lines in printing order
    (Cheetah/Parser.py:281-326); [prevLines] is popped from its end, [nextLines] is reversed and then
    popped from its end.  The layout of the text and an explicitly given [lineno] are not modelled. *)
Definition parse_report (r : reader) : res rerr (Z * Z * list (Z * pystr)) :=
  match line_table (r_src r) with
  | None => Raise RValueError
  | Some t =>
      match getRowColLine (r_src r) t (r_pos r) with
      | Raise e => Raise e
      | Ok (row, col, line) =>
          match prev_lines (splitlines (r_src r)) row 1 3, next_lines (splitlines (r_src r)) row 1 3 with
          | Ok p, Ok n => Ok (row, col, rev p ++ (row, line) :: n)
          | Raise e, _ => Raise e
          | _, Raise e => Raise e
          end
      end
  end.
