(** Model of the report on an error in the generated Python code (Cheetah/Template.py:826-838, 1982-2057) and
    of its printing (Cheetah/Parser.py:267-329).

    Given: the text [str(exception)], the formatted traceback and the line number (the attribute lineno, or the
    one found in the traceback).  Simplified: \d stands for the ASCII digits; a lineno of None (TypeError, caught
    like every exception of this function) is not modelled; the file name is left out. *)
From Verif Require Import Base PyStr Names_Model Reader_Model.

(** ["%-4d"] (Cheetah/Template.py:2016, 2024; Cheetah/Parser.py:318-326). *)
Definition row_no (n : nat) : pystr :=
  let s := str_of_N (N.of_nat n) in s ++ repeat 32%N (4 - length s).
(** ["%(row)-4d|%(line)s\n"] without the newline (Cheetah/Template.py:2015-2016). *)
Definition row_text (r : nat * pystr) : pystr := row_no (fst r) ++ [124%N] ++ snd r.

(** [for i in range(1, 4)] of prevLines, from [i] with [n] rounds left, in the order of appending; [None]:
    IndexError (Cheetah/Template.py:1999-2003). *)
Fixpoint before (lines : list pystr) (p i n : nat) : option (list (nat * pystr)) :=
  match n with
  | O => Some []
  | S n' =>
      if p <=? i then Some []
      else match nth_error lines (p - i) with
           | None => None
           | Some l => match before lines p (S i) n' with Some r => Some ((p + 1 - i, l) :: r) | None => None end
           end
  end.

(** The same of nextLines (Cheetah/Template.py:2005-2009). *)
Fixpoint after (lines : list pystr) (p i n : nat) : option (list (nat * pystr)) :=
  match n with
  | O => Some []
  | S n' =>
      if negb (p + i <? length lines) then Some []
      else match nth_error lines (p + i) with
           | None => None
           | Some l => match after lines p (S i) n' with Some r => Some ((p + i, l) :: r) | None => None end
           end
  end.

(** [' '*(3 + (exception.offset or 0)) + '^'] (Cheetah/Template.py:2018-2019).  Outer [None]: no such
    attribute; inner [None]: the attribute is None. *)
Definition caret (off : option (option nat)) : list pystr :=
  match off with
  | None => []
  | Some o => [repeat 32%N (3 + match o with Some n => n | None => 0 end) ++ [94%N]]
  end.

(** The table of the report: lines before, caret, lines after; prevLines is popped from its end, nextLines
    reversed and popped from its end (Cheetah/Template.py:2010-2024). *)
Definition table (lines : list pystr) (p : nat) (off : option (option nat)) : option (list pystr) :=
  match before lines p 1 3, after lines p 1 3 with
  | Some b, Some a => Some (map row_text (rev b) ++ caret off ++ map row_text a)
  | _, _ => None
  end.

(** [\d+] and [int] of it (Cheetah/Template.py:2035-2038). *)
Definition is_digit (c : N) : bool := (48 <=? c)%N && (c <=? 57)%N.
(** Goes with the definition above (Cheetah/Template.py:2035-2038). *)
Fixpoint span_digits (s : pystr) : pystr * pystr :=
  match s with
  | c :: r => if is_digit c then let '(d, t) := span_digits r in (c :: d, t) else ([], s)
  | [] => ([], [])
  end.
(** [int(digits)] (Cheetah/Template.py:2037-2038). *)
Definition num (s : pystr) : N := fold_left (fun a c => (10 * a + (c - 48))%N) s 0%N.

(** The pattern [line (\d+), col (\d+)] at the start of a text (Cheetah/Template.py:2035, 2046). *)
Definition match_mark (s : pystr) : option (N * N) :=
  if starts_with (L "line ") s then
    match span_digits (skipn 5 s) with
    | ([], _) => None
    | (d, t) =>
        if starts_with (L ", col ") t then
          match span_digits (skipn 6 t) with
          | ([], _) => None
          | (e, _) => Some (num d, num e)
          end
        else None
    end
  else None.
(** [re.search] of it (Cheetah/Template.py:2035, 2046). *)
Fixpoint search_mark (s : pystr) : option (N * N) :=
  match match_mark s with
  | Some m => Some m
  | None => match s with [] => None | _ :: r => search_mark r end
  end.

(** The position in the template, and whether it is a guess (Cheetah/Template.py:2035-2053). *)
Definition position (exc : pystr) (lines : list pystr) (p : nat) : option (N * N) * bool :=
  match search_mark exc with
  | Some m => (Some m, false)
  | None => (search_mark (join [10%N] (skipn (p - 2) lines)), true)
  end.

(** The message (Cheetah/Template.py:2010-2013, 2026-2034, 2041, 2050-2055). *)
Definition rule : pystr := repeat 61%N 80.
(** Goes with the definition above (Cheetah/Template.py:2010-2013, 2026-2034, 2041, 2050-2055). *)
Definition message (descr : pystr) (rows : list pystr) (pos : option (N * N) * bool) : pystr :=
  let report := concat (map (fun l => l ++ [10%N])
    (L "Line|Python Code" :: L "----|-------------------------------------------------------------" :: rows)) in
  join [10%N] ([L "Error in the Python code which Cheetah generated for this template:"; rule; []; descr; []; report; rule]
    ++ match pos with
       | (Some _, false) => [[10%N] ++ L "Here is the corresponding Cheetah code:" ++ [10%N]]
       | (Some _, true) => [[10%N] ++ L "Here is the corresponding Cheetah code.";
           L "** I had to guess the line & column numbers, so they are probably incorrect:" ++ [10%N]]
       | (None, _) => []
       end).

(** What [genParserErrorFromPythonException] makes; [None]: an IndexError, and the exception of Python is
    raised instead (Cheetah/Template.py:829-838, 1982-2057). *)
Record perror := mkE { e_msg : pystr; e_pos : option (N * N) }.
(** Goes with the definition above (Cheetah/Template.py:829-838, 1982-2057). *)
Definition gen_error (code descr exc : pystr) (p : nat) (off : option (option nat)) : option perror :=
  let lines := splitlines code in
  match table lines p off with
  | None => None
  | Some rows =>
      let pos := position exc lines p in
      Some (mkE (message descr rows pos) (fst pos))
  end.

(** [ParseError.report] for an error with a line number: [splitlines()[lineno - 1]] and the lines around
    (Cheetah/Parser.py:288-307); the line number 0 counts as none, which is left to [parse_report]. *)
Definition report_rows (src : pystr) (lineno : N) : res rerr (list (Z * pystr)) :=
  let lines := splitlines src in
  let row := Z.of_N lineno in
  match nth_error lines (N.to_nat lineno - 1) with
  | None => Raise RIndexError
  | Some l =>
      match prev_lines lines row 1 3, next_lines lines row 1 3 with
      | Ok a, Ok b => Ok (rev a ++ (row, l) :: b)
      | Raise e, _ => Raise e
      | _, Raise e => Raise e
      end
  end.
