(** Models of small functions on names and version strings: Cheetah/Version.py,
    Cheetah/convertTmplPathToModuleName.py, the name helpers of Cheetah/ImportManager.py,
    escapeRegexChars (Cheetah/Parser.py, Cheetah/FileUtils.py) and SourceFileStats
    (Cheetah/FileUtils.py). *)
From Verif Require Export PyStr.

(** ** Version strings *)

(** Exceptions of the version parser (Cheetah/Version.py:17, 20, 23, 29, 32). *)
Inductive vexn := ValueError | IndexError.

(** The digits of [int(s)]: at least one digit, single underscores between digits
    (built-in used at Cheetah/Version.py:29, 32).  Non-ASCII digits are left out. *)
Fixpoint int_digits (acc : N) (prev_digit : bool) (s : pystr) : option N :=
  match s with
  | [] => if prev_digit then Some acc else None
  | c :: r =>
      if (48 <=? c)%N && (c <=? 57)%N then int_digits (acc * 10 + (c - 48))%N true r
      else if (c =? 95)%N && prev_digit then int_digits acc false r
      else None
  end.

(** [int(s)] (built-in used at Cheetah/Version.py:29, 32); [None] is ValueError. *)
Definition py_int (s : pystr) : option Z :=
  match strip s with
  | [] => None
  | c :: r =>
      if (c =? 45)%N then option_map (fun n => (- Z.of_N n)%Z) (int_digits 0 false r)
      else if (c =? 43)%N then option_map Z.of_N (int_digits 0 false r)
      else option_map Z.of_N (int_digits 0 false (c :: r))
  end.

(** [s.split('rc')] (Cheetah/Version.py:23); [cur] is the current piece, reversed, and
    [skip] is set just after an [r] that starts the separator. *)
Fixpoint split_rc_aux (skip : bool) (cur : pystr) (s : pystr) : list pystr :=
  match s with
  | [] => [rev cur]
  | c :: r =>
      if skip then split_rc_aux false cur r
      else if starts_with (L "rc") s then rev cur :: split_rc_aux true [] r
      else split_rc_aux false (c :: cur) r
  end.
(** Goes with the definition above (Cheetah/Version.py:23). *)
Definition split_rc (s : pystr) : list pystr := split_rc_aux false [] s.

(** [s.find('rc') != -1] (Cheetah/Version.py:22). *)
Fixpoint has_rc (s : pystr) : bool :=
  match s with [] => false | _ :: r => starts_with (L "rc") s || has_rc r end.

(** [for i in range(len(num)): versionNum[i] = int(num[i])] (Cheetah/Version.py:28-29);
    [done]: the components already stored, [pad]: the zeros not yet overwritten. *)
Fixpoint store_nums (done pad : list Z) (num : list pystr) {struct num} : res vexn (list Z) :=
  match num with
  | [] => Ok (done ++ pad)
  | x :: r =>
      match py_int x with
      | None => Raise ValueError
      | Some z => match pad with
                  | [] => Raise IndexError
                  | _ :: pad' => store_nums (done ++ [z]) pad' r
                  end
      end
  end.

(** The tuple (major, minor, patch, releaseType, subNum) (Cheetah/Version.py:34). *)
Definition vtuple : Type := (list Z * pystr * Z).

(** [convertVersionStringToTuple] (Cheetah/Version.py:12-34).  Line 30-31 never applies: the
    list has three elements from the start. *)
Definition convertVersionStringToTuple (s : pystr) : res vexn vtuple :=
  let two (l : list pystr) (ty : pystr) :=
    match l with
    | [num; sub] => Ok (num, ty, sub)
    | _ => Raise ValueError
    end in
  match (if mem_char 97 s then two (split_char 97 s) (L "alpha")
         else if mem_char 98 s then two (split_char 98 s) (L "beta")
         else if has_rc s then two (split_rc s) (L "candidate")
         else Ok (s, L "final", L "0")) with
  | Raise e => Raise e
  | Ok (num, ty, sub) =>
      match store_nums [] [0; 0; 0]%Z (split_char 46 num) with
      | Raise e => Raise e
      | Ok nums => match py_int sub with
                   | None => Raise ValueError
                   | Some z => Ok (nums, ty, z)
                   end
      end
  end.

(** [a < b] for strings: code point order (used by the tuple comparison at
    Cheetah/Template.py:1288). *)
Fixpoint str_ltb (a b : pystr) : bool :=
  match a, b with
  | _, [] => false
  | [], _ :: _ => true
  | x :: a', y :: b' => (x <? y)%N || ((x =? y)%N && str_ltb a' b')
  end.

(** [a < b] for version tuples (Cheetah/Template.py:1288). *)
Fixpoint nums_ltb (a b : list Z) (tie : bool) : bool :=
  match a, b with
  | x :: a', y :: b' => (x <? y)%Z || ((x =? y)%Z && nums_ltb a' b' tie)
  | _, _ => tie
  end.
(** Goes with the definition above (Cheetah/Template.py:1288). *)
Definition tuple_ltb (a b : vtuple) : bool :=
  let '(n1, t1, s1) := a in
  let '(n2, t2, s2) := b in
  nums_ltb n1 n2 (str_ltb t1 t2 || (str_eqb t1 t2 && (s1 <? s2)%Z)).

(** [MinCompatibleVersionTuple] (Cheetah/Version.py:7). *)
Definition minCompatible : vtuple := ([3; 0; 0]%Z, L "alpha", 1%Z).

(** The version check of a template whose module carries [__CHEETAH_version__] = [v] and whose
    class has no [_CHEETAH_versionTuple]: true when AssertionError is raised; other exceptions
    are swallowed (Cheetah/Template.py:1282-1297). *)
Definition version_check_rejects (v : pystr) : bool :=
  match convertVersionStringToTuple v with
  | Ok t => tuple_ltb t minCompatible
  | Raise _ => false
  end.

(** ** Template path to module name *)

(** [string.digits + string.ascii_letters] (Cheetah/convertTmplPathToModuleName.py:7, 12). *)
Definition is_alnum (c : N) : bool :=
  ((48 <=? c) && (c <=? 57) || (65 <=? c) && (c <=? 90) || (97 <=? c) && (c <=? 122))%N.

(** One entry of the 256-character table; [str.translate] leaves characters outside the table
    alone (Cheetah/convertTmplPathToModuleName.py:11-14, 23). *)
Definition path_char (c : N) : N :=
  if (c <? 256)%N then (if is_alnum c then c else 95%N) else c.

(** [convertTmplPathToModuleName] on POSIX, where [splitdrive] returns ('', path)
    (Cheetah/convertTmplPathToModuleName.py:18-27). *)
Definition convertTmplPathToModuleName (p : pystr) : pystr := map path_char p.

(** ** ImportManager name helpers *)

(** [s[i:j]] for 0 <= i, 0 <= j (Cheetah/ImportManager.py:115, 123, 126, 133). *)
Definition slice (s : pystr) (i j : nat) : pystr := firstn (j - i) (skipn i s).

(** [s[j] == '.'] (Cheetah/ImportManager.py:111, 122, 132). *)
Definition is_dot_at (s : pystr) (j : nat) : bool :=
  match nth_error s j with Some c => (c =? 46)%N | None => false end.

(** The descending loop [for i in range(len(s) - 1, -1, -1)] looking for a dot
    (Cheetah/ImportManager.py:110-112, 131-132); indices below [k] are still to be tried. *)
Fixpoint last_dot (s : pystr) (k : nat) : option nat :=
  match k with
  | O => None
  | S i => if is_dot_at s i then Some i else last_dot s i
  end.

(** [packageName] (Cheetah/ImportManager.py:109-115). *)
Definition packageName (s : pystr) : pystr :=
  match last_dot s (length s) with Some i => slice s 0 i | None => [] end.

(** [getPathExt] (Cheetah/ImportManager.py:130-134). *)
Definition getPathExt (s : pystr) : pystr :=
  match last_dot s (length s) with Some i => slice s i (length s) | None => [] end.

(** The loop of [nameSplit] (Cheetah/ImportManager.py:121-127): [n] iterations are left, [j] is
    the current index, [i] the start of the current chunk. *)
Fixpoint nameSplit_loop (s : pystr) (n i j : nat) (rslt : list pystr) : list pystr :=
  match n with
  | O => if i <? length s then rslt ++ [slice s i (length s)] else rslt
  | S n' =>
      if is_dot_at s j then nameSplit_loop s n' (j + 1) (j + 1) (rslt ++ [slice s i j])
      else nameSplit_loop s n' i (j + 1) rslt
  end.

(** [nameSplit] (Cheetah/ImportManager.py:118-127). *)
Definition nameSplit (s : pystr) : list pystr := nameSplit_loop s (length s) 0 0 [].

(** ** Regular expression escaping *)

(** The class of escapeRE: [$ ^ * + . ? { } [ ] ( ) | \ ] (Cheetah/Parser.py:38,
    Cheetah/FileUtils.py:11). *)
Definition regex_specials : pystr := L "$^*+.?{}[]()|\".

(** [escapeRegexChars] (Cheetah/Parser.py:37-42), the same function as [_escapeRegexChars]
    (Cheetah/FileUtils.py:10-12). *)
Fixpoint escapeRegexChars (s : pystr) : pystr :=
  match s with
  | [] => []
  | c :: r => if mem_char c regex_specials then 92%N :: c :: escapeRegexChars r
              else c :: escapeRegexChars r
  end.

(** ** Source statistics *)

(** A line boundary of [str.splitlines] (built-in used at Cheetah/FileUtils.py:348). *)
Definition is_linebreak (c : N) : bool :=
  ((10 <=? c) && (c <=? 13) || (28 <=? c) && (c <=? 30) || (c =? 133) || (c =? 8232)
   || (c =? 8233))%N.

(** [s.splitlines()] (Cheetah/FileUtils.py:348); [cur]: the line being read, reversed;
    [cr]: the previous character was a carriage return that ended a line. *)
Fixpoint splitlines_aux (cr : bool) (cur : pystr) (s : pystr) : list pystr :=
  match s with
  | [] => match cur with [] => [] | _ => [rev cur] end
  | c :: r =>
      if cr && (c =? 10)%N then splitlines_aux false [] r
      else if is_linebreak c then rev cur :: splitlines_aux (c =? 13)%N [] r
      else splitlines_aux false (c :: cur) r
  end.
(** Goes with the definition above (Cheetah/FileUtils.py:348). *)
Definition splitlines (s : pystr) : list pystr := splitlines_aux false [] s.

(** [commentLineRe.match(line)] for a line without a newline: whitespace then a hash
    (Cheetah/FileUtils.py:346, 352). *)
Definition is_comment_line (l : pystr) : bool :=
  match l with a :: b :: _ => is_space a && (b =? 35)%N | _ => false end.

(** [blankLineRe.match(line)] for a line without a newline: exactly one whitespace character
    (Cheetah/FileUtils.py:347, 354). *)
Definition is_blank_line (l : pystr) : bool :=
  match l with [a] => is_space a | _ => false end.

(** The statistics dictionary (Cheetah/FileUtils.py:359-363). *)
Record fstats := mkF { f_code : nat; f_blank : nat; f_comment : nat; f_total : nat }.

(** The counting loop (Cheetah/FileUtils.py:351-357). *)
Fixpoint count_lines (ls : list pystr) (code blank comment : nat) : nat * nat * nat :=
  match ls with
  | [] => (code, blank, comment)
  | l :: r =>
      if is_comment_line l then count_lines r code blank (S comment)
      else if is_blank_line l then count_lines r code (S blank) comment
      else count_lines r (S code) blank comment
  end.

(** [getFileStats] on the file's text (Cheetah/FileUtils.py:342-365). *)
Definition getFileStats (text : pystr) : fstats :=
  let lines := splitlines text in
  let '(c, b, m) := count_lines lines 0 0 0 in
  mkF c b m (length lines).

(** [summary] over the per-file statistics (Cheetah/FileUtils.py:321-337). *)
Fixpoint summary_loop (l : list fstats) (acc : fstats) : fstats :=
  match l with
  | [] => acc
  | f :: r => summary_loop r
      (mkF (f_code acc + f_code f) (f_blank acc + f_blank f)
           (f_comment acc + f_comment f) (f_total acc + f_total f))
  end.
(** Goes with the definition above (Cheetah/FileUtils.py:321-337). *)
Definition stats_summary (l : list fstats) : fstats := summary_loop l (mkF 0 0 0 0).
