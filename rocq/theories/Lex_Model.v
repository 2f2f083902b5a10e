(** Model of the top level of the parser: recognising tokens, plain text, comments, line slurping and
    #raw blocks (Cheetah/Parser.py), together with the compiler's buffer of pending static text
    (Cheetah/Compiler.py).

    Representation: the reader's position is a split of the source into the characters before it
    ([before], the nearest first) and the characters from it on ([rest]); positions as numbers are
    modelled in Reader_Model.v.  The break point is the end of the source (it differs only while a
    single-line directive's line is parsed, Cheetah/Parser.py:1811). *)
From Verif Require Export Base PyStr.
From Verif Require Import Names_Model Reader_Model.

(** The settings used here (Cheetah/Compiler.py:114-124, 96-99), and the names of the registered
    directives (Cheetah/Parser.py:1443-1457, 171-240). *)
Record toks := mkT {
  t_var : pystr; t_com : pystr; t_ml : pystr; t_mlend : pystr; t_gobble : bool;
  t_dir : pystr; t_dirend : pystr; t_dirws : bool; t_psp : pystr; t_slurp : pystr;
  t_names : list pystr; t_disabled : list pystr; t_enabled : list pystr }.

(** The directive names of a default parser (Cheetah/Parser.py:171-240; the i18n macro: 1475). *)
Definition default_names : list pystr := map L
  ["import"; "from"; "extends"; "implements"; "super"; "slurp"; "raw"; "include"; "cache"; "filter";
   "echo"; "silent"; "transform"; "call"; "arg"; "capture"; "attr"; "def"; "block"; "@"; "defmacro";
   "closure"; "set"; "del"; "if"; "while"; "for"; "else"; "elif"; "pass"; "break"; "continue"; "stop";
   "return"; "yield"; "repeat"; "unless"; "assert"; "raise"; "try"; "except"; "finally"; "errorCatcher";
   "breakpoint"; "compiler"; "compiler-settings"; "shBang"; "encoding"; "end"; "i18n"]%string.

(** The default settings (Cheetah/Compiler.py:96-99, 114-124). *)
Definition dflt : toks :=
  mkT (L "$") (L "##") (L "#*") (L "*#") true (L "#") (L "#") false (L "<%") (L "#") default_names [] [].

(** ** Characters *)

(** [identchars] (Cheetah/Parser.py:80), also the class [A-Za-z_] of the regular expressions
    (Cheetah/Parser.py:486, 487, 497). *)
Definition identchar (c : N) : bool :=
  ((65 <=? c) && (c <=? 90) || (97 <=? c) && (c <=? 122) || (c =? 95))%N.

(** [directiveNameChars] (Cheetah/Parser.py:753). *)
Definition dnchar (c : N) : bool :=
  identchar c || ((48 <=? c) && (c <=? 57) || (c =? 45) || (c =? 64))%N.

(** The class [[ \t\f]] (Cheetah/Parser.py:486, 506, 511; Cheetah/SourceReader.py:244). *)
Definition blank (c : N) : bool := ((c =? 32) || (c =? 9) || (c =? 12))%N.

(** A character that starts a line break (Cheetah/Parser.py:152, Cheetah/SourceReader.py:7). *)
Definition eolchar (c : N) : bool := ((c =? 10) || (c =? 13))%N.

(** [[ \t\f]*] taken greedily (Cheetah/Parser.py:486, 506, 511). *)
Fixpoint dropws (s : pystr) : pystr :=
  match s with c :: r => if blank c then dropws r else s | [] => [] end.

(** ** Regular expressions *)

(** [escCharLookBehind] (Cheetah/Parser.py:154). *)
Definition esc_ok (before : pystr) : bool :=
  match before with c :: _ => negb (c =? 92)%N | [] => true end.

(** A look-behind followed by a literal token: comment, multi-line comment, PSP and directive end
    tokens (Cheetah/Parser.py:520-521, 528-531, 545, 551-554). *)
Definition m_tok (tok before rest : pystr) : bool := esc_ok before && starts_with tok rest.

(** The run matched by [[0-9\.]+] is dropped (Cheetah/Parser.py:453). *)
Fixpoint dropnum (s : pystr) : pystr :=
  match s with c :: r => if ((48 <=? c) && (c <=? 57) || (c =? 46))%N then dropnum r else s | [] => [] end.

(** The cache token (Cheetah/Parser.py:454-470): what follows it.  The refresh form is a star, a number,
    an optional unit letter and a star; otherwise a single star, otherwise nothing.  When the refresh
    form does not match, nothing that is required after the token can follow the single star and a
    digit, so no backtracking is needed. *)
Definition after_cache (s : pystr) : pystr :=
  match s with
  | c :: r =>
      if (c =? 42)%N then
        let n := dropnum r in
        if (length n =? length r)%nat then r
        else match n with
             | u :: n' =>
                 if (u =? 42)%N then n'
                 else if mem_char u (L "smhdw")
                      then match n' with v :: n'' => if (v =? 42)%N then n'' else r | [] => r end
                      else r
             | [] => r
             end
      else s
  | [] => []
  end.

(** The opening brackets of a placeholder enclosure (Cheetah/Parser.py:486, 506). *)
Definition opener (c : N) : bool := ((c =? 123) || (c =? 40) || (c =? 91))%N.
(** Goes with the definition above (Cheetah/Parser.py:486, 506). *)
Definition closer (c : N) : bool := ((c =? 125) || (c =? 41) || (c =? 93))%N.

(** [cheetahVarStartRE] (Cheetah/Parser.py:480-486). *)
Definition m_var (T : toks) (before rest : pystr) : bool :=
  m_tok (t_var T) before rest
  && let r := skipn (length (t_var T)) rest in
     let r := match r with c :: r' => if (c =? 33)%N then r' else r | [] => [] end in
     let r := after_cache r in
     let r := match r with c :: r' => if opener c then dropws r' else r | [] => [] end in
     match r with c :: _ => identchar c | [] => false end.

(** [expressionPlaceholderStartRE] (Cheetah/Parser.py:500-506); the greedy run of blanks after the
    bracket is given back one by one, so at least one blank is enough for the look-ahead. *)
Definition m_expr (T : toks) (before rest : pystr) : bool :=
  m_tok (t_var T) before rest
  && match after_cache (skipn (length (t_var T)) rest) with
     | c :: r => opener c && match r with d :: _ => negb (closer d) | [] => false end
     | [] => false
     end.

(** The optional run of blanks of [directiveStartTokenRE] (Cheetah/Parser.py:541-542). *)
Fixpoint dropbl (s : pystr) : pystr :=
  match s with c :: r => if ((c =? 32) || (c =? 9))%N then dropbl r else s | [] => [] end.

(** [matchDirectiveStartToken]: what follows the token (Cheetah/Parser.py:533-545, 780-781). *)
Definition m_dirstart (T : toks) (before rest : pystr) : option pystr :=
  if m_tok (t_dir T) before rest then
    let r := skipn (length (t_dir T)) rest in
    let r := if t_dirws T then dropbl r else r in
    match r with c :: _ => if identchar c || (c =? 64)%N then Some r else None | [] => None end
  else None.

(** [matchDirectiveName] (Cheetah/Parser.py:752-778): the loop, with [possibleMatches] and the name
    read so far. *)
Fixpoint match_name (possible : list pystr) (name s : pystr) : option pystr :=
  match s with
  | [] => None
  | c :: r =>
      if negb (dnchar c) then None
      else
        let name' := name ++ [c] in
        if str_eqb name' [64%N] then
          match r with d :: _ => if identchar d then Some [64%N] else None | [] => None end
        else
          match filter (starts_with name') possible with
          | [] => None
          | p =>
              if existsb (str_eqb name') p
                 && match r with d :: _ => negb (dnchar d) | [] => true end
              then Some name'
              else match_name p name' r
          end
  end.

(** [matchDirective] (Cheetah/Parser.py:741-750). *)
Definition m_dir (T : toks) (before rest : pystr) : option pystr :=
  match m_dirstart T before rest with
  | Some r => match_name (t_names T) [] r
  | None => None
  end.

(** [matchEOLSlurpToken] (Cheetah/Parser.py:508-515, 611-613): no look-behind. *)
Definition m_slurp (T : toks) (rest : pystr) : bool :=
  match t_slurp T with
  | [] => false
  | tok => starts_with tok rest
           && match dropws (skipn (length tok) rest) with c :: _ => eolchar c | [] => false end
  end.

(** What stands at the position, in the order of the parse loop (Cheetah/Parser.py:1545-1560). *)
Inductive tclass :=
| KComment | KMulti | KVar | KExpr | KDirective (name : pystr) | KPSP | KSlurp | KText.

(** Goes with the definition above (Cheetah/Parser.py:1545-1560). *)
Definition classify (T : toks) (before rest : pystr) : tclass :=
  if m_tok (t_com T) before rest then KComment
  else if m_tok (t_ml T) before rest then KMulti
  else if m_var T before rest then KVar
  else if m_expr T before rest then KExpr
  else match m_dir T before rest with
       | Some n => KDirective n
       | None => if m_tok (t_psp T) before rest then KPSP
                 else if m_slurp T rest then KSlurp
                 else KText
       end.

(** [_possibleNonStrConstantChars] (Cheetah/Parser.py:431-436); the tokens must not be empty. *)
Definition first_chars (T : toks) : pystr :=
  firstn 1 (t_com T) ++ firstn 1 (t_ml T) ++ firstn 1 (t_var T) ++ firstn 1 (t_dir T) ++ firstn 1 (t_psp T).

(** [matchTopLevelToken] as a test (Cheetah/Parser.py:573-591). *)
Definition top_match (T : toks) (before rest : pystr) : bool :=
  match rest with
  | [] => false
  | c :: _ => mem_char c (first_chars T)
              && match classify T before rest with KText => false | _ => true end
  end.

(** The loop of [eatPlainText] (Cheetah/Parser.py:1570-1575): text read, and where it stops. *)
Fixpoint plain_run (T : toks) (before rest : pystr) : pystr * pystr * pystr :=
  match rest with
  | [] => ([], before, [])
  | c :: r =>
      if top_match T before rest then ([], before, rest)
      else let '(t, b, r') := plain_run T (c :: before) r in (c :: t, b, r')
  end.

(** [_unescapeCheetahVars] and [_unescapeDirectives] in this order (Cheetah/Parser.py:556-568,
    1577-1578). *)
Definition unescape (T : toks) (s : pystr) : pystr :=
  replace_str (92%N :: t_dir T) (t_dir T) (replace_str (92%N :: t_var T) (t_var T) s).

(** ** The compiler's buffer *)

(** What has been generated: a write of static text, or a comment line in the generated method
    (Cheetah/Compiler.py:476-505, 532-534). *)
Inductive item := Text (s : pystr) | Rem (line : pystr).

(** [_pendingStrConstChunks], last chunk first, and the generated items in order
    (Cheetah/Compiler.py:345, 470-474). *)
Record buf := mkB { pend : list pystr; done : list item }.

(** [addStrConst] (Cheetah/Compiler.py:470-474, 526-527). *)
Definition add_text (s : pystr) (b : buf) : buf := mkB (s :: pend b) (done b).

(** [commitStrConst] (Cheetah/Compiler.py:476-487); the literal itself is modelled in
    StrConst_Model.v. *)
Definition commit (b : buf) : buf :=
  match pend b with
  | [] => b
  | p => match concat (rev p) with
         | [] => mkB [] (done b)
         | s => mkB [] (done b ++ [Text s])
         end
  end.

(** [handleWSBeforeDirective] (Cheetah/Compiler.py:507-514). *)
Definition handle_ws (b : buf) : buf :=
  match pend b with
  | [] => b
  | src :: p =>
      let bol := findBOL src (slen src) in
      if (bol <? slen src)%Z then mkB (firstn (Z.to_nat bol) src :: p) (done b) else b
  end.

(** [re.match(r'#+$', comm)]: hashes up to the end or up to a final newline
    (Cheetah/Compiler.py:2002). *)
Fixpoint drop_hashes (s : pystr) : pystr :=
  match s with c :: r => if (c =? 35)%N then drop_hashes r else s | [] => [] end.
(** Goes with the definition above (Cheetah/Compiler.py:2002). *)
Definition bar_comment (comm : pystr) : bool :=
  match comm with
  | c :: _ => (c =? 35)%N && match drop_hashes comm with [] => true | [d] => (d =? 10)%N | _ => false end
  | [] => false
  end.

(** [specialVarRE.match(comm)] as a test (Cheetah/Parser.py:159, Cheetah/Compiler.py:2005): the class
    [[a-zA-z_]] reaches from A to z. *)
Definition special_char (c : N) : bool := ((65 <=? c) && (c <=? 122))%N.
(** Goes with the definition above (Cheetah/Compiler.py:2005). *)
Fixpoint special_rest (s : pystr) : bool :=
  match s with c :: r => (c =? 64)%N || special_char c && special_rest r | [] => false end.
(** Goes with the definition above (Cheetah/Compiler.py:2005). *)
Definition special_var (comm : pystr) : bool :=
  match comm with c :: r => special_char c && special_rest r | [] => false end.

(** [addComment] (Cheetah/Compiler.py:2001-2030).  Special variables, doc strings and module headers do
    not go into the method body; they are left out here. *)
Definition add_comment (comm : pystr) (b : buf) : buf :=
  if bar_comment comm || special_var comm
     || existsb (fun p => starts_with p comm)
          [L "doc:"; L "doc-method:"; L "doc-module:"; L "doc-class:"; L "header:"]
  then b
  else fold_left (fun b line => let b := commit b in mkB (pend b) (done b ++ [Rem line]))
         (splitlines comm) b.

(** ** Moving over the source *)

(** Going forward over [n] characters ([readTo], [advance]: Cheetah/SourceReader.py:169-188). *)
Fixpoint go (n : nat) (before rest : pystr) : pystr * pystr :=
  match n, rest with
  | S n', c :: r => go n' (c :: before) r
  | _, _ => (before, rest)
  end.

(** [isLineClearToStartToken()] at the current position (Cheetah/Parser.py:570-571,
    Cheetah/SourceReader.py:230-236). *)
Fixpoint line_clear (before : pystr) : bool :=
  match before with
  | c :: r => if eolchar c then true else is_space c && line_clear r
  | [] => true
  end.

(** The text up to the end of the line ([findEOL()], Cheetah/SourceReader.py:220-228). *)
Definition eol_off (rest : pystr) : nat := fst (eolz rest).
(** ... and with the line break ([findEOL(gobble=True)]). (Cheetah/SourceReader.py:220-228) *)
Definition eol_end (rest : pystr) : nat := snd (eolz rest).

(** [readToEOL] (Cheetah/SourceReader.py:190-196). *)
Definition read_eol (gobble : bool) (before rest : pystr) : pystr * (pystr * pystr) :=
  let n := if gobble then eol_end rest else eol_off rest in
  (firstn n rest, go n before rest).

(** ** Eating *)

(** The state of parser and compiler. (Cheetah/SourceReader.py:94-98, Cheetah/Compiler.py:505) *)
Record pst := mkP { before : pystr; rest : pystr; out : buf }.

(** Errors: the parser's, the reader's, [IndexError], and the refusal of a disabled directive
    (Cheetah/Parser.py:267, 334-343, Cheetah/SourceReader.py:11, 153). *)
Inductive perr := PParse | PReader | PIndex | PForbidden (name : pystr).

(** [eatPlainText] (Cheetah/Parser.py:1567-1580). *)
Definition eat_plain (T : toks) (st : pst) : pst :=
  let '(t, b, r) := plain_run T (before st) (rest st) in
  mkP b r (add_text (unescape T t) (out st)).

(** [eatComment] (Cheetah/Parser.py:1582-1588). *)
Definition eat_comment (T : toks) (st : pst) : pst :=
  let clear := line_clear (before st) in
  let o := if clear then handle_ws (out st) else out st in
  let '(b, r) := go (length (t_com T)) (before st) (rest st) in
  let '(comm, (b, r)) := read_eol clear b r in
  mkP b r (add_comment comm o).

(** The loop of [eatMultiLineComment] (Cheetah/Parser.py:1598-1610): [acc] is the text passed so far,
    reversed.  Result: the text up to [endPos] and the position [endPos].  [None]: the model's fuel is
    used up. *)
Fixpoint ml_loop (fuel : nat) (T : toks) (level : nat) (b r : pystr) : option (res perr (pystr * pystr)) :=
  match fuel with
  | O => None
  | S n =>
      match r with
      | [] => Some (Ok (b, r))
      | _ =>
          let '(level', (b', r')) :=
            if m_tok (t_ml T) b r then (S level, go (length (t_ml T)) b r)
            else if m_tok (t_mlend T) b r then (level - 1, go (length (t_mlend T)) b r)
            else (level, (b, r)) in
          match level' with
          | O => Some (Ok (b, r))
          | _ => match r' with
                 | [] => Some (Raise PReader)
                 | c :: r'' => ml_loop n T level' (c :: b') r''
                 end
          end
      end
  end.

(** [eatMultiLineComment] (Cheetah/Parser.py:1590-1625). *)
Definition eat_multi (T : toks) (st : pst) : option (res perr pst) :=
  let clear := line_clear (before st) in
  let first_eol := (length (before st) + eol_off (rest st))%nat in
  let '(b, r) := go (length (t_ml T)) (before st) (rest st) in
  match ml_loop (S (length r)) T 1 b r with
  | None => None
  | Some (Raise e) => Some (Raise e)
  | Some (Ok (b1, r1)) =>
      let comm := firstn (length b1 - length b) r in
      match r1 with
      | [] => Some (Ok (mkP b1 r1 (add_comment comm (out st))))
      | _ =>
          if m_tok (t_mlend T) b1 r1 then
            let '(b2, r2) := go (length (t_mlend T)) b1 r1 in
            match r2 with
            | [] => Some (Ok (mkP b2 r2 (add_comment comm (out st))))
            | _ =>
                if t_gobble T then
                  let '(b3, r3) :=
                    if forallb is_space (firstn (eol_off r2) r2)
                    then snd (read_eol clear b2 r2) else (b2, r2) in
                  let o :=
                    if clear && (match r3 with [] => true | _ => false end
                                 || (first_eol <? length b3)%nat)
                    then handle_ws (out st) else out st in
                  Some (Ok (mkP b3 r3 (add_comment comm o)))
                else Some (Ok (mkP b2 r2 (add_comment comm (out st))))
            end
          else Some (Raise PParse)
      end
  end.

(** [eatEOLSlurpToken] and [eatSlurp] (Cheetah/Parser.py:2285-2295). *)
Definition eat_slurp (st : pst) : pst :=
  let o := if line_clear (before st) then handle_ws (out st) else out st in
  let '(b, r) := snd (read_eol true (before st) (rest st)) in
  mkP b r (commit o).

(** [getWhiteSpace()] (Cheetah/SourceReader.py:247-258). *)
Fixpoint skip_ws (b r : pystr) : pystr * pystr :=
  match r with
  | c :: r' => if blank c then skip_ws (c :: b) r' else (b, r)
  | [] => (b, [])
  end.

(** [matchColonForSingleLineShortFormDirective] (Cheetah/Parser.py:798-808). *)
Definition short_form (T : toks) (r : pystr) : bool :=
  match r with
  | c :: r' =>
      (c =? 58)%N
      && match strip (firstn (eol_off r') r') with
         | [] => false
         | t => negb (starts_with (t_com T) t)
         end
  | [] => false
  end.

(** [_eatRestOfDirectiveTag] (Cheetah/Parser.py:1705-1727). *)
Definition eat_rest_of_tag (T : toks) (clear : bool) (first_eol : nat) (st : pst) : pst :=
  let '(found, st1) :=
    if m_tok (t_com T) (before st) (rest st) then
      match go 1 (before st) (rest st) with
      | (b, r) => match m_dir T b r with
                  | None => (true, eat_comment T st)
                  | Some _ => (false, st)
                  end
      end
    else (false, st) in
  let '(b, r) :=
    if negb found && m_tok (t_dirend T) (before st1) (rest st1)
    then go (length (t_dirend T)) (before st1) (rest st1)
    else if clear && match rest st1 with c :: _ => eolchar c | [] => false end
         then snd (read_eol true (before st1) (rest st1))
         else (before st1, rest st1) in
  let o := if clear && (match r with [] => true | _ => false end || (first_eol <? length b)%nat)
           then handle_ws (out st1) else out st1 in
  mkP b r o.

(** The search loop of [_eatToThisEndDirective] (Cheetah/Parser.py:1734-1752).  Result: [endRawPos],
    whether the line of the #end is clear, and [finalPos].  A directive [#end] with another name is
    passed together with the blanks and the one character behind it.  [None]: the fuel is used up. *)
Fixpoint find_end (fuel : nat) (T : toks) (name b r : pystr)
  : option (res perr (nat * bool * (pystr * pystr))) :=
  match fuel with
  | O => None
  | S n =>
      match r with
      | [] => Some (Ok (length b, false, (b, [])))
      | c :: r' =>
          match m_dirstart T b r with
          | Some r1 =>
              if starts_with (firstn 1 (t_dir T)) r
                 && match match_name (t_names T) [] r1 with Some d => str_eqb d (L "end") | None => false end
              then
                let '(b2, r2) := go (length r - length r1 + 3) b r in
                let '(b3, r3) := skip_ws b2 r2 in
                if starts_with name r3 then
                  let clear := line_clear b in
                  let raw_end := if clear then (length b - eol_off b)%nat else length b in
                  let '(b4, r4) := go (length name) b3 r3 in
                  Some (Ok (raw_end, clear, skip_ws b4 r4))
                else match r3 with
                     | [] => Some (Raise PReader)
                     | d :: r4 => find_end n T name (d :: b3) r4
                     end
              else find_end n T name (c :: b) r'
          | None => find_end n T name (c :: b) r'
          end
      end
  end.

(** [_eatToThisEndDirective] (Cheetah/Parser.py:1729-1766): the text eaten and the new state. *)
Definition eat_to_end (T : toks) (name : pystr) (st : pst) : option (res perr (pystr * pst)) :=
  match find_end (S (length (rest st))) T name (before st) (rest st) with
  | None => None
  | Some (Raise e) => Some (Raise e)
  | Some (Ok (raw_end, clear, (b, r))) =>
      let text := firstn (raw_end - length (before st)) (rest st) in
      let first_eol := (length b + eol_off r)%nat in
      let '(b', r') :=
        if m_tok (t_dirend T) b r then go (length (t_dirend T)) b r
        else if clear && match r with c :: _ => eolchar c | [] => false end
             then snd (read_eol true b r) else (b, r) in
      let o := if clear && (first_eol <? length b')%nat then handle_ws (out st) else out st in
      Some (Ok (text, mkP b' r' o))
  end.

(** [getDirectiveStartToken] followed by [advance] over the name (Cheetah/Parser.py:783-787;
    e.g. 2300-2301): the caller has matched the directive. *)
Definition skip_dir (T : toks) (name b r : pystr) : pystr * pystr :=
  match m_dirstart T b r with
  | Some r1 => go (length r - length r1 + length name) b r
  | None => (b, r)
  end.

(** [eatRaw] (Cheetah/Parser.py:2297-2314). *)
Definition eat_raw (T : toks) (st : pst) : option (res perr pst) :=
  let clear := line_clear (before st) in
  let first_eol := (length (before st) + eol_off (rest st))%nat in
  let '(b, r) := skip_dir T (L "raw") (before st) (rest st) in
  let '(b, r) := skip_ws b r in
  if short_form T r then
    let '(b, r) := go 1 b r in
    let '(b, r) := match r with c :: r' => if blank c then (c :: b, r') else (b, r) | [] => (b, r) end in
    let '(raw, (b, r)) := read_eol false b r in
    Some (Ok (mkP b r (add_text raw (out st))))
  else
    match r with
    | [] => Some (Raise PIndex)
    | c :: r' =>
        let '(b, r) := if (c =? 58)%N then (c :: b, r') else (b, r) in
        let '(b, r) := skip_ws b r in
        match eat_to_end T (L "raw") (eat_rest_of_tag T clear first_eol (mkP b r (out st))) with
        | None => None
        | Some (Raise e) => Some (Raise e)
        | Some (Ok (raw, st')) => Some (Ok (mkP (before st') (rest st') (add_text raw (out st'))))
        end
    end.

(** ** The parse loop *)

(** [str.lower] on the characters of directive names (Cheetah/Parser.py:1526). *)
Definition lower_ascii (s : pystr) : pystr :=
  map (fun c => if ((65 <=? c) && (c <=? 90))%N then (c + 32)%N else c) s.

(** [_filterDisabledDirectives] (Cheetah/Parser.py:1525-1533). *)
Definition forbidden (T : toks) (name : pystr) : bool :=
  let n := lower_ascii name in
  existsb (str_eqb n) (t_disabled T)
  || match t_enabled T with [] => false | e => negb (existsb (str_eqb n) e) end.

(** Everything that is not modelled here: placeholders, the other directives and PSP code; [None] stands
    for a call that does not return (Cheetah/Parser.py:1627-1660, 1670-1703). *)
Definition eater := tclass -> pst -> option (res perr pst).

(** One round of the loop of [parse] (Cheetah/Parser.py:1544-1560), with the dispatch of [eatDirective]
    to [eatSlurp] and [eatRaw] (Cheetah/Parser.py:1670-1681) and the filter at the start of
    [eatDirective] and [eatPSP] (Cheetah/Parser.py:1644, 1672). *)
Definition step (T : toks) (other : eater) (st : pst) : option (res perr pst) :=
  match classify T (before st) (rest st) with
  | KComment => Some (Ok (eat_comment T st))
  | KMulti => eat_multi T st
  | KDirective n =>
      if forbidden T n then Some (Raise (PForbidden n))
      else if str_eqb n (L "slurp") then Some (Ok (eat_slurp st))
      else if str_eqb n (L "raw") then eat_raw T st
      else other (KDirective n) st
  | KPSP => if forbidden T (L "psp") then Some (Raise (PForbidden (L "psp"))) else other KPSP st
  | KSlurp => Some (Ok (eat_slurp st))
  | KText => Some (Ok (eat_plain T st))
  | k => other k st
  end.

(** The loop of [parse] (Cheetah/Parser.py:1543-1560).  [None]: the fuel is used up or a call does not
    return. *)
Fixpoint parse (fuel : nat) (T : toks) (other : eater) (st : pst) : option (res perr pst) :=
  match fuel with
  | O => None
  | S n =>
      match rest st with
      | [] => Some (Ok st)
      | _ => match step T other st with
             | Some (Ok st') => parse n T other st'
             | r => r
             end
      end
  end.

(** The state at the start (Cheetah/Compiler.py:345, Cheetah/SourceReader.py:16-25). *)
Definition start (src : pystr) : pst := mkP [] src (mkB [] []).

(** Compiling a template body: the parse loop, then [commitStrConst] from [cleanupState]
    (Cheetah/Compiler.py:1088-1090). *)
Definition compile_body (fuel : nat) (T : toks) (other : eater) (src : pystr)
  : option (res perr (list item)) :=
  match parse fuel T other (start src) with
  | None => None
  | Some (Raise e) => Some (Raise e)
  | Some (Ok st) => Some (Ok (done (commit (out st))))
  end.

(** The text written by the generated items (Cheetah/Compiler.py:443-444, 505): comments write
    nothing. *)
Fixpoint written (l : list item) : pystr :=
  match l with
  | [] => []
  | Text s :: r => s ++ written r
  | Rem _ :: r => written r
  end.

(** ** Simple directives *)

(** [getExpression], not modelled here: the expression and the number of characters read
    (Cheetah/Parser.py:1252-1265). *)
Definition xreader := pystr -> pystr -> res perr (pystr * nat).

(** [eatSimpleExprDirective] (Cheetah/Parser.py:1768-1784), without hooks and the stack of open
    directives: the expression and the state. *)
Definition eat_simple_expr (T : toks) (gx : xreader) (incl : bool) (name : pystr) (st : pst)
  : res perr (pystr * pst) :=
  let clear := line_clear (before st) in
  let first_eol := (length (before st) + eol_off (rest st))%nat in
  let '(b, r) := skip_dir T (if incl then [] else name) (before st) (rest st) in
  match gx b r with
  | Raise e => Raise e
  | Ok (x, n) =>
      let '(b, r) := go n b r in
      let x := strip x in
      match split_ws x with
      | [] => Raise PIndex
      | _ => Ok (x, eat_rest_of_tag T clear first_eol (mkP b r (out st)))
      end
  end.

(** The names whose expression starts with the directive name (Cheetah/Parser.py:1792-1793). *)
Definition keeps_name (name : pystr) : bool :=
  existsb (str_eqb name) (map L ["else"; "elif"; "for"; "while"; "try"; "except"; "finally"]%string).

(** [eatSimpleIndentingDirective] up to the call of the handler (Cheetah/Parser.py:1786-1802, 1814-1821);
    [None]: the single-line form (Cheetah/Parser.py:1803-1813), which is not modelled. *)
Definition eat_indenting (T : toks) (gx : xreader) (name : pystr) (st : pst)
  : option (res perr (pystr * pst)) :=
  let clear := line_clear (before st) in
  let first_eol := (length (before st) + eol_off (rest st))%nat in
  let '(b, r) := skip_dir T (if keeps_name name then [] else name) (before st) (rest st) in
  let '(b, r) := skip_ws b r in
  match gx b r with
  | Raise e => Some (Raise e)
  | Ok (x, n) =>
      let '(b, r) := go n b r in
      if short_form T r then None
      else match r with
           | [] => Some (Raise PIndex)
           | c :: r' =>
               let '(b, r) := if (c =? 58)%N then (c :: b, r') else (b, r) in
               let '(b, r) := skip_ws b r in
               Some (Ok (x, eat_rest_of_tag T clear first_eol (mkP b r (out st))))
           end
  end.
