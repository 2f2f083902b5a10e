(** Model of the whole parser: the loop over the source, placeholders, directives and PSP code, and the
    calls of the code generator they make (Cheetah/Parser.py:1055-1140, 1537-2764).

    It joins Lex_Model.v (tokens, text, comments), Expr_Model.v (expressions) and Gen_Model.v (code
    generation).  A position is, as there, a split of the source.

    Simplifications.  The body of a single-line directive is parsed as if the source ended at the break
    point (Cheetah/Parser.py:1541-1543); this differs only for tokens that reach over the end of the line.
    The text of a directive is taken apart into keyword and expression ([opener_of]); what stands between
    the two is not kept, and texts that are not of that form (they give invalid Python) are an error of
    their own.  Row and column of a position, the random identifiers of regions and the contents of cache
    infos are parameters, and so are the directives that do not end up in the body of a method. *)
From Verif Require Import Base PyStr Reader_Model.
From Verif Require Export Expr_Model.
From Verif Require Gen_Model Names_Model.

Local Notation cs := Gen_Model.cs.

(** ** State, errors, parameters *)

(** Position and state of the compiler. (Cheetah/SourceReader.py:94-98, Cheetah/Parser.py:1399) *)
Record fstate := mkF { f_b : pystr; f_r : pystr; f_c : cs }.

(** Errors of the reading and lexical part, of the expression parser, of the generator; a ParseError
    raised by the functions here; a directive whose text is not taken apart (see above); an exception of a
    macro or of the evaluation of its arguments (Macro_Model.v). (Cheetah/Parser.py:1541-1543) *)
Inductive ferr :=
| FLex (e : perr) | FExpr (e : xerr) | FGen (e : Gen_Model.gerr) | FParse (p : nat) | FText | FMacro.

(** Outcomes; [None]: out of fuel (Cheetah/Parser.py:1541-1560). *)
Definition fout (A : Type) := option (res ferr A).
(** Goes with the definition above (Cheetah/Parser.py:1541-1560). *)
Definition fok {A} (a : A) : fout A := Some (Ok a).
(** Goes with the definition above (Cheetah/Parser.py:1541-1560). *)
Definition ferror {A} (e : ferr) : fout A := Some (Raise e).

(** [raise ParseError(self)]: a position at the end is moved back by one (Cheetah/Parser.py:267-276). *)
Definition fparse {A} (b r : pystr) : fout A :=
  ferror (FParse (match r with [] => pred (length b) | _ => length b end)).

(** Sequencing of statements (Python's; exceptions pass; Cheetah/Parser.py:1541-1560). *)
Definition fbind {A B} (x : fout A) (f : A -> fout B) : fout B :=
  match x with
  | None => None
  | Some (Raise e) => Some (Raise e)
  | Some (Ok a) => f a
  end.

(** A call of the expression parser, and of the generator (Cheetah/Parser.py:1142-1265, 1541-1560). *)
Definition from_x {A} (x : out A) : fout (A * (pystr * pystr)) :=
  match x with
  | None => None
  | Some (Raise e) => Some (Raise (FExpr e))
  | Some (Ok a) => Some (Ok a)
  end.
(** Goes with the definition above (Cheetah/Parser.py:1541-1560). *)
Definition from_g {A} (x : res Gen_Model.gerr A) : fout A :=
  match x with Ok a => Some (Ok a) | Raise e => Some (Raise (FGen e)) end.

(** The parameters: settings and Python's tokenizer ([e_X]), settings of the generator, useNameMapper
    (Cheetah/Compiler.py:69), PSPEndToken (Cheetah/Compiler.py:121); row and column of a position
    (Cheetah/SourceReader.py:70-93, modelled in Reader_Model.v); the identifier drawn for a region that
    starts at a position (Cheetah/Compiler.py:760-762, 859-860, 949-950, 1012-1013); the cache info of a
    placeholder with a cache token and of the arguments of #cache (Cheetah/Compiler.py:162-185); the
    directives that are not modelled here (Cheetah/Parser.py:1682-1702). *)
Record env := mkE {
  e_X : lang; e_G : Gen_Model.gset; e_um : bool; e_pspend : pystr;
  e_lc : nat -> N * N; e_id : nat -> pystr;
  e_ci : pystr -> pystr -> Gen_Model.cinfo;
  e_cargs : list (pystr * option pystr) -> res ferr Gen_Model.cinfo;
  e_other : pystr -> fstate -> fout fstate }.

(** The settings with another value of useSearchList (Cheetah/Parser.py:2141, 2162, 2169) and of useAutocalling
    (Cheetah/Parser.py:2553-2560). *)
Definition lang_with (X : lang) (ac sl : bool) : lang :=
  mkLang (x_T X) (x_tok X) (x_ceval X) (x_printable X) ac sl (x_frames X) (x_filterargs X).

(** ** Def argument lists *)

(** [ArgList] (Cheetah/Parser.py:359-388): arguments, defaults and the counter. *)
Record arglist := mkAL { al_args : list pystr; al_defs : list (option pystr); al_count : nat }.

(** [add_argument] (Cheetah/Parser.py:367-369). *)
Definition add_argument (a : arglist) (n : pystr) : arglist :=
  mkAL (al_args a ++ [n]) (al_defs a ++ [None]) (al_count a).

(** [next] (Cheetah/Parser.py:371-372). *)
Definition next_arg (a : arglist) : arglist := mkAL (al_args a) (al_defs a) (S (al_count a)).

(** [add_default] (Cheetah/Parser.py:374-378); [None]: IndexError. *)
Definition add_default (a : arglist) (t : pystr) : option arglist :=
  match nth_error (al_defs a) (al_count a) with
  | None => None
  | Some d =>
      Some (mkAL (al_args a)
                 (firstn (al_count a) (al_defs a)
                  ++ Some (match d with None => [] | Some x => x end ++ t)
                  :: skipn (S (al_count a)) (al_defs a))
                 (al_count a))
  end.

(** [merge] (Cheetah/Parser.py:380-388): the two lists have the same length. *)
Definition merge (a : arglist) : list (pystr * option pystr) :=
  combine (map strip (al_args a))
          (map (fun d => match d with
                         | Some d => match strip d with [] => None | s => Some s end
                         | None => None
                         end) (al_defs a)).

Section Readers.
Variable E : env.
Local Notation G := (e_G E).

(** The settings at the moment (Cheetah/Parser.py:2141, 2162, 2169: useSearchList is changed while parsing). *)
Definition lang_at (c : cs) : lang := lang_with (e_X E) (x_autocall (e_X E)) (Gen_Model.s_sl c).

(** A depth of calls that is enough (see C64). (Cheetah/Parser.py:1142-1265) *)
Definition enough (r : pystr) : nat := 5 * length r + 10.

(** [getExpression(pyTokensToBreakAt=brk, useNameMapper=um)] (Cheetah/Parser.py:1142-1265). *)
Definition get_expr (c : cs) (um : bool) (brk : list pystr) (b r : pystr) : fout (pystr * (pystr * pystr)) :=
  from_x (expr (lang_at c) (enough r) um false [] brk b r).

(** [getExpressionParts] (Cheetah/Parser.py:1142-1251). *)
Definition get_parts (c : cs) (um : bool) (brk : list pystr) (b r : pystr) : fout (list pystr * (pystr * pystr)) :=
  from_x (parts (lang_at c) (enough r) um [] brk b r).

(** The identifier at the position ([getIdentifier], Cheetah/Parser.py:708-715). *)
Fixpoint namerun (b r : pystr) : pystr * (pystr * pystr) :=
  match r with
  | c :: r1 => if namechar c then let '(w, p) := namerun (c :: b) r1 in (c :: w, p) else ([], (b, r))
  | [] => ([], (b, r))
  end.
(** Goes with the definition above (Cheetah/Parser.py:708-715). *)
Definition get_ident (b r : pystr) : fout (pystr * (pystr * pystr)) :=
  if at_ident r then fok (namerun b r) else fparse b r.

(** [transformToken(getPyToken())], with an expression read at an opening bracket
    (Cheetah/Parser.py:1120-1125). *)
Definition get_default_token (X : lang) (um : bool) (b r : pystr) : fout (option pystr * (pystr * pystr)) :=
  match x_tok X r with
  | None => from_x (fail b r MInvalid)
  | Some k =>
      let tok := firstn k r in
      if is_open_tok tok then
        fbind (from_x (expr X (enough r) um true [] [] b r)) (fun '(x, (b1, r1)) =>
        from_x (transform X (enough r) um b r x b1 r1))
      else
        let '(b1, r1) := go k b r in from_x (transform X (enough r) um b r tok b1 r1)
  end.

(** The loop of [getDefArgList] (Cheetah/Parser.py:1084-1136).  [exit]: what is left of the source at
    exitPos, if there is one, as a number of characters.  [None]: the fuel is used up. *)
Fixpoint def_loop (fuel : nat) (X : lang) (um : bool) (exit : option nat) (a : arglist) (ondef : bool)
  (b r : pystr) : fout (arglist * (pystr * pystr)) :=
  match fuel with
  | O => None
  | S n =>
      match r with
      | [] => fparse b r
      | c :: r1 =>
          if match exit with Some k => (length r =? k)%nat | None => false end then fok (a, (b, r))
          else if (c =? 41)%N || m_tok (t_dirend (x_T X)) b r then fok (a, (b, r))
          else if (c =? 58)%N then fok (a, (b, r))
          else if blank c || eolchar c then
            if ondef then match add_default a [c] with
                          | Some a => def_loop n X um exit a ondef (c :: b) r1
                          | None => ferror (FLex PIndex)
                          end
            else def_loop n X um exit a ondef (c :: b) r1
          else if (c =? 61)%N then def_loop n X um exit a true (c :: b) r1
          else if (c =? 44)%N then def_loop n X um exit (next_arg a) false (c :: b) r1
          else if starts_with (t_var (x_T X)) r && negb ondef then
            let '(b2, r2) := go (length (t_var (x_T X))) b r in def_loop n X um exit a ondef b2 r2
          else if at_ident r && negb ondef then
            let '(w, (b2, r2)) := namerun b r in def_loop n X um exit (add_argument a w) ondef b2 r2
          else if ondef then
            fbind (if m_xvar (x_T X) r then
                     fbind (from_x (cvar X (enough r) um false b r)) (fun '(x, p) => fok (Some x, p))
                   else if m_var (x_T X) b r then from_x (var_error (x_T X) b r)
                   else get_default_token X um b r)
                  (fun '(t, (b2, r2)) =>
                   match t with
                   | None => ferror (FExpr XType)
                   | Some t =>
                       match add_default a t with
                       | Some a => def_loop n X um exit a ondef b2 r2
                       | None => ferror (FLex PIndex)
                       end
                   end)
          else if (c =? 42)%N then
            let '(stars, (b2, r2)) :=
              if at_char 42 r1 then (L "**", go 2 b r) else (L "*", go 1 b r) in
            fbind (get_ident b2 r2) (fun '(w, (b3, r3)) =>
            def_loop n X um exit (add_argument a (stars ++ w)) ondef b3 r3)
          else fparse b r
      end
  end.

(** [getDefArgList] (Cheetah/Parser.py:1055-1140). *)
Definition def_args (c : cs) (um : bool) (b r : pystr)
  : fout (list (pystr * option pystr) * (pystr * pystr)) :=
  let X := lang_at c in
  match r with
  | [] => ferror (FLex PIndex)
  | d :: r1 =>
      let '(exit, (b, r)) :=
        if (d =? 40)%N then (None, (d :: b, r1)) else (Some (length r - eol_off r)%nat, (b, r)) in
      fbind (def_loop (S (length r)) X um exit (mkAL [] [] 0) false b r) (fun '(a, p) => fok (merge a, p))
  end.

(** [if argsList and argsList[0][0] == 'self': del argsList[0]] (Cheetah/Parser.py:2069-2070). *)
Definition drop_self (l : list (pystr * option pystr)) : list (pystr * option pystr) :=
  match l with (n, _) :: r => if str_eqb n (L "self") then r else l | [] => [] end.

(** ** The buffer of the active method *)

(** The pending text of the active method compiler, as the buffer of Lex_Model.v
    (Cheetah/Compiler.py:345). *)
Definition top_buf (c : cs) : buf :=
  match Gen_Model.s_act c with m :: _ => mkB (Gen_Model.m_pend m) [] | [] => mkB [] [] end.

(** What was generated goes to the body of the method (Cheetah/Compiler.py:432-441, 505, 532-534). *)
Definition item_chunk (lev : nat) (i : item) : Gen_Model.chunk :=
  match i with
  | Text s => Gen_Model.mkC lev (Gen_Model.Ln (Gen_Model.GWrite s)) []
  | Rem s => Gen_Model.mkC lev (Gen_Model.Ln (Gen_Model.GComment
               (L "#" ++ repeat 32%N (Gen_Model.g_offset G) ++ s))) []
  end.
(** Goes with the definition above (Cheetah/Compiler.py:432-441, 505, 532-534). *)
Definition absorb (o : buf) (c : cs) : cs :=
  match Gen_Model.s_act c with
  | m :: r =>
      Gen_Model.set_act
        (Gen_Model.set_pend (pend o)
           (Gen_Model.set_body (Gen_Model.m_body m ++ map (item_chunk (Gen_Model.m_lev m)) (done o)) m) :: r) c
  | [] => c
  end.

(** Running a function of Lex_Model.v. (Cheetah/Compiler.py:432-441, 505, 532-534) *)
Definition with_lex (f : pst -> option (res perr pst)) (s : fstate) : fout fstate :=
  match f (mkP (f_b s) (f_r s) (top_buf (f_c s))) with
  | None => None
  | Some (Raise e) => Some (Raise (FLex e))
  | Some (Ok p) => Some (Ok (mkF (before p) (rest p) (absorb (Lex_Model.out p) (f_c s))))
  end.

(** [_eatRestOfDirectiveTag] (Cheetah/Parser.py:1705-1727). *)
Definition rest_of_tag (clear : bool) (first_eol : nat) (s : fstate) : fout fstate :=
  with_lex (fun p => Some (Ok (eat_rest_of_tag (x_T (e_X E)) clear first_eol p))) s.

(** [if self.peek() == ':': self.advance()] and [self.getWhiteSpace()] (Cheetah/Parser.py:1814-1816). *)
Definition skip_colon (b r : pystr) : fout (pystr * pystr) :=
  match r with
  | [] => ferror (FLex PIndex)
  | c :: r1 => fok (if (c =? 58)%N then (c :: b, r1) else (b, r))
  end.

(** ** From the text of a directive to its parts *)

(** The text behind a keyword, without the first blank (see above; Cheetah/Parser.py:1790-1821). *)
Definition arg_of (kw x : pystr) : option pystr :=
  if starts_with kw x then
    Some (match skipn (length kw) x with c :: r => if (c =? 32)%N then r else c :: r | [] => [] end)
  else None.

(** Target and iterable of a #for: the first blank, [in], blank (Cheetah/Parser.py:1222-1230 reads the
    target up to [in]). *)
Fixpoint split_in (x : pystr) : option (pystr * pystr) :=
  if starts_with (L " in ") x then Some ([], skipn 4 x)
  else match x with
       | [] => None
       | c :: r => match split_in r with Some (t, e) => Some (c :: t, e) | None => None end
       end.

(** The opening directive that an expression with the directive's name in it stands for
    (Cheetah/Parser.py:1786-1821, 2731-2750; Cheetah/Compiler.py:608-693). *)
Definition opener_of (name x : pystr) : option Gen_Model.opener :=
  if str_eqb name (L "if") then option_map Gen_Model.OIf (arg_of name x)
  else if str_eqb name (L "unless") then Some (Gen_Model.OUnless x)
  else if str_eqb name (L "while") then option_map Gen_Model.OWhile (arg_of name x)
  else if str_eqb name (L "repeat") then Some (Gen_Model.ORepeat x)
  else if str_eqb name (L "for") then
    match arg_of name x with
    | Some y => match split_in y with Some (t, e) => Some (Gen_Model.OFor t e) | None => None end
    | None => None
    end
  else if str_eqb name (L "try") then if str_eqb (strip x) name then Some Gen_Model.OTry else None
  else None.

(** The same for the directives between (Cheetah/Compiler.py:664-693). *)
Definition mid_of (name x : pystr) : option Gen_Model.mid :=
  if str_eqb name (L "else") || str_eqb name (L "elif") then
    let y := Gen_Model.else_sub 0 x in
    if str_eqb (strip y) (L "else") then Some Gen_Model.MElse
    else option_map Gen_Model.MElif (arg_of (L "elif") y)
  else if str_eqb name (L "except") then option_map Gen_Model.MExcept (arg_of name x)
  else if str_eqb name (L "finally") then if str_eqb (strip x) name then Some Gen_Model.MFinally else None
  else None.
Definition is_mid (name : pystr) : bool :=  (* Cheetah/Parser.py:1804 *)
  existsb (str_eqb name) (map L ["else"; "elif"; "except"; "finally"]%string).

(** Which handler gets the expression (Cheetah/Parser.py:1688-1702). *)
Definition kind_of (name : pystr) : Gen_Model.xkind :=
  if str_eqb name (L "silent") then Gen_Model.KSilent
  else if str_eqb name (L "echo") then Gen_Model.KEcho
  else if str_eqb name (L "stop") then Gen_Model.KStop else Gen_Model.KOther.

(** [assignmentOps] (Cheetah/Parser.py:89-92). *)
Definition assign_ops : list pystr :=
  map L ["="; "+="; "-="; "/="; "*="; "**="; "^="; "%="; ">>="; "<<="; "&="; "|="]%string.

(** ** Eating *)
Section Eat.
(** [self.parse(breakPoint=...)] on a source that ends there (Cheetah/Parser.py:1537-1563). *)
Variable sub : fstate -> fout fstate.

(** [getWhiteSpace(max=1)], then parsing up to the end of the line (Cheetah/Parser.py:1809-1810, 2531,
    2570-2571, 2622, 2689-2690, 2738-2739). *)
Definition parse_line (gobble : bool) (s : fstate) : fout fstate :=
  let '(b, r) := match f_r s with
                 | c :: r' => if blank c then (c :: f_b s, r') else (f_b s, f_r s)
                 | [] => (f_b s, f_r s)
                 end in
  let n := if gobble then eol_end r else eol_off r in
  fbind (sub (mkF b (firstn n r) (f_c s))) (fun s' => fok (mkF (f_b s') (f_r s' ++ skipn n r) (f_c s'))).

(** A directive with a body, once its expression is read: short or long form
    (Cheetah/Parser.py:1802-1821, 2529-2542, 2566-2580, 2618-2633, 2685-2700, 2736-2750). *)
Definition short_or_long (o : Gen_Model.opener) (gobble clear : bool) (first_eol start : nat) (s : fstate)
  : fout fstate :=
  let id := e_id E start in
  let lc := e_lc E start in
  if short_form (x_T (e_X E)) (f_r s) then
    let '(b, r) := go 1 (f_b s) (f_r s) in
    fbind (from_g (Gen_Model.open_short G o id lc (f_c s))) (fun '(c, mem) =>
    fbind (parse_line gobble (mkF b r c)) (fun s' =>
    fbind (from_g (Gen_Model.close_short G o mem (f_c s'))) (fun c =>
    fok (mkF (f_b s') (f_r s') c))))
  else
    fbind (skip_colon (f_b s) (f_r s)) (fun '(b, r) =>
    let '(b, r) := skip_ws b r in
    fbind (rest_of_tag clear first_eol (mkF b r (f_c s))) (fun s' =>
    fbind (from_g (Gen_Model.open_long G o id lc (f_c s'))) (fun c =>
    fok (mkF (f_b s') (f_r s') c)))).

(** [eatPlaceholder] (Cheetah/Parser.py:1627-1641) with [addPlaceholder] (Cheetah/Compiler.py:536-564). *)
Definition eat_placeholder (s : fstate) : fout fstate :=
  let T := x_T (e_X E) in
  let p := length (f_b s) in
  fbind (from_x (placeholder (lang_at (f_c s)) (enough (f_r s)) (e_um E) true (f_b s) (f_r s)))
    (fun '((x, fa), (b, r)) =>
     let raw := firstn (length (f_r s) - length r) (f_r s) in
     let r1 := skipn (length (t_var T)) (f_r s) in
     let silent := at_char 33 r1 in
     let r2 := if silent then skipn 1 r1 else r1 in
     let token := firstn (length r2 - length (after_cache r2)) r2 in
     let place := Gen_Model.step G (Gen_Model.EPlace x (match fa with Some a => a | None => [] end)
                                                     raw (e_lc E p) silent) in
     fbind (from_g (match token with
                    | [] => place (f_c s)
                    | _ =>
                        Gen_Model.bind (Gen_Model.on_top
                          (Gen_Model.start_cache G (e_ci E token raw) (e_id E p) (e_lc E p)) (f_c s)) (fun c =>
                        Gen_Model.bind (place c) (Gen_Model.on_top Gen_Model.end_cache))
                    end)) (fun c =>
     fok (mkF b r c))).

(** [eatPSP] (Cheetah/Parser.py:1643-1657). *)
Fixpoint psp_end (b r : pystr) : pystr * (pystr * pystr) :=
  match r with
  | [] => ([], (b, r))
  | c :: r1 => if m_tok (e_pspend E) b r then ([], (b, r))
               else let '(t, p) := psp_end (c :: b) r1 in (c :: t, p)
  end.
(** Goes with the definition above (Cheetah/Parser.py:1643-1657). *)
Definition eat_psp (s : fstate) : fout fstate :=
  let T := x_T (e_X E) in
  let '(b, r) := go (length (t_psp T)) (f_b s) (f_r s) in
  let '(t, (b, r)) := psp_end b r in
  fbind (from_g (Gen_Model.step G (Gen_Model.EPsp (strip t)) (f_c s))) (fun c =>
  if m_tok (e_pspend E) b r
  then let '(b, r) := go (length (e_pspend E)) b r in fok (mkF b r c)
  else fparse b r).

(** [eatSimpleExprDirective] and its handler (Cheetah/Parser.py:1693-1702, 1768-1784). *)
Definition eat_simple (name : pystr) (s : fstate) : fout fstate :=
  let T := x_T (e_X E) in
  let clear := line_clear (f_b s) in
  let first_eol := (length (f_b s) + eol_off (f_r s))%nat in
  let incl := negb (str_eqb name (L "silent") || str_eqb name (L "echo")) in
  let '(b, r) := skip_dir T (if incl then [] else name) (f_b s) (f_r s) in
  fbind (get_expr (f_c s) (e_um E) [] b r) (fun '(x, (b, r)) =>
  let x := strip x in
  match split_ws x with
  | [] => ferror (FLex PIndex)
  | _ =>
      fbind (rest_of_tag clear first_eol (mkF b r (f_c s))) (fun s' =>
      fbind (from_g (Gen_Model.step G (Gen_Model.EExpr (kind_of name) x) (f_c s'))) (fun c =>
      fok (mkF (f_b s') (f_r s') c)))
  end).

(** [eatSimpleIndentingDirective] (Cheetah/Parser.py:1786-1821). *)
Definition eat_indent (name : pystr) (s : fstate) : fout fstate :=
  let T := x_T (e_X E) in
  let start := length (f_b s) in
  let clear := line_clear (f_b s) in
  let first_eol := (start + eol_off (f_r s))%nat in
  let lc := e_lc E start in
  let '(b, r) := skip_dir T (if keeps_name name then [] else name) (f_b s) (f_r s) in
  let '(b, r) := skip_ws b r in
  fbind (get_expr (f_c s) (e_um E) [L ":"] b r) (fun '(x, (b, r)) =>
  if is_mid name then
    match mid_of name x with
    | None => ferror FText
    | Some m =>
        if short_form T r then
          let '(b, r) := go 1 b r in
          fbind (from_g (Gen_Model.on_top (Gen_Model.add_reindenting (Gen_Model.mid_head m) false lc) (f_c s)))
            (fun c =>
          fbind (parse_line true (mkF b r c)) (fun s' =>
          fbind (from_g (Gen_Model.on_top (fun m => Gen_Model.dedent (Gen_Model.commit m)) (f_c s'))) (fun c =>
          fok (mkF (f_b s') (f_r s') c))))
        else
          fbind (skip_colon b r) (fun '(b, r) =>
          let '(b, r) := skip_ws b r in
          fbind (rest_of_tag clear first_eol (mkF b r (f_c s))) (fun s' =>
          fbind (from_g (Gen_Model.step G (Gen_Model.EMid m lc) (f_c s'))) (fun c =>
          fok (mkF (f_b s') (f_r s') c))))
    end
  else
    match opener_of name x with
    | None => ferror FText
    | Some o => short_or_long o true clear first_eol start (mkF b r (f_c s))
    end).

(** The three expressions of [#if … then … else …] (Cheetah/Parser.py:2717-2729): the parts between the
    parts that are, stripped, [then] and [else].  [cur]: 0, 1, 2 for conditionExpr, trueExpr, falseExpr. *)
Fixpoint split_then (cur : nat) (l : list pystr) : pystr * pystr * pystr :=
  match l with
  | [] => ([], [], [])
  | p :: l =>
      if str_eqb (strip p) (L "then") then split_then 1 l
      else if str_eqb (strip p) (L "else") then split_then 2 l
      else let '(c, t, f) := split_then cur l in
           match cur with
           | 0 => (p ++ c, t, f)
           | 1 => (c, p ++ t, f)
           | _ => (c, t, p ++ f)
           end
  end.

(** [eatIf] (Cheetah/Parser.py:2702-2750). *)
Definition eat_if (s : fstate) : fout fstate :=
  let T := x_T (e_X E) in
  let start := length (f_b s) in
  let clear := line_clear (f_b s) in
  let first_eol := (start + eol_off (f_r s))%nat in
  let '(b, r) := skip_dir T [] (f_b s) (f_r s) in
  fbind (get_parts (f_c s) (e_um E) [L ":"] b r) (fun '(ps, (b, r)) =>
  let x := strip (concat ps) in
  if Gen_Model.mem_str (L "then") ps && Gen_Model.mem_str (L "else") ps then
    let '(x, t, e) := split_then 0 ps in
    fbind (rest_of_tag clear first_eol (mkF b r (f_c s))) (fun s' =>
    match arg_of (L "if") x with
    | None => ferror FText
    | Some x =>
        fbind (from_g (Gen_Model.step G (Gen_Model.ETern x t e (e_lc E start)) (f_c s'))) (fun c =>
        fok (mkF (f_b s') (f_r s') c))
    end)
  else match opener_of (L "if") x with
       | None => ferror FText
       | Some o => short_or_long o true clear first_eol start (mkF b r (f_c s))
       end).

(** [eatEndDirective] (Cheetah/Parser.py:1823-1870). *)
Definition eat_end (s : fstate) : fout fstate :=
  let T := x_T (e_X E) in
  let clear := line_clear (f_b s) in
  let '(b, r) := skip_dir T (L "end") (f_b s) (f_r s) in
  let '(b, r) := skip_ws b r in
  match Gen_Model.end_name r with
  | None => fparse b r
  | Some name =>
      let first_eol := (length b + eol_off r)%nat in
      fbind (get_expr (f_c s) (e_um E) [] b r) (fun '(_, (b, r)) =>
      fbind (rest_of_tag clear first_eol (mkF b r (f_c s))) (fun s' =>
      fbind (from_g (Gen_Model.step G (Gen_Model.EEnd name) (f_c s'))) (fun c =>
      fok (mkF (f_b s') (f_r s') c))))
  end.

(** [eatSet] (Cheetah/Parser.py:2246-2283). *)
Definition eat_set (s : fstate) : fout fstate :=
  let T := x_T (e_X E) in
  let clear := line_clear (f_b s) in
  let first_eol := (length (f_b s) + eol_off (f_r s))%nat in
  let '(b, r) := skip_dir T (L "set") (f_b s) (f_r s) in
  let '(b, r) := skip_ws b r in
  let word := existsb (fun w => starts_with w r) (map L ["local"; "global"; "module"]%string) in
  let glob := starts_with (L "global") r in
  if starts_with (L "module") r then e_other E (L "set") s
  else
    let '(b, r) := if word then let '(_, (b, r)) := namerun b r in skip_ws b r else (b, r) in
    fbind (get_expr (f_c s) false assign_ops b r) (fun '(lv, (b, r)) =>
    match x_tok (e_X E) r with
    | None => fparse b r
    | Some k =>
        let op := firstn k r in
        if existsb (str_eqb op) assign_ops then
          let '(b, r) := go k b r in
          fbind (get_expr (f_c s) (e_um E) [] b r) (fun '(rv, (b, r)) =>
          fbind (rest_of_tag clear first_eol (mkF b r (f_c s))) (fun s' =>
          fbind (from_g (Gen_Model.step G (Gen_Model.ESet glob (strip lv) op rv) (f_c s'))) (fun c =>
          fok (mkF (f_b s') (f_r s') c))))
        else fparse b r
    end).

(** [eatCapture] (Cheetah/Parser.py:2672-2700). *)
Definition eat_capture (s : fstate) : fout fstate :=
  let T := x_T (e_X E) in
  let start := length (f_b s) in
  let clear := line_clear (f_b s) in
  let first_eol := (start + eol_off (f_r s))%nat in
  let '(b, r) := skip_dir T (L "capture") (f_b s) (f_r s) in
  let '(b, r) := skip_ws b r in
  fbind (get_expr (f_c s) (e_um E) [L ":"] b r) (fun '(x, (b, r)) =>
  short_or_long (Gen_Model.OCapture x) false clear first_eol start (mkF b r (f_c s))).

(** [eatFilter] (Cheetah/Parser.py:2602-2633). *)
Definition eat_filter (s : fstate) : fout fstate :=
  let T := x_T (e_X E) in
  let start := length (f_b s) in
  let clear := line_clear (f_b s) in
  let first_eol := (start + eol_off (f_r s))%nat in
  let '(b, r) := skip_dir T (L "filter") (f_b s) (f_r s) in
  let '(b, r) := skip_ws b r in
  fbind (if m_var T b r then
           fbind (get_expr (f_c s) (e_um E) [L ":"] b r) (fun '(x, p) => fok (true, x, p))
         else
           fbind (get_ident b r) (fun '(x, (b, r)) => fok (false, x, skip_ws b r)))
    (fun '(klass, x, (b, r)) =>
  short_or_long (Gen_Model.OFilter x klass) false clear first_eol start (mkF b r (f_c s))).

(** [eatCall] (Cheetah/Parser.py:2544-2580). *)
Definition eat_call (s : fstate) : fout fstate :=
  let T := x_T (e_X E) in
  let start := length (f_b s) in
  let clear := line_clear (f_b s) in
  let first_eol := (start + eol_off (f_r s))%nat in
  let '(b, r) := skip_dir T (L "call") (f_b s) (f_r s) in
  let '(b, r) := skip_ws b r in
  let X := lang_with (e_X E) false (Gen_Model.s_sl (f_c s)) in
  fbind (if m_var T b r then from_x (cvar X (enough r) (e_um E) false b r)
         else fbind (from_x (chunks X (enough r) (e_um E) b r)) (fun '(l, p) =>
              match gen_var X (e_um E) true l with
              | Some x => fok (x, p)
              | None => ferror (FExpr XIndex)
              end))
    (fun '(fn, (b, r)) =>
  let '(b, r) := skip_ws b r in
  fbind (get_expr (f_c s) (e_um E) [L ":"] b r) (fun '(args, (b, r)) =>
  short_or_long (Gen_Model.OCall fn (strip args)) false clear first_eol start (mkF b r (f_c s)))).

(** [eatCallArg] (Cheetah/Parser.py:2582-2597). *)
Definition eat_arg (s : fstate) : fout fstate :=
  let T := x_T (e_X E) in
  let clear := line_clear (f_b s) in
  let first_eol := (length (f_b s) + eol_off (f_r s))%nat in
  let '(b, r) := skip_dir T (L "arg") (f_b s) (f_r s) in
  let '(b, r) := skip_ws b r in
  fbind (get_ident b r) (fun '(n, (b, r)) =>
  let '(b, r) := skip_ws b r in
  fbind (from_g (Gen_Model.step G (Gen_Model.EArg n) (f_c s))) (fun c =>
  match r with
  | [] => ferror (FLex PIndex)
  | d :: r1 => if (d =? 58)%N then fok (mkF (d :: b) r1 c)
               else rest_of_tag clear first_eol (mkF b r c)
  end)).

(** [eatCache] (Cheetah/Parser.py:2513-2542). *)
Definition eat_cache (s : fstate) : fout fstate :=
  let T := x_T (e_X E) in
  let start := length (f_b s) in
  let clear := line_clear (f_b s) in
  let first_eol := (start + eol_off (f_r s))%nat in
  let '(b, r) := skip_dir T (L "cache") (f_b s) (f_r s) in
  fbind (def_args (f_c s) true b r) (fun '(l, (b, r)) =>
  fbind (Some (e_cargs E l)) (fun ci =>
  short_or_long (Gen_Model.OCache ci) true clear first_eol start (mkF b r (f_c s)))).

(** The comment a method or closure starts with (Cheetah/Parser.py:2125-2131, 2149-2152). *)
Definition def_comment (intro signature : pystr) (lc : N * N) : pystr :=
  L "## " ++ intro ++ L " from " ++ signature ++ L " at " ++ Gen_Model.show_lc lc ++ L ".".

(** The definition a directive makes (Cheetah/Parser.py:2036-2051, 2133-2142). *)
Definition def_opener (dir name : pystr) (l : list (pystr * option pystr)) (rem : pystr) : Gen_Model.opener :=
  if str_eqb dir (L "def") then Gen_Model.ODef name l rem
  else if str_eqb dir (L "block") then Gen_Model.OBlock name l rem
  else Gen_Model.OClosure name l rem.

(** [_eatDefOrBlock] (Cheetah/Parser.py:2053-2169); decorators are not modelled. *)
Definition eat_def (dir : pystr) (s : fstate) : fout fstate :=
  let T := x_T (e_X E) in
  let start := length (f_b s) in
  let clear := line_clear (f_b s) in
  let n_eol := eol_off (f_r s) in
  let first_eol := (start + n_eol)%nat in
  let lc := e_lc E start in
  let upto r := firstn (length (f_r s) - length r) (f_r s) in
  let '(b, r) := skip_dir T dir (f_b s) (f_r s) in
  let '(b, r) := skip_ws b r in
  let '(b, r) := if m_var T b r then go (length (t_var T)) b r else (b, r) in
  fbind (get_ident b r) (fun '(name, (b, r)) =>
  let '(b, r) := skip_ws b r in
  fbind (match r with
         | [] => ferror (FLex PIndex)
         | d :: _ =>
             if (d =? 40)%N then
               fbind (def_args (f_c s) false b r) (fun '(l, (b, r)) => fok (drop_self l, go 1 b r))
             else fok ([], (b, r))
         end) (fun '(l, (b, r)) =>
  if short_form T r then
    let '(b, r) := go 1 b r in
    let o := def_opener dir name l (def_comment (L "Generated") (firstn n_eol (f_r s)) lc) in
    fbind (from_g (Gen_Model.open_short G o [] lc (f_c s))) (fun '(c, mem) =>
    let '(b, r) := match r with d :: r' => if blank d then (d :: b, r') else (b, r) | [] => (b, r) end in
    let n := (n_eol - (length b - start))%nat in
    fbind (sub (mkF b (firstn n r) c)) (fun s' =>
    fbind (from_g (Gen_Model.close_short G o mem (f_c s'))) (fun c =>
    rest_of_tag clear first_eol (mkF (f_b s') (f_r s' ++ skipn n r) c))))
  else
    fbind (skip_colon b r) (fun '(b, r) =>
    fbind (get_expr (f_c s) (e_um E) [] b r) (fun '(_, (b, r)) =>
    let sig := join (L " ") (map strip (Names_Model.splitlines (upto r))) in
    let first_eol := (length b + eol_off r)%nat in
    let o := def_opener dir name l (def_comment (L "CHEETAH: generated") sig lc) in
    fbind (rest_of_tag clear first_eol (mkF b r (f_c s))) (fun s' =>
    fbind (from_g (Gen_Model.open_long G o [] lc (f_c s'))) (fun c =>
    fok (mkF (f_b s') (f_r s') c))))))).

(** [eatDirective] (Cheetah/Parser.py:1670-1703). *)
Definition eat_directive (name : pystr) (s : fstate) : fout fstate :=
  let T := x_T (e_X E) in
  let is l := existsb (str_eqb name) (map L l) in
  if forbidden T name then ferror (FLex (PForbidden name))
  else if is ["slurp"; "raw"]%string then with_lex (Lex_Model.step T (fun _ _ => None)) s
  else if is ["if"]%string then eat_if s
  else if is ["end"]%string then eat_end s
  else if is ["set"]%string then eat_set s
  else if is ["capture"]%string then eat_capture s
  else if is ["filter"]%string then eat_filter s
  else if is ["call"]%string then eat_call s
  else if is ["arg"]%string then eat_arg s
  else if is ["cache"]%string then eat_cache s
  else if is ["def"; "block"; "closure"]%string then eat_def name s
  else if is ["else"; "elif"; "for"; "while"; "repeat"; "unless"; "try"; "except"; "finally"]%string
  then eat_indent name s
  else if is ["pass"; "continue"; "stop"; "return"; "break"; "del"; "assert"; "raise"; "silent"; "echo"]%string
  then eat_simple name s
  else e_other E name s.

(** One round of the loop (Cheetah/Parser.py:1545-1560). *)
Definition eat (s : fstate) : fout fstate :=
  let T := x_T (e_X E) in
  match classify T (f_b s) (f_r s) with
  | KVar | KExpr => eat_placeholder s
  | KDirective n => eat_directive n s
  | KPSP => if forbidden T (L "psp") then ferror (FLex (PForbidden (L "psp"))) else eat_psp s
  | _ => with_lex (Lex_Model.step T (fun _ _ => None)) s
  end.
End Eat.

(** [parse] (Cheetah/Parser.py:1537-1563); [None]: the fuel is used up. *)
Fixpoint parse_all (fuel : nat) (s : fstate) : fout fstate :=
  match fuel with
  | O => None
  | S n => match f_r s with
           | [] => fok s
           | _ => fbind (eat (parse_all n) s) (parse_all n)
           end
  end.

(** The compilation of a template: the loop, the test for open directives, the clean-up
    (Cheetah/Parser.py:1560-1563; Cheetah/Compiler.py:1303-1306). *)
Definition translate (fuel : nat) (main src : pystr) : fout (list (Gen_Model.mhead * list Gen_Model.chunk)) :=
  fbind (parse_all fuel (mkF [] src (Gen_Model.start G main))) (fun s =>
  match Gen_Model.s_open (f_c s) with
  | [] => from_g (Gen_Model.bind (Gen_Model.close_all G (Gen_Model.s_act (f_c s))
                                   (Gen_Model.set_act [] (f_c s))) (fun c => Ok (Gen_Model.s_fin c)))
  | l => ferror (FGen (Gen_Model.PUnclosed l))
  end).

End Readers.
