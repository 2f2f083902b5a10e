(** Model of the expression parser (Cheetah/Parser.py: getExpressionParts, getCallArgString,
    getCheetahVarNameChunks, transformToken, getPlaceholder) and of the code generated for
    placeholder names (Cheetah/Compiler.py: genCheetahVar, genPlainVar, genNameMapperVar).

    Representation: as in Lex_Model.v a position is a split of the source into the characters before it
    (nearest first) and those from it on; its number is the length of the first part.  The setting
    useNameMapper, which the parser changes and restores, is an argument ([um]): the parser leaves it
    changed only when an exception passes, which ends the compilation.

    Not modelled: the placeholder hooks and expression filters (Cheetah/Parser.py:1326-1327, 1381-1385;
    both empty by default), the extra lines for gettext (Cheetah/Compiler.py:188-189, 195-208), the row
    and column in the text of an error message. *)
From Verif Require Export Base PyStr.
From Verif Require Export Lex_Model.
From Verif Require Import Reader_Model StrConst_Model.

(** What the expression parser depends on: the settings, Python's tokenizer and Python's [eval].
    [x_tok r] is [matchPyToken] at a position where the source goes on with [r]: the length of the token;
    [None] stands for both refusals of [getPyToken] (Cheetah/Parser.py:593-609).
    [x_ceval t] is [bool(eval(t.upper()))], [None] when it raises (Cheetah/Parser.py:1274-1279).
    [x_printable]: [str.isprintable], part of [repr] (Cheetah/Parser.py:1292, 1300).
    The settings useAutocalling, useSearchList, useStackFrames, allowPlaceholderFilterArgs:
    Cheetah/Compiler.py:70-72, 92. *)
Record lang := mkLang {
  x_T : toks; x_tok : pystr -> option nat; x_ceval : pystr -> option bool; x_printable : N -> bool;
  x_autocall : bool; x_searchlist : bool; x_frames : bool; x_filterargs : bool }.

(** ** Errors *)

(** The messages of the parse errors raised here (Cheetah/Parser.py:268, 606, 714, 853, 989,
    1003-1005, 1010, 1018, 1171-1174, 1187, 1197-1202, 1213, 1308-1321). *)
Inductive xmsg :=
| MInvalid | MEof (o : N) | MMismatch (c o : N) | MLine | MCache | MLong | MForm | MStart | MCall | MIdent.

(** Exceptions: ParseError with the position it reports, IndexError, TypeError, and whatever [eval]
    raises. (Cheetah/Parser.py:268, 606, 714, 853, 989) *)
Inductive xerr := XParse (p : nat) (m : xmsg) | XIndex | XType | XEval.

(** Outcome with a value and a position; [None]: out of fuel. (Cheetah/Parser.py:268, 606, 714, 853, 989) *)
Definition out (A : Type) := option (res xerr (A * (pystr * pystr))).
(** Goes with the definition above (Cheetah/Parser.py:268, 606, 714, 853, 989). *)
Definition ok {A} (a : A) (b r : pystr) : out A := Some (Ok (a, (b, r))).
(** Goes with the definition above (Cheetah/Parser.py:268, 606, 714, 853, 989). *)
Definition err {A} (e : xerr) : out A := Some (Raise e).

(** The construction of a ParseError: a position at the end is moved back by one
    (Cheetah/Parser.py:268-276). *)
Definition fail {A} (b r : pystr) (m : xmsg) : out A :=
  err (XParse (match r with [] => pred (length b) | _ => length b end) m).

(** Sequencing: exceptions and lack of fuel pass through (Python's statement sequence). (Cheetah/Parser.py:268-276) *)
Definition bnd {A B} (x : out A) (f : A -> pystr -> pystr -> out B) : out B :=
  match x with
  | None => None
  | Some (Raise e) => Some (Raise e)
  | Some (Ok (a, (b, r))) => f a b r
  end.

(** [exprBits.append(t)] followed by the rest of the loop (Cheetah/Parser.py:1165-1245, 1252-1265). *)
Definition pre (t : pystr) (x : out pystr) : out pystr :=
  bnd x (fun s b r => ok (t ++ s) b r).

(** ** Small readers *)

(** [not l] for a list or a string (Cheetah/Parser.py:1009, 1167, 1183, 1186, 1207, 1229). *)
Definition empty {A} (l : list A) : bool := match l with [] => true | _ => false end.

(** [closurePairs] and [closurePairsRev] (Cheetah/Parser.py:132-133). *)
Definition mate (o : N) : N := (if o =? 40 then 41 else if o =? 91 then 93 else 125)%N.

(** [namechars] (Cheetah/Parser.py:81). *)
Definition namechar (c : N) : bool := (identchar c || (48 <=? c) && (c <=? 57))%N.

(** The start of [identRE] (Cheetah/Parser.py:156, 708-709). *)
Definition at_ident (r : pystr) : bool := match r with c :: _ => identchar c | [] => false end.

(** [not self.atEnd() and self.peek() == c] (Cheetah/Parser.py:1025, 1244). *)
Definition at_char (c : N) (r : pystr) : bool := match r with d :: _ => (d =? c)%N | [] => false end.

(** [getWhiteSpace()] (Cheetah/SourceReader.py:247-258). *)
Fixpoint take_ws (b r : pystr) : pystr * (pystr * pystr) :=
  match r with
  | c :: r1 => if blank c then let '(w, p) := take_ws (c :: b) r1 in (c :: w, p) else ([], (b, r))
  | [] => ([], (b, r))
  end.

(** [getDottedName] at a character of [identchars] (Cheetah/Parser.py:686-706).  The identifiers are read
    character by character; [getIdentifier] is only called where an identifier starts, or is empty. *)
Fixpoint dotted (b r : pystr) : pystr * (pystr * pystr) :=
  match r with
  | c :: r1 =>
      if namechar c || ((c =? 46)%N && at_ident r1)
      then let '(w, p) := dotted (c :: b) r1 in (c :: w, p)
      else ([], (b, r))
  | [] => ([], (b, r))
  end.

(** The length of the line break at the start, 0 if there is none (EOLre, Cheetah/Parser.py:157). *)
Definition eol_len (r : pystr) : nat :=
  match r with
  | c :: r1 => if (c =? 13)%N then match r1 with d :: _ => if (d =? 10)%N then 2 else 1 | [] => 1 end
               else if (c =? 10)%N then 1 else 0
  | [] => 0
  end.

(** [matchCheetahVarInExpressionStartToken] (Cheetah/Parser.py:495-498, 836-839). *)
Definition m_xvar (T : toks) (r : pystr) : bool :=
  starts_with (t_var T) r && at_ident (skipn (length (t_var T)) r).

(** [matchCheetahVarStartToken] (Cheetah/Parser.py:487-493, 832-834). *)
Definition m_vartok (T : toks) (b r : pystr) : bool :=
  m_tok (t_var T) b r
  && match skipn (length (t_var T)) r with
     | c :: _ => identchar c || mem_char c (L "*!{([")
     | [] => false
     end.

(** [getSilentPlaceholderToken] (Cheetah/Parser.py:472-478, 864-870). *)
Definition skip_silent (b r : pystr) : pystr * pystr :=
  match r with c :: r1 => if (c =? 33)%N then (c :: b, r1) else (b, r) | [] => (b, r) end.

(** [getCacheToken] (Cheetah/Parser.py:453-470, 856-862). *)
Definition skip_cache (b r : pystr) : pystr * pystr := go (length r - length (after_cache r)) b r.

(** [_raiseErrorAboutInvalidCheetahVarSyntaxInExpr] (Cheetah/Parser.py:1304-1321). *)
Definition var_error {A} (T : toks) (b r : pystr) : out A :=
  let r1 := skipn (length (t_var T)) r in
  let r1 := match r1 with c :: r' => if (c =? 33)%N then r' else r1 | [] => [] end in
  if negb (length (after_cache r1) =? length r1)%nat then fail b r MCache
  else match r1 with
       | c :: _ => if opener c then fail b r MLong else fail b r MForm
       | [] => fail b r MForm
       end.

(** ** Code for placeholder names *)

(** A name chunk: the dotted name, the autocall flag and the rest (Cheetah/Parser.py:911-937). *)
Definition chunk := (pystr * bool * pystr)%type.

(** [repr] of a boolean (Cheetah/Compiler.py:300, 307, 312, 319). *)
Definition show_bool (v : bool) : pystr := if v then L "True" else L "False".

(** [genPlainVar] (Cheetah/Compiler.py:210-220). *)
Fixpoint plain_more (code : pystr) (cs : list chunk) : pystr :=
  match cs with
  | [] => code
  | (nm, _, rest) :: cs => plain_more (code ++ L "." ++ nm ++ rest) cs
  end.
(** Goes with the definition above (Cheetah/Compiler.py:210-220). *)
Definition gen_plain (cs : list chunk) : option pystr :=
  match cs with [] => None | (nm, _, rest) :: cs => Some (plain_more (nm ++ rest) cs) end.

(** The position of the first dot: [name.find('.')] (Cheetah/Compiler.py:294-297); what is before and what is
    after it. *)
Fixpoint cut_dot (nm : pystr) : option (pystr * pystr) :=
  match nm with
  | c :: r => if (c =? 46)%N then Some ([], r)
              else match cut_dot r with Some (x, y) => Some (c :: x, y) | None => None end
  | [] => None
  end.

(** One VFN call (Cheetah/Compiler.py:298-301, 317-320). *)
Definition vfn_code (code nm : pystr) (flag : bool) (rest : pystr) : pystr :=
  L "VFN(" ++ code ++ L "," ++ [34%N] ++ nm ++ [34%N] ++ L "," ++ show_bool flag ++ L ")" ++ rest.

(** The loop over the remaining chunks (Cheetah/Compiler.py:315-320). *)
Fixpoint mapper_more (X : lang) (code : pystr) (cs : list chunk) : pystr :=
  match cs with
  | [] => code
  | (nm, ac, rest) :: cs => mapper_more X (vfn_code code nm (x_autocall X && ac) rest) cs
  end.

(** [genNameMapperVar] (Cheetah/Compiler.py:222-321). *)
Definition gen_mapper (X : lang) (cs : list chunk) : option pystr :=
  match cs with
  | [] => None
  | (nm, ac, rest) :: cs =>
      let flag := x_autocall X && ac in
      let call f := f ++ L "," ++ [34%N] ++ nm ++ [34%N] ++ L "," ++ show_bool flag ++ L ")" ++ rest in
      Some (mapper_more X
        (if negb (x_searchlist X) then
           match cut_dot nm with
           | Some (x, y) => vfn_code x y flag rest
           | None => nm ++ rest
           end
         else if x_frames X then call (L "VFFSL(SL")
         else call (L "VFSL([locals()]+SL+[globals(), builtin]"))
        cs)
  end.

(** [genCheetahVar] (Cheetah/Compiler.py:187-193); [None]: IndexError on an empty list. *)
Definition gen_var (X : lang) (um plain : bool) (cs : list chunk) : option pystr :=
  if um && negb plain then gen_mapper X cs else gen_plain cs.

(** A dotted name cut at its last period: [dottedName.rfind('.')] (Cheetah/Parser.py:960-963). *)
Fixpoint cut_last (nm : pystr) : option (pystr * pystr) :=
  match nm with
  | c :: r => match cut_last r with
              | Some (x, y) => Some (c :: x, y)
              | None => if (c =? 46)%N then Some ([], r) else None
              end
  | [] => None
  end.

(** The chunks appended for one dotted name and its rest (Cheetah/Parser.py:953-966). *)
Definition add_chunks (dn rest : pystr) : list chunk :=
  match rest with
  | [] => [(dn, true, [])]
  | c :: _ =>
      let ac := negb (c =? 40)%N in
      match cut_last dn with
      | Some (x :: p, y) => [(x :: p, true, []); (y, ac, rest)]
      | _ => [(dn, ac, rest)]
      end
  end.

(** [token in ('{', '(', '[')] (Cheetah/Parser.py:1043, 1122). *)
Definition is_open_tok (t : pystr) : bool := match t with [c] => opener c | _ => false end.

(** The enclosures: brackets with their positions, the innermost first (Cheetah/Parser.py:971-972, 1144-1145). *)
Definition encl := list (N * nat).

(** A quote of either kind is next (Cheetah/Parser.py:1273). *)
Definition quote_at (r : pystr) : bool := match r with c :: _ => (c =? 39)%N || (c =? 34)%N | [] => false end.

(** [token.startswith(single3) or token.startswith(double3)] (Cheetah/Parser.py:1281-1284). *)
Definition quote_len (t : pystr) : nat :=
  if starts_with [39;39;39]%N t || starts_with [34;34;34]%N t then 3 else 1.

(** [if strConst: outputExprs.append(repr(strConst))] (Cheetah/Parser.py:1291-1293, 1299-1300). *)
Definition flush (X : lang) (acc : pystr) : list pystr :=
  match acc with [] => [] | _ => [repr (x_printable X) acc] end.

(** Dropping the closing bracket (Cheetah/Parser.py:1370-1372, 1377-1378); [None]: IndexError on an empty
    expression. *)
Definition strip_close (o : N) (x : pystr) : option pystr :=
  match rev x with
  | [] => None
  | c :: y => Some (if (c =? mate o)%N then rev y else x)
  end.

(** The functions call each other; each is written here as one step, given the eight functions to call, and
    tied together below with a bound on the depth of the calls. *)
Section Parser.
Variable X : lang.
Local Notation T := (x_T X).
Variable expr : bool -> bool -> encl -> list pystr -> pystr -> pystr -> out pystr.
Variable callargs cargs : bool -> encl -> pystr -> pystr -> out pystr.
Variable cvar : bool -> bool -> pystr -> pystr -> out pystr.
Variable chunks : bool -> pystr -> pystr -> out (list chunk).
Variable transform : bool -> pystr -> pystr -> pystr -> pystr -> pystr -> out (option pystr).
Variable cstr : bool -> nat -> pystr -> pystr -> pystr -> out (list pystr).
Variable placeholder : bool -> bool -> pystr -> pystr -> out (pystr * option pystr).

(** [getExpressionParts], joined (Cheetah/Parser.py:1142-1265).  [brk]: pyTokensToBreakAt. *)
Definition expr_step (um enclosed : bool) (enc : encl) (brk : list pystr) (b r : pystr)
  : out pystr :=
  match r with
  | [] => match enc with
          | (o, p) :: _ => err (XParse p (MEof o))
          | [] => ok [] b r
          end
  | c :: r1 =>
      if opener c then pre [c] (expr um enclosed ((c, length b) :: enc) brk (c :: b) r1)
      else if enclosed && empty enc then ok [] b r
      else if closer c then
        match enc with
        | [] => fail b r MInvalid
        | (o, p) :: enc' =>
            if (c =? mate o)%N then pre [c] (expr um enclosed enc' brk (c :: b) r1)
            else err (XParse p (MMismatch c o))
        end
      else if blank c then
        let '(w, (b', r')) := take_ws b r in pre w (expr um enclosed enc brk b' r')
      else if m_tok (t_dirend T) b r && empty enc then ok [] b r
      else if (c =? 92)%N && negb (empty r1) then
        match eol_len r1 with
        | O => fail (c :: b) r1 MLine
        | k => let '(b', r') := go (S k) b r in expr um enclosed enc brk b' r'
        end
      else if eolchar c then
        match enc with
        | [] => ok [] b r
        | _ => expr um enclosed enc brk (c :: b) r1
        end
      else if m_xvar T r then
        bnd (cvar um false b r) (fun x b r => pre x (expr um enclosed enc brk b r))
      else if m_var T b r then var_error T b r
      else match x_tok X r with
           | None => fail b r MInvalid
           | Some k =>
               let tok := firstn k r in
               let '(b1, r1) := go k b r in
               if empty enc && existsb (str_eqb tok) brk then ok [] b r
               else
                 bnd (transform um b r tok b1 r1) (fun t b1 r1 =>
                 match t with
                 | None => err XType
                 | Some tok =>
                     if at_ident tok then
                       if str_eqb tok (L "for") then
                         bnd (expr false false [] [L "in"] b1 r1) (fun x b2 r2 =>
                         pre (tok ++ x) (expr um enclosed enc brk b2 r2))
                       else
                         let '(w, (b2, r2)) := take_ws b1 r1 in
                         if at_char 40 r2 then
                           bnd (callargs um [] b2 r2) (fun a b3 r3 =>
                           pre (tok ++ w ++ a) (expr um enclosed enc brk b3 r3))
                         else pre (tok ++ w) (expr um enclosed enc brk b2 r2)
                     else pre tok (expr um enclosed enc brk b1 r1)
                 end)
           end
  end.

(** [getCallArgString] before its loop (Cheetah/Parser.py:970-996). *)
Definition callargs_step (um : bool) (enc : encl) (b r : pystr) : out pystr :=
  match enc with
  | _ :: _ => pre [40%N] (cargs um enc b r)
  | [] => match r with
          | [] => err XIndex
          | c :: r1 => if (c =? 40)%N then pre [40%N] (cargs um [(40%N, length b)] (c :: b) r1)
                       else fail b r MCall
          end
  end.

(** The loop of [getCallArgString] (Cheetah/Parser.py:998-1053). *)
Definition cargs_step (um : bool) (enc : encl) (b r : pystr) : out pystr :=
  match r with
  | [] => match enc with
          | (o, p) :: _ => err (XParse p (MEof o))
          | [] => err XIndex
          end
  | c :: r1 =>
      if closer c then
        match enc with
        | [] => fail b r MInvalid
        | (o, _) :: _ => if (c =? mate o)%N then ok [41%N] (c :: b) r1 else fail (c :: b) r1 MInvalid
        end
      else if blank c || eolchar c then pre [c] (cargs um enc (c :: b) r1)
      else if m_xvar T r then
        bnd (cvar um false b r) (fun x b1 r1 =>
        let '(w, (b2, r2)) := take_ws b1 r1 in
        if at_char 61 r2 then
          match x_tok X r2 with
          | None => fail b2 r2 MInvalid
          | Some k =>
              let tok := firstn k r2 in
              let '(b3, r3) := go k b2 r2 in
              if str_eqb tok (L "=") then
                bnd (cvar um true b r) (fun x' _ _ => pre (x' ++ w ++ tok) (cargs um enc b3 r3))
              else pre (x ++ w ++ tok) (cargs um enc b3 r3)
          end
        else pre (x ++ w) (cargs um enc b2 r2))
      else if m_var T b r then var_error T b r
      else match x_tok X r with
           | None => fail b r MInvalid
           | Some k =>
               let tok := firstn k r in
               let '(b1, r1) := go k b r in
               if is_open_tok tok then
                 bnd (expr um true [] [] b r) (fun x b2 r2 => pre x (cargs um enc b2 r2))
               else
                 bnd (transform um b r tok b1 r1) (fun t b2 r2 =>
                 match t with
                 | Some tok => pre tok (cargs um enc b2 r2)
                 | None => bnd (cargs um enc b2 r2) (fun _ _ _ => err XType)
                 end)
           end
  end.

(** [getCheetahVar] (Cheetah/Parser.py:895-909). *)
Definition cvar_step (um plain : bool) (b r : pystr) : out pystr :=
  if m_vartok T b r then
    let '(b, r) := go (length (t_var T)) b r in
    let '(b, r) := skip_silent b r in
    let '(b, r) := skip_cache b r in
    bnd (chunks um b r) (fun cs b r =>
    match gen_var X um plain cs with Some x => ok x b r | None => err XIndex end)
  else fail b r MStart.

(** [getCheetahVarNameChunks] (Cheetah/Parser.py:911-968). *)
Definition chunks_step (um : bool) (b r : pystr) : out (list chunk) :=
  let name b r :=
    let '(dn, (b, r)) := dotted b r in
    let more rest b r := bnd (chunks um b r) (fun cs b r => ok (add_chunks dn rest ++ cs) b r) in
    match r with
    | c :: _ =>
        if (c =? 40)%N then bnd (callargs um [] b r) more
        else if (c =? 91)%N then bnd (expr um true [] [] b r) more
        else more [] b r
    | [] => more [] b r
    end in
  match r with
  | c :: r1 =>
      if identchar c then name b r
      else if (c =? 46)%N && at_ident r1 then name (c :: b) r1
      else ok [] b r
  | [] => ok [] b r
  end.

(** [transformToken] (Cheetah/Parser.py:1267-1302): [b0], [r0] the position of the token, [b], [r] the
    position after it.  The value [None] is Python's. *)
Definition transform_step (um : bool) (b0 r0 tok b r : pystr) : out (option pystr) :=
  if str_eqb tok (L "c") && quote_at r then
    match x_tok X r with
    | None => fail b r MInvalid
    | Some k =>
        let nt := firstn k r in
        let '(be, re) := go k b r in
        match x_ceval X nt with
        | None => err XEval
        | Some false => ok None be re
        | Some true =>
            let i := quote_len nt in
            let '(b1, r1) := go (S i) b0 r0 in
            bnd (cstr um (length be - i) [] b1 r1) (fun l _ _ =>
            ok (Some (L "''.join([" ++ join (L ",") l ++ L "])")) be re)
        end
    end
  else ok (Some tok) b r.

(** The loop of [transformToken] (Cheetah/Parser.py:1287-1301). *)
Definition cstr_step (um : bool) (lim : nat) (acc b r : pystr) : out (list pystr) :=
  if (length b <? lim)%nat then
    if m_var T b r || m_expr T b r then
      bnd (placeholder um false b r) (fun x b r =>
      bnd (cstr um lim [] b r) (fun l b r =>
      ok (flush X acc ++ (L "str(" ++ fst x ++ L ")") :: l) b r))
    else match r with
         | c :: r1 => cstr um lim (acc ++ [c]) (c :: b) r1
         | [] => err XIndex
         end
  else ok (flush X acc) b r.

(** [getPlaceholder] (Cheetah/Parser.py:1323-1391): the expression and the filter arguments.
    [cache]: allowCacheTokens. *)
Definition placeholder_step (um cache : bool) (b r : pystr) : out (pystr * option pystr) :=
  if m_vartok T b r then
    let '(b, r) := go (length (t_var T)) b r in
    let '(b, r) := skip_silent b r in
    let '(b, r) := if cache then skip_cache b r else (b, r) in
    match r with
    | [] => err XIndex
    | o :: r1 =>
        if opener o then
          let enc := [(o, length b)] in
          let '(_, (b, r)) := take_ws (o :: b) r1 in
          if at_ident r then
            bnd (chunks um b r) (fun cs b r =>
            match gen_var X um false cs with
            | None => err XIndex
            | Some x =>
                let '(w, (b, r)) := take_ws b r in
                match r with
                | [] => err XIndex
                | c :: r1 =>
                    if x_filterargs X && (c =? 44)%N then
                      bnd (callargs um enc b r) (fun a b r =>
                      ok (x ++ w, Some (removelast (tl a))) b r)
                    else if (c =? mate o)%N then ok (x ++ w, None) (c :: b) r1
                    else
                      bnd (expr um true enc [] b r) (fun y b r =>
                      match strip_close o y with
                      | Some y => ok (x ++ w ++ y, None) b r
                      | None => err XIndex
                      end)
                end
            end)
          else
            bnd (expr um true enc [] b r) (fun y b r =>
            match strip_close o y with
            | Some y => ok (y, None) b r
            | None => err XIndex
            end)
        else if identchar o then
          bnd (chunks um b r) (fun cs b r =>
          match gen_var X um false cs with
          | None => err XIndex
          | Some x => ok (x, None) b r
          end)
        else
          (* [expr[-1]] of the empty expression (Cheetah/Parser.py:1376-1377) *)
          bnd (expr um true [] [] b r) (fun _ _ _ => err XIndex)
    end
  else fail b r MStart.

End Parser.

(** The eight functions (Cheetah/Parser.py:895-1053, 1142-1391). *)
Record fns := mkFns {
  f_expr : bool -> bool -> encl -> list pystr -> pystr -> pystr -> out pystr;
  f_callargs : bool -> encl -> pystr -> pystr -> out pystr;
  f_cargs : bool -> encl -> pystr -> pystr -> out pystr;
  f_cvar : bool -> bool -> pystr -> pystr -> out pystr;
  f_chunks : bool -> pystr -> pystr -> out (list chunk);
  f_transform : bool -> pystr -> pystr -> pystr -> pystr -> pystr -> out (option pystr);
  f_cstr : bool -> nat -> pystr -> pystr -> pystr -> out (list pystr);
  f_placeholder : bool -> bool -> pystr -> pystr -> out (pystr * option pystr) }.

(** The functions with calls nested at most [n] deep (Cheetah/Parser.py:895-1053, 1142-1391); beyond that
    [None]. *)
Fixpoint fns_at (X : lang) (n : nat) : fns :=
  match n with
  | O => mkFns (fun _ _ _ _ _ _ => None) (fun _ _ _ _ => None) (fun _ _ _ _ => None) (fun _ _ _ _ => None)
               (fun _ _ _ => None) (fun _ _ _ _ _ _ => None) (fun _ _ _ _ _ => None) (fun _ _ _ _ => None)
  | S n =>
      let F := fns_at X n in
      mkFns (expr_step X (f_expr F) (f_callargs F) (f_cvar F) (f_transform F))
            (callargs_step (f_cargs F))
            (cargs_step X (f_expr F) (f_cargs F) (f_cvar F) (f_transform F))
            (cvar_step X (f_chunks F))
            (chunks_step (f_expr F) (f_callargs F) (f_chunks F))
            (transform_step X (f_cstr F))
            (cstr_step X (f_cstr F) (f_placeholder F))
            (placeholder_step X (f_expr F) (f_callargs F) (f_chunks F))
  end.

(** getExpression (Cheetah/Parser.py:1142-1265). *)
Definition expr (X : lang) (n : nat) := f_expr (fns_at X n).

(** getCallArgString (Cheetah/Parser.py:970-1053). *)
Definition callargs (X : lang) (n : nat) := f_callargs (fns_at X n).

(** Its loop (Cheetah/Parser.py:998-1053). *)
Definition cargs (X : lang) (n : nat) := f_cargs (fns_at X n).

(** getCheetahVar (Cheetah/Parser.py:895-909). *)
Definition cvar (X : lang) (n : nat) := f_cvar (fns_at X n).

(** getCheetahVarNameChunks (Cheetah/Parser.py:911-968). *)
Definition chunks (X : lang) (n : nat) := f_chunks (fns_at X n).

(** transformToken (Cheetah/Parser.py:1267-1302). *)
Definition transform (X : lang) (n : nat) := f_transform (fns_at X n).

(** Its loop (Cheetah/Parser.py:1287-1301). *)
Definition cstr (X : lang) (n : nat) := f_cstr (fns_at X n).

(** getPlaceholder (Cheetah/Parser.py:1323-1391). *)
Definition placeholder (X : lang) (n : nat) := f_placeholder (fns_at X n).

(** ** Expressions as lists of parts *)

(** [exprBits.append] of several parts (Cheetah/Parser.py:1142-1251). *)
Definition prel (t : list pystr) (x : out (list pystr)) : out (list pystr) :=
  bnd x (fun l b r => ok (t ++ l) b r).

(** getExpressionParts itself, as eatIf calls it: not enclosed (Cheetah/Parser.py:1142-1251).  The branches
    are those of [expr_step]; joined, the parts are what [expr] returns (parts_join in FrontParts_Proofs.v). *)
Fixpoint parts (X : lang) (n : nat) (um : bool) (enc : encl) (brk : list pystr) (b r : pystr) {struct n}
  : out (list pystr) :=
  match n with
  | O => None
  | S n =>
  match r with
  | [] => match enc with
          | (o, p) :: _ => err (XParse p (MEof o))
          | [] => ok [] b r
          end
  | c :: r1 =>
      if opener c then prel [[c]] (parts X n um ((c, length b) :: enc) brk (c :: b) r1)
      else if closer c then
        match enc with
        | [] => fail b r MInvalid
        | (o, p) :: enc' =>
            if (c =? mate o)%N then prel [[c]] (parts X n um enc' brk (c :: b) r1)
            else err (XParse p (MMismatch c o))
        end
      else if blank c then
        let '(w, (b', r')) := take_ws b r in prel [w] (parts X n um enc brk b' r')
      else if m_tok (t_dirend (x_T X)) b r && empty enc then ok [] b r
      else if (c =? 92)%N && negb (empty r1) then
        match eol_len r1 with
        | O => fail (c :: b) r1 MLine
        | k => let '(b', r') := go (S k) b r in parts X n um enc brk b' r'
        end
      else if eolchar c then
        match enc with
        | [] => ok [] b r
        | _ => parts X n um enc brk (c :: b) r1
        end
      else if m_xvar (x_T X) r then
        bnd (cvar X n um false b r) (fun x b r => prel [x] (parts X n um enc brk b r))
      else if m_var (x_T X) b r then var_error (x_T X) b r
      else match x_tok X r with
           | None => fail b r MInvalid
           | Some k =>
               let tok := firstn k r in
               let '(b1, r1) := go k b r in
               if empty enc && existsb (str_eqb tok) brk then ok [] b r
               else
                 bnd (transform X n um b r tok b1 r1) (fun t b1 r1 =>
                 match t with
                 | None => err XType
                 | Some tok =>
                     if at_ident tok then
                       if str_eqb tok (L "for") then
                         bnd (expr X n false false [] [L "in"] b1 r1) (fun x b2 r2 =>
                         prel [tok; x] (parts X n um enc brk b2 r2))
                       else
                         let '(w, (b2, r2)) := take_ws b1 r1 in
                         if at_char 40 r2 then
                           bnd (callargs X n um [] b2 r2) (fun a b3 r3 =>
                           prel [tok; w; a] (parts X n um enc brk b3 r3))
                         else prel [tok; w] (parts X n um enc brk b2 r2)
                     else prel [tok] (parts X n um enc brk b1 r1)
                 end)
           end
  end
  end.
