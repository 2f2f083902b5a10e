(** Model of macro calls (Cheetah/Parser.py:2425-2511) and of the macro #i18n (Cheetah/Macros/I18n.py:6-54), on top
    of the model of the whole parser (Front_Model.v).

    A macro is a callable with the names of its arguments.  Macros with a method parse, parseArgs or
    convertArgStrToDict (Cheetah/Parser.py:2432-2436, 2458-2460) and #defmacro are not modelled.  The values of the
    arguments written in the template are represented by texts; what eval makes of them is a parameter. *)
From Verif Require Import Base PyStr Alist Reader_Model Lex_Model Expr_Model Front_Model.
From Verif Require Gen_Model.

(** The values a macro is called with: from the template, or supplied by the parser: a text, the parser, the table of
    macros, the settings, a flag, a position (Cheetah/Parser.py:2466-2492). *)
Inductive mval := VUser (t : pystr) | VText (s : pystr) | VParser | VMacros | VSettings | VFlag (b : bool) | VPos (n : nat).

(** A macro: the names of its arguments (Cheetah/Parser.py:2469-2476) and its result, None if it raises
    (Cheetah/Parser.py:2494). *)
Record macro := mkMac { mc_takes : list pystr; mc_call : list (pystr * mval) -> option pystr }.

(** One of the arguments that are supplied if the macro takes them (Cheetah/Parser.py:2478-2492). *)
Definition supply (m : macro) (n : pystr) (v : mval) (k : list (pystr * mval)) : list (pystr * mval) :=
  if existsb (str_eqb n) (mc_takes m) then aset n v k else k.

(** The arguments of the call (Cheetah/Parser.py:2466-2492); [eol]: the line break after a short form, None in the
    long form.  None: the assertion of line 2466 fails. *)
Definition macro_args (m : macro) (user : list (pystr * pystr)) (src : pystr) (eol : option pystr) (start stop : nat)
  : option (list (pystr * mval)) :=
  let k := map (fun x => (fst x, VUser (snd x))) user in
  if ahas (L "src") k then None
  else
    let k := aset (L "src") (VText src) k in
    let k := supply m (L "parser") VParser k in
    let k := supply m (L "macros") VMacros k in
    let k := supply m (L "compilerSettings") VSettings k in
    let k := supply m (L "isShortForm") (VFlag (match eol with Some _ => true | None => false end)) k in
    let k := match eol with Some e => supply m (L "EOLCharsInShortForm") (VText e) k | None => k end in
    let k := supply m (L "startPos") (VPos start) k in
    Some (supply m (L "endPos") (VPos stop) k).

Section Macros.
Variable E : env.
(** The table of macros (Cheetah/Parser.py:1408, 1475-1483) and the evaluation of the arguments
    (Cheetah/Parser.py:2462-2464), None if it raises. *)
Variable macros : list (pystr * macro).
Variable kwargs : pystr -> option (list (pystr * pystr)).

Section Call.
(** The loop [self.parse] (Cheetah/Parser.py:2505). *)
Variable sub : fstate -> fout fstate.

(** The call, and the parsing of its result in place of the source (Cheetah/Parser.py:2458-2509): [b], [r] is the
    position behind the call. *)
Definition expand (m : macro) (args src : pystr) (eol : option pystr) (start : nat) (b r : pystr) (c : Gen_Model.cs)
  : fout fstate :=
  match kwargs args with
  | None => ferror FMacro
  | Some user =>
      match macro_args m user src eol start (length b) with
      | None => ferror FMacro
      | Some k =>
          match mc_call m k with
          | None => ferror FMacro
          | Some t => fbind (sub (mkF [] t c)) (fun s' => fok (mkF b r (f_c s')))
          end
      end
  end.

(** [eatMacroCall] (Cheetah/Parser.py:2425-2511). *)
Definition eat_macro (s : fstate) : fout fstate :=
  let T := x_T (e_X E) in
  let start := length (f_b s) in
  let clear := line_clear (f_b s) in
  let first_eol := (start + eol_off (f_r s))%nat in
  let '(b, r) := skip_dir T [] (f_b s) (f_r s) in
  fbind (get_ident b r) (fun '(name, (b, r)) =>
  match aget name macros with
  | None => ferror FMacro
  | Some m =>
      let '(b, r) := skip_ws b r in
      fbind (get_expr E (f_c s) false [L ":"] b r) (fun '(x, (b, r)) =>
      let args := strip x in
      if short_form T r then
        let '(b, r) := go 1 b r in
        let '(b, r) := match r with d :: r' => if blank d then (d :: b, r') else (b, r) | [] => (b, r) end in
        let '(src, (b, r)) := read_eol false b r in
        let '(eol, (b, r)) := read_eol true b r in
        expand m args src (Some eol) start b r (f_c s)
      else
        fbind (skip_colon b r) (fun '(b, r) =>
        let '(b, r) := skip_ws b r in
        fbind (rest_of_tag E clear first_eol (mkF b r (f_c s))) (fun s1 =>
        match eat_to_end T name (mkP (f_b s1) (f_r s1) (top_buf (f_c s1))) with
        | None => None
        | Some (Raise e) => ferror (FLex e)
        | Some (Ok (src, p)) =>
            expand m args src None start (before p) (rest p) (absorb E (Lex_Model.out p) (f_c s1))
        end)))
  end).
End Call.

(** The parameters with macro calls among the directives (Cheetah/Parser.py:1483). *)
Definition with_macros (sub : fstate -> fout fstate) : env :=
  mkE (e_X E) (e_G E) (e_um E) (e_pspend E) (e_lc E) (e_id E) (e_ci E) (e_cargs E)
      (fun name s => if ahas name macros then eat_macro sub s else e_other E name s).

(** [parse] with macros (Cheetah/Parser.py:1537-1563); [None]: the fuel is used up. *)
Fixpoint parse_m (fuel : nat) (s : fstate) : fout fstate :=
  match fuel with
  | O => None
  | S n => match f_r s with
           | [] => fok s
           | _ => fbind (eat (with_macros (parse_m n)) (parse_m n) s) (parse_m n)
           end
  end.
End Macros.

(** The macro #i18n (Cheetah/Macros/I18n.py:10-54); [tr] is gettext, [len] the break point of the parser
    (Cheetah/SourceReader.py:47-48).  Arguments that it does not take are a TypeError. *)
Definition i18n_names : list pystr := map L
  ["src"; "plural"; "n"; "id"; "domain"; "source"; "target"; "comment"; "parser"; "macros"; "isShortForm";
   "EOLCharsInShortForm"; "startPos"; "endPos"]%string.
(** Goes with the definition above (Cheetah/Macros/I18n.py:10-54). *)
Definition i18n_call (tr : pystr -> pystr) (len : nat) (k : list (pystr * mval)) : option pystr :=
  if negb (forallb (fun n => existsb (str_eqb n) i18n_names) (keys k)) then None
  else
    match aget (L "src") k with
    | Some (VText src) =>
        match aget (L "isShortForm") k, aget (L "endPos") k, aget (L "EOLCharsInShortForm") k with
        | Some (VFlag true), Some (VPos p), Some (VText e) => Some (if (p <? len)%nat then tr src ++ e else tr src)
        | _, _, _ => Some (tr src)
        end
    | _ => None
    end.
(** Goes with the definition above (Cheetah/Macros/I18n.py:10-54). *)
Definition i18n (tr : pystr -> pystr) (len : nat) : macro := mkMac i18n_names (i18n_call tr len).
