(** Specification of blocks that are taken as source text (#raw and the macros): which texts can stand in such a
    block, where its ending directive stands, and what a macro is told.  Nothing here searches or has a state. *)
From Verif Require Import Base PyStr Alist Reader_Spec Lex_Model Lex_Spec Expr_Model Front_Model Front_Spec Macro_Model.
From Verif Require Gen_Model.

(** The default settings with other directive names (macros add theirs). *)
Definition named (ns : list pystr) : toks :=
  mkT (L "$") (L "##") (L "#*") (L "*#") true (L "#") (L "#") false (L "<%") (L "#") ns [] [].

(** What a macro is told as its argument [n], by name.  [eol]: the line break behind a short form. *)
Definition told (m : macro) (user : list (pystr * pystr)) (src : pystr) (eol : option pystr) (start stop : nat)
  (n : pystr) : option mval :=
  let own := option_map VUser (aget n user) in
  let takes := existsb (str_eqb n) (mc_takes m) in
  if str_eqb n (L "src") then Some (VText src)
  else if negb takes then own
  else if str_eqb n (L "parser") then Some VParser
  else if str_eqb n (L "macros") then Some VMacros
  else if str_eqb n (L "compilerSettings") then Some VSettings
  else if str_eqb n (L "isShortForm") then Some (VFlag (match eol with Some _ => true | None => false end))
  else if str_eqb n (L "EOLCharsInShortForm") then match eol with Some e => Some (VText e) | None => own end
  else if str_eqb n (L "startPos") then Some (VPos start)
  else if str_eqb n (L "endPos") then Some (VPos stop)
  else own.

(** The text of a call: the name and, behind a blank, the arguments. *)
Definition call_of (name x : pystr) : pystr := L "#" ++ name ++ match x with [] => [] | _ => L " " ++ x end.

(** The directives whose eaters are in Front_Model.v. *)
Definition builtin : list pystr := map L
  ["slurp"; "raw"; "if"; "end"; "set"; "capture"; "filter"; "call"; "arg"; "cache"; "def"; "block"; "closure"; "else";
   "elif"; "for"; "while"; "repeat"; "unless"; "try"; "except"; "finally"; "pass"; "continue"; "stop"; "return";
   "break"; "del"; "assert"; "raise"; "silent"; "echo"]%string.

(** The name of a macro of the parser. *)
Definition macro_name (E : env) (macros : list (pystr * macro)) (name : pystr) (m : macro) : Prop :=
  exists ns, x_T (e_X E) = named ns /\ In (L "end") ns /\ In name ns /\ ident name /\ ~ In name builtin /\
    aget name macros = Some m.

(** The arguments of a call as written: no line breaks, no blank first. *)
Definition written_args (E : env) (x code : pystr) : Prop :=
  reads E false [L ":"] x code /\ one_line x /\ match x with c :: _ => blank c = false | [] => True end.

(** A text without the characters tokens start with. *)
Definition clean (s : pystr) : Prop := forall c, In c s -> c <> 36%N /\ c <> 35%N /\ c <> 60%N.

(** The result of a macro is parsed, from its own start; then the parser goes on behind the call at [b], [rest]. *)
Definition called (sub : fstate -> fout fstate) (r : option pystr) (b rest : pystr) (c : Gen_Model.cs) : fout fstate :=
  match r with
  | None => ferror FMacro
  | Some t => fbind (sub (mkF [] t c)) (fun s' => fok (mkF b rest (f_c s')))
  end.
