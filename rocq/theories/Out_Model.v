(** Model of the module text and of how it is written out: the layout of the module
    (Cheetah/Compiler.py:2061-2122, 2129-2179), its conversion to bytes (Cheetah/Template.py:765-792), and what the
    command line tool does with them (Cheetah/CheetahWrapper.py:624-659), as Python 3 runs it on POSIX.

    Bytes are lists of numbers below 256.  Which codecs there are is a parameter; the three that matter are
    modelled. *)
From Verif Require Import Base PyStr Lex_Model Front_Model Doc_Model.

(** ** Codecs *)

(** [s.encode(name)] and [b.decode(name)]; None: UnicodeError (Cheetah/Template.py:792;
    Cheetah/CheetahWrapper.py:645, 652, 656). *)
Record codec := mkCodec { cd_enc : pystr -> option pystr; cd_dec : pystr -> option pystr }.

(** A codec of one byte for each of the first [n] characters: ascii for 128 (Cheetah/Template.py:765), latin-1
    for 256 (Cheetah/Template.py:781). *)
Definition below (n : N) (s : pystr) : option pystr := if forallb (fun c => c <? n)%N s then Some s else None.
(** ascii (Cheetah/Template.py:765). *)
Definition ascii : codec := mkCodec (below 128) (below 128).
(** Goes with the definition above (Cheetah/Template.py:781). *)
Definition latin1 : codec := mkCodec (below 256) (below 256).

(** utf-8, the default of [decode] (Cheetah/CheetahWrapper.py:656). *)
Definition surrogate (c : N) : bool := ((55296 <=? c) && (c <=? 57343))%N.
(** Goes with the definition above (Cheetah/CheetahWrapper.py:656). *)
Definition utf8_char (c : N) : option pystr :=
  (if c <? 128 then Some [c]
   else if c <? 2048 then Some [192 + c / 64; 128 + c mod 64]
   else if surrogate c then None
   else if c <? 65536 then Some [224 + c / 4096; 128 + (c / 64) mod 64; 128 + c mod 64]
   else if c <? 1114112 then Some [240 + c / 262144; 128 + (c / 4096) mod 64; 128 + (c / 64) mod 64; 128 + c mod 64]
   else None)%N.
(** Goes with the definition above (Cheetah/CheetahWrapper.py:656). *)
Fixpoint utf8_enc (s : pystr) : option pystr :=
  match s with
  | [] => Some []
  | c :: r => match utf8_char c, utf8_enc r with Some a, Some b => Some (a ++ b) | _, _ => None end
  end.

(** ... and back, strictly: no overlong forms, no surrogates (Cheetah/CheetahWrapper.py:656). *)
Definition cont (b : N) : bool := ((128 <=? b) && (b <? 192))%N.
(** Goes with the definition above (Cheetah/CheetahWrapper.py:656). *)
Definition put (c : N) (r : option pystr) : option pystr := option_map (cons c) r.
(** Goes with the definition above (Cheetah/CheetahWrapper.py:656). *)
Fixpoint utf8_dec (b : pystr) : option pystr :=
  match b with
  | [] => Some []
  | b0 :: r =>
      if (b0 <? 128)%N then put b0 (utf8_dec r)
      else match r with
           | [] => None
           | b1 :: r =>
               if negb (cont b1) then None
               else if ((194 <=? b0) && (b0 <? 224))%N then put ((b0 - 192) * 64 + (b1 - 128)) (utf8_dec r)
               else match r with
                    | [] => None
                    | b2 :: r =>
                        if negb (cont b2) then None
                        else if ((224 <=? b0) && (b0 <? 240))%N then
                          let c := ((b0 - 224) * 4096 + (b1 - 128) * 64 + (b2 - 128))%N in
                          if ((2048 <=? c) && negb (surrogate c))%N then put c (utf8_dec r) else None
                        else match r with
                             | [] => None
                             | b3 :: r =>
                                 let c := ((b0 - 240) * 262144 + (b1 - 128) * 4096 + (b2 - 128) * 64 + (b3 - 128))%N in
                                 if (cont b3 && (240 <=? b0) && (65536 <=? c) && (c <? 1114112))%N then put c (utf8_dec r)
                                 else None
                             end
                    end
           end
  end.
(** Goes with the definition above (Cheetah/CheetahWrapper.py:656). *)
Definition utf8 : codec := mkCodec utf8_enc utf8_dec.

(** ** The module *)

(** The parts of a module besides its header (Cheetah/Compiler.py:2110-2117). *)
Record parts := mkParts { p_doc : pystr; p_imports : pystr; p_constants : pystr; p_vars : pystr; p_classes : pystr; p_main : pystr }.

(** Goes with the definition above (Cheetah/Compiler.py:2110-2117). *)
Definition LF : pystr := [10%N].
(** Goes with the definition above (Cheetah/Compiler.py:2110-2117). *)
Definition lines (l : list string) : pystr := concat (map (fun x => L x ++ LF) l).

(** [moduleFooter] (Cheetah/Compiler.py:2167-2179). *)
Definition module_footer (main : pystr) : pystr :=
  lines [""; "# CHEETAH was developed by Tavis Rudd and Mike Orr";
         "# with code, advice and input from many other volunteers.";
         "# For more information visit https://cheetahtemplate.org/"; "";
         "##################################################"; "## if run from command line:";
         "if __name__ == '__main__':"; "    from Cheetah.TemplateCmdLineIface import CmdLineIface"]%string
  ++ L "    CmdLineIface(templateObj=" ++ main ++ L "()).run()" ++ LF ++ LF.

(** [wrapModuleDef] (Cheetah/Compiler.py:2061-2122). *)
Definition module_def (header : pystr) (p : parts) : pystr :=
  header ++ LF ++ p_doc p ++ LF ++ LF
  ++ lines ["##################################################"; "## DEPENDENCIES"]%string
  ++ p_imports p ++ LF ++ LF
  ++ lines ["##################################################"; "## MODULE CONSTANTS"]%string
  ++ p_constants p ++ LF ++ p_vars p ++ LF ++ LF
  ++ lines ["if __CHEETAH_versionTuple__ < RequiredCheetahVersionTuple:"; "    raise AssertionError(";
            "      'This template was compiled with Cheetah version'";
            "      ' %s. Templates compiled before version %s must be recompiled.'%(";
            "         __CHEETAH_version__, RequiredCheetahVersion))"; "";
            "##################################################"; "## CLASSES"; ""]%string
  ++ p_classes p ++ LF ++ LF
  ++ lines ["## END CLASS DEFINITION"; ""]%string
  ++ L "if not hasattr(" ++ p_main p ++ L ", '_initCheetahAttributes'):" ++ LF
  ++ L "    templateAPIClass = getattr(" ++ p_main p ++ L "," ++ LF
  ++ lines ["                               '_CHEETAH_templateClass',"; "                               Template)"]%string
  ++ L "    templateAPIClass._addCheetahPlumbingCodeToClass(" ++ p_main p ++ L ")" ++ LF ++ LF
  ++ module_footer (p_main p) ++ LF.

(** The module of a compiler: the line for the encoding in the header is always empty
    (Cheetah/Compiler.py:1750, 2131). *)
Definition module_code (shbang : pystr) (off : nat) (header : list pystr) (p : parts) : pystr :=
  module_def (module_header shbang [] off header) p.

(** ** Its bytes *)

(** LookupError, UnicodeEncodeError, UnicodeDecodeError, TypeError (Cheetah/Template.py:792;
    Cheetah/CheetahWrapper.py:645-657). *)
Inductive oerr := ELookup | EEncode | EDecode | EType.

(** Exceptions pass (Cheetah/CheetahWrapper.py:641-659). *)
Definition obind {A B} (x : res oerr A) (f : A -> res oerr B) : res oerr B :=
  match x with Ok a => f a | Raise e => Raise e end.

Section Codecs.
Variable K : pystr -> option codec.

(** (Cheetah/Template.py:792; Cheetah/CheetahWrapper.py:645, 652-653.) *)
Definition encode (name s : pystr) : res oerr pystr :=
  match K name with
  | None => Raise ELookup
  | Some cd => match cd_enc cd s with Some b => Ok b | None => Raise EEncode end
  end.
(** Goes with the definition above (Cheetah/CheetahWrapper.py:645, 652-653). *)
Definition decode (name b : pystr) : res oerr pystr :=
  match K name with
  | None => Raise ELookup
  | Some cd => match cd_dec cd b with Some s => Ok s | None => Raise EDecode end
  end.

(** [l.insert(1, x)] (Cheetah/Template.py:789). *)
Definition insert1 (x : pystr) (l : list pystr) : list pystr := firstn 1 l ++ x :: skipn 1 l.
(** Goes with the definition above (Cheetah/Template.py:789). *)
Definition coding_line (enc : pystr) : pystr := L "# -*- coding: " ++ enc ++ L " -*-".

(** [compile(..., returnAClass=False)]: [fresh], the code of the compiler and the encoding of its module, or
    [cached], the code of an item of the cache, when the variable [outputEncoding] keeps its first value
    (Cheetah/Template.py:765-792). *)
Definition returned (cached : option pystr) (fresh : pystr * pystr) : res oerr pystr :=
  let '(code, enc) := match cached with Some c => (c, L "ascii") | None => fresh end in
  let code := if str_eqb enc (L "ascii") then code
              else join LF (insert1 (coding_line enc) (split_char 10 code)) in
  encode enc code.

(** ** Where they go *)

(** What compile or fill gives: bytes or a str (Cheetah/CheetahWrapper.py:624-634). *)
Inductive outp := OBytes (b : pystr) | OText (s : pystr).

(** To the standard output, of encoding [loc] (Cheetah/CheetahWrapper.py:641-646); [opt]: --encoding. *)
Definition to_stdout (loc : pystr) (opt : option pystr) (o : outp) : res oerr pystr :=
  match opt, o with
  | Some e, OBytes b => obind (decode e b) (encode loc)
  | None, OBytes _ => Raise EType
  | _, OText s => encode loc s
  end.

(** To a file: its contents (Cheetah/CheetahWrapper.py:647-659); [loc]: the encoding of [open]. *)
Definition to_file (loc : pystr) (opt : option pystr) (o : outp) : res oerr pystr :=
  match opt with
  | Some e => obind (match o with OBytes b => decode e b | OText s => Ok s end) (encode e)
  | None => obind (match o with OBytes b => decode (L "utf-8") b | OText s => Ok s end) (encode loc)
  end.

(** [cheetah compile] of one file that was not compiled before (Cheetah/CheetahWrapper.py:624-629, 641-659). *)
Definition write_module (stdout : bool) (loc : pystr) (opt : option pystr) (code enc : pystr) : res oerr pystr :=
  obind (returned None (code, enc)) (fun b => (if stdout then to_stdout else to_file) loc opt (OBytes b)).
End Codecs.

(** [eatEncoding] (Cheetah/Parser.py:1893-1902): the encoding of the module and the position behind; expression
    filters are left out. *)
Definition eat_encoding (T : toks) (b r : pystr) : pystr * (pystr * pystr) :=
  let '(b, r) := skip_dir T (L "encoding") b r in
  let '(b, r) := skip_ws b r in
  let '(e, p) := read_eol false b r in
  (strip e, p).
