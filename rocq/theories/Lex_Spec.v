(** Specification vocabulary for C02, C03, C35, C42, C43, C51, C63 and C64: what tokens, escapes,
    directive names, comments and lines are, without reference to the parser's functions (only the records
    of settings, states and generated items are shared). *)
From Verif Require Import Base PyStr StrConst_Model PyLiteral_Spec Lex_Model.
From Verif Require Export Reader_Spec.

(** One text occurs in another. *)
Definition occurs (t s : pystr) : Prop := exists a b, s = a ++ t ++ b.

(** The tokens that start something other than text; an empty slurp token means none. *)
Definition tokens (T : toks) : list pystr :=
  [t_com T; t_ml T; t_var T; t_dir T; t_psp T] ++ match t_slurp T with [] => [] | t => [t] end.

(** No token is empty (the parser's set-up fails on an empty one). *)
Definition toks_ok (T : toks) : Prop := forall t, In t (tokens T) -> t <> [].

(** [prints l s]: the generated statements [l] write the text [s]; a write statement writes what its
    Python literal denotes, a comment writes nothing. *)
Inductive prints (printable : N -> bool) : list item -> pystr -> Prop :=
| pr_nil : prints printable [] []
| pr_text : forall t lit v l s, str_const_literal printable t = Some lit -> eval_literal lit = Some v ->
    prints printable l s -> prints printable (Text t :: l) (v ++ s)
| pr_rem : forall c l s, prints printable l s -> prints printable (Rem c :: l) s.

(** ** Escaping *)

(** A backslash before every dollar and every hash sign. *)
Fixpoint escape (s : pystr) : pystr :=
  match s with
  | [] => []
  | c :: r => if ((c =? 36) || (c =? 35))%N then 92%N :: c :: escape r else c :: escape r
  end.

(** Dropping every backslash that stands directly before one of two characters, and no other. *)
Fixpoint unescaped (v d : N) (s : pystr) : pystr :=
  match s with
  | [] => []
  | b :: r =>
      match r with
      | c :: t => if ((b =? 92) && ((c =? v) || (c =? d)))%N then c :: unescaped v d t
                  else b :: unescaped v d r
      | [] => [b]
      end
  end.

(** The tokens are the default ones; everything else may be set in any way. *)
Definition default_tokens (T : toks) : Prop :=
  t_var T = L "$" /\ t_com T = L "##" /\ t_ml T = L "#*" /\ t_mlend T = L "*#" /\ t_dir T = L "#"
  /\ t_dirend T = L "#" /\ t_psp T = L "<%" /\ t_slurp T = L "#".

(** A hash sign with nothing but blanks between it and the end of its line. *)
Definition hash_at_eol (s : pystr) : Prop :=
  exists a w c b, s = a ++ L "#" ++ w ++ c :: b
    /\ (forall x, In x w -> In x [32; 9; 12]%N) /\ (c = 10 \/ c = 13)%N.

(** ** Directive names *)

Definition letter (c : N) : Prop := (65 <= c <= 90 \/ 97 <= c <= 122 \/ c = 95)%N.
Definition name_char (c : N) : Prop := letter c \/ (48 <= c <= 57)%N \/ c = 45%N \/ c = 64%N.

(** [n] is the longest run of name characters at the start of [s]. *)
Definition whole_run (n s : pystr) : Prop :=
  exists t, s = n ++ t /\ (forall c, In c n -> name_char c)
    /\ (t = [] \/ exists c u, t = c :: u /\ ~ name_char c).

(** What the text [s] behind a directive token names, given the registered names. *)
Definition names_directive (names : list pystr) (s n : pystr) : Prop :=
  (n = L "@" /\ exists c t, s = 64%N :: c :: t /\ letter c)
  \/ (In n names /\ whole_run n s /\ exists c t, s = c :: t /\ letter c).

(** ** Multi-line comments *)

(** Text between the start and the end token of a comment (default tokens, no backslashes).  A comment
    inside is followed by at least one more character and is not empty; [lone c s]: with the text [s] and
    the end token behind it, the character [c] starts no token. *)
Definition lone (c : N) (s : pystr) : Prop :=
  c <> 92%N /\ (forall t, c :: s ++ L "*#" <> L "#*" ++ t) /\ (forall t, c :: s ++ L "*#" <> L "*#" ++ t).
Inductive comment_body : pystr -> Prop :=
| cb_end : comment_body []
| cb_char : forall c s, lone c s -> comment_body s -> comment_body (c :: s)
| cb_nest : forall c s d t, lone c s -> comment_body s -> lone d t -> comment_body t ->
    comment_body (L "#*" ++ (c :: s) ++ L "*#" ++ (d :: t)).

(** ** Lines *)

(** White space without line breaks. *)
Definition indent (w : pystr) : Prop := forall c, In c w -> is_space c = true /\ c <> 10%N /\ c <> 13%N.

(** The reader stands behind the indentation [w] of a line. *)
Definition at_indent (w before : pystr) : Prop :=
  exists b, before = rev w ++ b /\ (b = [] \/ exists c b', b = c :: b' /\ (c = 10 \/ c = 13)%N).

(** The pending text ends with the indentation [w] of the current line, and is [p'] without it. *)
Definition pending_indent (w : pystr) (p p' : list pystr) : Prop :=
  (w = [] /\ p' = p /\ (p = [] \/ exists a q, p = a :: q /\ after_break a))
  \/ exists a q, p = (a ++ w) :: q /\ p' = a :: q /\ after_break a.

(** The end of a line: a line break, or the end of the source. *)
Definition line_end (k post : pystr) : Prop :=
  (is_break k /\ (k = [13]%N -> forall u, post <> 10%N :: u)) \/ (k = [] /\ post = []).

(** ** Runs of the parse loop *)

(** [visits T other st st']: the loop comes from [st] to [st']. *)
Inductive visits (T : toks) (other : eater) : pst -> pst -> Prop :=
| vs_here : forall st, visits T other st st
| vs_step : forall st st1 st2, rest st <> [] -> step T other st = Some (Ok st1) ->
    visits T other st1 st2 -> visits T other st st2.

(** The directive used at a state: its name, or psp for a PSP block. *)
Definition uses (T : toks) (st : pst) (n : pystr) : Prop :=
  rest st <> [] /\ (classify T (before st) (rest st) = KDirective n
                    \/ (classify T (before st) (rest st) = KPSP /\ n = L "psp")).

(** The settings without restrictions on directives. *)
Definition unrestricted (T : toks) : toks :=
  mkT (t_var T) (t_com T) (t_ml T) (t_mlend T) (t_gobble T) (t_dir T) (t_dirend T) (t_dirws T) (t_psp T)
      (t_slurp T) (t_names T) [] [].

(** A name without capital letters. *)
Definition no_capitals (n : pystr) : Prop := forall c, In c n -> ~ (65 <= c <= 90)%N.

(** The settings forbid the directive. *)
Definition restricted (T : toks) (n : pystr) : Prop :=
  In n (t_disabled T) \/ (t_enabled T <> [] /\ ~ In n (t_enabled T)).

(** An eater of other constructs makes progress: it returns, and the state it returns is further on. *)
Definition progresses (other : eater) : Prop :=
  forall k st, exists r, other k st = Some r
    /\ forall st', r = Ok st' -> (length (rest st') < length (rest st))%nat.

(** The text generated so far, written or still pending. *)
Definition text_so_far (b : buf) : pystr := written (done b) ++ concat (rev (pend b)).

(** A token that neither is empty nor begins with a line break. *)
Definition solid (t : pystr) : Prop := exists c r, t = c :: r /\ c <> 10%N /\ c <> 13%N.

(** Comment lines in generated code stay comments: none contains a line break. *)
Definition comments_safe (l : list item) : Prop := forall c, In (Rem c) l -> plain c.

(** An eater of other constructs leaves that so. *)
Definition keeps_safe (other : eater) : Prop :=
  forall k st st', other k st = Some (Ok st') -> comments_safe (done (out st)) -> comments_safe (done (out st')).

(** [y] is nothing, or the blank rest of the line at the start of [z], with or without its end. *)
Definition blank_rest (y z : pystr) : Prop :=
  y = [] \/ exists l k u, z = l ++ k ++ u /\ indent l /\ line_end k u /\ (y = l \/ y = l ++ k).

(** No character of the text starts a token. *)
Definition free (T : toks) (s : pystr) : Prop :=
  forall c t, In c s -> In t (tokens T) -> forall r, t <> c :: r.

(** Documents of text and comment lines, and what they print: a comment line is a line that holds nothing
    but indentation and a comment. *)
Inductive commented (T : toks) : pystr -> pystr -> Prop :=
| cm_text : forall s, free T s -> commented T s s
| cm_line : forall a w c k src o, free T (a ++ w) -> after_break a -> indent w -> plain c -> line_end k src ->
    commented T src o -> commented T (a ++ w ++ t_com T ++ c ++ k ++ src) (a ++ o).

(** ** Placeholder starts, as the grammar of the regular expressions *)

(** An interval: digits and dots, and possibly a unit. *)
Definition interval_text (s : pystr) : Prop :=
  exists n u, s = n ++ u /\ n <> [] /\ (forall c, In c n -> (48 <= c <= 57)%N \/ c = 46%N)
    /\ (u = [] \/ exists c, u = [c] /\ In c (L "smhdw")).

(** A cache token: an interval between two stars, a star, or nothing. *)
Definition cache_text (s : pystr) : Prop :=
  s = [] \/ s = L "*" \/ exists i, s = L "*" ++ i ++ L "*" /\ interval_text i.

(** An opening bracket and blanks. *)
Definition enclosure (s : pystr) : Prop :=
  exists c w, s = c :: w /\ In c (L "{([") /\ forall x, In x w -> In x [32; 9; 12]%N.

(** The text starts with a placeholder for a variable. *)
Definition variable_start (tok s : pystr) : Prop :=
  exists sil cache enc c t, s = tok ++ sil ++ cache ++ enc ++ c :: t /\ (sil = [] \/ sil = L "!")
    /\ cache_text cache /\ (enc = [] \/ enclosure enc) /\ letter c.

(** The text starts with a placeholder for an expression. *)
Definition expression_start (tok s : pystr) : Prop :=
  exists cache enc c t, s = tok ++ cache ++ enc ++ c :: t /\ cache_text cache /\ enclosure enc
    /\ ~ In c (L ")}]").

(** The text starts with a slurp token that ends its line. *)
Definition slurp_start (tok s : pystr) : Prop :=
  exists w c t, s = tok ++ w ++ c :: t /\ (forall x, In x w -> In x [32; 9; 12]%N) /\ (c = 10 \/ c = 13)%N.
