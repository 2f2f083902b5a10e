(** Property theorems C02, C03 (literal text), C35 (directive names), C42 (multi-line comments), C43
    (directives alone on a line), C51 (disabled directives), C63 (comments stay comments) and C64 (parsing
    ends). *)
From Verif Require Import Base PyStr Names_Model StrConst_Model PyLiteral_Spec StrConst_Proofs Reader_Model Reader_Spec
  Lex_Model Lex_Spec Lex_Proofs LexLines_Proofs LexWhole_Proofs LexStart_Proofs.
Local Open Scope string_scope.
Local Open Scope list_scope.

(** Eaters of the parts that are not modelled, for the examples: one that never returns, one that passes a
    single character (the loop of Cheetah/Parser.py:1543-1560). *)
Definition no_others : eater := fun _ _ => None.
Definition pass_one : eater := fun _ st =>
  match rest st with [] => Some (Raise PParse) | c :: r => Some (Ok (mkP (c :: before st) r (out st))) end.

(** The default settings with some directives disabled (Cheetah/Compiler.py:96-97). *)
Definition dflt_without (l : list pystr) : toks :=
  mkT (L "$") (L "##") (L "#*") (L "*#") true (L "#") (L "#") false (L "<%") (L "#") default_names l [].

Lemma dflt_tokens : default_tokens dflt.
Proof. repeat split. Qed.

Ltac chars := let c := fresh in let H := fresh in
  intros c H; cbn in H;
  repeat match type of H with _ \/ _ => destruct H as [<-|H] | False => destruct H end.
Ltac valid_now := apply Forall_forall; chars; discriminate.
Ltac free_now := let c := fresh in let t := fresh in let Hc := fresh in let Ht := fresh in let r := fresh in
  let E := fresh in
  intros c t Hc Ht r E; subst t; cbn in Hc, Ht;
  repeat match type of Hc with _ \/ _ => destruct Hc as [<-|Hc] | False => destruct Hc end;
  repeat match type of Ht with _ \/ _ => destruct Ht as [Ht|Ht]; [discriminate Ht|] | False => destruct Ht end.

(** ** C02 *)

(** C02: a source in which none of the tokens occurs compiles, whatever the settings are, to statements
    that print exactly the source. *)
Theorem C02_token_free_verbatim : forall T other printable src fuel,
  (forall t, In t (tokens T) -> ~ occurs t src) -> valid_str src -> (2 <= fuel)%nat ->
  exists l, compile_body fuel T other src = Some (Ok l) /\ prints printable l src.
Proof. exact token_free_verbatim. Qed.
Print Assumptions C02_token_free_verbatim.
Example C02_token_free_verbatim_ex :
  let src := L "a 'quoted' < b" ++ [10; 9; 39; 34; 92]%N ++ L "n % >" in
  (forall t, In t (tokens dflt) -> starts_with t src = false)
  /\ compile_body 2 dflt no_others src = Some (Ok [Text src]).
Proof.
  split; [|vm_compute; reflexivity]. intros t Ht. cbn in Ht.
  repeat (destruct Ht as [<-|Ht]; [reflexivity|]). destruct Ht.
Qed.

(** ** C03 *)

(** C03: with the default tokens, escaping every dollar and hash sign of a text makes it literal.  Missing
    for the full statement: texts with the PSP token, and hash signs at the end of a line. *)
Theorem C03_escaped_text_partial : forall T, default_tokens T -> forall other printable s fuel,
  valid_str s -> ~ In 92%N s -> ~ occurs (L "<%") s -> ~ hash_at_eol s -> (2 <= fuel)%nat ->
  exists l, compile_body fuel T other (escape s) = Some (Ok l) /\ prints printable l s.
Proof. exact escaped_text_literal. Qed.
Print Assumptions C03_escaped_text_partial.
Example C03_escaped_text_partial_ex :
  escape (L "#if $a ## $ #*") = L "\#if \$a \#\# \$ \#*"
  /\ compile_body 2 dflt no_others (escape (L "#if $a ## $ #*")) = Some (Ok [Text (L "#if $a ## $ #*")]).
Proof. split; vm_compute; reflexivity. Qed.

(** C03: unescaping drops the backslashes before the two token characters, and no other. *)
Theorem C03_unescape : forall T v d s, t_var T = [v] -> t_dir T = [d] ->
  v <> 92%N -> d <> 92%N -> v <> d -> unescape T s = unescaped v d s.
Proof. exact unescape_single. Qed.
Print Assumptions C03_unescape.
Example C03_unescape_ex :
  unescape dflt (L "\a \$b \\# \\\") = L "\a $b \# \\\".
Proof. vm_compute. reflexivity. Qed.

Theorem C03_other_backslashes_stay : forall v d s,
  (forall a c b, s = a ++ 92%N :: c :: b -> c <> v /\ c <> d) -> unescaped v d s = s.
Proof. exact unescaped_keeps. Qed.
Print Assumptions C03_other_backslashes_stay.
Example C03_other_backslashes_stay_ex : unescaped 36 35 (L "C:\new $x \") = L "C:\new $x \".
Proof. vm_compute. reflexivity. Qed.

(** C03 fails for a hash sign at the end of a line: the pattern for the slurp token has no look-behind, the
    escaped hash sign slurps the line break and the backslash is printed. *)
Theorem C03_hash_at_eol_refuted : exists s s' l, valid_str s /\ ~ In 92%N s /\ ~ occurs (L "<%") s
  /\ compile_body 9 dflt no_others (escape s) = Some (Ok l)
  /\ prints (fun _ => true) l s' /\ s' <> s.
Proof.
  exists (35 :: 10 :: L "b")%N, (L "\b"), [Text (L "\"); Text (L "b")]. split.
  { valid_now. } split; [cbn; intuition discriminate|]. split.
  { intros (a & b & E). destruct a as [|? [|? [|? [|? ?]]]]; discriminate E. }
  split; [vm_compute; reflexivity|]. split; [|discriminate].
  apply (prints_written (fun _ => true) [Text (L "\"); Text (L "b")]); [|valid_now].
  intros s [E|[E|[]]]; injection E as <-; discriminate.
Qed.
Print Assumptions C03_hash_at_eol_refuted.

(** C03 fails for the PSP token: there is no way to escape it. *)
Theorem C03_psp_refuted : exists s, valid_str s /\ ~ In 92%N s /\ ~ hash_at_eol s
  /\ forall other, step dflt other (start (escape s)) = other KPSP (start (escape s)).
Proof.
  exists (L "<% x %>"). split; [valid_now|]. split; [cbn; intuition discriminate|]. split.
  - intros (a & w & c & b & E & _). assert (H : In 35%N (L "<% x %>")).
    { rewrite E. apply in_or_app. right. left. reflexivity. }
    cbn in H. intuition discriminate.
  - intro other. reflexivity.
Qed.
Print Assumptions C03_psp_refuted.

(** ** C35 *)

(** C35: behind the directive token (and blanks, where the settings allow them) a directive is seen exactly
    when the whole run of name characters is a registered name, or a decorator follows; never behind a
    backslash. *)
Theorem C35_whole_names : forall T b r n, m_dir T b r = Some n <->
  (forall b', b <> 92%N :: b') /\
  exists w s, r = t_dir T ++ w ++ s /\ (forall c, In c w -> (c = 32 \/ c = 9)%N)
    /\ (w = [] \/ t_dirws T = true) /\ names_directive (t_names T) s n.
Proof. exact m_dir_iff. Qed.
Print Assumptions C35_whole_names.
Example C35_whole_names_ex :
  m_dir dflt [] (L "#if x") = Some (L "if") /\ m_dir dflt [] (L "#ifx") = None
  /\ m_dir dflt [] (L "#fade00") = None /\ m_dir dflt [] (L "#compiler-settings") = Some (L "compiler-settings")
  /\ m_dir dflt [] (L "#compiler x") = Some (L "compiler") /\ m_dir dflt [] (L "#@deco") = Some (L "@")
  /\ m_dir dflt (L "\") (L "#if x") = None /\ m_dir dflt [] (L "# if x") = None
  /\ names_directive default_names (L "if x") (L "if").
Proof.
  repeat (split; [vm_compute; reflexivity|]). right. split; [vm_compute; tauto|]. split.
  - exists (L " x"). split; [reflexivity|]. split; [chars; left; right; left; vm_compute; split; discriminate|].
    right. exists 32%N, (L "x"). split; [reflexivity|]. intros [[[H _]|[[H _]|H]]|[[H _]|[H|H]]]; try discriminate H;
      vm_compute in H; congruence.
  - exists 105%N, (L "f x"). split; [reflexivity|]. right. left. vm_compute. split; discriminate.
Qed.

(** ** C42 *)

(** C42: between two texts without token characters a multi-line comment (properly nested, default tokens)
    vanishes: the program prints the two texts.  With the default setting gobbleWhitespaceAroundMultiLine-
    Comments, the indentation before it and the blank rest of the line behind it may vanish as well; without
    the setting nothing else is lost.  Missing for the full statement: comments with backslashes, and the
    nestings of the three refutations below. *)
Theorem C42_comment_vanishes_partial : forall T other printable a body z, default_tokens T ->
  free T a -> free T z -> (forall x, a <> x ++ [92%N]) -> comment_body body -> valid_str a -> valid_str z ->
  exists x y a' z' l, a = a' ++ x /\ z = y ++ z' /\ indent x /\ blank_rest y z
    /\ (t_gobble T = false -> x = [] /\ y = [])
    /\ (exists fuel, compile_body fuel T other (a ++ L "#*" ++ body ++ L "*#" ++ z) = Some (Ok l))
    /\ prints printable l (a' ++ z').
Proof. exact multi_document. Qed.
Print Assumptions C42_comment_vanishes_partial.
Lemma C42_body_example : comment_body (L " a $x #* b #* c *# *# d ").
Proof.
  assert (L1 : forall c s, c <> 92%N -> c <> 35%N -> c <> 42%N -> lone c s).
  { intros c s H1 H2 H3. split; [exact H1|]. split; intros t E; injection E as E _; congruence. }
  assert (P1 : forall c s, c <> 92%N -> c <> 35%N -> c <> 42%N -> comment_body s -> comment_body (c :: s)).
  { intros c s H1 H2 H3 H. constructor; [apply L1; assumption|exact H]. }
  assert (Q : comment_body (L " b #* c *# ")).
  { do 3 (apply P1; [discriminate|discriminate|discriminate|]).
    apply (cb_nest 32%N (L "c ") 32%N []); try (apply L1; discriminate).
    - do 2 (apply P1; [discriminate|discriminate|discriminate|]). constructor.
    - constructor. }
  do 6 (apply P1; [discriminate|discriminate|discriminate|]).
  apply (cb_nest 32%N (L "b #* c *# ") 32%N (L "d ")); try (apply L1; discriminate).
  - inversion Q; subst; assumption.
  - do 2 (apply P1; [discriminate|discriminate|discriminate|]). constructor.
Qed.
Example C42_comment_vanishes_partial_ex :
  comment_body (L " a $x #* b #* c *# *# d ")
  /\ compile_body 9 dflt no_others (L "one #* a $x #* b #* c *# *# d *# two")
     = Some (Ok [Text (L "one "); Rem (L " a $x #* b #* c *# *# d "); Text (L " two")]).
Proof. split; [exact C42_body_example|vm_compute; reflexivity]. Qed.

(** C42: alone on its lines, a comment takes exactly its indentation and its line break with it, and the
    text behind is read from the next line on. *)
Theorem C42_comment_alone : forall T, default_tokens T -> forall st body l k post w p',
  rest st = [35; 42]%N ++ body ++ [42; 35]%N ++ l ++ k ++ post ->
  comment_body body -> t_gobble T = true -> indent w -> at_indent w (before st) ->
  pending_indent w (pend (out st)) p' -> indent l -> line_end k post -> l ++ k ++ post <> [] ->
  exists st', eat_multi T st = Some (Ok st') /\ rest st' = post
    /\ text_so_far (out st) = text_so_far (out st') ++ w.
Proof. exact multi_alone. Qed.
Print Assumptions C42_comment_alone.
Example C42_comment_alone_ex :
  let nl := [10%N] in
  let st := mkP (L "  " ++ nl ++ L "x") (L "#* a $x #* b #* c *# *# d *# " ++ nl ++ L "y")
                (mkB [L "x" ++ nl ++ L "  "] []) in
  at_indent (L "  ") (before st) /\ pending_indent (L "  ") (pend (out st)) [L "x" ++ nl]
  /\ line_end nl (L "y") /\ eat_multi dflt st
     = Some (Ok (mkP (rev (L "x" ++ nl ++ L "  #* a $x #* b #* c *# *# d *# " ++ nl)) (L "y")
          (mkB [] [Text (L "x" ++ nl); Rem (L " a $x #* b #* c *# *# d ")]))).
Proof.
  split.
  { exists (10%N :: L "x"). split; [reflexivity|]. right. exists 10%N, (L "x"). split; [reflexivity|left; reflexivity]. }
  split.
  { right. exists (L "x" ++ [10%N]), []. split; [reflexivity|]. split; [reflexivity|]. right.
    exists (L "x"), 10%N. split; [reflexivity|left; reflexivity]. }
  split; [left; split; [right; left; reflexivity|discriminate]|]. vm_compute. reflexivity.
Qed.

(** C42 fails when a nested comment ends directly before the end of the outer one: one character behind a
    nested token is passed unseen, and everything behind the comment is lost. *)
Theorem C42_adjacent_end_refuted : exists src l, src = L "#* a #* b *#*# text"
  /\ compile_body 9 dflt no_others src = Some (Ok l) /\ written l = [].
Proof. exists (L "#* a #* b *#*# text"). eexists. split; [reflexivity|]. split; [vm_compute; reflexivity|reflexivity]. Qed.
Print Assumptions C42_adjacent_end_refuted.

(** C42: a comment that is never closed swallows the rest of the source without an error. *)
Theorem C42_unclosed_refuted : exists src l, src = L "a #* b text"
  /\ compile_body 9 dflt no_others src = Some (Ok l) /\ written l = L "a ".
Proof. exists (L "a #* b text"). eexists. split; [reflexivity|]. split; [vm_compute; reflexivity|reflexivity]. Qed.
Print Assumptions C42_unclosed_refuted.

(** C42: a nested comment that ends with the source ends in the reader's error, not in a report about the
    unclosed comment. *)
Theorem C42_nested_at_end_refuted : compile_body 9 dflt no_others (L "#* a #* b *#") = Some (Raise PReader).
Proof. vm_compute. reflexivity. Qed.
Print Assumptions C42_nested_at_end_refuted.

(** ** C43 *)

(** C43: in a document made of text and comment lines (any number, in any order, any settings) the comment
    lines leave no trace. *)
Theorem C43_comment_lines : forall T other printable src o, toks_ok T -> commented T src o -> valid_str o ->
  exists l, (exists fuel, compile_body fuel T other src = Some (Ok l)) /\ prints printable l o.
Proof. exact commented_document. Qed.
Print Assumptions C43_comment_lines.
Example C43_comment_lines_ex :
  let nl := [10%N] in
  let src := L "one" ++ nl ++ L "  ## first $x" ++ nl ++ L "##second" ++ nl ++ L "two" in
  commented dflt src (L "one" ++ nl ++ L "two")
  /\ compile_body 9 dflt no_others src
     = Some (Ok [Text (L "one" ++ nl); Rem (L " first $x"); Rem (L "second"); Text (L "two")]).
Proof.
  split; [|vm_compute; reflexivity].
  apply (cm_line dflt (L "one" ++ [10%N]) (L "  ") (L " first $x") [10%N] (L "##second" ++ [10%N] ++ L "two") (L "two")).
  - free_now.
  - right. exists (L "one"), 10%N. split; [reflexivity|left; reflexivity].
  - chars; repeat split; try reflexivity; discriminate.
  - split; intro F; cbn in F; intuition discriminate.
  - left. split; [right; left; reflexivity|discriminate].
  - apply (cm_line dflt [] [] (L "second") [10%N] (L "two") (L "two")).
    + intros c t [].
    + left. reflexivity.
    + intros c [].
    + split; intro F; cbn in F; intuition discriminate.
    + left. split; [right; left; reflexivity|discriminate].
    + constructor. free_now.
Qed.

(** C43: the four ways in which the parser handles a line that holds nothing but a comment or a directive:
    the reader is behind the line break, and the indentation is all that is taken from the text before.
    The expressions come from an oracle.  (1) a comment. *)
Theorem C43_comment_line : forall T w st p', indent w -> at_indent w (before st) ->
  pending_indent w (pend (out st)) p' -> forall c k post,
  rest st = t_com T ++ c ++ k ++ post -> plain c -> line_end k post ->
  rest (eat_comment T st) = post /\ text_so_far (out st) = text_so_far (out (eat_comment T st)) ++ w.
Proof. exact comment_line. Qed.
Print Assumptions C43_comment_line.
Definition C43_state (d : pystr) : pst :=
  mkP (L "  " ++ [10%N] ++ L "x") (d ++ [10%N] ++ L "y") (mkB [L "x" ++ [10%N] ++ L "  "] []).
Lemma C43_state_ok : forall d, indent (L "  ") /\ at_indent (L "  ") (before (C43_state d))
  /\ pending_indent (L "  ") (pend (out (C43_state d))) [L "x" ++ [10%N]].
Proof.
  intro d. split; [chars; repeat split; try reflexivity; discriminate|]. split.
  - exists (10%N :: L "x"). split; [reflexivity|]. right. exists 10%N, (L "x"). split; [reflexivity|left; reflexivity].
  - right. exists (L "x" ++ [10%N]), []. split; [reflexivity|]. split; [reflexivity|]. right.
    exists (L "x"), 10%N. split; [reflexivity|left; reflexivity].
Qed.
Example C43_comment_line_ex :
  eat_comment dflt (C43_state (L "## c")) = mkP (rev (L "x" ++ [10%N] ++ L "  ## c" ++ [10%N])) (L "y")
    (mkB [] [Text (L "x" ++ [10%N]); Rem (L " c")]).
Proof. vm_compute. reflexivity. Qed.

(** (2) #slurp and the slurp token. *)
Theorem C43_slurp_line : forall w st p', indent w -> at_indent w (before st) ->
  pending_indent w (pend (out st)) p' -> forall l k post,
  rest st = l ++ k ++ post -> plain l -> line_end k post ->
  rest (eat_slurp st) = post /\ text_so_far (out st) = text_so_far (out (eat_slurp st)) ++ w.
Proof. exact slurp_line. Qed.
Print Assumptions C43_slurp_line.
Example C43_slurp_line_ex :
  eat_slurp (C43_state (L "#slurp")) = mkP (rev (L "x" ++ [10%N] ++ L "  #slurp" ++ [10%N])) (L "y")
    (mkB [] [Text (L "x" ++ [10%N])]).
Proof. vm_compute. reflexivity. Qed.

(** (3) a directive with an expression that reaches to the end of the line. *)
Theorem C43_expression_line : forall T w st p', indent w -> at_indent w (before st) ->
  pending_indent w (pend (out st)) p' -> forall (gx : xreader) (incl : bool) name l k post b1 l1 x,
  solid (t_com T) -> solid (t_dirend T) ->
  rest st = l ++ k ++ post -> plain l -> line_end k post ->
  skip_dir T (if incl then [] else name) (before st) (rest st) = (b1, l1 ++ k ++ post) ->
  gx b1 (l1 ++ k ++ post) = Ok (x, length l1) -> split_ws (strip x) <> [] ->
  exists st', eat_simple_expr T gx incl name st = Ok (strip x, st')
    /\ rest st' = post /\ text_so_far (out st) = text_so_far (out st') ++ w.
Proof. exact expr_line. Qed.
Print Assumptions C43_expression_line.
Definition to_eol : xreader := fun _ r => Ok (firstn (eol_off r) r, eol_off r).
Example C43_expression_line_ex :
  eat_simple_expr dflt to_eol false (L "set") (C43_state (L "#set a = 1"))
  = Ok (L "a = 1", mkP (rev (L "x" ++ [10%N] ++ L "  #set a = 1" ++ [10%N])) (L "y")
          (mkB [L "x" ++ [10%N]] [])).
Proof. vm_compute. reflexivity. Qed.

(** (4) a directive that opens a block, with or without a colon at its end. *)
Theorem C43_block_line : forall T w st p', indent w -> at_indent w (before st) ->
  pending_indent w (pend (out st)) p' -> forall (gx : xreader) name l k post b1 r1 l1 x colon,
  solid (t_com T) -> solid (t_dirend T) ->
  rest st = l ++ k ++ post -> plain l -> line_end k post -> k <> [] ->
  skip_dir T (if keeps_name name then [] else name) (before st) (rest st) = (b1, r1) ->
  snd (skip_ws b1 r1) = l1 ++ colon ++ k ++ post ->
  gx (fst (skip_ws b1 r1)) (l1 ++ colon ++ k ++ post) = Ok (x, length l1) ->
  (colon = [] \/ colon = [58%N]) ->
  exists st', eat_indenting T gx name st = Some (Ok (x, st'))
    /\ rest st' = post /\ text_so_far (out st) = text_so_far (out st') ++ w.
Proof. exact indenting_line. Qed.
Print Assumptions C43_block_line.
Example C43_block_line_ex :
  eat_indenting dflt (fun _ _ => Ok (L "a", 1%nat)) (L "if") (C43_state (L "#if a:"))
  = Some (Ok (L "a", mkP (rev (L "x" ++ [10%N] ++ L "  #if a:" ++ [10%N])) (L "y")
          (mkB [L "x" ++ [10%N]] []))).
Proof. vm_compute. reflexivity. Qed.

(** C43 fails for #end raw alone on its line when text precedes #raw: the text before the block is taken for
    the indentation of the end directive, and lost. *)
Theorem C43_raw_refuted : exists src l,
  src = L "foo #raw" ++ [10%N] ++ L "abc" ++ [10%N] ++ L "#end raw" ++ [10%N]
  /\ compile_body 9 dflt no_others src = Some (Ok l) /\ written l = [10%N] ++ L "abc" ++ [10%N].
Proof. eexists. eexists. split; [reflexivity|]. split; [vm_compute; reflexivity|reflexivity]. Qed.
Print Assumptions C43_raw_refuted.

(** C43 fails for a block opened on the last line of the source without a line break: reading the character
    behind the directive raises an index error. *)
Theorem C43_last_line_refuted : exists st,
  eat_indenting dflt (fun _ _ => Ok (L "else", 4%nat)) (L "else") st = Some (Raise PIndex)
  /\ rest st = L "#else".
Proof. exists (mkP [10%N] (L "#else") (mkB [] [])). split; vm_compute; reflexivity. Qed.
Print Assumptions C43_last_line_refuted.

(** ** C51 *)

(** C51: a template in which the parse loop meets a forbidden directive is rejected with the name of this
    directive, whatever stands before it and behind it.  Missing: names with capital letters. *)
Theorem C51_refused_partial : forall T other src st n, visits T other (start src) st -> uses T st n ->
  no_capitals n -> restricted T n ->
  (exists fuel, compile_body fuel T other src = Some (Raise (PForbidden n)))
  /\ forall fuel l, compile_body fuel T other src <> Some (Ok l).
Proof. exact restricted_refused. Qed.
Print Assumptions C51_refused_partial.
Example C51_refused_partial_ex :
  let T := dflt_without [L "raw"] in
  visits T no_others (start (L "ab #raw")) (mkP (L " ba") (L "#raw") (mkB [L "ab "] []))
  /\ uses T (mkP (L " ba") (L "#raw") (mkB [L "ab "] [])) (L "raw") /\ restricted T (L "raw")
  /\ compile_body 9 T no_others (L "ab #raw") = Some (Raise (PForbidden (L "raw"))).
Proof.
  split; [eapply vs_step; [discriminate|vm_compute; reflexivity|constructor]|].
  split; [split; [discriminate|left; vm_compute; reflexivity]|].
  split; [left; left; reflexivity|vm_compute; reflexivity].
Qed.

(** C51: no code is generated for it: the state reached by the loop is the one before the directive. *)
Theorem C51_nothing_generated_partial : forall T other st n, uses T st n -> no_capitals n -> restricted T n ->
  step T other st = Some (Raise (PForbidden n)).
Proof. exact step_restricted. Qed.
Print Assumptions C51_nothing_generated_partial.
Example C51_nothing_generated_partial_ex :
  step (dflt_without [L "psp"]) no_others (start (L "<% import os %>")) = Some (Raise (PForbidden (L "psp"))).
Proof. vm_compute. reflexivity. Qed.

(** C51: a template that uses no forbidden directive is compiled as if there were no restriction. *)
Theorem C51_others_unaffected_partial : forall fuel T other src,
  (forall st1 n, visits (unrestricted T) other (start src) st1 -> uses T st1 n -> no_capitals n /\ ~ restricted T n) ->
  compile_body fuel T other src = compile_body fuel (unrestricted T) other src.
Proof. exact others_unaffected. Qed.
Print Assumptions C51_others_unaffected_partial.
Example C51_others_unaffected_partial_ex :
  forall st1 n, visits (unrestricted (dflt_without [L "raw"])) no_others (start (L "ab")) st1 ->
  uses (dflt_without [L "raw"]) st1 n -> no_capitals n /\ ~ restricted (dflt_without [L "raw"]) n.
Proof.
  intros st1 n V [N U]. exfalso. inversion V as [|a b c H1 H2 H3]; subst.
  - destruct U as [U|[U _]]; vm_compute in U; discriminate U.
  - vm_compute in H2. injection H2 as <-. inversion H3 as [|a' b' c' H1' H2' H3']; subst.
    + apply N. reflexivity.
    + apply H1'. reflexivity.
Qed.

(** C51 fails for directives with capital letters: the name is put into lower case before it is looked up
    in the list, so the entry errorCatcher has no effect. *)
Theorem C51_capitals_refuted : exists T n src, In n (t_disabled T) /\ uses T (start src) n
  /\ forall other, step T other (start src) = other (KDirective n) (start src).
Proof.
  exists (dflt_without [L "errorCatcher"]), (L "errorCatcher"), (L "#errorCatcher Echo").
  split; [left; reflexivity|]. split; [split; [discriminate|left; vm_compute; reflexivity]|].
  intro other. reflexivity.
Qed.
Print Assumptions C51_capitals_refuted.

(** ** C63 *)

(** C63: no comment line of the generated code contains a line break, whatever the comments of the template
    contain; so no part of a comment becomes code. *)
Theorem C63_comments_stay_comments : forall T other src fuel l, keeps_safe other ->
  compile_body fuel T other src = Some (Ok l) -> comments_safe l.
Proof. exact comments_never_code. Qed.
Print Assumptions C63_comments_stay_comments.
Example C63_comments_stay_comments_ex :
  let nl := [10%N] in
  compile_body 9 dflt no_others (L "#*a" ++ nl ++ L "import os" ++ [13; 10; 13]%N ++ L "b*#")
  = Some (Ok [Rem (L "a"); Rem (L "import os"); Rem []; Rem (L "b")]).
Proof. vm_compute. reflexivity. Qed.

(** ** C64 *)

(** C64: the parse loop ends on every source, within as many rounds as the source has characters, if no
    token is empty and the parts that are not modelled make progress. *)
Theorem C64_parsing_ends : forall T other src, toks_ok T -> progresses other ->
  exists x, forall fuel, (length src < fuel)%nat -> compile_body fuel T other src = Some x.
Proof. exact compile_ends. Qed.
Print Assumptions C64_parsing_ends.
Example C64_parsing_ends_ex : toks_ok dflt /\ progresses pass_one
  /\ compile_body 20 dflt pass_one (L "a#*b*#$c#raw d ## e")
     = Some (Ok [Text (L "a"); Rem (L "b"); Text (L "cd ## e")]).
Proof.
  split; [apply default_ok; exact dflt_tokens|]. split; [|vm_compute; reflexivity].
  intros k st. unfold pass_one. destruct (rest st) as [|c r] eqn:E.
  - eexists. split; [reflexivity|discriminate].
  - eexists. split; [reflexivity|]. intros st' Q. injection Q as <-. cbn [rest length]. lia.
Qed.

(** ** C65 *)

(** C65: where a placeholder starts, exactly as the grammar says, for all tokens: the scanner's single pass
    agrees with the backtracking regular expressions. *)
Theorem C65_variable_start : forall T b r, m_var T b r = true <->
  (forall b', b <> 92%N :: b') /\ variable_start (t_var T) r.
Proof. exact m_var_iff. Qed.
Print Assumptions C65_variable_start.
Example C65_variable_start_ex :
  m_var dflt [] (L "$x") = true /\ m_var dflt [] (L "$!*1.5h*{ x}") = true /\ m_var dflt [] (L "$*5*(x)") = true
  /\ m_var dflt [] (L "$*x") = true /\ m_var dflt [] (L "$*5x") = false /\ m_var dflt [] (L "$5") = false
  /\ m_var dflt [] (L "$*!x") = false /\ m_var dflt (L "\") (L "$x") = false.
Proof. vm_compute. repeat split. Qed.

Theorem C65_expression_start : forall T b r, m_expr T b r = true <->
  (forall b', b <> 92%N :: b') /\ expression_start (t_var T) r.
Proof. exact m_expr_iff. Qed.
Print Assumptions C65_expression_start.
Example C65_expression_start_ex :
  m_expr dflt [] (L "${1+1}") = true /\ m_expr dflt [] (L "$*5m*[1]") = true /\ m_expr dflt [] (L "${ }") = true
  /\ m_expr dflt [] (L "${}") = false /\ m_expr dflt [] (L "$!{1}") = false.
Proof. vm_compute. repeat split. Qed.

Theorem C65_slurp_start : forall T r, m_slurp T r = true <-> t_slurp T <> [] /\ slurp_start (t_slurp T) r.
Proof. exact m_slurp_iff. Qed.
Print Assumptions C65_slurp_start.
Example C65_slurp_start_ex :
  m_slurp dflt (L "#  " ++ [10%N]) = true /\ m_slurp dflt (L "# x") = false /\ m_slurp dflt (L "#") = false.
Proof. vm_compute. repeat split. Qed.

(** C65: a source whose dollar signs start no placeholder, without hash signs and PSP tokens, prints
    itself. *)
Theorem C65_literal_dollars : forall T other printable src fuel, default_tokens T ->
  ~ In 35%N src -> ~ occurs (L "<%") src -> ~ occurs (L "\$") src ->
  (forall a b, src = a ++ b -> ~ variable_start (L "$") b /\ ~ expression_start (L "$") b) ->
  valid_str src -> (2 <= fuel)%nat ->
  exists l, compile_body fuel T other src = Some (Ok l) /\ prints printable l src.
Proof. exact literal_dollars. Qed.
Print Assumptions C65_literal_dollars.
Example C65_literal_dollars_ex :
  compile_body 2 dflt no_others (L "$5.00, US$, $$ and $-1") = Some (Ok [Text (L "$5.00, US$, $$ and $-1")]).
Proof. vm_compute. reflexivity. Qed.

(** C65: in particular a dollar sign that ends the source or stands before anything but a letter, an
    underscore, an exclamation mark, a star or an opening bracket. *)
Theorem C65_price_list : forall T other printable src fuel, default_tokens T ->
  ~ In 35%N src -> ~ In 92%N src -> ~ occurs (L "<%") src ->
  (forall a b, src = a ++ 36%N :: b -> b = [] \/ exists c t, b = c :: t /\ ~ letter c /\ ~ In c (L "!*{([")) ->
  valid_str src -> (2 <= fuel)%nat ->
  exists l, compile_body fuel T other src = Some (Ok l) /\ prints printable l src.
Proof. exact price_list. Qed.
Print Assumptions C65_price_list.
Example C65_price_list_ex : forall a b, L "$5, $" = a ++ 36%N :: b ->
  b = [] \/ exists c t, b = c :: t /\ ~ letter c /\ ~ In c (L "!*{([").
Proof.
  intros a b E. destruct a as [|a1 a].
  - injection E as <-. right. exists 53%N, (L ", $"). split; [reflexivity|]. split.
    + unfold letter. lia.
    + cbn. intuition discriminate.
  - injection E as _ E. destruct a as [|a2 a]; [discriminate E|]. injection E as _ E.
    destruct a as [|a3 a]; [discriminate E|]. injection E as _ E.
    destruct a as [|a4 a]; [discriminate E|]. injection E as _ E.
    destruct a as [|a5 a]; [injection E as <-; left; reflexivity|]. injection E as _ E. destruct a; discriminate E.
Qed.
