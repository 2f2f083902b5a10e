(** C77: error catchers. *)
From Verif Require Import Base PyStr StrConst_Model PyLiteral_Spec StrConst_Proofs Catch_Model Catch_Spec Catch_Proofs.
Local Open Scope string_scope.
Local Open Scope list_scope.

(** The methods added for the placeholders of a class: one for each source text, with names all
    different; the expression written for a placeholder calls a method with the name in the signature,
    whose lines, read as Python, evaluate the code of the placeholder and report this code, the source
    text and the position of its first use.  Codes must be plain texts between three quotes and the
    same for the same source text. *)
Theorem C77_evaluates_own_code : forall printable rc ps es st,
  add_catchers rc ps c_start = (es, st) ->
  (forall code raw pos, In (code, raw, pos) ps -> plain_in3 SQ code /\ valid_str code /\ valid_str raw) ->
  (forall code code' raw pos pos',
     In (code, raw, pos) ps -> In (code', raw, pos') ps -> code = code') ->
  NoDup (map k_name (c_list st)) /\ NoDup (map k_raw (c_list st))
  /\ (forall k, In k (c_list st) -> exists code pos, In (code, k_raw k, pos) ps)
  /\ Forall2 (fun p e => let '(code, raw, _) := p in exists k pos,
       In k (c_list st)
       /\ e = L "self." ++ k_name k ++ L "(localsDict=locals())"
       /\ catch_sig k = L "def " ++ k_name k ++ L "(self, localsDict={})"
       /\ first_use raw ps = Some (code, pos)
       /\ read_method (catch_lines printable k) = Some (code, (code, raw, L "(" ++ str_of_N (fst pos) ++ L ", " ++ str_of_N (snd pos) ++ L ")"))) ps es.
Proof. exact own_code_of_page. Qed.
Print Assumptions C77_evaluates_own_code.

Definition ex_page : list (pystr * pystr * (N * N)) :=
  [ (L "VFFSL(SL,""a.b"",True)", L "$a.b", (1, 5)%N);
    (L "VFFSL(SL,""f"",False)('x', ""y"")", L "$f('x', ""y"")", (2, 1)%N);
    (L "VFFSL(SL,""a.b"",True)", L "$a.b", (7, 3)%N) ].

(** The hypotheses hold for a page with three placeholders, two with the same source text: two
    methods, the first with a note of the second use. *)
Example C77_evaluates_own_code_ex :
  (forall code raw pos, In (code, raw, pos) ex_page -> plain_in3 SQ code /\ valid_str code /\ valid_str raw)
  /\ (forall code code' raw pos pos',
        In (code, raw, pos) ex_page -> In (code', raw, pos') ex_page -> code = code')
  /\ fst (add_catchers false ex_page c_start)
     = [ L "self.__errorCatcher1(localsDict=locals())"; L "self.__errorCatcher2(localsDict=locals())";
         L "self.__errorCatcher1(localsDict=locals())" ]
  /\ map k_docs (c_list (snd (add_catchers false ex_page c_start))) = [[L "plus at line 7, col 3"]; []].
Proof.
  split; [|split; [|split; vm_compute; reflexivity]].
  - apply plain_page. vm_compute. reflexivity.
  - intros code code' raw pos pos' H H'. cbn [In ex_page] in H, H'.
    repeat (destruct H as [H|H]; [injection H as <- <- <-|]); try contradiction;
      repeat (destruct H' as [H'|H']; [|]); try contradiction; try (injection H' as <- <-; reflexivity);
      discriminate H'.
Qed.

(** Without the conditions on the code it is false: the line does not escape.  The code of
    [$f("\n")] (backslash and n in the template) evaluates a text with a line end instead; the code
    ['a'] of [${'a'}] does not give a string literal. *)
Theorem C77_code_refuted :
  (exists code, valid_str code /\ (forall c, In c code -> c <> 39 /\ c <> 13 /\ c <> 0)%N
     /\ exists other, read_eval (eval_line code) = Some other /\ other <> code)
  /\ (exists code, valid_str code /\ (forall c, In c code -> c <> 92 /\ c <> 13 /\ c <> 0)%N
        /\ read_eval (eval_line code) = None).
Proof.
  split.
  - exists (L "VFFSL(SL,""f"",False)(""\n"")"). split; [|split].
    + apply Forall_forall. intros c Hc. cbn in Hc. repeat (destruct Hc as [<-|Hc]; [lia|]). contradiction.
    + intros c Hc. cbn in Hc. repeat (destruct Hc as [<-|Hc]; [lia|]). contradiction.
    + eexists. split; [vm_compute; reflexivity|]. vm_compute. discriminate.
  - exists (L "'a'"). split; [|split].
    + apply Forall_forall. intros c Hc. cbn in Hc. repeat (destruct Hc as [<-|Hc]; [lia|]). contradiction.
    + intros c Hc. cbn in Hc. repeat (destruct Hc as [<-|Hc]; [lia|]). contradiction.
    + vm_compute. reflexivity.
Qed.
Print Assumptions C77_code_refuted.

(** Without the condition that the source text determines the code it is false: the second placeholder
    gets the method of the first and evaluates the other code (as for [$os.name] in front of and
    behind [#import os]). *)
Theorem C77_same_text_refuted : forall printable, exists ps es st i code raw pos e,
  add_catchers false ps c_start = (es, st)
  /\ (forall code raw pos, In (code, raw, pos) ps -> plain_in3 SQ code /\ valid_str code /\ valid_str raw)
  /\ nth_error ps i = Some (code, raw, pos) /\ nth_error es i = Some e
  /\ forall k, In k (c_list st) -> e = L "self." ++ k_name k ++ L "(localsDict=locals())" ->
       forall x w, read_method (catch_lines printable k) = Some (x, w) -> x <> code.
Proof.
  intros printable.
  exists [(L "VFFSL(SL,""os.name"",True)", L "$os.name", (1, 1)%N); (L "VFN(os,""name"",True)", L "$os.name", (3, 1)%N)].
  eexists _, _, 1%nat, _, _, _, _. split; [vm_compute; reflexivity|]. split.
  - apply plain_page. vm_compute. reflexivity.
  - split; [reflexivity|]. split; [reflexivity|]. intros k [<-|[]] _ x w H.
    unfold read_method, catch_lines in H. rewrite !str_eqb_refl' in H. cbn [Nat.eqb andb] in H.
    match type of H with match ?a with _ => _ end = _ => 
      let v := eval vm_compute in a in replace a with v in H by (vm_compute; reflexivity) end.
    destruct (read_warn _); [|discriminate H]. injection H as <- _. vm_compute. discriminate.
Qed.
Print Assumptions C77_same_text_refuted.

(** At run time: for a template made without the option [errorCatcher] and a page that selects any of
    Echo, BigEcho and ListErrors in any order, the output is that of the documentation (the value, or
    the text standing for a placeholder that is not found, up to the first other exception), and the
    object of [ListErrors] holds all errors met while it was selected, in order. *)
Theorem C77_page : forall ss out x r, selects_text ss -> r_run ss (r_init None) = (out, x, r) ->
  exists log, page None ss = (out, x, log)
    /\ match find_key (L "ListErrors") (r_dict r) with
       | Some i => nth_error (r_objs r) i = Some (CListErrors, log)
       | None => log = []
       end.
Proof. exact page_from_start. Qed.
Print Assumptions C77_page.

Definition ex_steps : list step :=
  [ SSet (L "ListErrors"); SCall (L "c1", L "$a", L "(1, 1)") NotFoundErr;
    SSet (L "BigEcho"); SCall (L "c2", L "$b", L "(2, 1)") NotFoundErr;
    SCall (L "c3", L "$c", L "(3, 1)") (Done (L "v"));
    SSet (L "ListErrors"); SCall (L "c4", L "$d", L "(4, 1)") NotFoundErr;
    SCall (L "c5", L "$e", L "(5, 1)") (OtherErr 7); SCall (L "c6", L "$f", L "(6, 1)") NotFoundErr ].

Example C77_page_ex : selects_text ex_steps
  /\ page None ex_steps
     = ([L "$a"; L "===============&lt;$b could not be found&gt;==============="; L "v"; L "$d"],
        Some (OtherErr 7), [(L "c1", L "$a", L "(1, 1)"); (L "c4", L "$d", L "(4, 1)")]).
Proof.
  split; [|vm_compute; reflexivity].
  intros name H. cbn [In ex_steps] in H.
  repeat (destruct H as [H|H]; [try discriminate H; injection H as <-; cbn [text_catcher In]; unfold text_catcher; cbn [In]; tauto|]).
  contradiction.
Qed.

(** With the catcher [KeyError] a placeholder that is not found ends the page with a [TypeError]
    instead of a [KeyError], for every placeholder: the class hides the exception of that name. *)
Theorem C77_key_error_refuted : forall e t,
  r_run (SSet (L "KeyError") :: SCall e NotFoundErr :: t) (r_init None)
  = ([], Some TypeErr, snd (r_set (L "KeyError") (r_init None))).
Proof. intros [[code raw] lc] t. reflexivity. Qed.
Print Assumptions C77_key_error_refuted.

(** With the option [errorCatcher='ListErrors'] the directive of the same name makes another object:
    it is registered under the name [str], and no list has all errors. *)
Theorem C77_option_refuted : exists e1 e2 r,
  r_run [SCall e1 NotFoundErr; SSet (L "ListErrors"); SCall e2 NotFoundErr] (r_init (Some (true, CListErrors)))
    = ([snd (fst e1); snd (fst e2)], None, r)
  /\ forall i c l, nth_error (r_objs r) i = Some (c, l) -> ~ (In e1 l /\ In e2 l).
Proof.
  exists (L "c1", L "$a", L "(1, 1)"), (L "c2", L "$b", L "(2, 1)"). eexists. split; [vm_compute; reflexivity|].
  intros i c l H. destruct i as [|[|[|i]]]; cbn in H; try discriminate H; injection H as <- <-;
    intros [[H1|[]] [H2|[]]]; discriminate.
Qed.
Print Assumptions C77_option_refuted.

(** A name that is no catcher ends the page at the directive, and a catcher method called before any
    catcher is selected turns any exception into an [AttributeError]; values are not affected. *)
Theorem C77_unselected : forall e v n t,
  r_run [SSet (L "NoSuch")] (r_init None) = ([], Some AttributeErr, r_init None)
  /\ r_run (SCall e NotFoundErr :: t) (r_init None) = ([], Some AttributeErr, r_init None)
  /\ r_run (SCall e (OtherErr n) :: t) (r_init None) = ([], Some AttributeErr, r_init None)
  /\ r_run [SCall e (Done v)] (r_init None) = ([v], None, r_init None).
Proof. intros. repeat split. Qed.
Print Assumptions C77_unselected.
