(** Property theorems C87 (blocks taken as source text: #raw and the macros). *)
From Verif Require Import Front_Props DefArgs_Spec Expr_Props Base PyStr Alist Reader_Spec Lex_Model Lex_Spec Expr_Model Front_Model
  Front_Spec FrontWords_Spec FrontWords_Proofs FrontExpr_Proofs FrontUse_Proofs.
From Verif Require Import Gen_Model Gen_Spec FrontEat_Proofs FrontGen_Proofs Macro_Model Macro_Spec Macro_Proofs MacroCall_Proofs MacroUse_Proofs.
Local Open Scope nat_scope.
Local Open Scope string_scope.
Local Open Scope list_scope.

(** ** Tools for examples *)

(** A check that a text is quiet. *)
Fixpoint calm (fuel : nat) (name t : pystr) : bool :=
  match fuel with
  | O => false
  | S n =>
      match t with
      | [] => true
      | c :: t1 =>
          if starts_with [92; 35]%N t then calm n name (tl t1)
          else if starts_with (L "#end") t then
            let '(_, r) := skip_ws [] (skipn 4 t) in
            match r with
            | [] => false
            | d :: r1 => negb (d =? 35)%N && negb (starts_with name r) && calm n name r1
            end
          else calm n name t1
      end
  end.

Lemma skip_split : forall r b b' r', skip_ws b r = (b', r') -> exists w, forallb blank w = true /\ r = w ++ r' /\
  match r' with c :: _ => blank c = false | [] => True end.
Proof.
  induction r as [|c r IH]; intros b b' r' H; cbn [skip_ws] in H.
  - injection H as <- <-. exists []. repeat split.
  - destruct (blank c) eqn:B.
    + destruct (IH _ _ _ H) as (w & W1 & W2 & W3). exists (c :: w). cbn [forallb]. rewrite B, W1, W2. repeat split. exact W3.
    + injection H as <- <-. exists []. repeat split. exact B.
Qed.

Lemma calm_quiet : forall fuel name t, calm fuel name t = true -> quiet name t.
Proof.
  induction fuel as [|n IH]; intros name t H; [discriminate|]. cbn [calm] in H. destruct t as [|c t1]; [constructor|].
  destruct (starts_with [92; 35]%N (c :: t1)) eqn:E1.
  { apply starts_with_iff in E1 as (r & E1). injection E1 as -> ->. cbn [tl app] in *. apply q_esc, IH, H. }
  destruct (starts_with (L "#end") (c :: t1)) eqn:E2; [|apply q_char; [exact E2|apply IH; exact H]].
  apply starts_with_iff in E2 as (r & E2). rewrite E2 in H |- *. change (skipn 4 (L "#end" ++ r)) with r in H.
  destruct (skip_ws [] r) as [b' r'] eqn:SK. destruct (skip_split _ _ _ _ SK) as (w & W1 & W2 & W3). rewrite W2.
  destruct r' as [|d r1]; [discriminate|]. apply andb_true_iff in H as [H H3]. apply andb_true_iff in H as [H1 H2].
  apply negb_true_iff in H1, H2. apply N.eqb_neq in H1. apply q_other; try assumption. apply IH. exact H3.
Qed.

Lemma toyis_ok : forall um, other_tok (toyenv um) (L "=").
Proof.
  intro um.
  split; [reflexivity|]. split; [split; reflexivity|]. split; [reflexivity|]. intros [|d r] H; [reflexivity|]. apply word_end_first in H as [H|[H|[->| ->]]];
    [| |reflexivity|reflexivity]; unfold blank, eolchar in H; apply orb_prop in H as [H|H];
    try (apply orb_prop in H as [H|H]); apply N.eqb_eq in H; subst d; reflexivity.
Qed.

(** ** C87: #raw *)

(** C87: a template with a #raw block between two texts shows the text of the block as it is written, whatever
    stands in it; the texts before and behind are unchanged, but a first or a last directive alone on its line is
    removed with its indentation. *)
Theorem C87_raw : forall ns other pre k body w ke post fuel,
  In (L "end") ns -> In (L "raw") ns -> clean pre -> clean post -> esc_ok (rev pre) = true ->
  ends_tag pre k (block (L "raw") body w ke ++ post) -> block_ok (L "raw") (pre ++ L "#raw" ++ show_close k) body w ke post ->
  4 <= fuel ->
  exists l, compile_body fuel (named ns) other (pre ++ L "#raw" ++ show_close k ++ block (L "raw") body w ke ++ post) = Some (Ok l)
    /\ written l = text_of pre (own_line k || own_line ke) ++ body ++ post.
Proof. intros ns other pre k body w ke post fuel H1 H2. apply raw_template; assumption. Qed.
Print Assumptions C87_raw.

Definition raw_body : pystr := L "$x #if \#end raw <% #end if ## $" ++ [10%N].
Example C87_raw_ex : named default_names = dflt /\ In (L "end") default_names /\ In (L "raw") default_names /\
  clean (L "a" ++ [10%N] ++ L "  ") /\ clean (L "b") /\
  ends_tag (L "a" ++ [10%N] ++ L "  ") (Eol [10%N]) (block (L "raw") raw_body (L " ") (Eol [10%N]) ++ L "b") /\
  block_ok (L "raw") ((L "a" ++ [10%N] ++ L "  ") ++ L "#raw" ++ show_close (Eol [10%N])) raw_body (L " ") (Eol [10%N]) (L "b") /\
  text_of (L "a" ++ [10%N] ++ L "  ") true = L "a" ++ [10%N].
Proof.
  split; [reflexivity|]. split; [vm_compute; tauto|]. split; [vm_compute; tauto|].
  assert (CL : forall s, forallb (fun c => negb (c =? 36)%N && negb (c =? 35)%N && negb (c =? 60)%N) s = true -> clean s).
  { intros s H c I. rewrite forallb_forall in H. specialize (H c I). lia. }
  split; [apply CL; vm_compute; reflexivity|]. split; [apply CL; vm_compute; reflexivity|].
  split; [split; [reflexivity|left; reflexivity]|]. split.
  - split; [apply (calm_quiet 99); vm_compute; reflexivity|]. split; [|split; [reflexivity|split; [reflexivity|left; reflexivity]]].
    right. split.
    + right. exists ((L "a" ++ [10%N] ++ L "  ") ++ L "#raw" ++ [10%N] ++ L "$x #if \#end raw <% #end if ## $"), 10%N. split; [reflexivity|left; reflexivity].
    + intros c [<-|[]]. repeat split; discriminate.
  - reflexivity.
Qed.

(** C87: in the whole parser, wherever the block stands: the compiler gets the text of the block as one constant. *)
Theorem C87_raw_text : forall ns E sub p0 k body w ke rest c, In (L "end") ns -> In (L "raw") ns ->
  x_T (e_X E) = named ns -> esc_ok (rev p0) = true ->
  ends_tag p0 k (block (L "raw") body w ke ++ rest) -> block_ok (L "raw") (p0 ++ L "#raw" ++ show_close k) body w ke rest ->
  s_act c <> [] ->
  eat E sub (mkF (rev p0) (L "#raw" ++ show_close k ++ block (L "raw") body w ke ++ rest) c)
  = lift (bind (cutting (e_G E) (own_line k || own_line ke) c) (step (e_G E) (EText body)))
         (rev (p0 ++ L "#raw" ++ show_close k ++ block (L "raw") body w ke)) rest.
Proof. intros ns E sub p0 k body w ke rest c H1 H2. exact (raw_eaten ns H1 H2 E sub p0 k body w ke rest c). Qed.
Print Assumptions C87_raw_text.

Example C87_raw_text_ex : x_T (e_X (toyenv true)) = named default_names /\ s_act (start dflt_set (L "respond")) <> [] /\
  ends_tag (L "say ") Hash (block (L "raw") (L "$a") [] Hash ++ L "!") /\
  block_ok (L "raw") (L "say " ++ L "#raw" ++ L "#") (L "$a") [] Hash (L "!").
Proof.
  split; [reflexivity|]. split; [discriminate|]. split; [reflexivity|]. split; [apply (calm_quiet 9); vm_compute; reflexivity|].
  split; [left; split; reflexivity|]. split; reflexivity.
Qed.

(** C87: the form on one line. *)
Theorem C87_raw_line : forall ns E sub p0 u rest c, In (L "raw") ns -> x_T (e_X E) = named ns -> esc_ok (rev p0) = true ->
  shown u -> match rest with [] => True | c :: _ => eolchar c = true end -> s_act c <> [] ->
  eat E sub (mkF (rev p0) (L "#raw: " ++ u ++ rest) c) = lift (step (e_G E) (EText u) c) (rev (p0 ++ L "#raw: " ++ u)) rest.
Proof. intros ns E sub p0 u rest c H. exact (raw_line ns H E sub p0 u rest c). Qed.
Print Assumptions C87_raw_line.

Example C87_raw_line_ex : shown (L "$a #if") /\ s_act (start dflt_set (L "respond")) <> [].
Proof. split; [split; [reflexivity|split; [discriminate|reflexivity]]|discriminate]. Qed.

(** C87 fails for a text with an ending directive whose name only begins with raw: it ends the block. *)
Theorem C87_end_prefix_refuted : exists l,
  compile_body 9 dflt (fun _ _ => None) (L "#raw#a #end rawhide b") = Some (Ok l) /\ written l = L "a hide b".
Proof. eexists. split; [vm_compute; reflexivity|reflexivity]. Qed.
Print Assumptions C87_end_prefix_refuted.

(** C87 fails for an ending directive without a name directly before the one of the block: this is not seen, and the
    rest of the source becomes text. *)
Theorem C87_end_end_refuted : exists l, compile_body 9 dflt (fun _ _ => None) (L "#raw#a#end #end raw#b") = Some (Ok l) /\
  written l = L "a#end #end raw#b".
Proof. eexists. split; [vm_compute; reflexivity|reflexivity]. Qed.
Print Assumptions C87_end_end_refuted.

(** C87 fails for a block that is never ended: there is no error. *)
Theorem C87_unclosed_refuted : exists l, compile_body 9 dflt (fun _ _ => None) (L "a#raw#$b") = Some (Ok l) /\ written l = L "a$b".
Proof. eexists. split; [vm_compute; reflexivity|reflexivity]. Qed.
Print Assumptions C87_unclosed_refuted.

(** ** C87: macros *)

(** C87: the call of a macro in the long form.  The macro is told the text of the block and, of the names it takes, what
    the parser supplies; its result is parsed from its own start, and the parser goes on behind the block. *)
Theorem C87_macro : forall E macros kwargs sub name m x code user p0 k body w ke rest c c1,
  macro_name E macros name m -> written_args E x code -> kwargs (strip code) = Some user -> aget (L "src") user = None ->
  esc_ok (rev p0) = true -> ends_tag p0 k (block name body w ke ++ rest) ->
  block_ok name (p0 ++ call_of name x ++ show_close k) body w ke rest ->
  s_sl c = true -> s_act c <> [] -> cutting (e_G E) (own_line k || own_line ke) c = Ok c1 ->
  let p1 := p0 ++ call_of name x ++ show_close k ++ block name body w ke in
  exists K, (forall n, aget n K = told m user body None (length p0) (length p1) n) /\
    eat (with_macros E macros kwargs sub) sub (mkF (rev p0) (call_of name x ++ show_close k ++ block name body w ke ++ rest) c)
    = called sub (mc_call m K) (rev p1) rest c1.
Proof. exact macro_long. Qed.
Print Assumptions C87_macro.

Definition loud : macro := mkMac [L "src"; L "n"; L "startPos"]
  (fun k => match aget (L "src") k with Some (VText s) => Some (s ++ L "!") | _ => None end).
Definition toy_args : xp := items (toyenv true) false [XWord (L "n"); XTok (L "="); XTok (L "3")].
Definition no_args (a : pystr) : option (list (pystr * pystr)) := match a with [] => Some [] | _ => None end.

Lemma none_written : written_args (toyenv true) [] [].
Proof.
  split; [|split; [split; reflexivity|exact Logic.I]]. intros b r n EB HA LE. destruct n as [|n]; [cbn in LE; lia|]. cbn [app rev] in *.
  apply (expr_halt (toyenv true) eq_refl toylang_words). exact HA.
Qed.

Example C87_macro_ex : macro_name (toyenv true) [(L "i18n", loud)] (L "i18n") loud /\
  written_args (toyenv true) (x_src toy_args) (x_code toy_args) /\ x_src toy_args = L "n = 3" /\
  block_ok (L "i18n") (L "say " ++ call_of (L "i18n") (x_src toy_args) ++ L "#") (L "hi #if") [] Hash (L "you") /\
  call_of (L "i18n") (x_src toy_args) = L "#i18n n = 3" /\
  told loud [(L "n", L "3")] (L "hi #if") None 4 30 (L "n") = Some (VUser (L "3")) /\
  told loud [(L "n", L "3")] (L "hi #if") None 4 30 (L "startPos") = Some (VPos 4) /\
  told loud [(L "n", L "3")] (L "hi #if") None 4 30 (L "endPos") = None /\
  cutting dflt_set (own_line Hash || own_line Hash) (start dflt_set (L "respond")) = Ok (start dflt_set (L "respond")).
Proof.
  split. { exists default_names. split; [reflexivity|]. split; [vm_compute; tauto|]. split; [vm_compute; tauto|]. split; [split; reflexivity|].
           split; [|reflexivity]. vm_compute. intuition discriminate. }
  split. { destruct (items_reads (toyenv true) eq_refl toylang_words false [L ":"] [XWord (L "n"); XTok (L "="); XTok (L "3")]) as (R & O & SP & _).
    - discriminate.
    - apply Forall_cons; [item_ok|]. apply Forall_cons; [split; [apply toyis_ok|reflexivity]|]. apply Forall_cons; [item_ok|apply Forall_nil].
    - split; [exact R|]. split; [exact O|]. reflexivity. }
  split; [reflexivity|]. split.
  { split; [apply (calm_quiet 9); vm_compute; reflexivity|]. split; [left; split; reflexivity|]. split; reflexivity. }
  split; [reflexivity|]. split; [reflexivity|]. split; [reflexivity|]. split; reflexivity.
Qed.

(** C87: the same for the form on one line: the macro is told the rest of the line and its line break, which are both
    taken from the source. *)
Theorem C87_macro_line : forall E macros kwargs sub name m x code user p0 u e rest c,
  macro_name E macros name m -> written_args E x code -> kwargs (strip code) = Some user -> aget (L "src") user = None ->
  esc_ok (rev p0) = true -> shown u ->
  e = [10%N] \/ e = [13; 10]%N \/ e = [13%N] /\ at_char 10 rest = false \/ e = [] /\ rest = [] ->
  s_sl c = true ->
  let p1 := p0 ++ call_of name x ++ L ": " ++ u ++ e in
  exists K, (forall n, aget n K = told m user u (Some e) (length p0) (length p1) n) /\
    eat (with_macros E macros kwargs sub) sub (mkF (rev p0) (call_of name x ++ L ": " ++ u ++ e ++ rest) c)
    = called sub (mc_call m K) (rev p1) rest c.
Proof. exact macro_short. Qed.
Print Assumptions C87_macro_line.

Example C87_macro_line_ex : written_args (toyenv true) [] [] /\ shown (L "hi $you") /\ s_sl (start dflt_set (L "respond")) = true /\
  call_of (L "i18n") [] ++ L ": " ++ L "hi $you" = L "#i18n: hi $you" /\ no_args [] = Some [].
Proof.
  split; [exact none_written|]. split; [split; [reflexivity|split; [discriminate|reflexivity]]|]. split; [reflexivity|]. split; reflexivity.
Qed.

(** C87: what #i18n makes of what it is told (C87_macro, C87_macro_line): the translation of the block; behind the
    translation of a line the line break, if the source goes on. *)
Theorem C87_i18n : forall tr len user src eol start stop K, incl (keys user) i18n_names ->
  (forall n, aget n K = told (i18n tr len) user src eol start stop n) ->
  mc_call (i18n tr len) K = Some (match eol with Some e => if (stop <? len)%nat then tr src ++ e else tr src | None => tr src end).
Proof. exact i18n_result. Qed.
Print Assumptions C87_i18n.

Example C87_i18n_ex : incl (keys [(L "domain", L "d")]) i18n_names /\
  exists K, forall n, aget n K = told (i18n (fun s => s) 9) [(L "domain", L "d")] (L "x") None 0 5 n.
Proof.
  split; [intros x [<-|[]]; vm_compute; tauto|].
  destruct (args_told (i18n (fun s => s) 9) [(L "domain", L "d")] (L "x") None 0 5 eq_refl) as (K & _ & H). exists K. exact H.
Qed.

(** Templates with the macro #i18n and no catalogue. *)
Definition run_i18n (src : pystr) : fout fstate :=
  parse_m (toyenv true) [(L "i18n", i18n (fun s => s) (length src))] no_args 60 (mkF [] src (start dflt_set (L "respond"))).
Definition code_of (x : fout fstate) : option (list gl * pystr) :=
  match x with
  | Some (Ok s) => match s_act (f_c s) with m :: _ => Some (map c_gl (m_body m), concat (rev (m_pend m))) | [] => None end
  | _ => None
  end.

(** C87 fails for a block in the middle of a line that starts with a directive: the result of the macro is parsed as if
    it stood at the start of a line, and the text before the call is lost. *)
Theorem C87_inline_refuted : exists pre body,
  pre = L "foo " /\ body = L "#silent 1" ++ [10%N] /\
  code_of (run_i18n (pre ++ body)) = Some ([Ln (GWrite (L "foo ")); Ln (GStmt (L "1"))], [10%N]) /\
  code_of (run_i18n (pre ++ L "#i18n#" ++ body ++ L "#end i18n#")) = Some ([Ln (GStmt (L "1"))], []).
Proof. eexists. eexists. split; [reflexivity|]. split; [reflexivity|]. split; vm_compute; reflexivity. Qed.
Print Assumptions C87_inline_refuted.

(** C87 fails for #i18n on the last line of the source: its line break is lost. *)
Theorem C87_last_line_refuted : exists u,
  code_of (run_i18n (u ++ [10%N])) = Some ([], u ++ [10%N]) /\
  code_of (run_i18n (L "#i18n: " ++ u ++ [10%N])) = Some ([], u).
Proof. exists (L "x"). split; vm_compute; reflexivity. Qed.
Print Assumptions C87_last_line_refuted.

(** C87 fails for a block with a call of the same macro in it: the first ending directive ends the outer block. *)
Theorem C87_nested_refuted : exists p,
  run_i18n (L "#i18n#a#i18n#b#end i18n#c#end i18n#d") = Some (Raise (FParse p)).
Proof. exists 30. vm_compute. reflexivity. Qed.
Print Assumptions C87_nested_refuted.
