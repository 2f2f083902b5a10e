(** C86: what is done to a source before it is parsed (Prep_Model.v, Prep_Spec.v). *)
From Verif Require Import Base PyStr Names_Model StrConst_Proofs PyLiteral_Spec Small_Model.
From Verif Require Import Prep_Model Prep_Spec Prep_Proofs PrepLines_Proofs.
Local Open Scope nat_scope.
Local Open Scope string_scope.
Local Open Scope list_scope.

Definition nl : pystr := [10%N].
(** Does one text stand in another?  Used in the examples only. *)
Ltac absent := intros H; apply has_text_within in H; vm_compute in H; discriminate H.
Definition any (c : N) : bool := true.
Definition plain_codec (name bytes : pystr) : option pystr := Some bytes.

(** A source with neither word and without #indent is parsed as it stands. *)
Theorem C86_untouched : forall uword printable decode evals s,
  ~ within (L "unicode") s -> ~ within (L "encoding") s -> ~ within (L "#indent") s ->
  prepare uword printable decode evals s = POk s.
Proof. exact prepare_plain. Qed.
Print Assumptions C86_untouched.
Example C86_untouched_ex : prepare any any plain_codec eval_literal (L "Hello $name" ++ nl) = POk (L "Hello $name" ++ nl).
Proof. apply C86_untouched; absent. Qed.

(** The line with #unicode and a name is removed, together with the newline before it: what stands before and
    what stands after are joined. *)
Theorem C86_unicode_removed : forall uword printable decode evals pre sep name trail rest,
  dir_parts sep name trail -> no_space_first rest ->
  before (L "unicode") pre -> ~ within (L "unicode") rest ->
  ~ within (L "encoding") (pre ++ dir_line (L "unicode") sep name trail ++ rest) ->
  ~ within (L "#indent") (removelast pre ++ rest) ->
  prepare uword printable decode evals (pre ++ dir_line (L "unicode") sep name trail ++ rest)
  = POk (removelast pre ++ rest).
Proof. exact prepare_unicode. Qed.
Print Assumptions C86_unicode_removed.
Example C86_unicode_removed_ex : forall decode,
  prepare any any decode eval_literal (L "## page" ++ nl ++ L "#unicode: utf-8" ++ nl ++ L "Hello" ++ nl)
  = POk (L "## pageHello" ++ nl).
Proof.
  intros decode.
  apply (C86_unicode_removed any any decode eval_literal (L "## page" ++ nl) (L ": ") (L "utf-8") [] (L "Hello" ++ nl)); try absent.
  - split; [discriminate|]. split; [|split; [split; [discriminate|]|constructor]].
    + constructor; [right; right; reflexivity|]. constructor; [left; reflexivity|constructor].
    + cbv [L map list_ascii_of_string]; unfold name_char; cbn; repeat (apply Forall_cons; [lia|]); apply Forall_nil.
  - reflexivity.
  - right. exists (L "## pag"), (101%N). split; [reflexivity|]. split; [reflexivity|absent].
Qed.

(** Taking out the line of the directive alone is not what happens, unless it is the first. *)
Theorem C86_unicode_line_refuted : exists pre rest, forall uword printable decode evals,
  prepare uword printable decode evals (pre ++ L "#unicode utf-8" ++ nl ++ rest) <> POk (pre ++ rest)
  /\ exists t, prepare uword printable decode evals (pre ++ L "#unicode utf-8" ++ nl ++ rest) = POk t.
Proof.
  exists (L "ab" ++ nl), (L "cd" ++ nl). intros uword printable decode evals.
  assert (E : prepare uword printable decode evals ((L "ab" ++ nl) ++ L "#unicode utf-8" ++ nl ++ L "cd" ++ nl) = POk (L "abcd" ++ nl))
    by (vm_compute; reflexivity).
  rewrite E. split; [discriminate|]. eexists. reflexivity.
Qed.
Print Assumptions C86_unicode_line_refuted.

(** A #unicode directive without a name takes the line after it for the name, and the line is lost. *)
Theorem C86_unicode_text_refuted : exists text rest, text <> [] /\ forall uword printable decode evals,
  prepare uword printable decode evals (L "#unicode" ++ nl ++ text ++ nl ++ rest) = POk rest.
Proof.
  exists (L "Hello"), (L "World" ++ nl). split; [discriminate|]. intros. vm_compute. reflexivity.
Qed.
Print Assumptions C86_unicode_text_refuted.

(** #encoding does nothing to the source, whatever characters it has, when the encoding it names reads ASCII as
    it stands: the str is written as an ASCII literal, decoded, and read again. *)
Theorem C86_encoding_no_effect : forall uword printable decode evals pre sep name trail rest s,
  s = pre ++ dir_line (L "encoding") sep name trail ++ rest ->
  dir_parts sep name trail -> no_space_first rest -> before (L "encoding") pre ->
  ~ within (L "unicode") s -> ~ within (L "#indent") s -> valid_str s ->
  reads_ascii (decode name) -> (forall t v, eval_literal t = Some v -> evals t = Some v) ->
  prepare uword printable decode evals s = POk s.
Proof. exact prepare_encoding. Qed.
Print Assumptions C86_encoding_no_effect.
Definition enc_source : pystr := L "#encoding latin-1" ++ nl ++ L "It's " ++ [233; 8364; 128512; 9; 92]%N ++ nl.
Lemma latin_parts : dir_parts (L " ") (L "latin-1") [].
Proof.
  split; [discriminate|]. split; [|split; [split; [discriminate|]|constructor]].
  - constructor; [left; reflexivity|constructor].
  - cbv [L map list_ascii_of_string]; unfold name_char; cbn; repeat (apply Forall_cons; [lia|]); apply Forall_nil.
Qed.
Example C86_encoding_no_effect_ex : prepare any any plain_codec eval_literal enc_source = POk enc_source.
Proof.
  apply (C86_encoding_no_effect any any plain_codec eval_literal [] (L " ") (L "latin-1") []
           (L "It's " ++ [233; 8364; 128512; 9; 92]%N ++ nl)); try absent.
  - reflexivity.
  - exact latin_parts.
  - reflexivity.
  - left. reflexivity.
  - apply Forall_forall. intros c C. assert (K : forallb (fun c => (c <=? 1114111)%N) enc_source = true) by reflexivity.
    rewrite forallb_forall in K. apply N.leb_le, K, C.
  - intros t T. reflexivity.
  - intros t v H. exact H.
Qed.

(** An encoding that cannot decode is an error. *)
Theorem C86_encoding_unknown : forall uword printable decode evals pre sep name trail rest s,
  s = pre ++ dir_line (L "encoding") sep name trail ++ rest ->
  dir_parts sep name trail -> no_space_first rest -> before (L "encoding") pre ->
  ~ within (L "unicode") s -> (forall b, decode name b = None) ->
  prepare uword printable decode evals s = PErr BadCoding.
Proof. exact prepare_unknown. Qed.
Print Assumptions C86_encoding_unknown.
Example C86_encoding_unknown_ex : prepare any any (fun _ _ => None) eval_literal enc_source = PErr BadCoding.
Proof.
  apply (C86_encoding_unknown any any (fun _ _ => None) eval_literal [] (L " ") (L "latin-1") []
           (L "It's " ++ [233; 8364; 128512; 9; 92]%N ++ nl)); try absent; try reflexivity.
  - exact latin_parts.
  - left. reflexivity.
Qed.

(** Both directives in one source: an error. *)
Theorem C86_both : forall uword printable decode evals s p1 s1 n1 t1 r1 p2 s2 n2 t2 r2,
  s = p1 ++ dir_line (L "unicode") s1 n1 t1 ++ r1 -> s = p2 ++ dir_line (L "encoding") s2 n2 t2 ++ r2 ->
  dir_parts s1 n1 t1 -> dir_parts s2 n2 t2 -> no_space_first r1 -> no_space_first r2 ->
  before (L "unicode") p1 -> before (L "encoding") p2 -> prepare uword printable decode evals s = PErr BothGiven.
Proof. exact prepare_both. Qed.
Print Assumptions C86_both.
Example C86_both_ex :
  prepare any any plain_codec eval_literal (L "#encoding latin-1" ++ nl ++ L "#unicode latin-1" ++ nl ++ L "x") = PErr BothGiven.
Proof.
  apply (C86_both any any plain_codec eval_literal _ (L "#encoding latin-1" ++ nl) (L " ") (L "latin-1") [] (L "x")
           [] (L " ") (L "latin-1") [] (L "#unicode latin-1" ++ nl ++ L "x")); try reflexivity; try exact latin_parts.
  - right. exists (L "#encoding latin-"), 49%N. split; [reflexivity|]. split; [reflexivity|absent].
  - left. reflexivity.
Qed.

(** A source with #indent somewhere: each line becomes one line.  Settings become calls of the indenter, other
    directives stay as they are, and the indentation of text becomes a placeholder with its width. *)
Theorem C86_indent_lines : forall uword printable decode evals ls os s, s = concat (map (fun x => x ++ [10%N]) ls) ->
  (forall x c, In x ls -> In c x -> is_linebreak c = false) -> within (L "#indent") s ->
  ~ within (L "unicode") s -> ~ within (L "encoding") s -> Forall2 line_to ls os ->
  prepare uword printable decode evals s = POk (join [10%N] os).
Proof. exact prepare_indent. Qed.
Print Assumptions C86_indent_lines.
Definition ind_lines : list pystr := [L "#indent ++ "; L "  #if $x"; [32; 9; 97]%N; L "#indent =12"; L ""].
Example C86_indent_lines_ex :
  prepare any any plain_codec eval_literal (concat (map (fun x => x ++ [10%N]) ind_lines))
  = POk (join [10%N] [L "#silent $self._CHEETAH__indenter.inc()"; L "  #if $x"; L "${self._CHEETAH__indenter.indent(4)}a";
                      L "#silent $self._CHEETAH__indenter.setLevel(12)"; L "${self._CHEETAH__indenter.indent(0)}"]).
Proof.
  apply (C86_indent_lines any any plain_codec eval_literal ind_lines); try absent.
  - reflexivity.
  - intros x c X C. assert (K : forallb (forallb (fun c => negb (is_linebreak c))) ind_lines = true) by reflexivity.
    rewrite forallb_forall in K. specialize (K x X). rewrite forallb_forall in K. specialize (K c C).
    destruct (is_linebreak c); [discriminate|reflexivity].
  - apply has_text_within. reflexivity.
  - constructor; [|constructor; [|constructor; [|constructor; [|constructor; [|constructor]]]]].
    + apply (lt_setting [] (L " ") (L " ") SInc); repeat constructor.
    + apply (lt_directive (L "  ") (L "if $x")); [repeat constructor|reflexivity].
    + apply (lt_text [32; 9]%N (L "a")); [constructor; [left|constructor; [right|constructor]]; reflexivity|].
      split; [reflexivity|discriminate].
    + apply (lt_setting [] (L " ") [] (SLevel 12)); repeat constructor.
    + apply (lt_text [] []); [constructor|exact I].
Qed.

(** With the indenter off, a text line indented with blanks is shown as it was. *)
Theorem C86_indent_off : forall o n r, i_on o = false ->
  (match r with [] => True | c :: _ => is_space c = false /\ c <> 35%N end) ->
  exists k, line_to (repeat 32%N n ++ r) (ask k ++ r) /\ indent o (Z.of_nat k) ++ r = repeat 32%N n ++ r.
Proof.
  intros o n r H R. exists (width (repeat 32%N n)). split.
  - apply lt_text; [|exact R]. apply Forall_forall. intros c C. apply repeat_spec in C. left. exact C.
  - rewrite off_indent by exact H. rewrite width_blanks. reflexivity.
Qed.
Print Assumptions C86_indent_off.
Example C86_indent_off_ex : exists k, line_to (L "   text") (ask k ++ L "text")
  /\ indent (mkInd false 7 (L "-")) (Z.of_nat k) ++ L "text" = L "   text".
Proof. apply (C86_indent_off (mkInd false 7 (L "-")) 3 (L "text")); [reflexivity|split; [reflexivity|discriminate]]. Qed.

(** The newline at the end of such a source is lost. *)
Theorem C86_indent_newline_refuted : exists s, forall uword printable decode evals,
  exists t, prepare uword printable decode evals (s ++ nl) = POk t
         /\ prepare uword printable decode evals s = POk t /\ forall u, t <> u ++ nl.
Proof.
  exists (L "#indent on" ++ nl ++ L "text"). intros uword printable decode evals.
  exists (L "#silent $self._CHEETAH__indenter.on()" ++ nl ++ L "${self._CHEETAH__indenter.indent(0)}text").
  split; [vm_compute; reflexivity|]. split; [vm_compute; reflexivity|].
  intros u E. apply (f_equal (fun x => last x 0%N)) in E. unfold nl in E at 2. rewrite last_last in E. vm_compute in E. discriminate E.
Qed.
Print Assumptions C86_indent_newline_refuted.

(** It is enough that the text mentions #indent: a source without any such directive is changed. *)
Theorem C86_indent_trigger_refuted : exists s, (forall l, In l (splitlines s) -> starts_with (L "#") (lstrip l) = false)
  /\ forall uword printable decode evals, exists t, prepare uword printable decode evals s = POk t /\ t <> s.
Proof.
  exists (L "See #indent there." ++ nl). split.
  - intros l H. vm_compute in H. destruct H as [<-|[]]. reflexivity.
  - intros. exists (L "${self._CHEETAH__indenter.indent(0)}See #indent there."). split; [vm_compute; reflexivity|discriminate].
Qed.
Print Assumptions C86_indent_trigger_refuted.

(** #indent chars always fails when no level was set before it, even when its value can be evaluated. *)
Theorem C86_indent_chars_refuted : exists value, forall uword printable decode evals,
  evals value = Some (L "-") -> prepare uword printable decode evals (L "#indent chars=" ++ value ++ nl) = PErr NoLevel.
Proof.
  exists (L "'-'"). intros uword printable decode evals H. unfold prepare. cbv [L] in H |- *.
  vm_compute in H. vm_compute. rewrite H. reflexivity.
Qed.
Print Assumptions C86_indent_chars_refuted.
Example C86_indent_chars_refuted_ex : prepare any any plain_codec eval_literal (L "#indent chars=" ++ L "'-'" ++ nl) = PErr NoLevel.
Proof. vm_compute. reflexivity. Qed.

(** White space other than blanks and tabs at the start of a line is lost, indenter on or off. *)
Theorem C86_indent_space_refuted : exists l k r, forall evals lv,
  indent_line evals lv l = POk (ask k ++ r, lv) /\ forall o, i_on o = false -> indent o (Z.of_nat k) ++ r <> l.
Proof.
  exists (160%N :: L "text"), 0, (L "text"). intros evals lv. split; [reflexivity|].
  intros o H. unfold indent. rewrite H. discriminate.
Qed.
Print Assumptions C86_indent_space_refuted.
