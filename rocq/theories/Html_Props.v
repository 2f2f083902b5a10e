(** C10-C13: HTML encoding and the text filters. *)
From Verif Require Import Base PyStr Html_Model Html_Spec Html_Proofs.

(** ** C10 *)
Theorem C10_html_roundtrip : forall s, htmlDecode (htmlEncode s) = s.
Proof. exact html_roundtrip. Qed.
Print Assumptions C10_html_roundtrip.
Example C10_html_roundtrip_ex :
  htmlEncode (L "a<b>&amp;""&lt") = L "a&lt;b&gt;&amp;amp;&quot;&amp;lt" /\
  htmlDecode (htmlEncode (L "a<b>&amp;""&lt")) = L "a<b>&amp;""&lt".
Proof. split; vm_compute; reflexivity. Qed.

Theorem C10_html_no_raw : forall s c,
  In c (htmlEncode s) -> c <> 60%N /\ c <> 62%N /\ c <> 34%N.
Proof. exact htmlEncode_no_raw. Qed.
Print Assumptions C10_html_no_raw.
Example C10_html_no_raw_ex : In 103%N (htmlEncode (L ">")).
Proof. apply mem_char_In. vm_compute. reflexivity. Qed.

Theorem C10_html_ampersands : forall s,
  ampersands_start [L "&amp;"; L "&lt;"; L "&gt;"; L "&quot;"] (htmlEncode s).
Proof. exact htmlEncode_ampersands. Qed.
Print Assumptions C10_html_ampersands.
Example C10_html_ampersands_ex : htmlEncode (L "x&&") = L "x" ++ 38%N :: L "amp;&amp;".
Proof. vm_compute. reflexivity. Qed.

Theorem C10_html_injective : forall s t, htmlEncode s = htmlEncode t -> s = t.
Proof. exact htmlEncode_inj. Qed.
Print Assumptions C10_html_injective.
Example C10_html_injective_ex : htmlEncode (L "&lt;") <> htmlEncode (L "<").
Proof. vm_compute. congruence. Qed.

(** ** C11.  [plain_also]: the listed extra characters do not occur inside entities; the empty
    list (the normal use of the filter) qualifies. *)
Theorem C11_websafe_safe : forall v c, In c (websafe_filter v []) -> c <> 60%N /\ c <> 62%N.
Proof.
  exact (fun v c H => match websafe_chars v [] c plain_nil H with
                      | conj a (conj b _) => conj a b end).
Qed.
Print Assumptions C11_websafe_safe.
Example C11_websafe_safe_ex : websafe_filter (FObj (L "<a>")) [] = L "&lt;a&gt;".
Proof. vm_compute. reflexivity. Qed.

Theorem C11_websafe_ampersands : forall v,
  ampersands_start [L "&amp;"; L "&lt;"; L "&gt;"] (websafe_filter v []).
Proof. exact (fun v => websafe_ampersands v [] plain_nil). Qed.
Print Assumptions C11_websafe_ampersands.
Example C11_websafe_ampersands_ex : websafe_filter (FStr (L "&lt;")) [] = [] ++ 38%N :: L "amp;lt;".
Proof. vm_compute. reflexivity. Qed.

Theorem C11_websafe_lossless : forall v w,
  websafe_filter v [] = websafe_filter w [] -> base_filter v = base_filter w.
Proof. exact (fun v w => websafe_inj v w [] plain_nil). Qed.
Print Assumptions C11_websafe_lossless.
Example C11_websafe_lossless_ex : websafe_filter FNone [] = websafe_filter (FStr []) [].
Proof. vm_compute. reflexivity. Qed.

(** With [also]: full statement restricted to listed characters that are not part of entity
    notation (missing: the letters of entity names, digits and the characters & # ;). *)
Theorem C11_websafe_also_partial : forall v also c, plain_also also ->
  In c (websafe_filter v also) -> c <> 60%N /\ c <> 62%N /\ ~ In c also.
Proof. exact websafe_chars. Qed.
Print Assumptions C11_websafe_also_partial.
Example C11_websafe_also_partial_ex :
  plain_also (L " ""'x") /\ websafe_filter (FStr (L "x 'y")) (L " ""'x") = L "&#120;&nbsp;&#39;y".
Proof.
  split; [|vm_compute; reflexivity].
  intros c H. cbn in H. repeat destruct H as [<-|H]; try contradiction; reflexivity.
Qed.

Theorem C11_websafe_also_ampersands_partial : forall v also, plain_also also ->
  ampersands_start ([L "&amp;"; L "&lt;"; L "&gt;"] ++ map also_entity also) (websafe_filter v also).
Proof. exact websafe_ampersands. Qed.
Print Assumptions C11_websafe_also_ampersands_partial.
Example C11_websafe_also_ampersands_partial_ex :
  plain_also [32%N] /\ websafe_filter (FStr (L "a & b")) [32%N] = L "a&nbsp;&amp;&nbsp;b".
Proof. split; [intros c [<-|[]]; reflexivity|vm_compute; reflexivity]. Qed.

Theorem C11_websafe_also_lossless_partial : forall v w also, plain_also also ->
  websafe_filter v also = websafe_filter w also -> base_filter v = base_filter w.
Proof. exact websafe_inj. Qed.
Print Assumptions C11_websafe_also_lossless_partial.
Example C11_websafe_also_lossless_partial_ex :
  plain_also [32%N] /\ websafe_filter (FStr (L "a b")) [32%N] = websafe_filter (FObj (L "a b")) [32%N].
Proof. split; [intros c [<-|[]]; reflexivity|reflexivity]. Qed.

(** The full claim is false: a listed character can be reintroduced by the entity of another ... *)
Theorem C11_websafe_also_refuted :
  exists v also c, In c also /\ In c (base_filter v) /\ In c (websafe_filter v also).
Proof.
  exists (FStr (L "1e")), (L "1e"), 49%N. repeat split; apply mem_char_In; vm_compute; reflexivity.
Qed.
Print Assumptions C11_websafe_also_refuted.

(** ... and listing a semicolon destroys the entities already written: an ampersand that starts
    no entity of the form it was given. *)
Theorem C11_websafe_also_entity_refuted :
  exists v also, ~ ampersands_start ([L "&amp;"; L "&lt;"; L "&gt;"] ++ map also_entity also)
                                    (websafe_filter v also).
Proof.
  exists (FStr (L "<")), (L ";"). intro H.
  destruct (H [] (L "lt&#59;") eq_refl) as [e [r [Hin E]]].
  cbn in Hin. repeat destruct Hin as [<-|Hin]; try contradiction; discriminate E.
Qed.
Print Assumptions C11_websafe_also_entity_refuted.

(** ** C12 *)
Theorem C12_maxlen_prefix : forall v m, exists r, base_filter v = maxlen_filter v m ++ r.
Proof. exact maxlen_prefix. Qed.
Print Assumptions C12_maxlen_prefix.
Example C12_maxlen_prefix_ex : maxlen_filter (FStr (L "hello")) (Some 3%Z) = L "hel".
Proof. vm_compute. reflexivity. Qed.

Theorem C12_maxlen_length : forall v n, (0 <= n)%Z ->
  Z.of_nat (length (maxlen_filter v (Some n))) = Z.min n (Z.of_nat (length (base_filter v))).
Proof. exact maxlen_length. Qed.
Print Assumptions C12_maxlen_length.
Example C12_maxlen_length_ex : length (maxlen_filter (FStr (L "hello")) (Some 9%Z)) = 5.
Proof. vm_compute. reflexivity. Qed.

(** A negative limit cuts characters off the end instead. *)
Theorem C12_maxlen_negative : forall v n, (n < 0)%Z ->
  Z.of_nat (length (maxlen_filter v (Some n))) = Z.max 0 (Z.of_nat (length (base_filter v)) + n).
Proof. exact maxlen_negative. Qed.
Print Assumptions C12_maxlen_negative.
Example C12_maxlen_negative_ex : maxlen_filter (FStr (L "hello")) (Some (-2)%Z) = L "hel".
Proof. vm_compute. reflexivity. Qed.

(** ** C13 *)
Theorem C13_strip_lines : forall v, exists out ls ts,
  strip_filter v = Some out /\ lines_of (base_filter v) ls /\ Forall2 trimmed ls ts /\ lines_of out ts.
Proof. exact strip_filter_lines. Qed.
Print Assumptions C13_strip_lines.
Example C13_strip_lines_ex :
  strip_filter (FStr (L "  a b " ++ [9; 10; 10; 32; 10; 32; 99; 13]%N))
  = Some (L "a b" ++ [10; 10; 10; 99]%N).
Proof. vm_compute. reflexivity. Qed.

(** the lines of a text and the trimmed form of a line are unique, so the relation above
    determines the output *)
Theorem C13_lines_unique : forall s l1, lines_of s l1 -> forall l2, lines_of s l2 -> l1 = l2.
Proof. exact lines_of_fun. Qed.
Print Assumptions C13_lines_unique.
Example C13_lines_unique_ex : lines_of (L "a" ++ 10%N :: []) [L "a"; []].
Proof. repeat constructor; intro H; cbn in H; intuition discriminate. Qed.

Theorem C13_trimmed_unique : forall s t u, trimmed s t -> trimmed s u -> t = u.
Proof. exact trimmed_fun. Qed.
Print Assumptions C13_trimmed_unique.
Example C13_trimmed_unique_ex : trimmed (L " a ") (L "a").
Proof. exact (strip_trimmed (L " a ")). Qed.

Theorem C13_strip_idempotent : forall v out,
  strip_filter v = Some out -> strip_filter (FStr out) = Some out.
Proof. exact strip_filter_idem. Qed.
Print Assumptions C13_strip_idempotent.
Example C13_strip_idempotent_ex : strip_filter (FObj (L " x " ++ [10%N])) = Some (L "x" ++ [10%N]).
Proof. vm_compute. reflexivity. Qed.

Theorem C13_stripsqueeze_words : forall v ws,
  words_of (base_filter v) ws -> words_of (stripsqueeze_filter v) ws.
Proof. exact stripsqueeze_words. Qed.
Print Assumptions C13_stripsqueeze_words.
Example C13_stripsqueeze_words_ex :
  stripsqueeze_filter (FStr (L "  a  b" ++ [10; 10; 9]%N ++ L "c ")) = L "a b c" /\
  words_of (L " ab") [L "ab"].
Proof.
  split; [vm_compute; reflexivity|]. apply (words_one [32%N] (L "ab")).
  - intros c [<-|[]]; reflexivity.
  - split; [discriminate|]. intros c H; cbn in H; repeat destruct H as [<-|H]; try contradiction; reflexivity.
Qed.

(** every blank left is a single space with a non-blank on each side: no line breaks, no double
    spaces, nothing at the ends *)
Theorem C13_stripsqueeze_blanks : forall v a c b,
  stripsqueeze_filter v = a ++ c :: b -> is_space c = true ->
  c = 32%N /\ (exists a' x, a = a' ++ [x] /\ is_space x = false)
           /\ (exists y b', b = y :: b' /\ is_space y = false).
Proof. exact stripsqueeze_blanks. Qed.
Print Assumptions C13_stripsqueeze_blanks.
Example C13_stripsqueeze_blanks_ex : stripsqueeze_filter (FStr (L " a  b ")) = [97%N] ++ 32%N :: [98%N].
Proof. vm_compute. reflexivity. Qed.

Theorem C13_stripsqueeze_idempotent : forall v,
  stripsqueeze_filter (FStr (stripsqueeze_filter v)) = stripsqueeze_filter v.
Proof. exact stripsqueeze_idem. Qed.
Print Assumptions C13_stripsqueeze_idempotent.
Example C13_stripsqueeze_idempotent_ex : stripsqueeze_filter (FStr (L "a  b")) <> L "a  b".
Proof. vm_compute. congruence. Qed.
