(** C31 version order, C32 module names, C54 dotted names, C55 regex escaping,
    C56 source statistics, C59 line classification. *)
From Verif Require Import Names_Model Names_Spec Names_Proofs.
Local Open Scope string_scope.
Local Open Scope list_scope.

(** C31: version strings of the documented forms are read, and their tuples order as the
    releases do. *)
Theorem C31_version_order : forall a b, proper a -> proper b ->
  exists ta tb, convertVersionStringToTuple (render a) = Ok ta
    /\ convertVersionStringToTuple (render b) = Ok tb
    /\ (tuple_ltb ta tb = true <-> older a b).
Proof. exact version_order. Qed.
Print Assumptions C31_version_order.
Example C31_version_order_ex :
  render (mkRel [2; 0]%N Candidate 1) = L "2.0rc1" /\ proper (mkRel [2; 0]%N Candidate 1)
  /\ older (mkRel [2; 0]%N Candidate 1) (mkRel [2; 0; 0]%N Final 0).
Proof.
  repeat split; [simpl; lia|simpl; lia|discriminate|].
  right. split; [reflexivity|]. right. split; [reflexivity|]. right. split; [reflexivity|].
  left. reflexivity.
Qed.

(** C31: for these forms the check rejects exactly the templates older than 3.0.0a1. *)
Theorem C31_check_rejects_older : forall r, proper r ->
  version_check_rejects (render r) = true <-> older r (mkRel [3; 0; 0]%N Alpha 1).
Proof. exact version_check. Qed.
Print Assumptions C31_check_rejects_older.
Example C31_check_rejects_older_ex :
  version_check_rejects (L "2.4.4") = true /\ version_check_rejects (L "3.0.0a1") = false
  /\ version_check_rejects (L "3.4.1a1") = false.
Proof. repeat split. Qed.

(** C31 is false outside those forms: a version string the parser cannot read (four numbers, or
    a spelled-out stage) switches the check off, so an old template is accepted. *)
Theorem C31_unreadable_version_refuted :
  version_check_rejects (L "2.4.4.1") = false /\ version_check_rejects (L "2.0beta1") = false
  /\ convertVersionStringToTuple (L "2.4.4.1") = Raise IndexError
  /\ convertVersionStringToTuple (L "2.0beta1") = Raise ValueError.
Proof. repeat split. Qed.
Print Assumptions C31_unreadable_version_refuted.

(** C32: on paths of characters below 256 the name has the same length and consists of
    identifier characters. *)
Theorem C32_identifier_characters_partial : forall p, Forall (fun c => (c < 256)%N) p ->
  Forall ident_char (convertTmplPathToModuleName p)
  /\ length (convertTmplPathToModuleName p) = length p.
Proof. exact module_name_ident. Qed.
Print Assumptions C32_identifier_characters_partial.
Example C32_identifier_characters_partial_ex :
  convertTmplPathToModuleName (L "/web/my-page.tmpl") = L "_web_my_page_tmpl".
Proof. reflexivity. Qed.

(** C32 fails for other characters: they are kept, whatever they are (here an em dash). *)
Theorem C32_identifier_characters_refuted : exists p,
  ~ Forall ident_char (convertTmplPathToModuleName p).
Proof. exists [97; 8212]%N. intro H. inversion H; subst. inversion H3; subst.
  unfold ident_char in H4. change (path_char 8212) with 8212%N in H4. lia. Qed.
Print Assumptions C32_identifier_characters_refuted.

(** C32: paths of letters, digits and one separator character get different names. *)
Theorem C32_distinct_paths_partial : forall sep p q, (sep < 256)%N ->
  Forall (fun c => letter_or_digit c \/ c = sep) p ->
  Forall (fun c => letter_or_digit c \/ c = sep) q ->
  convertTmplPathToModuleName p = convertTmplPathToModuleName q -> p = q.
Proof. exact module_name_inj. Qed.
Print Assumptions C32_distinct_paths_partial.
Example C32_distinct_paths_partial_ex :
  Forall (fun c => letter_or_digit c \/ c = 47%N) (L "a/b1").
Proof. unfold letter_or_digit. repeat constructor; vm_compute; intuition discriminate. Qed.

(** C32 fails when underscores occur beside the separator. *)
Theorem C32_distinct_paths_refuted : exists p q,
  Forall (fun c => ident_char c \/ c = 47%N) p /\ Forall (fun c => ident_char c \/ c = 47%N) q
  /\ p <> q /\ convertTmplPathToModuleName p = convertTmplPathToModuleName q.
Proof.
  exists (L "a/b"), (L "a_b"). unfold ident_char.
  repeat split; try (repeat constructor; vm_compute; intuition discriminate).
Qed.
Print Assumptions C32_distinct_paths_refuted.

(** C54: joining the chunks of a name with dots gives the name back, unless it ends in a dot;
    no chunk contains a dot. *)
Theorem C54_name_split_join_partial : forall s, (forall a, s <> a ++ L ".") ->
  join (L ".") (nameSplit s) = s /\ forall w, In w (nameSplit s) -> ~ In 46%N w.
Proof. intros s H. split; [exact (nameSplit_join s H)|exact (nameSplit_chunks s)]. Qed.
Print Assumptions C54_name_split_join_partial.
Example C54_name_split_join_partial_ex :
  nameSplit (L "pkg.sub.mod") = [L "pkg"; L "sub"; L "mod"] /\ nameSplit (L ".a") = [[]; L "a"].
Proof. split; reflexivity. Qed.

(** C54 fails for names ending in a dot: the dot is lost. *)
Theorem C54_name_split_join_refuted : exists s, join (L ".") (nameSplit s) <> s.
Proof. exists (L "pkg."). discriminate. Qed.
Print Assumptions C54_name_split_join_refuted.

(** C54: packageName is everything before the last dot, empty without a dot. *)
Theorem C54_package_name : forall s,
  (exists a b, s = a ++ 46%N :: b /\ ~ In 46%N b /\ packageName s = a)
  \/ (~ In 46%N s /\ packageName s = []).
Proof. exact packageName_spec. Qed.
Print Assumptions C54_package_name.
Example C54_package_name_ex :
  packageName (L "pkg.sub.mod") = L "pkg.sub" /\ packageName (L "mod") = [].
Proof. split; reflexivity. Qed.

(** C54: the extension is the part from the last dot on, empty without a dot. *)
Theorem C54_path_extension : forall s,
  (exists a b, s = a ++ 46%N :: b /\ ~ In 46%N b /\ getPathExt s = 46%N :: b)
  \/ (~ In 46%N s /\ getPathExt s = []).
Proof. exact getPathExt_spec. Qed.
Print Assumptions C54_path_extension.
Example C54_path_extension_ex : getPathExt (L "a/b.tar.gz") = L ".gz".
Proof. reflexivity. Qed.

(** C54: the two decompositions agree: the chunks of a dotted name are those of its package and
    its last component. *)
Theorem C54_split_package_agree : forall s, In 46%N s -> (forall a, s <> a ++ L ".") ->
  exists w, nameSplit s = nameSplit (packageName s ++ L ".") ++ [w]
            /\ s = packageName s ++ 46%N :: w.
Proof. exact packageName_nameSplit. Qed.
Print Assumptions C54_split_package_agree.
Example C54_split_package_agree_ex :
  nameSplit (L "a.b.c") = nameSplit (packageName (L "a.b.c") ++ L ".") ++ [L "c"].
Proof. reflexivity. Qed.

(** C54, a property one would expect and that fails: the extension may contain a directory
    separator. *)
Theorem C54_extension_crosses_directory_refuted : exists s, In 47%N (getPathExt s).
Proof. exists (L "site.d/page"). vm_compute. tauto. Qed.
Print Assumptions C54_extension_crosses_directory_refuted.

(** C55: the escaped token, read as a pattern, is a literal for exactly the token. *)
Theorem C55_escaped_is_literal : forall s, literal_pattern (escapeRegexChars s) = Some s.
Proof. exact escape_literal. Qed.
Print Assumptions C55_escaped_is_literal.
Example C55_escaped_is_literal_ex :
  escapeRegexChars (L "$(x)") = L "\$\(x\)" /\ literal_pattern (L "$(x)") = None.
Proof. split; reflexivity. Qed.

(** C55: different tokens give different patterns. *)
Theorem C55_escape_injective : forall s t, escapeRegexChars s = escapeRegexChars t -> s = t.
Proof. exact escape_inj. Qed.
Print Assumptions C55_escape_injective.
Example C55_escape_injective_ex : escapeRegexChars (L "\$") = L "\\\$".
Proof. reflexivity. Qed.

(** C56: per file the three counts add up to the number of lines. *)
Theorem C56_file_counts_add_up : forall text,
  let f := getFileStats text in
  f_code f + f_blank f + f_comment f = f_total f /\ f_total f = length (splitlines text).
Proof. exact file_stats_sum. Qed.
Print Assumptions C56_file_counts_add_up.
Example C56_file_counts_add_up_ex :
  getFileStats (L "x = 1" ++ [10%N] ++ L " # c" ++ [10; 32; 10]%N) = mkF 1 1 1 3.
Proof. reflexivity. Qed.

(** C56: the same in the summary over any set of files. *)
Theorem C56_summary_adds_up : forall texts,
  let f := stats_summary (map getFileStats texts) in
  f_code f + f_blank f + f_comment f = f_total f
  /\ f_total f = list_sum (map (fun t => length (splitlines t)) texts).
Proof. exact summary_sum. Qed.
Print Assumptions C56_summary_adds_up.
Example C56_summary_adds_up_ex :
  stats_summary (map getFileStats [L "a"; [32; 10]%N]) = mkF 1 1 0 2.
Proof. reflexivity. Qed.

(** C56: no character other than line boundaries is lost before counting. *)
Theorem C56_lines_hold_the_text : forall s,
  concat (splitlines s) = filter (fun c => negb (is_linebreak c)) s.
Proof. exact splitlines_text. Qed.
Print Assumptions C56_lines_hold_the_text.
Example C56_lines_hold_the_text_ex : splitlines [97; 13; 10; 10; 98]%N = [[97]; []; [98]]%N.
Proof. reflexivity. Qed.

(** C59 (blank lines count as blank, comment lines as comments) is false: an empty line and an
    unindented comment both count as code. *)
Theorem C59_blank_line_refuted : f_blank (getFileStats [10%N]) = 0 /\ f_code (getFileStats [10%N]) = 1.
Proof. split; reflexivity. Qed.
Print Assumptions C59_blank_line_refuted.

Theorem C59_comment_line_refuted :
  f_comment (getFileStats (L "# note")) = 0 /\ f_code (getFileStats (L "# note")) = 1
  /\ f_comment (getFileStats (L "        # note")) = 0.
Proof. repeat split. Qed.
Print Assumptions C59_comment_line_refuted.
