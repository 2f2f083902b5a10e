(** C78: documentation comments, headers and module variables. *)
From Verif Require Import Base PyStr StrConst_Model PyLiteral_Spec StrConst_Proofs Names_Model
  Catch_Model Catch_Spec Catch_Proofs Doc_Model Doc_Spec Doc_Proofs.
Local Open Scope string_scope.
Local Open Scope list_scope.

(** A page used in the examples. *)
Definition ex_comments : list comment :=
  [ CPlain (L "note"); CBar 30; CVar (L "author") (L " A. U. Thor "); CDocMethod (L " first
   second "); CDocClass (L " 100% ""ok"""); CDocModule (L "the module
has two lines"); CHeader (L " made by hand"); CVar (L "author") (L "B"); CDoc (L "third") ].

(** Every comment of a page goes to its own place, line by line and in order; bars go nowhere. *)
Theorem C78_kinds : forall off cs, named cs ->
  let d := doc_comments off (map written cs) in
  d_body d = map (fun l => L "#" ++ repeat 32%N off ++ l) (plain_lines cs)
  /\ d_meth d = map (replace_char 37 [37; 37]%N) (method_lines cs)
  /\ d_class d = map (replace_char 37 [37; 37]%N) (class_lines cs)
  /\ d_module d = module_lines cs
  /\ d_header d = header_lines cs
  /\ forall m, find_key m (d_vars d) = last_text m (variables cs) None.
Proof. exact kinds_of_page. Qed.
Print Assumptions C78_kinds.

Lemma ex_named : named ex_comments.
Proof.
  intros n t H. cbn [ex_comments In] in H.
  repeat (destruct H as [H|H]; [try discriminate H|]); try contradiction; injection H as <- <-;
    (split; [discriminate|]); intros c Hc; cbn in Hc;
    repeat (destruct Hc as [<-|Hc]; [lia|]); contradiction.
Qed.

Example C78_kinds_ex : named ex_comments
  /\ doc_comments 1 (map written ex_comments)
     = mkDocs [L "#  note"] [L "first"; L "   second"; L "third"] [L "100%% ""ok"""]
         [L "the module"; L "has two lines"] [L "made by hand"] [(L "__author__", L "B")].
Proof. split; [exact ex_named|vm_compute; reflexivity]. Qed.

(** The documentation of a method, read as Python, has the lines of the comments, indented like the
    body; when the texts have no backslash, null, percent sign or three double quotes. *)
Theorem C78_method_doc : forall off cs ind, named cs -> blanks ind -> method_lines cs <> [] ->
  (forall t, In (CDoc t) cs \/ In (CDocMethod t) cs -> literal_text t /\ ~ has_quotes3 t /\ ~ In 37%N t) ->
  indented_doc ind (meth_doc ind (d_meth (doc_comments off (map written cs)))) (method_lines cs).
Proof. exact method_doc_exact. Qed.
Print Assumptions C78_method_doc.

Example C78_method_doc_ex :
  blanks (L "        ") /\ method_lines ex_comments = [L "first"; L "   second"; L "third"]
  /\ (forall t, In (CDoc t) ex_comments \/ In (CDocMethod t) ex_comments ->
        literal_text t /\ ~ has_quotes3 t /\ ~ In 37%N t)
  /\ meth_doc (L "        ") (d_meth (doc_comments 1 (map written ex_comments)))
     = L "        """"""
        first
           second
        third
        """"""
".
Proof.
  split; [|split; [vm_compute; reflexivity|split; [|vm_compute; reflexivity]]].
  - intros c H. cbn in H. repeat (destruct H as [<-|H]; [left; reflexivity|]). contradiction.
  - intros t H. cbn [ex_comments In] in H.
    assert (HT : t = L " first
   second " \/ t = L "third").
    { destruct H as [H|H]; repeat (destruct H as [H|H]; [try discriminate H|]); try contradiction;
        injection H as <-; tauto. }
    clear H. apply literal_check. destruct HT as [-> | ->]; vm_compute; reflexivity.
Qed.

(** With percent signs and quotes allowed it is still one literal on its own: three double quotes have
    become three single ones, and percent signs are doubled. *)
Theorem C78_method_doc_quotes : forall off cs ind, named cs -> blanks ind -> method_lines cs <> [] ->
  (forall t, In (CDoc t) cs \/ In (CDocMethod t) cs -> literal_text t) ->
  indented_doc ind (meth_doc ind (d_meth (doc_comments off (map written cs))))
    (map (fun l => replace_str [34; 34; 34]%N [39; 39; 39]%N (replace_char 37 [37; 37]%N l)) (method_lines cs)).
Proof. exact method_doc_any. Qed.
Print Assumptions C78_method_doc_quotes.

Example C78_method_doc_quotes_ex :
  meth_doc (L "  ") (d_meth (doc_comments 1 (map written [CDoc (L "50% of """"""x""""""""")])))
  = L "  """"""
  50%% of '''x'''""
  """"""
".
Proof. vm_compute. reflexivity. Qed.

(** So the documentation of a method is not the text of the comment when it has a percent sign. *)
Theorem C78_method_percent_refuted : exists t, literal_text t /\ ~ has_quotes3 t
  /\ forall off ind, blanks ind ->
     ~ indented_doc ind (meth_doc ind (d_meth (doc_comments off [written (CDoc t)]))) (doc_text t).
Proof.
  exists (L "%"). split; [|split].
  - intros c [<-|[]]; split; discriminate.
  - intros (a & b & H). apply (f_equal (@length N)) in H. rewrite !app_length in H. cbn in H. lia.
  - exact percent_doubled.
Qed.
Print Assumptions C78_method_percent_refuted.

(** The documentation of a class has the lines of the comments, percent signs included; the
    formatting of the text does not fail. *)
Theorem C78_class_doc : forall off cs ind, named cs -> blanks ind -> class_lines cs <> [] ->
  (forall t, In (CDocClass t) cs -> literal_text t /\ ~ has_quotes3 t) ->
  exists src, class_doc ind (d_class (doc_comments off (map written cs))) = Some src
              /\ indented_doc ind src (class_lines cs).
Proof. exact class_doc_exact. Qed.
Print Assumptions C78_class_doc.

Example C78_class_doc_ex :
  class_lines ex_comments = [L "100% ""ok"""]
  /\ class_doc (L "    ") (d_class (doc_comments 1 (map written ex_comments)))
     = Some (L "    """"""
    100% ""ok""
    """"""
").
Proof. split; vm_compute; reflexivity. Qed.

(** The documentation of the module. *)
Theorem C78_module_doc : forall off cs, named cs -> module_lines cs <> [] ->
  (forall t, In (CDocModule t) cs -> literal_text t /\ ~ has_quotes3 t) ->
  flat_doc (module_doc (d_module (doc_comments off (map written cs)))) (module_lines cs).
Proof. exact module_doc_exact. Qed.
Print Assumptions C78_module_doc.

Example C78_module_doc_ex :
  module_lines ex_comments = [L "the module"; L "has two lines"]
  /\ module_doc (d_module (doc_comments 1 (map written ex_comments)))
     = L """""""the module
has two lines
""""""
".
Proof. split; vm_compute; reflexivity. Qed.

(** Three double quotes in the documentation of a class or of the module end it: what is left is not
    a literal on its own (the generated module has a syntax error). *)
Theorem C78_quotes_refuted : exists t, literal_text t
  /\ (forall lines, ~ flat_doc (module_doc (d_module (doc_comments 1 [written (CDocModule t)]))) lines)
  /\ exists src, class_doc (L "    ") (d_class (doc_comments 1 [written (CDocClass t)])) = Some src
     /\ forall lines, ~ indented_doc (L "    ") src lines.
Proof.
  exists (L "see """"""x"""""" here"). split; [|split].
  - intros c H. cbn in H. repeat (destruct H as [<-|H]; [lia|]). contradiction.
  - intros lines (v & H & _). vm_compute in H. discriminate H.
  - eexists. split; [vm_compute; reflexivity|]. intros lines (lit & v & E & H & _).
    change (map N_of_ascii _) with (L "    ") in E. 
    assert (El : lit = skipn 4 ((L "    ") ++ lit)) by reflexivity. rewrite <- E in El.
    rewrite El in H. vm_compute in H. discriminate H.
Qed.
Print Assumptions C78_quotes_refuted.

(** A backslash is not escaped in any of the three. *)
Theorem C78_backslash_refuted : exists t, ~ has_quotes3 t /\ ~ In 37%N t
  /\ ~ flat_doc (module_doc (d_module (doc_comments 1 [written (CDocModule t)]))) (doc_text t)
  /\ ~ indented_doc [] (meth_doc [] (d_meth (doc_comments 1 [written (CDoc t)]))) (doc_text t)
  /\ exists src, class_doc [] (d_class (doc_comments 1 [written (CDocClass t)])) = Some src
     /\ ~ indented_doc [] src (doc_text t).
Proof.
  exists (L "C:\new"). split; [|split; [|split; [|split]]].
  - intros (a & b & H).
    assert (HI : In 34%N (L "C:\new")) by (rewrite H; apply in_or_app; right; left; reflexivity).
    cbn in HI. repeat (destruct HI as [HI|HI]; [discriminate HI|]). contradiction.
  - intros HI. cbn in HI. repeat (destruct HI as [HI|HI]; [discriminate HI|]). contradiction.
  - intros (v & H & Hs). vm_compute in H. injection H as <-. vm_compute in Hs. discriminate Hs.
  - intros (lit & v & E & H & Hs). cbn [app] in E. subst lit. vm_compute in H. injection H as <-. vm_compute in Hs. discriminate Hs.
  - eexists. split; [vm_compute; reflexivity|]. intros (lit & v & E & H & Hs). cbn [app] in E. subst lit.
    vm_compute in H. injection H as <-. vm_compute in Hs. discriminate Hs.
Qed.
Print Assumptions C78_backslash_refuted.

(** The header: the two lines in front and then the lines of the comments, each one a comment of
    Python whatever its text. *)
Theorem C78_header : forall off cs shbang enc, named cs -> ~ In 10%N shbang -> ~ In 10%N enc ->
  split_char 10 (module_header shbang enc off (d_header (doc_comments off (map written cs))))
  = shbang :: enc :: map (fun l => L "#" ++ repeat 32%N off ++ l) (header_lines cs) ++ [[]]
  /\ forall l c, In l (header_lines cs) -> In c l -> c <> 10%N /\ c <> 13%N.
Proof. exact header_exact. Qed.
Print Assumptions C78_header.

Example C78_header_ex :
  module_header (L "#!/usr/bin/env python") [] 1 (d_header (doc_comments 1 (map written ex_comments)))
  = L "#!/usr/bin/env python

# made by hand
".
Proof. vm_compute. reflexivity. Qed.

(** The module variables: the lines written, run as Python assignments, give every variable the last
    text of its comments (without the space around it), and no other variable; all are names. *)
Theorem C78_variables : forall printable off cs, named cs -> variables cs <> [] ->
  (forall n t, In (CVar n t) cs -> valid_str t) ->
  exists env,
    run_assigns (split_char 10 (special_vars printable (d_vars (doc_comments off (map written cs))))) (fun _ => None)
    = Some env
    /\ (forall m, env m = last_text m (variables cs) None)
    /\ (forall m, env m <> None -> ascii_name m = true).
Proof. exact vars_exact. Qed.
Print Assumptions C78_variables.

Example C78_variables_ex : forall printable,
  variables ex_comments = [(L "author", L " A. U. Thor "); (L "author", L "B")]
  /\ special_vars printable (d_vars (doc_comments 1 (map written ex_comments))) = L "__author__ = 'B'".
Proof. intros. split; vm_compute; reflexivity. Qed.

(** The pattern for variables takes more than letters ([A-z] holds brackets, backslash, circumflex
    and backquote): the name assigned to may be no name, a syntax error in the generated module. *)
Theorem C78_variable_name_refuted : exists comm k v,
  d_vars (doc_comments 1 [comm]) = [(k, v)] /\ ascii_name k = false.
Proof. exists (L "[x@example"). eexists _, _. split; vm_compute; reflexivity. Qed.
Print Assumptions C78_variable_name_refuted.
