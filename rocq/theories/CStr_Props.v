(** Property theorems C81 (strings with placeholders). *)
From Verif Require Import Expr_Props Base PyStr Lex_Model Expr_Model Front_Model Front_Spec FrontWords_Spec StrConst_Proofs PyLiteral_Spec CStr_Spec CStr_Proofs
  Front_Props.
Local Open Scope string_scope.
Local Open Scope list_scope.

(** C81: a c-string is read as the expression that joins its pieces: the text of each text, then the value of
    each name, in order; also in the directives of C73. *)
Theorem C81_cstring : forall E, x_T (e_X E) = dflt -> tokenizes_words (e_X E) ->
  forall um brk q l, cstring_ok E q l -> existsb (str_eqb (L "c")) brk = false ->
  reads E um brk (cstring q l) (cstring_code E um l) /\
  (forall s, In (CText s) l -> valid_str s -> eval_literal (cp_code E um (CText s)) = Some s) /\
  (one_line (cstring q l) -> xok E brk (mkXP (cstring q l) (cstring_code E (e_um E) l))).
Proof. exact cstring_value. Qed.
Print Assumptions C81_cstring.

Definition ex_pieces : list cpiece := [CText (L "Dear "); CName false (L "user.name"); CText (L ", #"); CName true (L "n"); CText (L "th")].
Lemma to_quote_all : forall q s r, mem_char q s = false -> to_quote q (s ++ q :: r) = Some (S (length s)).
Proof.
  induction s as [|c s IH]; intros r H; cbn [app to_quote length].
  - rewrite N.eqb_refl. reflexivity.
  - unfold mem_char in H. cbn [existsb] in H. apply orb_false_iff in H as [H1 H2]. rewrite N.eqb_sym, H1.
    rewrite IH by exact H2. reflexivity.
Qed.
Example C81_cstring_ex : cstring_ok (toyenv true) (L "'") ex_pieces /\ existsb (str_eqb (L "c")) [L ":"] = false /\
  one_line (cstring (L "'") ex_pieces) /\
  cstring (L "'") ex_pieces = L "c'Dear $user.name, #${n}th'" /\
  cstring_code (toyenv true) true ex_pieces
  = L "''.join(['Dear ',str(VFFSL(SL,""user.name"",True)),', #',str(VFFSL(SL,""n"",True)),'th'])".
Proof.
  split.
  - split; [left; reflexivity|]. split; [discriminate|]. split; [repeat split; discriminate|]. split; [|split; discriminate].
    split; [reflexivity|]. split; [|reflexivity]. intros r W.
    change (x_tok (e_X (toyenv true)) (L "'" ++ cps_src ex_pieces ++ L "'" ++ r)) with (option_map S (to_quote 39 (cps_src ex_pieces ++ 39%N :: r))).
    rewrite to_quote_all by reflexivity. reflexivity.
  - repeat split.
Qed.

(** C81 with backslashes is false: the text between the quotes is taken as it stands in the source, and
    escapes are not decoded. *)
Theorem C81_escapes_refuted : exists lit code s s', eval_literal lit = Some s /\
  expr toylang 60 true false [] [] [] (L "c" ++ lit) = ok (L "''.join([" ++ code ++ L "])") (rev (L "c" ++ lit)) [] /\
  eval_literal code = Some s' /\ s = [97; 9; 98]%N /\ s' = [97; 92; 116; 98]%N.
Proof.
  exists (L "'a\tb'"), (L "'a\\tb'"). do 2 eexists. split; [vm_compute; reflexivity|]. split; [vm_compute; reflexivity|].
  split; [vm_compute; reflexivity|]. split; vm_compute; reflexivity.
Qed.
Print Assumptions C81_escapes_refuted.

(** C81 for the empty string is false: it is a TypeError of the compiler. *)
Theorem C81_empty_refuted : exists lit, eval_literal lit = Some [] /\
  expr toylang 60 true false [] [] [] (L "c" ++ lit) = err XType.
Proof. exists (L "''"). split; vm_compute; reflexivity. Qed.
Print Assumptions C81_empty_refuted.
