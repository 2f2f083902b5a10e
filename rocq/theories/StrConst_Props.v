(** C01: static template text survives code generation (Cheetah/Compiler.py:476-505). *)
From Verif Require Import Base StrConst_Model PyLiteral_Spec StrConst_Proofs.

(** Whatever the non-ASCII printability table, the literal written for a text evaluates to
    exactly that text. *)
Theorem C01_static_text_literal_roundtrip : forall printable s lit,
  valid_str s -> str_const_literal printable s = Some lit -> eval_literal lit = Some s.
Proof. exact str_const_literal_roundtrip. Qed.
Print Assumptions C01_static_text_literal_roundtrip.

(** quotes of both kinds, backslash-n, a real newline, a control and a non-ASCII character *)
Definition C01_text : pystr := L "it's """ ++ [92; 92; 110; 10; 13; 92; 48; 49; 50; 7; 8364; 128512; 34; 34; 34]%N.

Example C01_static_text_literal_roundtrip_ex :
  valid_str C01_text /\
  exists lit, str_const_literal (fun _ => false) C01_text = Some lit
           /\ eval_literal lit = Some C01_text /\ lit <> C01_text.
Proof.
  split.
  - unfold valid_str, C01_text, L. repeat constructor; vm_compute; congruence.
  - eexists. split; [vm_compute; reflexivity|]. split; [vm_compute; reflexivity|].
    vm_compute. congruence.
Qed.

(** Every non-empty text is emitted. *)
Theorem C01_static_text_emitted : forall printable s,
  s <> [] -> exists lit, str_const_literal printable s = Some lit.
Proof. exact str_const_literal_some. Qed.
Print Assumptions C01_static_text_emitted.

Example C01_static_text_emitted_ex : str_const_literal (fun _ => true) [10%N] = Some ([39;39;39;10;39;39;39]%N).
Proof. vm_compute. reflexivity. Qed.

(** The plain [repr] used in other places of the generated code (for instance the source
    comments, Cheetah/Compiler.py:459) also denotes the text ... *)
Theorem C01_repr_roundtrip : forall printable s,
  valid_str s -> eval_literal (repr printable s) = Some s.
Proof. exact repr_roundtrip. Qed.
Print Assumptions C01_repr_roundtrip.

Example C01_repr_roundtrip_ex :
  eval_literal (repr (fun _ => false) C01_text) = Some C01_text.
Proof. vm_compute. reflexivity. Qed.

(** ... and stays on one line, so a comment made from it cannot leak code. *)
Theorem C01_repr_one_line : forall printable s c,
  In c (repr printable s) -> c <> NL /\ c <> CR.
Proof. exact repr_one_line. Qed.
Print Assumptions C01_repr_one_line.

Example C01_repr_one_line_ex : In 10%N C01_text /\ mem_char 10 (repr (fun _ => true) C01_text) = false.
Proof. split; [apply mem_char_In|]; vm_compute; reflexivity. Qed.
