(** Property theorems C74 (the whole parser comes to an end). *)
From Verif Require Import Expr_Props Front_Props.
From Verif Require Import Base PyStr Lex_Model Lex_Spec Expr_Model Expr_Spec Front_Model FrontEnds_Spec FrontEnds_Proofs.
From Verif Require Gen_Model.
Local Open Scope string_scope.
Local Open Scope list_scope.

(** Settings for examples: the directives that are not modelled raise. *)
Definition endenv : env :=
  let E := toyenv true in
  mkE (e_X E) (e_G E) (e_um E) (e_pspend E) (e_lc E) (e_id E) (e_ci E) (e_cargs E)
      (fun _ s => fparse (f_b s) (f_r s)).
Lemma endenv_readable : readable endenv.
Proof.
  split; [exact toylang_ok|]. intros t H.
  repeat (destruct H as [<-|H]; [discriminate|]). destruct H.
Qed.
Lemma endenv_moves : others_move endenv.
Proof.
  split; [|discriminate]. intros name s. eexists. split; [reflexivity|]. destruct (f_r s); cbn; lia.
Qed.

(** ** C74: the whole parser comes to an end *)

(** Whatever the source, the translation of a template ends, in a number of rounds and nested calls bounded
    by the length of the source, with one result; if it is a parse error, it points into the source. *)
Theorem C74_ends : forall E, readable E -> others_move E -> forall main src,
  exists x, (forall fuel, (length src < fuel)%nat -> translate E fuel main src = Some x) /\
            forall e, x = Raise e -> within (length src) e.
Proof. exact translate_ends. Qed.
Print Assumptions C74_ends.
Definition broken : pystr := L "#if $x: #for $i in [1, 2: $(" ++ nl ++ L "#cache a=${b, #end".
Example C74_ends_ex : readable endenv /\ others_move endenv /\
  translate endenv 100 (L "respond") broken = Some (Raise (FExpr (XParse 26 MInvalid))) /\
  (exists l, translate endenv 100 (L "respond") (L "#if $x: a" ++ nl ++ L "$y #def f(a, b=1)#$a#end def#") = Some (Ok l) /\
             length l = 2%nat).
Proof.
  split; [exact endenv_readable|]. split; [exact endenv_moves|]. split; [vm_compute; reflexivity|].
  eexists. split; vm_compute; reflexivity.
Qed.

(** Without an error the source has been read from its first to its last character, every character once. *)
Theorem C74_reads_everything : forall E, readable E -> others_move E -> forall main src fuel s, (length src < fuel)%nat ->
  parse_all E fuel (mkF [] src (Gen_Model.start (e_G E) main)) = fok s -> f_b s = rev src /\ f_r s = [].
Proof. exact parse_reads_all. Qed.
Print Assumptions C74_reads_everything.
Example C74_reads_everything_ex : exists s,
  parse_all endenv 100 (mkF [] (L "#if $x: a" ++ nl ++ L "b") (Gen_Model.start (e_G endenv) (L "respond"))) = fok s
  /\ rev (f_b s) = L "#if $x: a" ++ nl ++ L "b".
Proof. eexists. split; vm_compute; reflexivity. Qed.
