(** Proofs: what the translation of a structured template does when it runs. *)
From Verif Require Import Base PyStr Lex_Model Expr_Model Front_Model Front_Spec FrontLex_Proofs FrontExpr_Proofs FrontEat_Proofs FrontSane_Proofs Front_Proofs.
From Verif Require Import Gen_Model Gen_Spec GenSem_Model GenSem_Spec GenSem_Proofs GenSemUse_Proofs.

Section Use.
Variable E : env.
Local Notation G := (e_G E).

Hypothesis ET : x_T (e_X E) = dflt.
Hypothesis TW : tokenizes_words (e_X E).
Hypothesis NM : g_markers G = None.

(** A structured template compiles, to the code of its structure. *)
Theorem accepted : forall main t, wf E false [] t [] ->
  exists n, forall f, translate E (n + f) main (print t)
  = fok (map (fun p => (fst p, layout (g_lev G) (snd p)))
      (meths G false (elab E [] t [] false) ++ [((main, []), prog G false 0 [] (elab E [] t [] false) CNil)])).
Proof.
  intros main t W. destruct (translates E ET TW NM main t W) as [n TR]. exists n. intro f. rewrite TR.
  rewrite (GenLayout_Proofs.compile_layout G main _ (proj1 (wf_sane E NM) t false [] [] false false (fun _ => eq_refl) W)). reflexivity.
Qed.

(** ... and that code returns what the structure means. *)
Theorem accepted_returns : forall W V F Er I (K : oracle W V F Er I) fuel main t x o a' r,
  wf E false [] t [] -> apart (elab E [] t [] false) ->
  ob_heap x <> [] -> ob_buf x = true \/ ob_tx x = false ->
  sem K G fuel false (elab E [] t [] false) (mkA (ob_w x) [] false (ob_cur x) (ob_buf x) (ob_flts x)) = Some (o, a') ->
  answer true o a' = Some r ->
  exists n c x',
    (forall f, translate E (n + f) main (print t)
      = fok (map (fun p => (fst p, layout (g_lev G) (snd p))) (meths G false (elab E [] t [] false) ++ [((main, []), c)])))
    /\ call_method K fuel c None x = Some (r, x')
    /\ ob_w x' = a_w a' /\ ob_flts x' = a_flts a' /\ ob_tx x' = ob_tx x
    /\ ob_cur x' = ob_cur x /\ ob_buf x' = ob_buf x
    /\ (forall i, (i < length (ob_heap x))%nat -> getvalue i (ob_heap x') = getvalue i (ob_heap x)).
Proof.
  intros W V F Er I K fuel main t x o a' r WF AP HH HB SM AN.
  destruct (translates E ET TW NM main t WF) as [n TR].
  destruct (method_returns K G fuel main _ x o a' r (proj1 (wf_sane E NM) t false [] [] false false (fun _ => eq_refl) WF) AP HH HB SM AN)
    as (c & x' & C & R). exists n, c, x'. split; [|exact R]. intro f. rewrite TR, C. reflexivity.
Qed.
End Use.
