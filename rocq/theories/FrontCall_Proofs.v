(** Proofs about #call and #cache. *)
From Verif Require Import Base PyStr Lex_Model Expr_Model Front_Model Front_Spec FrontLex_Proofs FrontEat_Proofs FrontWords_Spec FrontWords_Proofs
  DefArgs_Spec DefArgs_Proofs FrontCall_Spec.
From Verif Require Gen_Model.

Section Call.
Variable E : env.
Hypothesis ET : x_T (e_X E) = dflt.

(** The settings without autocalling. *)
Definition quiet_env : env :=
  mkE (lang_with (e_X E) false true) (e_G E) (e_um E) (e_pspend E) (e_lc E) (e_id E) (e_ci E) (e_cargs E) (e_other E).

Lemma after_name : forall b r, at_char 32 r = true \/ halt [L ":"] b r -> name_end r = true.
Proof.
  intros b r [H|H].
  - destruct r as [|c r]; [reflexivity|]. cbn [at_char] in H. apply N.eqb_eq in H. subst c. reflexivity.
  - apply word_end_name. apply (halt_word _ _ _ H).
Qed.

Lemma dotted_first : forall n, dotted_name n = true -> exists c s, n = c :: s /\ identchar c = true.
Proof. intros n D. destruct (dotted_cons n D) as (c & s & -> & I & _). eauto. Qed.


Lemma fn_name_ok : forall n, dotted_name n = true -> fn_ok E (fn_name n).
Proof.
  intros n D. destruct (dotted_first n D) as (c & s & EQ & I). unfold fn_ok, fn_name. cbn [x_src x_code]. cbv zeta.
  assert (SV : starts_var n = false).
  { rewrite EQ. destruct s as [|d s]; [reflexivity|]. cbn [starts_var]. rewrite (identchar_not c 36 I eq_refl). reflexivity. }
  split; [|split; [apply dotted_line; exact D|rewrite EQ; left; exact I]].
  intros b r m EB HR HM. rewrite SV. exists [(n, true, [])]. destruct m as [|[|m]]; try lia. split.
  - exact (chunks_name quiet_env m (e_um E) b n r D (after_name _ r HR)).
  - unfold gen_var. cbn [negb]. rewrite andb_false_r. cbn. rewrite app_nil_r. reflexivity.
Qed.

Lemma fn_var_ok : forall n, dotted_name n = true -> fn_ok E (fn_var E n).
Proof.
  intros n D. destruct (dotted_first n D) as (c & s & EQ & I). unfold fn_ok, fn_var. cbn [x_src x_code]. cbv zeta.
  assert (SV : starts_var (L "$" ++ n) = true) by (rewrite EQ; cbn; exact I).
  split; [|split].
  - intros b r m EB HR HM. rewrite SV. destruct m as [|[|[|m]]]; try lia. rewrite <- app_assoc.
    exact (cvar_name quiet_env ET m (e_um E) b n r D (after_name _ r HR) EB).
  - destruct (dotted_line n D) as [A B]. split; [exact A|]. rewrite rev_app_distr. apply esc_rev; [|exact B].
    rewrite EQ. discriminate.
  - cbn [L map app]. right. exact SV.
Qed.

Lemma halt_ender : forall b r, halt [L ":"] b r -> r <> [] -> match r with d :: _ => eolchar d = true \/ d = 35%N \/ d = 58%N | [] => False end.
Proof.
  intros b [|d r] H NE; [congruence|]. apply halt_first in H. destruct H as [->|[->|[->| ->]]]; auto.
Qed.

(** No arguments. *)
Lemma cache_none_ok : forall ci, e_cargs E [] = Ok ci -> cache_ok E (mkSA [] []) ci.
Proof.
  intros ci CI. split; [|split; [exact CI|split; [split; reflexivity|exact I]]]. cbn [sa_src sa_val rev app].
  intros c b r SL EB HA NE. pose proof (halt_ender _ _ HA NE) as HE. unfold def_args. destruct r as [|d r]; [congruence|].
  assert (LA : lang_at E c = X0 E) by (unfold lang_at, X0; rewrite SL; reflexivity). rewrite LA.
  assert (D40 : (d =? 40)%N = false).
  { apply halt_first in HA. destruct HA as [->|[->|[->| ->]]]; reflexivity. }
  rewrite D40. cbn [def_loop]. destruct HE as [HE|[->| ->]].
  - rewrite (eol_cons d r HE), Nat.sub_0_r, Nat.eqb_refl. reflexivity.
  - destruct (Nat.eqb _ _); [reflexivity|]. change (x_T (X0 E)) with (x_T (e_X E)). rewrite ET. unfold m_tok. rewrite EB. reflexivity.
  - destruct (Nat.eqb _ _); [reflexivity|]. change (x_T (X0 E)) with (x_T (e_X E)). rewrite ET.
    assert (M : m_tok (t_dirend dflt) b (58%N :: r) = false) by (unfold m_tok; cbn; rewrite andb_false_r; reflexivity). rewrite M. reflexivity.
Qed.

(** A list as in DefArgs_Spec.v. *)
Lemma cache_args_ok : forall l ci, l <> [] -> (forall b r, halt [L ":"] b r -> r <> [] -> das_ok E true l r) -> one_line (das_src l) ->
  match das_src l with d :: _ => d = 32%N | [] => False end -> e_cargs E (map (da_val E true) l) = Ok ci -> cache_ok E (cache_args E l) ci.
Proof.
  intros l ci NE OK OL BL CI. split; [|split; [exact CI|split; [exact OL|]]]; cbn [cache_args sa_src sa_val].
  - intros c b r SL EB HA NR. apply (args_line E ET c true l b r SL NE (OK _ _ HA NR)).
    + apply OL.
    + destruct (das_src l) as [|d t]; [contradiction|]. subst d. reflexivity.
    + exact EB.
    + apply (halt_ender _ _ HA NR).
  - destruct (das_src l); [contradiction|exact BL].
Qed.
End Call.
