(** Proofs about installing and uninstalling the import hooks. *)
From Verif Require Import Base PyStr Install_Model Install_Spec.

(** ** The switch *)

(** The states of a switch that was off in [s0]. *)
Definition agrees (s0 : ist) (w : switch) (s : ist) : Prop :=
  i_installed s = on w /\ i_exts s = exts w /\
  if on w then (exists m, i_imp s = Hook m) /\ i_owners s = CheetahOwner :: i_owners s0 /\ i_old s = Some (i_imp s0) /\ i_mold s <> None
  else i_imp s = i_imp s0 /\ i_owners s = i_owners s0.

Lemma step_agrees : forall s0 w s o, is_function (i_imp s0) = true -> ours o -> agrees s0 w s ->
  exists s', istep o s = (Ok tt, s') /\ agrees s0 (turn o w) s'.
Proof.
  intros s0 [b x] s o F U (A & B & C). cbn [on exts] in *. destruct o as [e| |d|i|c]; cbn [istep turn on exts]; try contradiction.
  - eexists. split; [reflexivity|]. unfold install. rewrite A. destruct b; cbn [negb].
    + split; [exact A|]. split; [exact B|exact C].
    + destruct C as [C1 C2]. rewrite C1, F. unfold agrees. cbn. split; [reflexivity|]. split; [reflexivity|].
      split; [eexists; reflexivity|]. rewrite C2. split; [reflexivity|]. split; [reflexivity|discriminate].
  - unfold uninstall. rewrite A. destruct b.
    + destruct C as ((m & M) & O & OL & MO). rewrite M, OL, O. cbn [is_method].
      destruct (i_mold s); [|congruence]. eexists. split; [reflexivity|]. unfold agrees. cbn. auto.
    + eexists. split; [reflexivity|]. split; [exact A|]. split; [exact B|exact C].
  - eexists. split; [reflexivity|]. unfold agrees, set_cache. cbn. auto.
Qed.

Lemma run_agrees : forall l s0 w s, is_function (i_imp s0) = true -> Forall ours l -> agrees s0 w s ->
  exists s', irun l s = (Ok tt, s') /\ agrees s0 (turns l w) s'.
Proof.
  induction l as [|o l IH]; intros s0 w s F U A; [eexists; split; [reflexivity|exact A]|].
  inversion U as [|? ? U1 U2]; subst. destruct (step_agrees s0 w s o F U1 A) as (s1 & E1 & A1). cbn [irun turns]. rewrite E1.
  apply IH; assumption.
Qed.

Theorem switches : forall s0 l, untouched s0 -> is_function (i_imp s0) = true -> Forall ours l ->
  exists s, irun l s0 = (Ok tt, s) /\
    let w := turns l (mkSw false (i_exts s0)) in
    i_installed s = on w /\ i_exts s = exts w /\
    if on w then (exists m, i_imp s = Hook m) /\ i_owners s = CheetahOwner :: i_owners s0
    else i_imp s = i_imp s0 /\ i_owners s = i_owners s0.
Proof.
  intros s0 l (U & _) F O. destruct (run_agrees l s0 (mkSw false (i_exts s0)) s0 F O) as (s & E & A & B & C).
  { split; [exact U|]. split; [reflexivity|]. split; reflexivity. }
  exists s. split; [exact E|]. cbv zeta. split; [exact A|]. split; [exact B|]. destruct (on _); [|exact C].
  destruct C as (C1 & C2 & _). split; assumption.
Qed.

(** ** The owners *)

Definition own_inv (s0 s : ist) : Prop :=
  i_owners s = (if i_installed s then [CheetahOwner] else []) ++ i_owners s0 /\
  (i_installed s = true -> i_old s <> None /\ i_mold s <> None).

Lemma step_owners : forall s0 s o, keeps_owners o -> own_inv s0 s -> exists s', istep o s = (Ok tt, s') /\ own_inv s0 s'.
Proof.
  intros s0 s o U (A & B). destruct o as [e| |d|i|c]; cbn [istep]; try contradiction.
  - eexists. split; [reflexivity|]. unfold install, own_inv. destruct (i_installed s) eqn:I; cbn [negb].
    + split; [rewrite ?I; exact A|rewrite ?I; exact B].
    + destruct (is_function (i_imp s)); cbn; [|rewrite ?I; split; [exact A|discriminate]].
      rewrite A. split; [reflexivity|]. intros _. split; discriminate.
  - unfold uninstall. destruct (i_installed s) eqn:I; [|eexists; split; [reflexivity|]; unfold own_inv; rewrite I; auto].
    destruct (is_method (i_imp s)); [|eexists; split; [reflexivity|]; unfold own_inv; rewrite I; auto].
    destruct (B eq_refl) as [B1 B2]. destruct (i_old s); [|congruence]. rewrite A. cbn [app].
    destruct (i_mold s); [|congruence]. eexists. split; [reflexivity|]. unfold own_inv. cbn. split; [reflexivity|discriminate].
  - eexists. split; [reflexivity|]. split; assumption.
  - eexists. split; [reflexivity|]. split; assumption.
Qed.

Theorem owners : forall l s0, untouched s0 -> Forall keeps_owners l ->
  exists s, irun l s0 = (Ok tt, s) /\ i_owners s = (if i_installed s then [CheetahOwner] else []) ++ i_owners s0.
Proof.
  intros l s0 (U & _) O.
  assert (G : forall l s, Forall keeps_owners l -> own_inv s0 s -> exists s', irun l s = (Ok tt, s') /\ own_inv s0 s').
  { clear l O. induction l as [|o l IH]; intros s O I; [eexists; split; [reflexivity|exact I]|].
    inversion O as [|? ? O1 O2]; subst. destruct (step_owners s0 s o O1 I) as (s1 & E1 & I1). cbn [irun]. rewrite E1. apply IH; assumption. }
  destruct (G l s0 O) as (s & E & A & _); [|exists s; split; assumption].
  split; [rewrite U; reflexivity|rewrite U; discriminate].
Qed.

(** ** The cache directory *)

Lemma step_cache : forall o s, i_cache (snd (istep o s)) = i_cache s ++ match o with OCacheDir d => [d] | _ => [] end.
Proof.
  intros [e| |d|i|c] s; cbn [istep snd]; rewrite ?app_nil_r; try reflexivity.
  - unfold install. destruct (negb (i_installed s)); [destruct (is_function (i_imp s)); reflexivity|reflexivity].
  - unfold uninstall. destruct (i_installed s); [|reflexivity]. destruct (is_method (i_imp s)); [|reflexivity].
    destruct (i_old s); [|reflexivity]. destruct (i_owners s); [reflexivity|]. destruct (i_mold s); reflexivity.
Qed.

Theorem first_cache : forall l s s', irun l s = (Ok tt, s') ->
  cache_dir s' = match cache_dir s with Some d => Some d | None => first_dir l end.
Proof.
  induction l as [|o l IH]; intros s s' E; cbn [irun] in E.
  - injection E as <-. cbn [first_dir]. destruct (cache_dir s); reflexivity.
  - destruct (istep o s) as [[[]|e] s1] eqn:E1; [|discriminate E]. rewrite (IH s1 s' E).
    pose proof (step_cache o s) as C. rewrite E1 in C. cbn [snd] in C. unfold cache_dir. rewrite C.
    destruct (i_cache s) as [|d r]; [|reflexivity]. destruct o; reflexivity.
Qed.

(** ** Who came in between *)

Theorem wrapped : forall s f, i_installed s = true -> istep OUninstall (snd (istep (OImport (Fn f)) s)) = (Ok tt, snd (istep (OImport (Fn f)) s)).
Proof. intros s f I. cbn [istep snd]. unfold uninstall. cbn. rewrite I. reflexivity. Qed.
