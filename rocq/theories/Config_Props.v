(** C82: compiler settings written in a template. *)
From Verif Require Import Base PyStr Alist Config_Model Config_Spec Config_Proofs.
Local Open Scope string_scope.
Local Open Scope list_scope.

(** A small Python for the examples: natural numbers are numbers, [\[\]] is an empty list, a block of settings is the
    one below. *)
Fixpoint digits (s : pystr) : nat :=
  match s with c :: r => if (48 <=? c)%N && (c <=? 57)%N then S (digits r) else 0%nat | [] => 0%nat end.
Definition ex_num (s : pystr) : option nat := match digits s with 0%nat => None | n => Some n end.
Definition ex_eval (s : pystr) : res cexn cv :=
  if str_eqb s (L "[]") then Ok (CObj false 0) else
  if str_eqb s (L "42") then Ok (CObj true 42) else
  if str_eqb s (L "-7") then Ok (CObj true 7) else
  if str_eqb s (L "'@'") then Ok (CStr (L "@")) else Raise (CCode 1).
Definition ex_sects : list (pystr * list (pystr * pystr)) :=
  [(L "globals", [(L "cheetahVarStartToken", L "@"); (L "useNameMapper", L "False"); (L "n", L "-7")]);
   (L "macros", [(L "m", L "Python:[]"); (L "x", L "NONE")]);
   (L "Globals", [(L "n", L "42")])].
Definition exP : pyenv := mkPy ex_eval ex_eval
  (fun _ => Ok [(L "useFilters", CBool false); (L "_x", CNone)])
  (fun s => if str_eqb s (L "[globals]" ++ [10%N] ++ L "...") then Ok ex_sects else Raise (CCode 2)) ex_num (fun _ => None).
Definition ex_vals : list (pystr * tree) :=
  [(L "globals", [(L "cheetahVarStartToken", CStr (L "@")); (L "useNameMapper", CBool false); (L "n", CObj true 7)]);
   (L "macros", [(L "m", CObj false 0); (L "x", CNone)]);
   (L "Globals", [(L "n", CObj true 42)])].
Lemma ex_sane : sane exP.
Proof.
  intros c r n [H|H]; [|discriminate H]. cbn [exP p_num] in H. unfold ex_num in H. cbn [digits] in H.
  destruct ((48 <=? c)%N && (c <=? 57)%N) eqn:E; [|discriminate H]. left. lia.
Qed.
Ltac word := apply lower_iff; [apply small_ok|]; reflexivity.
Ltac noword := let H := fresh in intros H; apply lower_iff in H; [discriminate H | apply small_ok; reflexivity].

(** The value of an option is the one documented: code after python:, None, True, False in any case, numbers,
    else the text itself.  An empty value has none: IndexError. *)
Theorem C82_value : forall P, sane P -> forall val r, convert P val = r <-> means P val r.
Proof. exact convert_ok. Qed.
Print Assumptions C82_value.
Example C82_value_ex : convert exP (L "False") = Ok (CBool false) /\ convert exP (L "-7") = Ok (CObj true 7) /\
  convert exP (L "PYTHON:[]") = Ok (CObj false 0) /\ convert exP (L "7up") = Ok (CStr (L "7up")) /\
  means exP (L "-7") (Ok (CObj true 7)).
Proof.
  split; [reflexivity|split; [reflexivity|split; [reflexivity|split; [reflexivity|]]]].
  apply (proj1 (C82_value exP ex_sane _ _)). reflexivity.
Qed.

(** Sections that can be read: the options of the sections globals are settings of their own, the last one
    wins, and the other sections are dictionaries unless such an option has their name. *)
Theorem C82_sections : forall P, sane P -> forall ss ds, distinct ss -> unmixed ss -> Forall2 (sect_reads P) ss ds ->
  exists t, read_config P true ss = Ok t /\ forall k v, aget k t = v <-> sets ds k v.
Proof. exact read_sets. Qed.
Print Assumptions C82_sections.
Fixpoint nodupb (l : list pystr) : bool := match l with [] => true | x :: l => negb (existsb (str_eqb x) l) && nodupb l end.
Lemma nodupb_ok : forall l, nodupb l = true -> NoDup l.
Proof.
  induction l as [|x l IH]; intros H; [constructor|]. cbn [nodupb] in H. apply andb_true_iff in H. destruct H as [H1 H2].
  constructor; [|apply IH; exact H2]. intros K. apply negb_true_iff in H1.
  assert (existsb (str_eqb x) l = true) by (apply existsb_exists; exists x; split; [exact K | apply str_eqb_refl]). congruence.
Qed.
Ltac nodup := split; [apply nodupb_ok; reflexivity | repeat (apply Forall_cons; [apply nodupb_ok; reflexivity|]); apply Forall_nil].
Lemma ex_distinct : distinct ex_sects. Proof. nodup. Qed.
Lemma ex_unmixed : unmixed ex_sects.
Proof.
  intros g d n d' H1 G1 H2 G2. cbn [ex_sects In] in H1, H2. apply globalb_iff in G1, G2.
  destruct H1 as [H1|[H1|[H1|[]]]]; injection H1 as <- <-; try discriminate G1;
  destruct H2 as [H2|[H2|[H2|[]]]]; injection H2 as <- <-; try discriminate G2; reflexivity.
Qed.
Lemma ex_reads : Forall2 (sect_reads exP) ex_sects ex_vals.
Proof.
  repeat first [apply Forall2_nil | apply Forall2_cons]; (split; [reflexivity|]); cbn [snd];
  repeat first [apply Forall2_nil | apply Forall2_cons]; (split; [reflexivity|split; [apply (convert_ok exP ex_sane); reflexivity | noword]]).
Qed.
Example C82_sections_ex : distinct ex_sects /\ unmixed ex_sects /\ Forall2 (sect_reads exP) ex_sects ex_vals /\
  read_config exP true ex_sects = Ok [(L "macros", CDict [(L "m", CObj false 0); (L "x", CNone)]);
    (L "cheetahVarStartToken", CStr (L "@")); (L "useNameMapper", CBool false); (L "n", CObj true 42)] /\
  sets ex_vals (L "n") (Some (CObj true 42)).
Proof.
  split; [exact ex_distinct|split; [exact ex_unmixed|split; [exact ex_reads|split; [reflexivity|]]]].
  destruct (C82_sections exP ex_sane ex_sects ex_vals ex_distinct ex_unmixed ex_reads) as (t & E & A).
  apply A. vm_compute in E. injection E as <-. reflexivity.
Qed.

(** Reading succeeds exactly if every option can be read. *)
Theorem C82_failure : forall P, sane P -> forall ss, distinct ss -> unmixed ss ->
  (exists t, read_config P true ss = Ok t) <-> (exists ds, Forall2 (sect_reads P) ss ds).
Proof. exact read_iff. Qed.
Print Assumptions C82_failure.
Example C82_failure_ex : read_config exP true (ex_sects ++ [(L "more", [(L "a", L "python:oops")])]) = Raise (CCode 1) /\
  ~ exists d, Forall2 (reads exP) [(L "a", L "python:oops")] d.
Proof.
  split; [reflexivity|]. intros (d & F). apply (options_ok exP ex_sane) in F. discriminate F.
Qed.

(** The last directive that gives a setting a value (other than a dictionary) decides, whatever came before. *)
Theorem C82_last_directive : forall P, sane P -> forall dflt k l o v r st st1, NoDup (keys dflt) ->
  apply_ops P dflt l st = Ok st1 -> writes P dflt k o (Some v) -> plain v -> Forall (fun o => writes P dflt k o None) r ->
  exists st2, apply_ops P dflt (l ++ o :: r) st = Ok st2 /\ aget k st2 = Some v.
Proof. exact last_writer. Qed.
Print Assumptions C82_last_directive.
Definition ex_dflt : tree := [(L "cheetahVarStartToken", CStr (L "$")); (L "useNameMapper", CBool true)].
Example C82_last_directive_ex :
  writes exP ex_dflt (L "useNameMapper") (OBlock [] (L "...")) (Some (CBool false)) /\
  writes exP ex_dflt (L "useNameMapper") (OBlock [L "python"] (L "x")) None /\
  exists st, apply_ops exP ex_dflt [ODir (L "Reset") []; OBlock [] (L "..."); ODir (L "cheetahVarStartToken") (L "'@'");
    OBlock [L "python"] (L "x")] [] = Ok st /\ aget (L "useNameMapper") st = Some (CBool false).
Proof.
  split; [|split].
  - eapply w_config; [intros [] | intros [] | reflexivity | exact ex_distinct | exact ex_unmixed | exact ex_reads |].
    eapply (sets_global ex_vals _ []); [reflexivity | apply globalb_iff; reflexivity | reflexivity |].
    intros g d [H|[H|[]]]; injection H as <- <-; [intros H; apply globalb_iff in H; discriminate H | reflexivity].
  - apply (w_python exP ex_dflt (L "useNameMapper") [L "python"] (L "x") [(L "useFilters", CBool false); (L "_x", CNone)]); [intros [H|[]]; discriminate H | left; reflexivity | reflexivity |].
    constructor; [intros [H|[]]; discriminate H | constructor; [intros [] | constructor]].
  - eexists. split; reflexivity.
Qed.

(** In particular #compiler reset restores every default that is no dictionary (none is, in
    DEFAULT_COMPILER_SETTINGS). *)
Theorem C82_reset : forall P, sane P -> forall dflt k v l n e st st1, NoDup (keys dflt) -> aget k dflt = Some v -> plain v ->
  apply_ops P dflt l st = Ok st1 -> same_word n (L "reset") ->
  exists st2, apply_ops P dflt (l ++ [ODir n e]) st = Ok st2 /\ aget k st2 = Some v.
Proof.
  intros P H dflt k v l n e st st1 ND A PV E R.
  apply (last_writer P H dflt k l (ODir n e) v [] st st1 ND E); [|exact PV | constructor].
  rewrite <- A. apply w_reset1. exact R.
Qed.
Print Assumptions C82_reset.
Example C82_reset_ex : same_word (L "RESET") (L "reset") /\ exists st,
  apply_ops exP ex_dflt [OBlock [] (L "..."); ODir (L "RESET") []] ex_dflt = Ok st /\
  aget (L "cheetahVarStartToken") st = Some (CStr (L "$")) /\ aget (L "useNameMapper") st = Some (CBool true).
Proof. split; [word|]. eexists. split; [reflexivity|split; reflexivity]. Qed.

(** It does not restore the settings as they were: those that are not among the defaults stay. *)
Theorem C82_reset_refuted : exists P dflt l k st v, sane P /\ apply_ops P dflt (l ++ [ODir (L "reset") []]) dflt = Ok st /\
  aget k dflt = None /\ aget k st = Some v.
Proof.
  exists exP, ex_dflt, [OBlock [] (L "...")], (L "n"). do 2 eexists. split; [exact ex_sane|].
  split; [reflexivity|]. split; reflexivity.
Qed.
Print Assumptions C82_reset_refuted.

(** An empty value is not read as the empty text: IndexError. *)
Theorem C82_empty_refuted : exists P ss, sane P /\ distinct ss /\ unmixed ss /\
  ss = [(L "globals", [(L "commentEndToken", [])])] /\ read_config P true ss = Raise CIndex.
Proof.
  exists exP, [(L "globals", [(L "commentEndToken", [])])]. split; [exact ex_sane|]. split; [|split; [|split; reflexivity]].
  - nodup.
  - intros g d n d' [H1|[]] _ [H2|[]] _. injection H1 as <- <-. injection H2 as <- <-. reflexivity.
Qed.
Print Assumptions C82_empty_refuted.

(** An option of the section globals can get lost: one named as the section. *)
Theorem C82_lost_refuted : exists P ss t, sane P /\ distinct ss /\ ss = [(L "globals", [(L "globals", L "42"); (L "a", L "b")])] /\
  read_config P true ss = Ok t /\ aget (L "globals") t = None /\ aget (L "a") t = Some (CStr (L "b")).
Proof.
  exists exP, [(L "globals", [(L "globals", L "42"); (L "a", L "b")])]. eexists. split; [exact ex_sane|].
  split; [nodup|].
  split; [reflexivity|split; [reflexivity|split; reflexivity]].
Qed.
Print Assumptions C82_lost_refuted.

(** The command importSettings never works, whatever Python does. *)
Theorem C82_import_never : forall P, sane P -> forall ss s o val, In (s, o) ss -> In (L "importSettings", val) o ->
  forall t, read_config P true ss <> Ok t.
Proof.
  intros P H ss s o val I1 I2 t E. unfold read_config in E.
  match type of E with bind ?x _ = _ => destruct x as [st|e] eqn:K end; [|discriminate E].
  destruct (sections_reads P H _ _ _ K) as (ds & F). clear E K.
  assert (exists d, Forall2 (reads P) o d) as (d & F2).
  { clear I2 val. induction F as [|[s1 o1] [s2 d2] ss ds (E1 & E2) F IH]; [destruct I1|].
    destruct I1 as [I1|I1]; [injection I1 as -> ->; eexists; exact E2 | apply IH; exact I1]. }
  clear I1. induction F2 as [|x y o d (E1 & E2 & E3) F2 IH]; [destruct I2|].
  destruct I2 as [I2|I2]; [subst x; apply E3; word | apply IH; exact I2].
Qed.
Print Assumptions C82_import_never.
Example C82_import_never_ex : read_config exP true [(L "globals", [(L "a", L "b"); (L "importSettings", L "x.py")])] = Raise CAttr.
Proof. reflexivity. Qed.
