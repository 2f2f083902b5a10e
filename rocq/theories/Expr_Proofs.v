(** Proofs about the expression parser. *)
From Verif Require Import Base PyStr Lex_Model Expr_Model Expr_Spec.

(** ** Moving *)

Definition adv (b r b' r' : pystr) : Prop := exists w, r = w ++ r' /\ b' = rev w ++ b.

Lemma adv_refl : forall b r, adv b r b r.
Proof. intros. exists []. auto. Qed.

Lemma adv_trans : forall b r b1 r1 b2 r2, adv b r b1 r1 -> adv b1 r1 b2 r2 -> adv b r b2 r2.
Proof.
  intros b r b1 r1 b2 r2 [w [-> ->]] [w' [-> ->]]. exists (w ++ w').
  rewrite rev_app_distr, <- !app_assoc. auto.
Qed.

Lemma adv_one : forall b c r, adv b (c :: r) (c :: b) r.
Proof. intros. exists [c]. auto. Qed.

Lemma adv_cons : forall b c r b' r', adv (c :: b) r b' r' -> adv b (c :: r) b' r'.
Proof. intros. eapply adv_trans; [apply adv_one|eassumption]. Qed.

Lemma adv_src : forall b r b' r', adv b r b' r' -> rev b' ++ r' = rev b ++ r.
Proof. intros b r b' r' [w [-> ->]]. rewrite rev_app_distr, rev_involutive, <- app_assoc. reflexivity. Qed.

Lemma adv_len : forall b r b' r', adv b r b' r' -> length r' <= length r.
Proof. intros b r b' r' [w [-> ->]]. rewrite app_length. lia. Qed.

Lemma go_eq : forall k b r, k <= length r -> go k b r = (rev (firstn k r) ++ b, skipn k r).
Proof.
  induction k as [|k IH]; intros b r H; [destruct r; reflexivity|].
  destruct r as [|c r]; cbn in H; [lia|]. cbn [go firstn skipn rev]. rewrite IH by lia.
  rewrite <- app_assoc. reflexivity.
Qed.

Lemma go_adv : forall k b r b' r', go k b r = (b', r') -> adv b r b' r'.
Proof.
  induction k as [|k IH]; intros b r b' r' H; [cbn in H; destruct r; injection H as <- <-; apply adv_refl|].
  destruct r as [|c r]; cbn in H; [injection H as <- <-; apply adv_refl|].
  apply adv_cons. eauto.
Qed.

(** ** Spans *)

Lemma span_trans : forall X r r1 r2, span X r r1 -> span X r1 r2 -> span X r r2.
Proof.
  intros X r r1 r2 H. induction H; intro H2; auto.
  - eapply sp_item; eauto.
  - eapply sp_group; eauto.
Qed.

Lemma span_lex : forall X r k, lexeme X r k -> span X r (skipn k r).
Proof. intros. eapply sp_item; [eassumption|apply sp_nil]. Qed.

Lemma groups_span : forall X r r', groups X r r' -> span X r r'.
Proof. intros X r r' H. induction H; [apply sp_nil|eapply sp_group; eauto]. Qed.

Lemma take_ws_ok : forall X r b w b' r', take_ws b r = (w, (b', r')) ->
  adv b r b' r' /\ span X r r' /\ r = w ++ r' /\ forallb blank w = true /\
  match r' with c :: _ => blank c = false | [] => True end.
Proof.
  induction r as [|c r IH]; intros b w b' r' H; cbn in H.
  - injection H as <- <- <-. auto using adv_refl, sp_nil.
  - destruct (blank c) eqn:E.
    + destruct (take_ws (c :: b) r) as [w1 [b1 r1]] eqn:E1. injection H as <- <- <-.
      destruct (IH _ _ _ _ E1) as (A & B & C & D & F). split; [apply adv_cons; exact A|].
      split; [eapply sp_item; [apply lx_blank; rewrite E; reflexivity|exact B]|].
      split; [cbn; rewrite C; reflexivity|]. cbn. rewrite E. auto.
    + injection H as <- <- <-. auto 6 using adv_refl, sp_nil.
Qed.

Lemma dotted_ok : forall X r b w b' r', dotted b r = (w, (b', r')) ->
  adv b r b' r' /\ span X (skipn (ident_len r) r) r' /\ r = w ++ r' /\
  forallb (fun c => namechar c || (c =? 46)%N) w = true.
Proof.
  induction r as [|c r IH]; intros b w b' r' H; cbn in H.
  - injection H as <- <- <-. auto using adv_refl, sp_nil.
  - destruct (namechar c || (c =? 46)%N && at_ident r) eqn:E.
    + destruct (dotted (c :: b) r) as [w1 [b1 r1]] eqn:E1. injection H as <- <- <-.
      destruct (IH _ _ _ _ E1) as (A & B & C & D). split; [apply adv_cons; exact A|].
      split; [|split; [cbn; rewrite C; reflexivity|]].
      * cbn [ident_len]. destruct (namechar c) eqn:N; [exact B|].
        cbn [orb] in E. apply andb_true_iff in E as [E2 E3]. apply N.eqb_eq in E2. subst c.
        cbn [skipn]. eapply sp_item; [apply lx_dot; exact E3|]. cbn [skipn].
        eapply sp_item; [apply lx_name; exact E3|exact B].
      * cbn. rewrite D, andb_true_r. destruct (namechar c); [reflexivity|]. cbn in *. lia.
    + injection H as <- <- <-. split; [apply adv_refl|]. split; [|auto].
      destruct (namechar c) eqn:N; [discriminate E|]. cbn [ident_len]. rewrite N. apply sp_nil.
Qed.

Lemma dotted_span : forall X r b w b' r', dotted b r = (w, (b', r')) -> at_ident r = true -> span X r r'.
Proof.
  intros X r b w b' r' H A. eapply sp_item; [apply lx_name; exact A|]. eapply dotted_ok; eassumption.
Qed.

Lemma dotted_nonempty : forall r b w b' r', dotted b r = (w, (b', r')) -> at_ident r = true -> w <> [].
Proof.
  intros [|c r] b w b' r' H A; [discriminate A|]. cbn in A, H. unfold namechar in H. rewrite A in H. cbn in H.
  destruct (dotted (c :: b) r) as [w1 [b1 r1]]. injection H as <- <- <-. discriminate.
Qed.

(** ** Outcomes *)

Definition post {A} (P : A -> pystr -> pystr -> Prop) (E : xerr -> Prop) (x : out A) : Prop :=
  match x with
  | None => True
  | Some (Ok (a, (b, r))) => P a b r
  | Some (Raise e) => E e
  end.

Lemma post_bnd : forall A B (P : A -> pystr -> pystr -> Prop) (Q : B -> pystr -> pystr -> Prop) E (x : out A) f,
  post P E x -> (forall a b r, P a b r -> post Q E (f a b r)) -> post Q E (bnd x f).
Proof. intros A B P Q E [[[a [b r]]|e]|] f H1 H2; cbn in *; auto. Qed.

Lemma post_pre : forall (P Q : pystr -> pystr -> pystr -> Prop) E t x,
  post P E x -> (forall a b r, P a b r -> Q (t ++ a) b r) -> post Q E (pre t x).
Proof. intros P Q E t [[[a [b r]]|e]|] H1 H2; cbn in *; auto. Qed.

Lemma post_weaken : forall A (P Q : A -> pystr -> pystr -> Prop) (E F : xerr -> Prop) x,
  post P E x -> (forall a b r, P a b r -> Q a b r) -> (forall e, E e -> F e) -> post Q F x.
Proof. intros A P Q E F [[[a [b r]]|e]|] H1 H2 H3; cbn in *; auto. Qed.

(** ** Balanced code *)

Lemma bal_quiet : forall X s, forallb quiet s = true -> bal X s.
Proof. intros. apply bal_atom, at_quiet. assumption. Qed.

Lemma bal_nil : forall X, bal X [].
Proof. intros. apply bal_quiet. reflexivity. Qed.

Lemma blank_quiet : forall c, blank c || eolchar c = true -> quiet c = true.
Proof.
  intros c H. unfold quiet, bracket, opener, closer, mem_char, blank, eolchar in *. cbn [existsb] in *. lia.
Qed.

Lemma name_quiet : forall c, namechar c || (c =? 46)%N = true -> quiet c = true.
Proof.
  intros c H. unfold quiet, bracket, opener, closer, mem_char, namechar, identchar in *. cbn [existsb] in *. lia.
Qed.

Lemma forallb_impl : forall A (p q : A -> bool) l,
  (forall x, p x = true -> q x = true) -> forallb p l = true -> forallb q l = true.
Proof. intros A p q l H. induction l; cbn; auto. intros E. apply andb_true_iff in E as [E1 E2]. rewrite H, IHl; auto. Qed.

Lemma bal_blanks : forall X s, forallb blank s = true -> bal X s.
Proof.
  intros X s H. apply bal_quiet. eapply forallb_impl; [|exact H]. intros c E. apply blank_quiet. rewrite E. reflexivity.
Qed.

Lemma bal_paren : forall X s, bal X s -> bal X (40%N :: s ++ [41%N]).
Proof. intros X s H. apply (bal_group X 40%N s); auto. Qed.

(** Names as read by [dotted]. *)
Definition name_ok (s : pystr) : Prop := forallb (fun c => namechar c || (c =? 46)%N) s = true.

Lemma name_quiet_all : forall s, name_ok s -> forallb quiet s = true.
Proof. intros s H. eapply forallb_impl; [|exact H]. exact name_quiet. Qed.

Lemma bal_call : forall X f nm flag rest inner, forallb quiet f = true -> bal X inner -> name_ok nm -> bal X rest ->
  bal X (f ++ 40%N :: (inner ++ L "," ++ [34%N] ++ nm ++ [34%N] ++ L "," ++ show_bool flag) ++ 41%N :: rest).
Proof.
  intros X f nm flag rest inner Hf Hi Hn Hr.
  apply bal_app; [apply bal_quiet; exact Hf|].
  remember (inner ++ L "," ++ [34%N] ++ nm ++ [34%N] ++ L "," ++ show_bool flag) as A eqn:EA.
  replace (40%N :: A ++ 41%N :: rest) with ((40%N :: A ++ [41%N]) ++ rest)
    by (cbn; rewrite <- app_assoc; reflexivity).
  apply bal_app; [|exact Hr]. apply bal_paren. subst A.
  apply bal_app; [exact Hi|]. apply bal_app; [apply bal_quiet; reflexivity|].
  replace ([34%N] ++ nm ++ [34%N] ++ L "," ++ show_bool flag)
    with (([34%N] ++ nm ++ [34%N]) ++ L "," ++ show_bool flag) by (rewrite <- !app_assoc; reflexivity).
  apply bal_app; [apply bal_atom, at_quoted, name_quiet_all; exact Hn|].
  apply bal_quiet. destruct flag; reflexivity.
Qed.

Definition chunk_ok (X : lang) (H : Prop) (c : chunk) : Prop :=
  name_ok (fst (fst c)) /\ (H -> bal X (snd c)).

Lemma plain_more_bal : forall X (H : Prop) cs code, Forall (chunk_ok X H) cs -> H -> bal X code ->
  bal X (plain_more code cs).
Proof.
  intros X H cs. induction cs as [|[[nm ac] rest] cs IH]; intros code F h B; cbn [plain_more]; [exact B|].
  inversion F as [|? ? [F1 F2] F3]; subst. apply IH; auto. cbn in F1, F2.
  apply bal_app; [exact B|]. apply bal_app; [apply bal_quiet; reflexivity|].
  apply bal_app; [apply bal_quiet, name_quiet_all; exact F1|auto].
Qed.

Lemma vfn_bal : forall X code nm flag rest, bal X code -> name_ok nm -> bal X rest ->
  bal X (vfn_code code nm flag rest).
Proof.
  intros. unfold vfn_code.
  replace (L "VFN(" ++ code ++ L "," ++ [34%N] ++ nm ++ [34%N] ++ L "," ++ show_bool flag ++ L ")" ++ rest)
    with (L "VFN" ++ 40%N :: (code ++ L "," ++ [34%N] ++ nm ++ [34%N] ++ L "," ++ show_bool flag) ++ 41%N :: rest)
    by (cbn; repeat rewrite <- app_assoc; cbn; repeat rewrite <- app_assoc; reflexivity).
  apply bal_call; auto.
Qed.

Lemma mapper_more_bal : forall X (H : Prop) cs code, Forall (chunk_ok X H) cs -> H -> bal X code ->
  bal X (mapper_more X code cs).
Proof.
  intros X H cs. induction cs as [|[[nm ac] rest] cs IH]; intros code F h B; cbn [mapper_more]; [exact B|].
  inversion F as [|? ? [F1 F2] F3]; subst. apply IH; auto. apply vfn_bal; auto.
Qed.

Lemma cut_dot_eq : forall nm x y, cut_dot nm = Some (x, y) -> nm = x ++ 46%N :: y.
Proof.
  induction nm as [|c nm IH]; intros x y H; cbn in H; [discriminate|].
  destruct (N.eqb_spec c 46) as [E|E]; [injection H as <- <-; subst; reflexivity|].
  destruct (cut_dot nm) as [[x1 y1]|] eqn:E1; [|discriminate]. injection H as <- <-.
  cbn. rewrite <- (IH x1 y1); reflexivity.
Qed.

Lemma name_ok_app : forall a b, name_ok (a ++ b) <-> name_ok a /\ name_ok b.
Proof. intros. unfold name_ok. rewrite forallb_app, andb_true_iff. reflexivity. Qed.

Lemma gen_var_bal : forall X (H : Prop) um plain cs code, Forall (chunk_ok X H) cs -> H ->
  gen_var X um plain cs = Some code -> bal X code.
Proof.
  intros X H um plain cs code F h G. unfold gen_var in G. destruct (um && negb plain).
  - destruct cs as [|[[nm ac] rest] cs]; [discriminate|]. unfold gen_mapper in G. injection G as <-.
    inversion F as [|? ? [F1 F2] F3]; subst. cbn in F1, F2. apply (mapper_more_bal X H); auto.
    destruct (negb (x_searchlist X)).
    + destruct (cut_dot nm) as [[x y]|] eqn:E.
      * apply cut_dot_eq in E. subst nm. apply name_ok_app in F1 as [F1 F4].
        change (46%N :: y) with ([46%N] ++ y) in F4. apply name_ok_app in F4 as [_ F4].
        apply vfn_bal; auto. apply bal_quiet, name_quiet_all. exact F1.
      * apply bal_app; [apply bal_quiet, name_quiet_all; exact F1|auto].
    + destruct (x_frames X).
      * match goal with |- bal X ?g => replace g with (L "VFFSL" ++ 40%N :: (L "SL" ++ L "," ++ [34%N] ++ nm ++ [34%N] ++ L "," ++ show_bool (x_autocall X && ac)) ++ 41%N :: rest)
          by (cbn; repeat (rewrite <- app_assoc; cbn); reflexivity) end.
        apply bal_call; auto. apply bal_quiet; reflexivity.
      * match goal with |- bal X ?g => replace g with (L "VFSL" ++ 40%N :: (L "[locals()]+SL+[globals(), builtin]" ++ L "," ++ [34%N] ++ nm ++ [34%N] ++ L "," ++ show_bool (x_autocall X && ac)) ++ 41%N :: rest)
          by (cbn; repeat (rewrite <- app_assoc; cbn); reflexivity) end.
        apply bal_call; auto.
        change (L "[locals()]+SL+[globals(), builtin]")
          with ((91%N :: (L "locals" ++ (40%N :: [] ++ [41%N])) ++ [93%N]) ++ L "+SL+" ++
                (91%N :: (L "globals" ++ (40%N :: [] ++ [41%N]) ++ L ", builtin") ++ [93%N])).
        apply bal_app; [|apply bal_app; [apply bal_quiet; reflexivity|]].
        -- apply (bal_group X 91%N); [reflexivity|]. apply bal_app; [apply bal_quiet; reflexivity|].
           apply bal_paren, bal_nil.
        -- apply (bal_group X 91%N); [reflexivity|]. apply bal_app; [apply bal_quiet; reflexivity|].
           apply bal_app; [apply bal_paren, bal_nil|apply bal_quiet; reflexivity].
  - destruct cs as [|[[nm ac] rest] cs]; [discriminate|]. cbn [gen_plain] in G. injection G as <-.
    inversion F as [|? ? [F1 F2] F3]; subst. apply (plain_more_bal X H); auto.
    apply bal_app; [apply bal_quiet, name_quiet_all; exact F1|auto].
Qed.

Lemma gen_var_some : forall X um plain cs, cs <> [] -> exists code, gen_var X um plain cs = Some code.
Proof.
  intros X um plain [|[[nm ac] rest] cs] H; [congruence|]. unfold gen_var.
  destruct (um && negb plain); eexists; reflexivity.
Qed.

Lemma cut_last_eq : forall nm x y, cut_last nm = Some (x, y) -> nm = x ++ 46%N :: y.
Proof.
  induction nm as [|c nm IH]; intros x y H; cbn in H; [discriminate|].
  destruct (cut_last nm) as [[x1 y1]|] eqn:E1.
  - injection H as <- <-. cbn. rewrite <- (IH x1 y1); reflexivity.
  - destruct (N.eqb_spec c 46) as [E|E]; [|discriminate]. injection H as <- <-. subst. reflexivity.
Qed.

Lemma add_chunks_ok : forall X (H : Prop) dn rest, name_ok dn -> (H -> bal X rest) ->
  Forall (chunk_ok X H) (add_chunks dn rest) /\ add_chunks dn rest <> [].
Proof.
  intros X H dn rest N B. unfold add_chunks. destruct rest as [|c rest].
  - split; [|discriminate]. constructor; [split; cbn; auto|constructor].
  - destruct (cut_last dn) as [[[|x p] y]|] eqn:E; (split; [|discriminate]).
    + constructor; [split; cbn; auto|constructor].
    + apply cut_last_eq in E. subst dn. apply name_ok_app in N as [N1 N2].
      change (46%N :: y) with ([46%N] ++ y) in N2. apply name_ok_app in N2 as [_ N2].
      constructor; [split; cbn [fst snd]; auto; intros _; apply bal_nil|].
      constructor; [split; cbn [fst snd]; auto|constructor].
    + constructor; [split; cbn; auto|constructor].
Qed.
