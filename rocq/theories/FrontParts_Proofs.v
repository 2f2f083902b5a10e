(** Proofs about the parts of an expression (Expr_Model.v: parts): joined they are the expression. *)
From Verif Require Import Base PyStr Lex_Model Expr_Model.

Definition joined (x : out (list pystr)) : out pystr := bnd x (fun l b r => ok (concat l) b r).

Lemma joined_prel : forall t x, joined (prel t x) = pre (concat t) (joined x).
Proof. intros t [[[l [b r]]|e]|]; cbn; try reflexivity. rewrite concat_app. reflexivity. Qed.

Lemma joined_bnd : forall A (x : out A) f, joined (bnd x f) = bnd x (fun a b r => joined (f a b r)).
Proof. intros A [[[a [b r]]|e]|] f; reflexivity. Qed.

Lemma bnd_ext : forall A B (x : out A) (f g : A -> pystr -> pystr -> out B),
  (forall a b r, f a b r = g a b r) -> bnd x f = bnd x g.
Proof. intros A B [[[a [b r]]|e]|] f g H; cbn; auto. Qed.

Theorem parts_join : forall X n um enc brk b r, expr X n um false enc brk b r = joined (parts X n um enc brk b r).
Proof.
  intros X n. induction n as [|n IH]; intros um enc brk b r; [reflexivity|].
  change (expr X (S n)) with (expr_step X (expr X n) (callargs X n) (cvar X n) (transform X n)).
  unfold expr_step. cbn [parts andb]. destruct r as [|c r1].
  - destruct enc as [|[o p] enc]; reflexivity.
  - destruct (opener c). { rewrite joined_prel, IH. reflexivity. }
    destruct (closer c).
    { destruct enc as [|[o p] enc]; [reflexivity|]. destruct (c =? mate o)%N; [|reflexivity]. rewrite joined_prel, IH. reflexivity. }
    destruct (blank c).
    { destruct (take_ws b (c :: r1)) as [w [b' r']]. rewrite joined_prel, IH. cbn [concat]. rewrite app_nil_r. reflexivity. }
    destruct (m_tok (t_dirend (x_T X)) b (c :: r1) && empty enc); [reflexivity|].
    destruct ((c =? 92)%N && negb (empty r1)).
    { destruct (eol_len r1) as [|k]; [reflexivity|]. destruct (go (S (S k)) b (c :: r1)). apply IH. }
    destruct (eolchar c). { destruct enc; [reflexivity|apply IH]. }
    destruct (m_xvar (x_T X) (c :: r1)).
    { rewrite joined_bnd. apply bnd_ext. intros a b' r'. rewrite joined_prel, IH. cbn [concat]. rewrite app_nil_r. reflexivity. }
    destruct (m_var (x_T X) b (c :: r1)). { unfold var_error. repeat (match goal with |- context [match ?x with _ => _ end] => destruct x end); reflexivity. }
    destruct (x_tok X (c :: r1)) as [k|]; [|reflexivity]. destruct (go k b (c :: r1)) as [b1 r2].
    destruct (empty enc && existsb (str_eqb (firstn k (c :: r1))) brk); [reflexivity|].
    rewrite joined_bnd. apply bnd_ext. intros [tok|] b3 r3; [|reflexivity].
    destruct (at_ident tok).
    + destruct (str_eqb tok (L "for")).
      * rewrite joined_bnd. apply bnd_ext. intros a b' r'. rewrite joined_prel, IH. cbn [concat]. rewrite app_nil_r. reflexivity.
      * destruct (take_ws b3 r3) as [w [b4 r4]]. destruct (at_char 40 r4).
        -- rewrite joined_bnd. apply bnd_ext. intros a b' r'. rewrite joined_prel, IH. cbn [concat]. rewrite app_nil_r. reflexivity.
        -- rewrite joined_prel, IH. cbn [concat]. rewrite app_nil_r. reflexivity.
    + rewrite joined_prel, IH. cbn [concat]. rewrite app_nil_r. reflexivity.
Qed.

(** If the expression can be read, so can its parts. *)
Corollary parts_ok : forall X n um enc brk b r x b' r', expr X n um false enc brk b r = ok x b' r' ->
  exists l, parts X n um enc brk b r = ok l b' r' /\ concat l = x.
Proof.
  intros X n um enc brk b r x b' r' H. rewrite parts_join in H. unfold joined in H.
  destruct (parts X n um enc brk b r) as [[[l [b1 r1]]|e]|]; try discriminate H. injection H as H1 H2 H3. subst. exists l. auto.
Qed.
