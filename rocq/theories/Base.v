(** Shared vocabulary: Python [str] values as lists of Unicode code points, and the few
    Python built-ins the modelled functions use.  No definition here models Cheetah code
    itself; each comment says which lines of /repo use the built-in being described. *)
From Coq Require Export List NArith ZArith Bool Lia String Ascii.
From Coq Require Export ZifyBool ZifyNat ZifyN.
Export ListNotations.
(* [String] shadows list operations; give them back. *)
Notation length := List.length.
Notation concat := List.concat.
Notation "x ++ y" := (List.app x y) (at level 60, right associativity) : list_scope.
Open Scope list_scope.

(** A Python 3 [str] is a sequence of code points (used throughout /repo/Cheetah). *)
Definition pystr := list N.

(** Writes an ASCII literal of the Python sources as a [pystr]. *)
Definition L (s : string) : pystr := map N_of_ascii (list_ascii_of_string s).

(** [a == b] on strings (built-in; e.g. Cheetah/Parser.py:1740, Cheetah/Compiler.py:497). *)
Fixpoint str_eqb (a b : pystr) : bool :=
  match a, b with
  | [], [] => true
  | x :: a', y :: b' => N.eqb x y && str_eqb a' b'
  | _, _ => false
  end.

(** [s.startswith(p)] (built-in; e.g. Cheetah/Compiler.py:492, Cheetah/CheetahWrapper.py:493). *)
Fixpoint starts_with (p s : pystr) : bool :=
  match p, s with
  | [], _ => true
  | x :: p', y :: s' => N.eqb x y && starts_with p' s'
  | _ :: _, [] => false
  end.

(** [c in s] for one character (built-in; e.g. Cheetah/Parser.py:1721). *)
Definition mem_char (c : N) (s : pystr) : bool := existsb (N.eqb c) s.

(** [s.replace(c, r)] for a one-character pattern [c] (built-in; Cheetah/Utils/htmlEncode.py:12-18,
    Cheetah/Filters.py:148-155). *)
Fixpoint replace_char (c : N) (r s : pystr) : pystr :=
  match s with
  | [] => []
  | x :: s' => if N.eqb x c then r ++ replace_char c r s' else x :: replace_char c r s'
  end.

(** Outcome of a Python call: a value or a raised exception (used for every modelled
    function that can raise). *)
Inductive res (E A : Type) : Type :=
| Ok (a : A)
| Raise (e : E).
Arguments Ok {E A} a.
Arguments Raise {E A} e.

Lemma str_eqb_eq : forall a b, str_eqb a b = true <-> a = b.
Proof.
  induction a as [|x a IH]; destruct b as [|y b]; simpl; split; intro H; try congruence; auto.
  - apply andb_true_iff in H as [H1 H2]. apply N.eqb_eq in H1. apply IH in H2. congruence.
  - inversion H; subst. rewrite N.eqb_refl. simpl. apply IH. reflexivity.
Qed.

Lemma str_eqb_refl : forall a, str_eqb a a = true.
Proof. intro a; apply str_eqb_eq; reflexivity. Qed.

Lemma str_eqb_neq : forall a b, str_eqb a b = false <-> a <> b.
Proof.
  intros a b. rewrite <- str_eqb_eq. destruct (str_eqb a b); split; intros; congruence.
Qed.

Lemma str_eqb_spec : forall a b, reflect (a = b) (str_eqb a b).
Proof.
  intros a b. destruct (str_eqb a b) eqn:E; constructor.
  - apply str_eqb_eq; assumption.
  - apply str_eqb_neq; assumption.
Qed.

Lemma str_eq_dec : forall a b : pystr, {a = b} + {a <> b}.
Proof. intros a b. destruct (str_eqb_spec a b); auto. Qed.

Lemma starts_with_iff : forall p s, starts_with p s = true <-> exists r, s = p ++ r.
Proof.
  induction p as [|x p IH]; intros s; simpl.
  - split; intros; eauto.
  - destruct s as [|y s].
    + split; intro H; [congruence | destruct H as [r H]; discriminate].
    + rewrite andb_true_iff, N.eqb_eq, IH. split.
      * intros [-> [r ->]]. exists r; reflexivity.
      * intros [r H]. inversion H; subst. split; eauto.
Qed.

Lemma mem_char_In : forall c s, mem_char c s = true <-> In c s.
Proof.
  intros c s. unfold mem_char. rewrite existsb_exists. split.
  - intros [x [Hx E]]. apply N.eqb_eq in E. subst. assumption.
  - intros H. exists c. split; [assumption | apply N.eqb_refl].
Qed.

Lemma mem_char_false : forall c s, mem_char c s = false <-> ~ In c s.
Proof.
  intros c s. rewrite <- mem_char_In. destruct (mem_char c s); split; intros; congruence.
Qed.
