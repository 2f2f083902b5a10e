(** More Python string built-ins used by several modelled functions.  Nothing here models
    Cheetah code itself; each comment says where /repo uses the built-in. *)
From Coq Require Import DecimalN DecimalFacts.
From Verif Require Export Base.

(** [s.replace(p, r)] for a non-empty pattern [p], left to right, non-overlapping
    (Cheetah/Utils/htmlDecode.py:14, Cheetah/Parser.py:561).  [skip]: characters of the
    current match still to pass over. *)
Fixpoint replace_aux (skip : nat) (p r s : pystr) : pystr :=
  match s with
  | [] => []
  | c :: t =>
      match skip with
      | S k => replace_aux k p r t
      | O => if starts_with p s then r ++ replace_aux (length p - 1) p r t
             else c :: replace_aux 0 p r t
      end
  end.
Definition replace_str (p r s : pystr) : pystr := replace_aux 0 p r s.

(** [c.isspace()] for one character: the 29 code points CPython's table lists
    (used by [strip]/[split]/[isspace], Cheetah/Filters.py:183, Cheetah/SourceReader.py:236). *)
Definition is_space (c : N) : bool :=
  ((9 <=? c) && (c <=? 13) || (28 <=? c) && (c <=? 32) || (c =? 133) || (c =? 160)
   || (c =? 5760) || (8192 <=? c) && (c <=? 8202) || (c =? 8232) || (c =? 8233)
   || (c =? 8239) || (c =? 8287) || (c =? 12288))%N.

(** [s.lstrip()] (part of [strip], Cheetah/Filters.py:183). *)
Fixpoint lstrip (s : pystr) : pystr :=
  match s with
  | [] => []
  | c :: r => if is_space c then lstrip r else s
  end.

(** [s.rstrip()] (part of [strip], Cheetah/Filters.py:183). *)
Definition rstrip (s : pystr) : pystr := rev (lstrip (rev s)).

(** [s.strip()] (Cheetah/Filters.py:183, Cheetah/Parser.py:801). *)
Definition strip (s : pystr) : pystr := rstrip (lstrip s).

(** [s.split()] (Cheetah/Filters.py:201); [cur]: the word being read, reversed. *)
Fixpoint split_ws_aux (cur : pystr) (s : pystr) : list pystr :=
  match s with
  | [] => match cur with [] => [] | _ => [rev cur] end
  | c :: r =>
      if is_space c
      then match cur with [] => split_ws_aux [] r | _ => rev cur :: split_ws_aux [] r end
      else split_ws_aux (c :: cur) r
  end.
Definition split_ws (s : pystr) : list pystr := split_ws_aux [] s.

(** [sep.join(l)] (Cheetah/Filters.py:190, 202). *)
Fixpoint join (sep : pystr) (l : list pystr) : pystr :=
  match l with
  | [] => []
  | [x] => x
  | x :: r => x ++ sep ++ join sep r
  end.

(** [str(n)] for a non-negative integer (Cheetah/Filters.py:154). *)
Fixpoint uint_str (d : Decimal.uint) : pystr :=
  match d with
  | Decimal.Nil => []
  | Decimal.D0 d => 48%N :: uint_str d
  | Decimal.D1 d => 49%N :: uint_str d
  | Decimal.D2 d => 50%N :: uint_str d
  | Decimal.D3 d => 51%N :: uint_str d
  | Decimal.D4 d => 52%N :: uint_str d
  | Decimal.D5 d => 53%N :: uint_str d
  | Decimal.D6 d => 54%N :: uint_str d
  | Decimal.D7 d => 55%N :: uint_str d
  | Decimal.D8 d => 56%N :: uint_str d
  | Decimal.D9 d => 57%N :: uint_str d
  end.
Definition str_of_N (n : N) : pystr := uint_str (N.to_uint n).

Lemma uint_str_inj : forall d e, uint_str d = uint_str e -> d = e.
Proof.
  induction d; destruct e; simpl; intro H; try discriminate; try reflexivity;
    inversion H; f_equal; auto.
Qed.

Lemma str_of_N_inj : forall n m, str_of_N n = str_of_N m -> n = m.
Proof.
  intros n m H. apply uint_str_inj in H.
  rewrite <- (DecimalN.Unsigned.of_to n), <- (DecimalN.Unsigned.of_to m). congruence.
Qed.

Lemma uint_str_digits : forall d c, In c (uint_str d) -> (48 <= c <= 57)%N.
Proof. induction d; simpl; intros c H; [contradiction|..]; destruct H as [<-|H]; auto; lia. Qed.

Lemma str_of_N_digits : forall n c, In c (str_of_N n) -> (48 <= c <= 57)%N.
Proof. intros n c. apply uint_str_digits. Qed.

Lemma str_of_N_nonempty : forall n, str_of_N n <> [].
Proof.
  intros n H. unfold str_of_N in H. destruct (N.to_uint n) eqn:E; try discriminate H.
  pose proof (DecimalN.Unsigned.of_to n) as F. rewrite E in F. simpl in F. subst n. discriminate E.
Qed.

(** Replacing one character = replacing a one-character pattern. *)
Lemma replace_str_char : forall c r s, replace_str [c] r s = replace_char c r s.
Proof.
  intros c r s. unfold replace_str. induction s as [|x s IH]; [reflexivity|].
  cbn [replace_aux starts_with replace_char length Nat.sub].
  rewrite (N.eqb_sym c x), andb_true_r. destruct (x =? c)%N; rewrite IH; reflexivity.
Qed.

Lemma replace_char_map : forall c r s,
  replace_char c r s = concat (map (fun x => if N.eqb x c then r else [x]) s).
Proof.
  induction s as [|x s IH]; [reflexivity|]. simpl. destruct (x =? c)%N; simpl; rewrite IH; reflexivity.
Qed.

Lemma replace_char_app : forall c r a b,
  replace_char c r (a ++ b) = replace_char c r a ++ replace_char c r b.
Proof.
  induction a as [|x a IH]; intros b; [reflexivity|]. simpl.
  destruct (x =? c)%N; rewrite IH; [rewrite app_assoc|]; reflexivity.
Qed.

Lemma replace_char_concat_map : forall c r (f : N -> pystr) s,
  replace_char c r (concat (map f s)) = concat (map (fun x => replace_char c r (f x)) s).
Proof.
  induction s as [|x s IH]; [reflexivity|]. simpl. rewrite replace_char_app, IH. reflexivity.
Qed.

Lemma replace_char_notin : forall c r s, ~ In c s -> replace_char c r s = s.
Proof.
  induction s as [|x s IH]; intros H; [reflexivity|]. simpl.
  destruct (N.eqb_spec x c) as [->|]; [exfalso; apply H; left; reflexivity|].
  rewrite IH; [reflexivity|]. intro; apply H; right; assumption.
Qed.

Lemma replace_char_In : forall c r s x,
  In x (replace_char c r s) <-> (In x r /\ In c s) \/ (In x s /\ x <> c).
Proof.
  induction s as [|y s IH]; intros x; simpl; [tauto|].
  destruct (N.eqb_spec y c) as [->|Hn].
  - rewrite in_app_iff, IH. split; intros; [intuition|].
    destruct H as [[H1 [H2|H2]]|[[H1|H1] H2]]; subst; auto; tauto.
  - simpl. rewrite IH. split.
    + intros [->|[[H1 H2]|[H1 H2]]]; auto.
    + intros [[H1 [H2|H2]]|[[H1|H1] H2]]; auto; congruence.
Qed.

Lemma is_space_NL : is_space 10 = true. Proof. reflexivity. Qed.

(** Trimming facts. *)
Lemma lstrip_decomp : forall s, exists a, s = a ++ lstrip s /\ Forall (fun c => is_space c = true) a.
Proof.
  induction s as [|c s [a [E H]]]; simpl; [exists []; auto|].
  destruct (is_space c) eqn:Ec.
  - exists (c :: a). rewrite E at 1. auto.
  - exists []; auto.
Qed.

Lemma lstrip_head : forall s c r, lstrip s = c :: r -> is_space c = false.
Proof.
  induction s as [|x s IH]; simpl; intros c r H; [discriminate|].
  destruct (is_space x) eqn:E; [eauto|congruence].
Qed.

Lemma lstrip_id : forall s, (forall c r, s = c :: r -> is_space c = false) -> lstrip s = s.
Proof.
  intros [|c s] H; [reflexivity|]. simpl. rewrite (H c s eq_refl). reflexivity.
Qed.

Lemma strip_decomp : forall s, exists a b, s = a ++ strip s ++ b
  /\ Forall (fun c => is_space c = true) a /\ Forall (fun c => is_space c = true) b.
Proof.
  intros s. destruct (lstrip_decomp s) as [a [E Ha]].
  destruct (lstrip_decomp (rev (lstrip s))) as [b [E2 Hb]].
  exists a, (rev b). unfold strip, rstrip. split; [|split; [assumption|]].
  - rewrite E at 1. f_equal. rewrite <- rev_app_distr, <- E2, rev_involutive. reflexivity.
  - apply Forall_rev. assumption.
Qed.

Lemma strip_last : forall s r c, strip s = r ++ [c] -> is_space c = false.
Proof.
  intros s r c H. unfold strip, rstrip in H.
  apply (f_equal (@rev N)) in H. rewrite rev_involutive, rev_app_distr in H.
  eapply lstrip_head. exact H.
Qed.

Lemma lstrip_In : forall s c, In c (lstrip s) -> In c s.
Proof.
  induction s as [|x s IH]; simpl; intros c H; [assumption|].
  destruct (is_space x); [right; auto|assumption].
Qed.

Lemma strip_In : forall s c, In c (strip s) -> In c s.
Proof.
  intros s c H. unfold strip, rstrip in H. apply in_rev, lstrip_In, in_rev in H.
  apply lstrip_In; assumption.
Qed.

Lemma strip_head : forall s c r, strip s = c :: r -> is_space c = false.
Proof.
  intros s c r H. destruct (lstrip_decomp (rev (lstrip s))) as [b [E2 Hb]].
  unfold strip, rstrip in H.
  apply (f_equal (@rev N)) in E2. rewrite rev_involutive, rev_app_distr, H in E2.
  eapply lstrip_head. rewrite E2. reflexivity.
Qed.

Lemma strip_idem : forall s, strip (strip s) = strip s.
Proof.
  intros s. unfold strip at 1.
  rewrite (lstrip_id (strip s)) by (intros; eapply strip_head; eauto).
  unfold rstrip. rewrite lstrip_id; [apply rev_involutive|].
  intros c r H. apply (f_equal (@rev N)) in H. rewrite rev_involutive in H. simpl in H.
  eapply strip_last; eauto.
Qed.

(** [s.split(c)] for a one-character separator (e.g. Cheetah/NameMapper.py:228). *)
Fixpoint split_char (c : N) (s : pystr) : list pystr :=
  match s with
  | [] => [[]]
  | x :: r =>
      if (x =? c)%N then [] :: split_char c r
      else match split_char c r with
           | [] => [[x]]
           | w :: ws => (x :: w) :: ws
           end
  end.

Lemma split_char_nonnil : forall c s, split_char c s <> [].
Proof. induction s as [|x s IH]; simpl; [discriminate|]. destruct (x =? c)%N; [discriminate|]. destruct (split_char c s); discriminate. Qed.

Lemma split_char_join : forall c s, join [c] (split_char c s) = s.
Proof.
  induction s as [|x s IH]; [reflexivity|]. simpl. destruct (N.eqb_spec x c) as [->|Hn].
  - pose proof (split_char_nonnil c s). simpl. destruct (split_char c s) eqn:E; [congruence|].
    simpl in *. rewrite IH. reflexivity.
  - pose proof (split_char_nonnil c s). destruct (split_char c s) as [|w ws] eqn:E; [congruence|].
    destruct ws; simpl in *; rewrite <- IH; reflexivity.
Qed.

Lemma split_char_notin : forall c s w, In w (split_char c s) -> ~ In c w.
Proof.
  induction s as [|x s IH]; intros w; simpl.
  - intros [<-|[]] [].
  - destruct (N.eqb_spec x c) as [->|Hn].
    + intros [<-|H]; [intros []|auto].
    + destruct (split_char c s) as [|v vs] eqn:E; simpl in *.
      * intros [<-|[]] [?|[]]. congruence.
      * intros [<-|H]; [|auto]. intros [?|H]; [congruence|]. revert H. apply IH. auto.
Qed.

Lemma split_char_word : forall c s, ~ In c s -> split_char c s = [s].
Proof.
  induction s as [|x s IH]; intros H; [reflexivity|]. simpl.
  destruct (N.eqb_spec x c) as [->|]; [exfalso; apply H; left; reflexivity|].
  rewrite IH; [reflexivity|]. intros X. apply H. right; assumption.
Qed.

Lemma split_char_app : forall c a b, ~ In c a -> split_char c (a ++ c :: b) = a :: split_char c b.
Proof.
  induction a as [|x a IH]; intros b H; simpl.
  - rewrite N.eqb_refl. reflexivity.
  - destruct (N.eqb_spec x c) as [->|]; [exfalso; apply H; left; reflexivity|].
    rewrite IH; [reflexivity|]. intros X. apply H. right; assumption.
Qed.

Lemma split_join : forall c ws, ws <> [] -> (forall w, In w ws -> ~ In c w) -> split_char c (join [c] ws) = ws.
Proof.
  induction ws as [|w ws IH]; intros Hn H; [congruence|]. destruct ws as [|v vs].
  - simpl. apply split_char_word. apply H. left; reflexivity.
  - change (join [c] (w :: v :: vs)) with (w ++ c :: join [c] (v :: vs)).
    rewrite split_char_app by (apply H; left; reflexivity). f_equal. apply IH; [discriminate|].
    intros u Hu. apply H. right; assumption.
Qed.
