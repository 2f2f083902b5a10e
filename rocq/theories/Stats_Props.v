(** Property theorem C59, what the line counts of SourceFileStats are (Cheetah/FileUtils.py:342-365); see Names_Props.v for what they
    are not. *)
From Verif Require Import Base Names_Model.
Local Open Scope string_scope. Local Open Scope list_scope.

(** What a line is taken for: a comment when it is one white character and a hash, with anything behind; blank when it is one white
    character; otherwise code. *)
Inductive comment_line : pystr -> Prop := is_comment : forall a r, is_space a = true -> comment_line (a :: 35%N :: r).
Inductive blank_line : pystr -> Prop := is_blank : forall a, is_space a = true -> blank_line [a].
(** The numbers of the lines of code, blank lines and comments in a list of lines. *)
Inductive numbers : list pystr -> nat -> nat -> nat -> Prop :=
| n_none : numbers [] 0 0 0
| n_comment : forall l r c b m, comment_line l -> numbers r c b m -> numbers (l :: r) c b (S m)
| n_blank : forall l r c b m, blank_line l -> numbers r c b m -> numbers (l :: r) c (S b) m
| n_code : forall l r c b m, ~ comment_line l -> ~ blank_line l -> numbers r c b m -> numbers (l :: r) (S c) b m.

Lemma comment_ok : forall l, is_comment_line l = true <-> comment_line l.
Proof.
  intro l. split.
  - destruct l as [|a [|b r]]; try discriminate. cbn. intro H. apply andb_true_iff in H. destruct H as [H1 H2].
    apply N.eqb_eq in H2. subst b. constructor. exact H1.
  - intros [a r H]. cbn. rewrite H. reflexivity.
Qed.
Lemma blank_ok : forall l, is_blank_line l = true <-> blank_line l.
Proof.
  intro l. split.
  - destruct l as [|a [|b r]]; try discriminate. cbn. intro H. constructor. exact H.
  - intros [a H]. exact H.
Qed.
Lemma numbers_ok : forall ls c b m, exists c' b' m', numbers ls c' b' m' /\ count_lines ls c b m = (c + c', b + b', m + m').
Proof.
  induction ls as [|l r IH]; intros c b m; cbn [count_lines].
  - exists 0, 0, 0. split; [constructor|]. rewrite !Nat.add_0_r. reflexivity.
  - destruct (is_comment_line l) eqn:C; [|destruct (is_blank_line l) eqn:B].
    + destruct (IH c b (S m)) as (c' & b' & m' & N & E). exists c', b', (S m'). split; [apply n_comment; [apply comment_ok; exact C|exact N]|].
      rewrite E. f_equal. lia.
    + destruct (IH c (S b) m) as (c' & b' & m' & N & E). exists c', (S b'), m'. split; [apply n_blank; [apply blank_ok; exact B|exact N]|].
      rewrite E. do 2 f_equal. lia.
    + destruct (IH (S c) b m) as (c' & b' & m' & N & E). exists (S c'), b', m'. split.
      * apply n_code; [rewrite <- comment_ok, C; discriminate|rewrite <- blank_ok, B; discriminate|exact N].
      * rewrite E. do 2 f_equal. lia.
Qed.
Lemma split_line : forall l cur s, Forall (fun c => is_linebreak c = false) l ->
  splitlines_aux false cur (l ++ 10%N :: s) = (rev cur ++ l) :: splitlines_aux false [] s.
Proof.
  induction l as [|c l IH]; intros cur s H; cbn [app splitlines_aux andb].
  - cbn. rewrite app_nil_r. reflexivity.
  - inversion H as [|? ? H1 H2]; subst. rewrite H1, (IH (c :: cur) s H2). cbn [rev]. rewrite <- app_assoc. reflexivity.
Qed.
Lemma split_all : forall ls, Forall (Forall (fun c => is_linebreak c = false)) ls ->
  splitlines (concat (map (fun l => l ++ [10%N]) ls)) = ls.
Proof.
  unfold splitlines. induction ls as [|l r IH]; intro H; [reflexivity|]. inversion H as [|? ? H1 H2]; subst. cbn [map concat].
  rewrite <- app_assoc. cbn [app]. rewrite (split_line l [] _ H1). cbn [rev app]. f_equal. exact (IH H2).
Qed.

(** C59, partial: the lines counted as comments are those of one white character and a hash, the lines counted as blank those of one white
    character, in every file of lines that end with a line feed.  Missing: comments with another indentation, empty lines and longer blank
    lines, which are counted as code (C59_blank_line_refuted, C59_comment_line_refuted). *)
Theorem C59_counted_partial : forall ls, Forall (Forall (fun c => is_linebreak c = false)) ls ->
  let f := getFileStats (concat (map (fun l => l ++ [10%N]) ls)) in
  numbers ls (f_code f) (f_blank f) (f_comment f) /\ f_total f = length ls.
Proof.
  intros ls H. cbv zeta. unfold getFileStats. rewrite (split_all ls H). destruct (numbers_ok ls 0 0 0) as (c & b & m & N & E).
  rewrite E. split; [exact N|reflexivity].
Qed.
Print Assumptions C59_counted_partial.
Example C59_counted_partial_ex : let ls := [L "x = 1"; L " # a"; L "x# b"; L "# c"; L " "; L ""; L "  "] in
  Forall (Forall (fun c => is_linebreak c = false)) ls /\ getFileStats (concat (map (fun l => l ++ [10%N]) ls)) = mkF 5 1 1 7.
Proof. cbv zeta. split; [repeat constructor|vm_compute; reflexivity]. Qed.
