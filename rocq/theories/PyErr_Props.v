(** C83: the report on an error in the generated code. *)
From Verif Require Import Base PyStr Names_Model Reader_Model PyErr_Model PyErr_Spec PyErr_Proofs.
Local Open Scope string_scope.
Local Open Scope list_scope.

Definition nl := [10%N].
Definition ex_code : pystr := concat (map (fun l => l ++ nl)
  [L "import sys"; L "def f():"; L "    write(a b) # from line 2, col 7."; L "    x"; L "    y"; L "    z"; L "    w"]).
Lemma not_marked : forall s, search_mark s = None -> ~ marked s. Proof. intros s H. apply search_none. exact H. Qed.

(** The rows of the table, for an error in a line of the code.  Before the caret: that line and the two lines
    before it, under their numbers, but never the first line.  After it: the lines with the numbers p+2 to p+4,
    under numbers that are one too small.  Nothing else, in ascending order. *)
Theorem C83_rows : forall lines p off, 1 <= p <= length lines ->
  exists b a, table lines p off = Some (map row_text b ++ caret off ++ map row_text a) /\
    ascends b /\ ascends a /\
    (forall n t, In (n, t) b <-> (2 <= n /\ p <= n + 2 /\ n <= p /\ is_line lines n t)) /\
    (forall n t, In (n, t) a <-> (p + 1 <= n <= p + 3 /\ is_line lines (n + 1) t)).
Proof. exact table_ok. Qed.
Print Assumptions C83_rows.
Example C83_rows_ex : table (splitlines ex_code) 3 (Some (Some 13%nat)) =
  Some [L "2   |def f():"; L "3   |    write(a b) # from line 2, col 7."; repeat 32%N 16 ++ L "^"; L "4   |    y"; L "5   |    z"; L "6   |    w"].
Proof. reflexivity. Qed.

(** So the line after the one with the error is not shown, and the lines shown carry wrong numbers. *)
Theorem C83_following_refuted : exists lines p rows l, 1 <= p <= length lines /\ table lines p None = Some rows /\
  In (row_text (4%nat, l)) rows /\ is_line lines 5 l /\ ~ is_line lines 4 l /\
  forall l4, is_line lines 4 l4 -> forall n, ~ In (row_text (n, l4)) rows.
Proof.
  exists (splitlines ex_code), 3%nat. do 2 eexists. split; [vm_compute; lia|]. split; [reflexivity|].
  split; [right; right; left; reflexivity|]. split; [split; [lia | reflexivity]|].
  split; [intros (_ & H); discriminate H|].
  intros l4 (_ & H) n K. vm_compute in H. injection H as <-.
  assert (R : forall n t, exists q, row_text (n, t) = q ++ t) by (intros n0 t; unfold row_text; cbn [fst snd]; rewrite app_assoc; eexists; reflexivity).
  destruct (R n [32; 32; 32; 32; 120]%N) as (q & Q). rewrite Q in K.
  assert (last (q ++ [32; 32; 32; 32; 120]%N) 0%N = 120%N) as Z.
  { change [32; 32; 32; 32; 120]%N with ([32; 32; 32; 32]%N ++ [120%N]). rewrite app_assoc. apply last_last. }
  destruct K as [K|[K|[K|[K|[K|[]]]]]]; apply (f_equal (fun s => last s 0%N)) in K; rewrite Z in K; vm_compute in K; discriminate K.
Qed.
Print Assumptions C83_following_refuted.

(** An error in the first line: that line is not shown. *)
Theorem C83_first_refuted : exists lines rows l, table lines 1 None = Some rows /\ is_line lines 1 l /\ rows = [].
Proof. exists [L "x y"], [], (L "x y"). split; [reflexivity|]. split; [split; [lia | reflexivity] | reflexivity]. Qed.
Print Assumptions C83_first_refuted.

(** A line number behind the last line (an error at the end of the code): no report, Python's own exception. *)
Theorem C83_beyond : forall code descr exc p off, 2 <= p -> length (splitlines code) < p -> gen_error code descr exc p off = None.
Proof. intros. unfold gen_error. cbv zeta. rewrite table_beyond by assumption. reflexivity. Qed.
Print Assumptions C83_beyond.
Example C83_beyond_ex : length (splitlines (L "x = (" ++ nl)) = 1%nat /\ gen_error (L "x = (" ++ nl) (L "unexpected EOF") [] 2 None = None.
Proof. split; reflexivity. Qed.

(** The caret stands under the character before the one that the offset (counted from 1) names, for lines
    with numbers of up to four digits. *)
Theorem C83_caret : forall n t o, length (str_of_N (N.of_nat n)) <= 4 -> 2 <= o ->
  exists k, caret (Some (Some o)) = [repeat 32%N k ++ [94%N]] /\ nth_error (row_text (n, t)) k = nth_error t (o - 2).
Proof. exact under_caret. Qed.
Print Assumptions C83_caret.
Example C83_caret_ex : length (str_of_N (N.of_nat 3)) <= 4 /\ nth_error (row_text (3%nat, L "    write(a b)")) (3 + 13) = Some 32%N.
Proof. split; [vm_compute; lia | reflexivity]. Qed.
Theorem C83_caret_refuted : exists n t o k, caret (Some (Some o)) = [repeat 32%N k ++ [94%N]] /\
  nth_error t (o - 1) = Some 98%N /\ nth_error (row_text (n, t)) k = Some 32%N.
Proof. exists 3%nat, (L "    write(a b)"), 13%nat, 16%nat. split; [reflexivity|split; reflexivity]. Qed.
Print Assumptions C83_caret_refuted.

(** The position in the template: the first mark in the traceback, which quotes the line of the code. *)
Theorem C83_position : forall code descr p off x r c y, 1 <= p <= length (splitlines code) -> ~ marked x -> no_digit y ->
  exists e, gen_error code descr (x ++ mark r c ++ y) p off = Some e /\ e_pos e = Some (r, c).
Proof. exact error_sure. Qed.
Print Assumptions C83_position.
Example C83_position_ex : ~ marked (L "  File 't.py', line 3" ++ nl ++ L "    write(a b) # from ") /\ no_digit (L ".") /\
  mark 2 7 = L "line 2, col 7" /\
  match gen_error ex_code (L "invalid syntax") (L "  File 't.py', line 3" ++ nl ++ L "    write(a b) # from " ++ mark 2 7 ++ L ".") 3 (Some (Some 13%nat)) with
  | Some e => e_pos e = Some (2, 7)%N /\ e_msg e <> []
  | None => False
  end.
Proof. split; [apply not_marked; reflexivity|]. split; [cbn; lia|]. split; [reflexivity|]. vm_compute. split; [reflexivity | discriminate]. Qed.

(** Without one: the first mark in the code from the line before the error on; without any, no position. *)
Theorem C83_guess : forall code descr exc p off a x r c y b, 1 <= p <= length (splitlines code) -> ~ marked exc ->
  splitlines code = a ++ (x ++ mark r c ++ y) :: b -> p <= length a + 2 -> Forall (fun l => ~ marked l) (skipn (p - 2) a) ->
  ~ marked x -> no_digit y ->
  exists e, gen_error code descr exc p off = Some e /\ e_pos e = Some (r, c).
Proof. exact error_guess. Qed.
Print Assumptions C83_guess.
Example C83_guess_ex : ~ marked (L "line 3") /\ splitlines ex_code = [L "import sys"; L "def f():"] ++ (L "    write(a b) # from " ++ mark 2 7 ++ L ".") :: [L "    x"; L "    y"; L "    z"; L "    w"] /\
  Forall (fun l => ~ marked l) (skipn (2 - 2) [L "import sys"; L "def f():"]) /\ ~ marked (L "    write(a b) # from ") /\
  match gen_error ex_code [] (L "line 3") 2 None with Some e => e_pos e = Some (2, 7)%N | None => False end.
Proof.
  split; [apply not_marked; reflexivity|]. split; [reflexivity|].
  split; [repeat (apply Forall_cons; [apply not_marked; reflexivity|]); apply Forall_nil|].
  split; [apply not_marked; reflexivity|]. vm_compute. reflexivity.
Qed.
Theorem C83_unknown : forall code descr exc p off, 1 <= p <= length (splitlines code) -> ~ marked exc ->
  Forall (fun l => ~ marked l) (skipn (p - 2) (splitlines code)) ->
  exists e, gen_error code descr exc p off = Some e /\ e_pos e = None.
Proof. exact error_unknown. Qed.
Print Assumptions C83_unknown.
Example C83_unknown_ex : Forall (fun l => ~ marked l) (skipn (6 - 2) (splitlines ex_code)) /\
  match gen_error ex_code [] [] 6 None with Some e => e_pos e = None | None => False end.
Proof.
  split; [|vm_compute; reflexivity]. change (skipn (6 - 2) (splitlines ex_code)) with [L "    y"; L "    z"; L "    w"].
  repeat (apply Forall_cons; [apply not_marked; reflexivity|]); apply Forall_nil.
Qed.

(** The guess may be the position of the line before the error although the line itself has one. *)
Theorem C83_guess_refuted : exists code exc p x y e, ~ marked exc /\ is_line (splitlines code) p (x ++ mark 2 1 ++ y) /\
  gen_error code [] exc p None = Some e /\ e_pos e = Some (1, 1)%N.
Proof.
  exists (L "a # line 1, col 1" ++ nl ++ L "b # line 2, col 1"), [], 2%nat, (L "b # "), []. eexists.
  split; [apply not_marked; reflexivity|]. split; [split; [lia | reflexivity]|]. split; reflexivity.
Qed.
Print Assumptions C83_guess_refuted.

(** Printing the report works exactly if the template has the line; then the line is shown, and every row shows
    a line of the template under its number. *)
Theorem C83_printed : forall src n, (1 <= n)%N ->
  (exists rows, report_rows src n = Ok rows /\
     exists l, is_line (splitlines src) (N.to_nat n) l /\ In (Z.of_N n, l) rows /\
     forall k t, In (k, t) rows -> (1 <= k)%Z /\ is_line (splitlines src) (Z.to_nat k) t)
  <-> N.to_nat n <= length (splitlines src).
Proof. exact printed. Qed.
Print Assumptions C83_printed.
Example C83_printed_ex : report_rows (L "one" ++ nl ++ L "$f(a b)" ++ nl ++ L "three") 2 = Ok [(2%Z, L "$f(a b)"); (3%Z, L "three")].
Proof. reflexivity. Qed.
(** A text in the template that looks like a mark is taken for one: the report cannot be printed. *)
Theorem C83_printed_refuted : exists src code exc e n, gen_error code [] exc 1 None = Some e /\ e_pos e = Some (n, 1)%N /\
  exc = L "    write('line 9, col 1' x)" /\ report_rows src n = Raise RIndexError.
Proof.
  exists (L "line 9, col 1"), (L "write('line 9, col 1' x)"), (L "    write('line 9, col 1' x)"). do 2 eexists.
  split; [reflexivity|]. split; [reflexivity|]. split; reflexivity.
Qed.
Print Assumptions C83_printed_refuted.

(** The message holds, in this order, the exception's own text, the rows of the table, and how the position was
    found. *)
Theorem C83_message : forall descr rows pos, in_order
  [descr; concat (map (fun l => l ++ [10%N]) rows);
   match pos with (Some _, false) => L "Here is the corresponding Cheetah code:" | (Some _, true) => L "** I had to guess" | (None, _) => [] end]
  (message descr rows pos).
Proof. exact message_ok. Qed.
Print Assumptions C83_message.
Example C83_message_ex : message (L "D") [L "R"] (Some (1, 1)%N, false) =
  L "Error in the Python code which Cheetah generated for this template:" ++ nl ++ repeat 61%N 80 ++ nl ++ nl ++ L "D" ++ nl ++ nl ++
  L "Line|Python Code" ++ nl ++ L "----|-------------------------------------------------------------" ++ nl ++ L "R" ++ nl ++ nl ++
  repeat 61%N 80 ++ nl ++ nl ++ L "Here is the corresponding Cheetah code:" ++ nl.
Proof. reflexivity. Qed.
