(** Property theorems C104 (FindAndReplace, Cheetah/FileUtils.py:219-303). *)
From Verif Require Import Base Replace_Model Replace_Spec Replace_Proofs.
Local Open Scope string_scope. Local Open Scope list_scope.

(** C104: a file that is listed once has all its matches replaced, from left to right; the matches of the text it had are counted and
    listed, and a file without a match is not in the results. *)
Theorem C104_replaced : forall regex subber files disk f s,
  NoDup files -> In f files -> disk f = Some s -> in_order (length s) 0 (regex s) ->
  exists w t, find_and_replace true regex subber true files disk = Ok w /\
    replaced (fun i j => subber s (i, j)) s 0 (regex s) t /\ w_file w f = Some t /\
    match regex s with
    | [] => w_res w f = None
    | _ => exists l, listed s (regex s) l /\ w_res w f = Some (mkR (length (regex s)) l)
    end.
Proof.
  intros regex subber files disk f s N I D O. destruct (run_at regex subber files disk f s N I D O) as (t & R & F).
  exists (run regex subber true files (mkW disk (fun _ => None))), t. split; [reflexivity|]. split; [exact R|exact F].
Qed.
Print Assumptions C104_replaced.

(** A pattern for the examples: every letter a. *)
Fixpoint letters_a (i : nat) (s : pystr) : list span :=
  match s with [] => [] | c :: r => if N.eqb c 97 then (i, S i) :: letters_a (S i) r else letters_a (S i) r end.
(** Three names: two files, and a directory. *)
Definition ex_disk (p : pystr) : option pystr :=
  if str_eqb p (L "x") then Some (L "banal") else if str_eqb p (L "y") then Some (L "bcd") else None.
(** Doubling what was found. *)
Definition twice (s : pystr) (m : span) : pystr := group s m ++ group s m.

Example C104_replaced_ex : NoDup [L "y"; L "d"; L "x"] /\ In (L "x") [L "y"; L "d"; L "x"] /\ ex_disk (L "x") = Some (L "banal") /\
  in_order 5 0 (letters_a 0 (L "banal")) /\
  match find_and_replace true (letters_a 0) twice true [L "y"; L "d"; L "x"] ex_disk with
  | Ok w => w_file w (L "x") = Some (L "baanaal") /\ w_res w (L "x") = Some (mkR 2 [(L "a", 1, 2); (L "a", 3, 4)]) /\
      w_file w (L "y") = Some (L "bcd") /\ w_res w (L "y") = None
  | Raise _ => False
  end.
Proof.
  split; [|split; [cbn; tauto|split; [reflexivity|split; [cbn; lia|vm_compute; repeat split]]]].
  repeat constructor; cbn; intro K; decompose [or] K; try discriminate; contradiction.
Qed.

(** C104: what is not listed is neither changed nor in the results; nor is anything made out of what is no file. *)
Theorem C104_untouched : forall regex subber rec files disk f, ~ In f files \/ disk f = None ->
  exists w, find_and_replace true regex subber rec files disk = Ok w /\ w_file w f = disk f /\ w_res w f = None.
Proof.
  intros regex subber rec files disk f H. exists (run regex subber rec files (mkW disk (fun _ => None))). split; [reflexivity|].
  destruct H as [H|H]; [exact (run_other regex subber rec files (mkW disk (fun _ => None)) f H)|exact (run_none regex subber rec files disk f H)].
Qed.
Print Assumptions C104_untouched.
Example C104_untouched_ex : ~ In (L "x") [L "y"; L "d"] /\ ex_disk (L "d") = None /\
  match find_and_replace true (letters_a 0) twice true [L "y"; L "d"] ex_disk with
  | Ok w => w_file w (L "x") = Some (L "banal") /\ w_file w (L "d") = None
  | Raise _ => False
  end.
Proof.
  split; [cbn; intro K; decompose [or] K; try discriminate; contradiction|]. vm_compute. repeat split.
Qed.

(** C104, whatever the list: the count is the number of the matches that are listed. *)
Theorem C104_count : forall regex subber rec files disk w f r,
  find_and_replace true regex subber rec files disk = Ok w -> w_res w f = Some r -> r_count r = length (r_matches r) /\ r_matches r <> [].
Proof. intros regex subber rec files disk w f r [= <-] H. exact (run_counts regex subber rec files disk f r H). Qed.
Print Assumptions C104_count.
Example C104_count_ex : exists w, find_and_replace true (letters_a 0) twice true [L "x"; L "x"] ex_disk = Ok w /\
  option_map r_count (w_res w (L "x")) = Some 6.
Proof. eexists. split; [reflexivity|]. vm_compute. reflexivity. Qed.

(** C104, refuted: each match of the text is replaced once.  A file that is listed twice is read again after the first time, and what was
    put in is found, replaced and counted (FileFinder lists such files twice, C103). *)
Theorem C104_once_refuted : exists regex subber files disk w f s t,
  find_and_replace true regex subber true files disk = Ok w /\ disk f = Some s /\ in_order (length s) 0 (regex s) /\ w_file w f = Some t /\
  ~ replaced (fun i j => subber s (i, j)) s 0 (regex s) t.
Proof.
  exists (letters_a 0), twice, [L "x"; L "x"], ex_disk. eexists. exists (L "x"), (L "banal"), (L "baaaanaaaal").
  split; [reflexivity|]. split; [reflexivity|]. split; [cbn; lia|]. split; [vm_compute; reflexivity|].
  intro R. assert (O : in_order (length (L "banal")) 0 (letters_a 0 (L "banal"))) by (cbn; lia).
  pose proof (sub_text (letters_a 0) twice true [] (L "banal") (letters_a 0 (L "banal")) 0 (fun _ => None) O) as T.
  pose proof (replaced_fun _ _ _ _ _ R _ T) as E. vm_compute in E. discriminate E.
Qed.
Print Assumptions C104_once_refuted.

(** C104, refuted on Python 3: the files are changed.  There is no os.popen3, so that the constructor always fails. *)
Theorem C104_python3_refuted : exists regex files disk, (exists f s, In f files /\ disk f = Some s /\ regex s <> []) /\
  forall subber rec, find_and_replace false regex subber rec files disk = Raise AttributeE.
Proof.
  exists (letters_a 0), [L "x"], ex_disk. split; [|reflexivity]. exists (L "x"), (L "banal"). split; [left; reflexivity|].
  split; [reflexivity|discriminate].
Qed.
Print Assumptions C104_python3_refuted.
