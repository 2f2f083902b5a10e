(** Model of FindAndReplace (Cheetah/FileUtils.py:219-303).

    Simplified: the regular expression is the function that lists where it matches (start and end, from left to right), the replacement
    is a function of the match; files are their texts, kept apart from what else is in the file system; [pgrep] is left out, as when it is
    not installed. *)
From Verif Require Import Base.

(** A match: [match.start()], [match.end()] (Cheetah/FileUtils.py:299-300). *)
Definition span : Type := (nat * nat).
(** [match.group()], the text between them (Cheetah/FileUtils.py:298). *)
Definition group (s : pystr) (m : span) : pystr := firstn (snd m - fst m) (skipn (fst m) s).

(** What is remembered of a file: [res['count']] and [res['matches']] (Cheetah/FileUtils.py:292-300). *)
Record result := mkR { r_count : nat; r_matches : list (pystr * nat * nat) }.

(** The texts of the plain files, and [self._results] (Cheetah/FileUtils.py:243, 269). *)
Record world := mkW { w_file : pystr -> option pystr; w_res : pystr -> option result }.

(** Changing an entry of a dictionary, or a file (Cheetah/FileUtils.py:287, 292). *)
Definition put {A} (k : pystr) (v : A) (d : pystr -> option A) : pystr -> option A :=
  fun x => if str_eqb x k then Some v else d x.

Section Run.
(** The regular expression and the replacement (Cheetah/FileUtils.py:232-239). *)
Variable regex : pystr -> list span.
Variable subber : pystr -> span -> pystr.
(** [recordResults] (Cheetah/FileUtils.py:230). *)
Variable recording : bool.

(** [_subDispatcher] (Cheetah/FileUtils.py:289-303): what it remembers. *)
Definition dispatch (file orig : pystr) (m : span) (res : pystr -> option result) : pystr -> option result :=
  if recording then
    let r := match res file with None => mkR 0 [] | Some r => r end in
    put file (mkR (S (r_count r)) (r_matches r ++ [(group orig m, fst m, snd m)])) res
  else res.

(** [regex.sub(subber, orig)] (built-in; Cheetah/FileUtils.py:286): the text from [pos] on, the replacements called from left to right. *)
Fixpoint sub (file orig : pystr) (pos : nat) (ms : list span) (res : pystr -> option result) : pystr * (pystr -> option result) :=
  match ms with
  | [] => (skipn pos orig, res)
  | m :: r =>
      let res1 := dispatch file orig m res in
      let '(t, res2) := sub file orig (snd m) r res1 in
      (group orig (pos, fst m) ++ subber orig m ++ t, res2)
  end.

(** One round of the loop in [_run] (Cheetah/FileUtils.py:268-287). *)
Definition round (w : world) (file : pystr) : world :=
  match w_file w file with
  | None => w
  | Some orig =>
      match regex orig with
      | [] => w
      | ms => let '(new, res) := sub file orig 0 ms (w_res w) in mkW (put file new (w_file w)) res
      end
  end.

(** [_run] (Cheetah/FileUtils.py:263-287). *)
Definition run (files : list pystr) (w : world) : world := fold_left round files w.
End Run.

(** The constructor (Cheetah/FileUtils.py:229-258): [os.popen3] is only there on Python 2 (line 248), elsewhere an AttributeError. *)
Inductive ferr := AttributeE.
(** The constructor with its call of [_run], for a replacement that is a function (Cheetah/FileUtils.py:229-258). *)
Definition find_and_replace (popen3 : bool) (regex : pystr -> list span) (subber : pystr -> span -> pystr) (recording : bool)
    (files : list pystr) (disk : pystr -> option pystr) : res ferr world :=
  if popen3 then Ok (run regex subber recording files (mkW disk (fun _ => None))) else Raise AttributeE.
