(** Model of the directive analyzer (Cheetah/DirectiveAnalyzer.py:11-97).

    Simplified: what the parser does is a parameter, [parse]: the directives of which [eatDirective] is called, in order, and whether the
    template compiles; [os.walk] is the list of its steps; printing and the help text are left out. *)
From Verif Require Import Base.

(** [calls] and [totals]: dicts from directives to numbers, in the order in which the keys came (Cheetah/DirectiveAnalyzer.py:13, 58). *)
Definition counts := list (pystr * nat).

(** [try: d[k] += v; except KeyError: d[k] = v] (Cheetah/DirectiveAnalyzer.py:18-21, 63-66). *)
Fixpoint add (k : pystr) (v : nat) (d : counts) : counts :=
  match d with
  | [] => [(k, v)]
  | (j, n) :: r => if str_eqb j k then (j, (n + v)%nat) :: r else (j, n) :: add k v r
  end.

(** [Analyzer.eatDirective], called for each directive (Cheetah/DirectiveAnalyzer.py:16-22). *)
Definition eat (calls : counts) (directive : pystr) : counts := add directive 1 calls.

(** What the parser makes of a source: the directives it eats, or an exception; the exceptions of opening files
    (Cheetah/DirectiveAnalyzer.py:30, 35). *)
Inductive aerr := ParseE (source : pystr) | OpenE (path : pystr).
(** Goes with the definition above (Cheetah/DirectiveAnalyzer.py:30, 35). *)
Record tools := mkTools { a_parse : pystr -> option (list pystr); a_open : pystr -> option pystr }.

(** [analyze(source)] (Cheetah/DirectiveAnalyzer.py:29-31). *)
Definition analyze (t : tools) (source : pystr) : res aerr counts :=
  match a_parse t source with
  | None => Raise (ParseE source)
  | Some ds => Ok (fold_left eat ds [])
  end.

(** [main_file(f)] (Cheetah/DirectiveAnalyzer.py:34-41). *)
Definition main_file (t : tools) (f : pystr) : res aerr counts :=
  match a_open t f with
  | None => Raise (OpenE f)
  | Some source => analyze t source
  end.

(** [f.endswith(suffix)] (built-in; Cheetah/DirectiveAnalyzer.py:47). *)
Definition ends_in (suffix f : pystr) : bool := starts_with (rev suffix) (rev f).

(** [_find_templates(directory, suffix)], of the steps of [os.walk] (Cheetah/DirectiveAnalyzer.py:44-49). *)
Definition find_templates (walk : list (pystr * list pystr)) (suffix : pystr) : list pystr :=
  flat_map (fun '(root, files) => flat_map (fun f => if negb (ends_in suffix f) then [] else [root ++ L "/" ++ f]) files) walk.

(** The loop of [main_dir] over one analysis (Cheetah/DirectiveAnalyzer.py:62-66). *)
Definition merge (totals series : counts) : counts := fold_left (fun acc '(k, v) => add k v acc) series totals.

(** [main_dir(opts)], with the generator [_analyze_templates]: a template is read when its turn comes
    (Cheetah/DirectiveAnalyzer.py:52-67). *)
Fixpoint main_loop (t : tools) (files : list pystr) (totals : counts) : res aerr counts :=
  match files with
  | [] => Ok totals
  | f :: r =>
      match main_file t f with
      | Raise e => Raise e
      | Ok [] => main_loop t r totals
      | Ok series => main_loop t r (merge totals series)
      end
  end.
(** Goes with the definition above (Cheetah/DirectiveAnalyzer.py:52-67). *)
Definition main_dir (t : tools) (walk : list (pystr * list pystr)) (suffix : pystr) : res aerr counts :=
  main_loop t (find_templates walk suffix) [].

(** [main()]: what is printed in the end, [None]: the help text (Cheetah/DirectiveAnalyzer.py:70-93). *)
Definition main (t : tools) (file : option pystr) (dir : option (list (pystr * list pystr))) (suffix : pystr) : res aerr (option counts) :=
  match file, dir with
  | None, None => Ok None
  | _, _ =>
      match match file with Some f => match main_file t f with Ok c => Ok (Some c) | Raise e => Raise e end | None => Ok None end with
      | Raise e => Raise e
      | Ok results =>
          match dir with
          | None => Ok results
          | Some w => match main_dir t w suffix with Ok c => Ok (Some c) | Raise e => Raise e end
          end
      end
  end.
