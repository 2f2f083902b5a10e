(** Independent vocabulary for the claims about versions, names and patterns. *)
From Verif Require Import PyStr.

(** Releases: numbers (one to three of them), a stage, and a stage number. *)
Inductive stage := Alpha | Beta | Candidate | Final.
Record release := mkRel { r_nums : list N; r_stage : stage; r_sub : N }.

(** Documented forms: one to three numbers; a final release has no stage number. *)
Definition proper (r : release) : Prop :=
  (1 <= length (r_nums r) <= 3)%nat /\ (r_stage r = Final -> r_sub r = 0%N).

(** How a release is written: 2.0a1, 2.0b1, 2.0rc1, 2.0.2 (Cheetah/Version.py:39-43 lists these). *)
Definition render (r : release) : pystr :=
  join (L ".") (map str_of_N (r_nums r))
  ++ match r_stage r with
     | Alpha => L "a" ++ str_of_N (r_sub r)
     | Beta => L "b" ++ str_of_N (r_sub r)
     | Candidate => L "rc" ++ str_of_N (r_sub r)
     | Final => []
     end.

(** Release order: numbers first, missing ones counting as zero, then the stage, then the
    stage number. *)
Definition num (r : release) (i : nat) : N := nth i (r_nums r) 0%N.
Definition stage_rank (s : stage) : N :=
  match s with Alpha => 0 | Beta => 1 | Candidate => 2 | Final => 3 end%N.
Definition older (a b : release) : Prop :=
  (num a 0 < num b 0)%N \/ (num a 0 = num b 0 /\
  ((num a 1 < num b 1)%N \/ (num a 1 = num b 1 /\
  ((num a 2 < num b 2)%N \/ (num a 2 = num b 2 /\
  ((stage_rank (r_stage a) < stage_rank (r_stage b))%N \/ (r_stage a = r_stage b /\
   (r_sub a < r_sub b)%N))))))).

(** Characters of a Python identifier among ASCII. *)
Definition ident_char (c : N) : Prop :=
  (48 <= c <= 57 \/ 65 <= c <= 90 \/ 97 <= c <= 122 \/ c = 95)%N.
Definition letter_or_digit (c : N) : Prop :=
  (48 <= c <= 57 \/ 65 <= c <= 90 \/ 97 <= c <= 122)%N.

(** Reading a pattern of Python's [re] as plain text: an unescaped metacharacter makes it more
    than a literal, and so does a backslash before a letter or a digit (a class or a
    back-reference); a backslash before anything else stands for that character.  [None]: not a
    literal pattern.  The list of metacharacters is that of the [re] documentation. *)
Definition metachars : list N :=
  [46; 94; 36; 42; 43; 63; 123; 125; 91; 93; 92; 124; 40; 41]%N.
Definition ascii_alnum (c : N) : bool :=
  ((48 <=? c) && (c <=? 57) || (65 <=? c) && (c <=? 90) || (97 <=? c) && (c <=? 122)
   || (c =? 95))%N.
Fixpoint literal_pattern (p : pystr) : option pystr :=
  match p with
  | [] => Some []
  | c :: r =>
      if N.eqb c 92 then
        match r with
        | d :: r' => if ascii_alnum d then None
                     else option_map (cons d) (literal_pattern r')
        | [] => None
        end
      else if existsb (N.eqb c) metachars then None
      else option_map (cons c) (literal_pattern r)
  end.
