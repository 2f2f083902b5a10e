(** What settings written in a template mean. *)
From Verif Require Import Base PyStr Alist Config_Model.

(** Equal up to the case of ASCII letters. *)
Definition same_letter (a b : N) : Prop :=
  a = b \/ (65 <= a <= 90 /\ b = a + 32)%N \/ (65 <= b <= 90 /\ a = b + 32)%N.
Definition same_word (a b : pystr) : Prop := Forall2 same_letter a b.

Section Spec.
Variable P : pyenv.

(** A text that the regular expressions cover. *)
Definition covered (s : pystr) : Prop :=
  p_cnum P s = Some (length s) \/ p_cnum P s = None /\ p_num P s = Some (length s).
(** A number, perhaps with a sign. *)
Inductive numeral : pystr -> Prop :=
| num_plain c r : c <> 45%N -> c <> 43%N -> covered (c :: r) -> numeral (c :: r)
| num_sign c r : c = 45%N \/ c = 43%N -> r <> [] -> covered (strip r) -> numeral (c :: r).
(** A number starts with a digit, a point or a parenthesis (as the grammar of Python has it). *)
Definition sane : Prop := forall c r n, (p_num P (c :: r) = Some n \/ p_cnum P (c :: r) = Some n) ->
  (48 <= c <= 57)%N \/ c = 46%N \/ c = 40%N.

(** The value of an option. *)
Inductive means (val : pystr) : res cexn cv -> Prop :=
| m_blank : strip val = [] -> ~ (exists w r, val = w ++ r /\ same_word w (L "python:")) -> means val (Raise CIndex)
| m_code w r : val = w ++ r -> same_word w (L "python:") -> means val (p_eval P r)
| m_none : same_word val (L "none") -> means val (Ok CNone)
| m_true : same_word val (L "true") -> means val (Ok (CBool true))
| m_false : same_word val (L "false") -> means val (Ok (CBool false))
| m_num : numeral (strip val) -> means val (p_eval P val)
| m_text : strip val <> [] -> ~ (exists w r, val = w ++ r /\ same_word w (L "python:")) ->
    ~ same_word val (L "none") -> ~ same_word val (L "true") -> ~ same_word val (L "false") ->
    ~ numeral (strip val) -> means val (Ok (CStr val)).

(** An option that can be read, with its value. *)
Definition reads (o : pystr * pystr) (p : pystr * cv) : Prop :=
  fst p = fst o /\ means (snd o) (Ok (snd p)) /\ ~ same_word (fst o) (L "importsettings").
(** Sections that can be read, with the values of their options. *)
Definition sect_reads (s : pystr * list (pystr * pystr)) (d : pystr * tree) : Prop :=
  fst d = fst s /\ Forall2 reads (snd s) (snd d).

(** Sections named globals. *)
Definition global (n : pystr) : Prop := same_word n (L "globals").

(** What a list of sections with values sets the name [k] to: the last section globals that has an option
    of this name wins, else the section of this name. *)
Inductive sets (ss : list (pystr * tree)) (k : pystr) : option cv -> Prop :=
| sets_global a g d b v : ss = a ++ (g, d) :: b -> global g -> aget k d = Some v ->
    (forall g' d', In (g', d') b -> global g' -> aget k d' = None) -> sets ss k (Some v)
| sets_section d : (forall g' d', In (g', d') ss -> global g' -> aget k d' = None) ->
    ~ global k -> In (k, d) ss -> sets ss k (Some (CDict d))
| sets_none : (forall g' d', In (g', d') ss -> global g' -> aget k d' = None) ->
    (global k \/ forall d, ~ In (k, d) ss) -> sets ss k None.

(** As ConfigParser gives them: no name twice. *)
Definition distinct (ss : list (pystr * list (pystr * pystr))) : Prop :=
  NoDup (keys ss) /\ Forall (fun s => NoDup (keys (snd s))) ss.
(** No option of a section globals has the name of such a section. *)
Definition unmixed (ss : list (pystr * list (pystr * pystr))) : Prop :=
  forall g d n d', In (g, d) ss -> global g -> In (n, d') ss -> global n -> aget n d = None.

(** A directive that leaves the setting [k] alone, or gives it a value that is no dictionary. *)
Definition plain (v : cv) : Prop := forall d, v <> CDict d.
Inductive writes (dflt : tree) (k : pystr) : sop -> option cv -> Prop :=
| w_dir n e v : ~ same_word n (L "reset") -> p_here P e = Ok v -> writes dflt k (ODir n e) (if str_eqb k n then Some v else None)
| w_reset1 n e : same_word n (L "reset") -> writes dflt k (ODir n e) (aget k dflt)
| w_reset2 kws s : In (L "reset") kws -> writes dflt k (OBlock kws s) (aget k dflt)
| w_python kws s new : ~ In (L "reset") kws -> In (L "python") kws -> p_exec P s = Ok new ->
    NoDup (keys new) -> writes dflt k (OBlock kws s) (match k with 95%N :: _ => None | _ => aget k new end)
| w_config kws s ss ds v : ~ In (L "reset") kws -> ~ In (L "python") kws ->
    p_config P (L "[globals]" ++ [10%N] ++ s) = Ok ss -> distinct ss -> unmixed ss ->
    Forall2 sect_reads ss ds -> sets ds k v -> writes dflt k (OBlock kws s) v.
End Spec.
