(** What a plug-in for templates should do: histories of edits and loads. *)
From Verif Require Import Base PyStr Alist Turbo_Model.

(** A template is written at some time; an instance loads one. *)
Inductive op := Write (n : pystr) (mt : N) (t : pystr) | Load (i : nat) (n : pystr).

(** The effect of a history; files have the extension tmpl and nothing is precompiled. *)
Definition write (n : pystr) (mt : N) (t : pystr) (s : tst) : tst :=
  mkTS (((n, L "tmpl"), (mt, t)) :: t_files s) (t_mods s) (t_ct s).
Definition step (E : tenv) (o : op) (s : tst) : tst :=
  match o with
  | Write n mt t => write n mt t s
  | Load i n => snd (load E (L "tmpl") false i n s)
  end.
Definition steps (E : tenv) (l : list op) (s : tst) : tst := fold_left (fun s o => step E o s) l s.

(** The text a template has after a history. *)
Fixpoint text_after (n : pystr) (l : list op) (t : option pystr) : option pystr :=
  match l with
  | [] => t
  | Write m _ t' :: l => text_after n l (if str_eqb m n then Some t' else t)
  | Load _ _ :: l => text_after n l t
  end.
(** Every writing is later than the ones before it. *)
Fixpoint paced (now : N) (l : list op) : Prop :=
  match l with
  | [] => True
  | Write _ mt _ :: l => (now < mt)%N /\ paced mt l
  | Load _ _ :: l => paced now l
  end.
(** Every text that is written can be compiled. *)
Definition good (E : tenv) (l : list op) : Prop := forall n mt t, In (Write n mt t) l -> v_compile E t <> None.
(** At the start: no instance has loaded anything, every template can be compiled, none is from the future. *)
Definition start (E : tenv) (now : N) (s : tst) : Prop :=
  NoDup (keys (t_mods s)) /\ (forall i, t_ct s i = []) /\ (forall n mt t, file_of n (L "tmpl") s = Some (mt, t) -> (mt <= now)%N /\ v_compile E t <> None).
(** Only instance [i] loads. *)
Definition alone (i : nat) (l : list op) : Prop := forall j n, In (Load j n) l -> j = i.
