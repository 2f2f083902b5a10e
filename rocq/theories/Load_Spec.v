(** What a path of a template means. *)
From Verif Require Import Base PyStr.

(** A name between slashes. *)
Definition part (d : pystr) : Prop := d <> [] /\ ~ In 47%N d.
(** A path as it is written: slashes in front, names with one slash or more after each. *)
Definition shown (pre : nat) (dirs : list (pystr * nat)) : pystr :=
  repeat 47%N pre ++ flat_map (fun d => fst d ++ repeat 47%N (S (snd d))) dirs.
(** The same directory as one writes it. *)
Definition tidy (pre : nat) (dirs : list (pystr * nat)) : pystr :=
  (if Nat.eqb pre 0 then [] else [47%N]) ++ join [47%N] (map fst dirs).
(** A file name: a name without periods, and nothing or a period and a word. *)
Definition plain_name (n : pystr) : Prop := n <> [] /\ ~ In 47%N n /\ ~ In 46%N n.
Definition extension (e : pystr) : Prop := e = [] \/ exists w, e = 46%N :: w /\ ~ In 47%N w /\ ~ In 46%N w.
(** A directory that can be named: with a name in it, or nothing at all, which is the current one. *)
Definition named (pre : nat) (dirs : list (pystr * nat)) : Prop :=
  (dirs <> [] \/ pre = 0) /\ Forall (fun x => part (fst x)) dirs.
Definition meant (cwd : pystr) (pre : nat) (dirs : list (pystr * nat)) : pystr := match dirs with [] => cwd | _ => tidy pre dirs end.
