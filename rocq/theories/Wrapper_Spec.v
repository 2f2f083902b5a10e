(** Vocabulary for output files. *)
From Verif Require Import Wrapper_Model.

(** The sources that a list of bundles sends to one destination. *)
Definition sources_of (dst : pystr) (bs : list bundle) : list pystr :=
  map fst (filter (fun b => str_eqb (snd b) dst) bs).

(** Every source is a file below idir (if given) that carries the input extension, and bases are
    relative when there is an output directory. *)
Definition plain_source (o : wopts) (src : pystr) : Prop :=
  exists rel, src = (match w_idir o with [] => [] | d => d ++ [47%N] end) ++ rel ++ w_iext o
    /\ (w_odir o <> [] -> match rel ++ w_oext o with c :: _ => c <> 47%N | [] => True end).
