(** Specification of what stands behind #call and #cache: functions that are names, and lists of arguments. *)
From Verif Require Import Base PyStr Lex_Model Expr_Model Front_Model Front_Spec FrontWords_Spec DefArgs_Spec.
From Verif Require Gen_Model.

(** A function that is a plain dotted name. *)
Definition fn_name (n : pystr) : xp := mkXP n n.
(** A function that is a placeholder: it is looked up, but not called. *)
Definition fn_var (E : env) (n : pystr) : xp :=
  mkXP (L "$" ++ n)
    (if e_um E then
       (if x_frames (e_X E) then L "VFFSL(SL" else L "VFSL([locals()]+SL+[globals(), builtin]") ++ L ",""" ++ n ++ L """,False)"
     else n).

(** The arguments of a #cache, behind a blank. *)
Definition cache_args (E : env) (l : list darg) : sargs := mkSA (das_src l) (map (da_val E true) l).
