(** Model of the import hook (Cheetah/ImportManager.py:446-568), as Python 3 uses it: the import statement calls
    importHook with the names and a level of 0 or more.

    The directors of metapath and the owners behind them are a parameter: for a parent package (or none) and a
    name they find the code of a module or nothing.  Module code is a list of statements, among them further
    imports, so imports may be nested and cyclic.  Not modelled: threads (see Conc_Model.v), the fallback on
    RecursionError, and values of attributes other than modules. *)
From Verif Require Import Base PyStr Alist Names_Model.

(** Statements of a module: [a = ...], [import x.y], [from ..x import a, b] (with its level), [raise]
    (the code run at Cheetah/ImportManager.py:561-564). *)
Inductive stmt :=
| SDef (a : pystr)
| SImport (name : pystr)
| SFrom (level : nat) (name : pystr) (names : list pystr)
| SFail (n : N).

(** A module as found: whether it is a package, its __all__, its code (Cheetah/ImportManager.py:258-266). *)
Record src := mkSrc { s_pkg : bool; s_all : list pystr; s_code : list stmt }.

(** A module object: has it __path__, its __all__, its other attributes, which are modules or something else
    (Cheetah/ImportManager.py:535-541). *)
Record mobj := mkObj { o_pkg : bool; o_all : list pystr; o_attrs : list (pystr * option nat) }.

(** sys.modules (a name may be bound to None), all module objects, and the names of the modules whose code has
    been started, latest first (Cheetah/ImportManager.py:559-567). *)
Record world := mkW { w_mods : list (pystr * option nat); w_objs : list mobj; w_runs : list pystr }.

(** KeyError, ModuleNotFoundError, ImportError of the from statement, IndexError, an exception of the code
    (Cheetah/ImportManager.py:500-502, 505, 525-526). *)
Inductive iexn := EKey | ENotFound (fq : pystr) | EFrom | EIndex | ECode (n : N).

(** State, exceptions and running out of steps (Cheetah/ImportManager.py:446-568). *)
Definition M (A : Type) := world -> option (res iexn A * world).
(** Goes with the definition above (Cheetah/ImportManager.py:446-568). *)
Definition ret {A} (a : A) : M A := fun w => Some (Ok a, w).
(** Goes with the definition above (Cheetah/ImportManager.py:446-568). *)
Definition raise {A} (e : iexn) : M A := fun w => Some (Raise e, w).
(** Goes with the definition above (Cheetah/ImportManager.py:446-568). *)
Definition bind {A B} (m : M A) (f : A -> M B) : M B := fun w =>
  match m w with
  | None => None
  | Some (Ok a, w') => f a w'
  | Some (Raise e, w') => Some (Raise e, w')
  end.

(** Attribute tests and settings (Cheetah/ImportManager.py:459, 499, 509, 519, 535, 542). *)
Definition set_nth {A} (l : list A) (n : nat) (x : A) : list A := firstn n l ++ x :: skipn (S n) l.
(** Goes with the definition above (Cheetah/ImportManager.py:459, 499, 509, 519, 535, 542). *)
Definition is_pkg (m : option nat) (w : world) : bool :=
  match m with None => false | Some m => match nth_error (w_objs w) m with Some o => o_pkg o | None => false end end.
(** Goes with the definition above (Cheetah/ImportManager.py:459, 499, 509, 519, 535, 542). *)
Definition attr (m : option nat) (a : pystr) (w : world) : option (option nat) :=
  match m with None => None | Some m => match nth_error (w_objs w) m with Some o => aget a (o_attrs o) | None => None end end.
(** Goes with the definition above (Cheetah/ImportManager.py:459, 499, 509, 519, 535, 542). *)
Definition set_attr (m : nat) (a : pystr) (v : option nat) : M unit := fun w =>
  match nth_error (w_objs w) m with
  | None => Some (Ok tt, w)
  | Some o => Some (Ok tt, mkW (w_mods w) (set_nth (w_objs w) m (mkObj (o_pkg o) (o_all o) (aset a v (o_attrs o)))) (w_runs w))
  end.
(** [sys.modules.get(x)], [sys.modules[x]], [sys.modules[x] = v], [del sys.modules[x]]
    (Cheetah/ImportManager.py:455, 500-502, 505-507, 534, 560, 567). *)
Definition lookup (x : pystr) : M (option (option nat)) := fun w => Some (Ok (aget x (w_mods w)), w).
(** Goes with the definition above (Cheetah/ImportManager.py:455, 500-502, 505-507, 534, 560, 567). *)
Definition get_item (x : pystr) : M (option nat) := fun w =>
  match aget x (w_mods w) with Some v => Some (Ok v, w) | None => Some (Raise EKey, w) end.
(** Goes with the definition above (Cheetah/ImportManager.py:455, 500-502, 505-507, 534, 560, 567). *)
Definition set_item (x : pystr) (v : option nat) : M unit := fun w =>
  Some (Ok tt, mkW (aset x v (w_mods w)) (w_objs w) (w_runs w)).
(** Goes with the definition above (Cheetah/ImportManager.py:455, 500-502, 505-507, 534, 560, 567). *)
Definition del_item (x : pystr) : M unit := fun w =>
  match aget x (w_mods w) with
  | Some _ => Some (Ok tt, mkW (adel x (w_mods w)) (w_objs w) (w_runs w))
  | None => Some (Raise EKey, w)
  end.
(** [mod = newmod(nm)] with what getmod sets (Cheetah/ImportManager.py:258-266). *)
Definition new_mod (s : src) : M nat := fun w =>
  Some (Ok (length (w_objs w)), mkW (w_mods w) (w_objs w ++ [mkObj (s_pkg s) (s_all s) []]) (w_runs w)).
(** The start of the code (Cheetah/ImportManager.py:564). *)
Definition log_run (x : pystr) : M unit := fun w => Some (Ok tt, mkW (w_mods w) (w_objs w) (x :: w_runs w)).
(** Reading the state (Cheetah/ImportManager.py:499, 509, 519, 535). *)
Definition ask {A} (f : world -> A) : M A := fun w => Some (Ok (f w), w).

(** [a + '.' + b] (Cheetah/ImportManager.py:476-479). *)
Definition dotted (ctx : option pystr) (nm : pystr) : pystr :=
  match ctx with Some c => c ++ [46%N] ++ nm | None => nm end.

Section Hook.
(** The finder: parent package, name (Cheetah/ImportManager.py:534-557). *)
Variable F : option pystr -> pystr -> option src.

(** importHook as called by the statements of a module: __name__ of the caller (empty: none), level, name,
    fromlist (Cheetah/ImportManager.py:446-447). *)
Definition imp_t := pystr -> nat -> pystr -> option (list pystr) -> M (option nat).

Section Step.
Variable imp : imp_t.

(** What the from statement does with the module it got: each name is fetched from the module; stars are
    left out (Python's IMPORT_FROM, after Cheetah/ImportManager.py:528). *)
Fixpoint bind_names (m : nat) (r : option nat) (names : list pystr) : M unit :=
  match names with
  | [] => ret tt
  | a :: names =>
      if str_eqb a (L "*") then bind_names m r names
      else bind (ask (attr r a)) (fun v =>
           match v with
           | None => raise EFrom
           | Some v => bind (set_attr m a v) (fun _ => bind_names m r names)
           end)
  end.

(** [exec(co, mod.__dict__)] (Cheetah/ImportManager.py:564); [fq]: its __name__. *)
Fixpoint run_code (fq : pystr) (m : nat) (code : list stmt) : M unit :=
  match code with
  | [] => ret tt
  | SDef a :: code => bind (set_attr m a None) (fun _ => run_code fq m code)
  | SImport name :: code =>
      bind (imp fq 0 name None) (fun r =>
      bind (set_attr m (hd [] (nameSplit name)) r) (fun _ => run_code fq m code))
  | SFrom level name names :: code =>
      bind (imp fq level name (Some names)) (fun r =>
      bind (bind_names m r names) (fun _ => run_code fq m code))
  | SFail n :: _ => raise (ECode n)
  end.

(** The end of [doimport] (Cheetah/ImportManager.py:558-568). *)
Definition finish (fq : pystr) (md : option (nat * src)) : M (option nat) :=
  match md with
  | Some (m, s) =>
      bind (set_item fq (Some m)) (fun _ =>
      bind (log_run fq) (fun _ =>
      bind (run_code fq m (s_code s)) (fun _ => ret (Some m))))
  | None => bind (set_item fq None) (fun _ => ret None)
  end.

(** [doimport] (Cheetah/ImportManager.py:530-568). *)
Definition doimport (nm : pystr) (parent : option pystr) (fq : pystr) : M (option nat) :=
  match parent with
  | Some p =>
      bind (get_item p) (fun pm =>
      bind (ask (is_pkg pm)) (fun k =>
      if k then
        match pm, F (Some p) nm with
        | Some pm, Some s => bind (new_mod s) (fun m => bind (set_attr pm nm (Some m)) (fun _ => finish fq (Some (m, s))))
        | _, _ => finish fq None
        end
      else ret None))
  | None =>
      match F None nm with
      | Some s => bind (new_mod s) (fun m => finish fq (Some (m, s)))
      | None => finish fq None
      end
  end.

(** The loop over the parts of the name, from part number [i] on: the number of the first part without a module
    (or one beyond the end), the last package name, and the last full name tried
    (Cheetah/ImportManager.py:472-494). *)
Fixpoint walk (ctx : option pystr) (parts : list pystr) (i : nat) : M (nat * option pystr * pystr) :=
  match parts with
  | [] => ret (match i with O => 1 | _ => i end, ctx, [])
  | nm :: parts =>
      let fq := dotted ctx nm in
      bind (lookup fq) (fun md =>
      bind (match md with Some m => ret m | None => doimport nm ctx fq end) (fun md =>
      match md with
      | Some _ => walk (Some fq) parts (S i)
      | None => ret (i, ctx, fq)
      end))
  end.

(** The loop over the contexts; the last component: the context at the end (Cheetah/ImportManager.py:471-496). *)
Fixpoint try_ctx (ctxs : list (option pystr)) (parts : list pystr) : M (nat * option pystr * pystr * option pystr) :=
  match ctxs with
  | [] => ret (0, None, [], None)
  | c :: rest =>
      bind (walk c parts 0) (fun r =>
      match r with
      | (i, ctx, fq) => match i, rest with
                        | O, _ :: _ => try_ctx rest parts
                        | _, _ => ret (i, ctx, fq, c)
                        end
      end)
  end.

(** The loop over the names of a from statement (Cheetah/ImportManager.py:509-527); [all]: __all__.  A star is
    replaced by __all__, and the first name of it is taken as it is. *)
Fixpoint from_names (ctx : pystr) (m : option nat) (names : list pystr) : M unit :=
  match names with
  | [] => ret tt
  | nm :: names =>
      bind (ask (attr m nm)) (fun a =>
      bind (match a with
            | Some _ => ret tt
            | None => bind (doimport nm (Some ctx) (dotted (Some ctx) nm)) (fun r =>
                      match r with Some _ => ret tt | None => raise (ENotFound (dotted (Some ctx) nm)) end)
            end) (fun _ => from_names ctx m names))
  end.
(** The names with stars replaced (Cheetah/ImportManager.py:513-518). *)
Definition expand (all : list pystr) (names : list pystr) : list pystr :=
  concat (map (fun nm => if str_eqb nm (L "*") then all else [nm]) names).

(** The contexts (Cheetah/ImportManager.py:455-467). *)
Definition contexts (who : pystr) (level : nat) (name : pystr) (w : world) : list (option pystr) :=
  if (match name with [] => true | _ => false end || (0 <? level)) && negb (match who with [] => true | _ => false end) then
    if is_pkg (match aget who (w_mods w) with Some m => m | None => None end) w then [Some who; None]
    else match packageName who with [] => [None] | p => [Some p; None] end
  else [None].

(** [importHook] (Cheetah/ImportManager.py:446-528). *)
Definition hook : imp_t := fun who level name fromlist =>
  bind (ask (contexts who level name)) (fun ctxs =>
  let parts := nameSplit name in
  bind (try_ctx ctxs parts) (fun r =>
  match r with
  | (i, ctx, fq, context) =>
      if i <? length parts then
        bind (match ctx with
              | Some c => bind (get_item c) (fun m => bind (ask (attr m (nth i parts []))) (fun a => ret (match a with Some _ => true | None => false end)))
              | None => ret false
              end) (fun has =>
        if has then get_item (hd [] parts)
        else bind (del_item fq) (fun _ => raise (ENotFound fq)))
      else match fromlist with
           | None => match parts with
                     | [] => raise EIndex
                     | p0 :: _ => get_item (dotted context p0)
                     end
           | Some names =>
               match ctx with
               | None => raise EKey
               | Some c =>
                   bind (get_item c) (fun m =>
                   bind (ask (is_pkg m)) (fun k =>
                   bind (if k then
                           bind (ask (fun w => match m with Some n => match nth_error (w_objs w) n with Some o => o_all o | None => [] end | None => [] end)) (fun all =>
                           from_names c m (expand all names))
                         else ret tt) (fun _ => ret m)))
               end
           end
  end)).
End Step.

(** Imports nested up to a depth; [None]: deeper (Cheetah/ImportManager.py:446-564). *)
Fixpoint import (fuel : nat) : imp_t :=
  match fuel with
  | O => fun _ _ _ _ _ => None
  | S f => hook (import f)
  end.

(** Import statements of a program, one after the other; exceptions are caught (Cheetah/ImportManager.py:446-528). *)
Fixpoint imports (fuel : nat) (l : list (pystr * nat * pystr * option (list pystr))) : M (list (res iexn (option nat))) :=
  match l with
  | [] => ret []
  | (who, level, name, fl) :: l => fun w =>
      match import fuel who level name fl w with
      | None => None
      | Some (r, w') => bind (imports fuel l) (fun rs => ret (r :: rs)) w'
      end
  end.
End Hook.
