(** Model of the TurboGears plug-in (Cheetah/Tools/turbocheetah/cheetahsupport.py:11-100): which template is loaded, when it is
    compiled again, and what is left in sys.modules.

    Parameters: the compiler together with running its code (None: any exception), modules that Python finds on its own, and
    their attributes.  Simplified: the package of a template can be imported; a template is known by its class name and the
    extension of its file; importing a module changes no other entry of sys.modules. *)
From Verif Require Import Base PyStr Alist.

(** A module: made from a template, or imported (Cheetah/Tools/turbocheetah/cheetahsupport.py:15-23, 86, 92). *)
Inductive tmod := TMade (base code : pystr) | TImp (m : nat).

(** What is got from it: the class of a template, or some attribute
    (Cheetah/Tools/turbocheetah/cheetahsupport.py:93-94). *)
Inductive tcls := CTmpl (code : pystr) | CAttr (m : nat) (n : pystr).

(** The exceptions: both TypeErrors about the arguments, ValueError, the errors of [os.stat] and of reading the template,
    of compiling and running it, KeyError at the [del], ImportError, AttributeError, NotImplementedError
    (Cheetah/Tools/turbocheetah/cheetahsupport.py:47-54, 71, 79-88, 12-19, 82, 86, 93, 97, 100). *)
Inductive terr := EMany | ENone | ENoPackage | EStat | ECompile | EKey | EImport | EAttr | ENotImplemented.

(** What there is besides (Cheetah/Tools/turbocheetah/cheetahsupport.py:11-24, 86, 92-93). *)
Record tenv := mkT {
  v_compile : pystr -> option pystr;
  v_import : pystr -> option nat;
  v_attr : nat -> pystr -> bool }.

(** The files of templates by class name and extension, with time and text; sys.modules; and compiledTemplates of every
    instance (Cheetah/Tools/turbocheetah/cheetahsupport.py:23, 35, 74-88). *)
Record tst := mkTS { t_files : list (pystr * pystr * (N * pystr)); t_mods : list (pystr * tmod); t_ct : nat -> list (pystr * N) }.

(** The file of a template (Cheetah/Tools/turbocheetah/cheetahsupport.py:75-78). *)
Definition pair_eqb (a b : pystr * pystr) : bool := str_eqb (fst a) (fst b) && str_eqb (snd a) (snd b).
(** Goes with the definition above (Cheetah/Tools/turbocheetah/cheetahsupport.py:75-78). *)
Definition file_of (n ext : pystr) (s : tst) : option (N * pystr) :=
  match find (fun x => pair_eqb (fst x) (n, ext)) (t_files s) with Some x => Some (snd x) | None => None end.

(** [classname.rfind('.')] and what stands behind it; None: no period
    (Cheetah/Tools/turbocheetah/cheetahsupport.py:66-71). *)
Fixpoint base_name (s : pystr) : option pystr :=
  match s with
  | [] => None
  | c :: r => match base_name r with Some b => Some b | None => if (c =? 46)%N then Some r else None end
  end.

(** [ct[classname] = mtime] (Cheetah/Tools/turbocheetah/cheetahsupport.py:81, 88). *)
Definition note (i : nat) (n : pystr) (mt : N) (s : tst) : tst :=
  mkTS (t_files s) (t_mods s) (fun j => if Nat.eqb j i then aset n mt (t_ct s j) else t_ct s j).

(** [_recompile_template] (Cheetah/Tools/turbocheetah/cheetahsupport.py:11-24): it reads the file with the extension tmpl. *)
Definition recompile (E : tenv) (n base : pystr) (s : tst) : res terr tmod * tst :=
  match file_of n (L "tmpl") s with
  | None => (Raise EStat, s)
  | Some (_, t) =>
      match v_compile E t with
      | None => (Raise ECompile, s)
      | Some code => (Ok (TMade base code), mkTS (t_files s) (aset n (TMade base code) (t_mods s)) (t_ct s))
      end
  end.

(** [__import__(classname, dict(), dict(), [basename])] (Cheetah/Tools/turbocheetah/cheetahsupport.py:86, 92): what is in
    sys.modules is taken from there. *)
Definition py_import (E : tenv) (n : pystr) (s : tst) : res terr tmod * tst :=
  match aget n (t_mods s) with
  | Some m => (Ok m, s)
  | None => match v_import E n with
            | Some k => (Ok (TImp k), mkTS (t_files s) (aset n (TImp k) (t_mods s)) (t_ct s))
            | None => (Raise EImport, s)
            end
  end.

(** [getattr(mod, basename)] (Cheetah/Tools/turbocheetah/cheetahsupport.py:93-94). *)
Definition class_in (E : tenv) (base : pystr) (m : tmod) : res terr tcls :=
  match m with
  | TMade b code => if str_eqb b base then Ok (CTmpl code) else Raise EAttr
  | TImp k => if v_attr E k base then Ok (CAttr k base) else Raise EAttr
  end.

(** [load_template_module] of instance [i]; [ext]: its [extension]; [pre]: the option cheetah.precompiled
    (Cheetah/Tools/turbocheetah/cheetahsupport.py:62-94). *)
Definition load (E : tenv) (ext : pystr) (pre : bool) (i : nat) (n : pystr) (s : tst) : res terr tcls * tst :=
  match base_name n with
  | None => (Raise ENoPackage, s)
  | Some base =>
      let '(m, s) :=
        if pre then py_import E n s
        else match aget n (t_ct s i) with
             | Some old =>
                 match file_of n ext s with
                 | None => (Raise EStat, s)
                 | Some (mt, _) =>
                     if negb (old =? mt)%N then
                       let s := note i n mt s in
                       if ahas n (t_mods s) then recompile E n base (mkTS (t_files s) (adel n (t_mods s)) (t_ct s))
                       else (Raise EKey, s)
                     else py_import E n s
                 end
             | None =>
                 match file_of n ext s with
                 | None => (Raise EStat, s)
                 | Some (mt, _) => recompile E n base (note i n mt s)
                 end
             end in
      (match m with Ok m => class_in E base m | Raise e => Raise e end, s)
  end.

(** [load_template] (Cheetah/Tools/turbocheetah/cheetahsupport.py:38-60); an empty text counts as not given. *)
Definition given (a : pystr) : bool := match a with [] => false | _ => true end.
(** Goes with the definition above (Cheetah/Tools/turbocheetah/cheetahsupport.py:38-60). *)
Definition load_template (E : tenv) (ext : pystr) (pre : bool) (i : nat) (template str file : pystr) (s : tst) : res terr tcls * tst :=
  let k := length (filter given [template; str; file]) in
  if Nat.ltb 1 k then (Raise EMany, s)
  else if Nat.eqb k 0 then (Raise ENone, s)
  else if given template then load E ext pre i template s
  else (Raise ENotImplemented, s).
