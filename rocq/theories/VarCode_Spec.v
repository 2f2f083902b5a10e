(** What a placeholder name means: the source is a sequence of identifiers, each possibly followed by call
    arguments or a subscript; the meaning follows it from left to right.  Stated with the object system of
    the name mapper (NameMapper_Spec.v), without name chunks and without generated code. *)
From Verif Require Import Base PyStr Lex_Model Expr_Model Expr_Spec NameMapper_Model NameMapper_Spec.

(** An identifier and the code of what follows it in brackets (empty: nothing). *)
Definition seg := (pystr * pystr)%type.

(** An identifier. *)
Definition ident (s : pystr) : Prop := at_ident s = true /\ forallb namechar s = true.

(** The arguments or the subscript directly after an identifier. *)
Inductive trailer (X : lang) (um : bool) : pystr -> pystr -> pystr -> pystr -> pystr -> Prop :=
| tr_none b r : at_char 40 r = false -> at_char 91 r = false -> trailer X um b r [] b r
| tr_call n b r t b' r' : at_char 40 r = true -> callargs X n um [] b r = ok t b' r' -> trailer X um b r t b' r'
| tr_sub n b r t b' r' : at_char 91 r = true -> expr X n um true [] [] b r = ok t b' r' -> trailer X um b r t b' r'.

(** The source from a position on reads as a sequence of identifiers with trailers. *)
Inductive reads (X : lang) (um : bool) : pystr -> pystr -> list seg -> pystr -> pystr -> Prop :=
| rd_end b r : at_ident r = false -> (forall r1, r = 46%N :: r1 -> at_ident r1 = false) -> reads X um b r [] b r
| rd_name b id r1 t b2 r2 segs b' r' : ident id -> (forall c r, r1 = c :: r -> namechar c = false) ->
    trailer X um (rev id ++ b) r1 t b2 r2 -> reads X um b2 r2 segs b' r' ->
    reads X um b (id ++ r1) ((id, t) :: segs) b' r'
| rd_dot b id r1 t b2 r2 segs b' r' : ident id -> (forall c r, r1 = c :: r -> namechar c = false) ->
    trailer X um (rev id ++ 46%N :: b) r1 t b2 r2 -> reads X um b2 r2 segs b' r' ->
    reads X um b (46%N :: id ++ r1) ((id, t) :: segs) b' r'.

(** Autocalling is switched off where arguments are given. *)
Definition called (t : pystr) : bool := match t with c :: _ => (c =? 40)%N | [] => false end.

(** The source with plain Python attribute access: the text itself. *)
Definition plain_text (segs : list seg) : pystr := join (L ".") (map (fun p => fst p ++ snd p) segs).

Section Meaning.
Context {obj St : Type}.
Variable Y : psys obj St.
(** Python evaluating the bracketed code after a value; Python's own variables. *)
Variable trail : St -> obj -> pystr -> res nexn obj * St.
Variable pyvar : St -> pystr -> res nexn obj * St.
Variable auto : bool.

(** Following the identifiers from a value on. *)
Inductive follow : St -> obj -> list seg -> res nexn obj * St -> Prop :=
| fo_nil s o : follow s o [] (Ok o, s)
| fo_lookup s o id t segs e s' : walk Y (auto && negb (called t)) s o [id] (Raise e, s') ->
    follow s o ((id, t) :: segs) (Raise e, s')
| fo_plain s o id segs v s1 x : walk Y auto s o [id] (Ok v, s1) -> follow s1 v segs x ->
    follow s o ((id, []) :: segs) x
| fo_trail s o id t segs v s1 e s2 : walk Y (auto && negb (called t)) s o [id] (Ok v, s1) -> t <> [] ->
    trail s1 v t = (Raise e, s2) -> follow s o ((id, t) :: segs) (Raise e, s2)
| fo_step s o id t segs v s1 v2 s2 x : walk Y (auto && negb (called t)) s o [id] (Ok v, s1) -> t <> [] ->
    trail s1 v t = (Ok v2, s2) -> follow s2 v2 segs x -> follow s o ((id, t) :: segs) x.

(** The whole name: the first namespace that has the first identifier. *)
Inductive meaning (nss : list obj) (s : St) : list seg -> res nexn obj * St -> Prop :=
| me_found pre ns post id t segs x : nss = pre ++ ns :: post -> Forall (fun n => lacks Y s n id) pre ->
    has Y s ns id -> follow s ns ((id, t) :: segs) x -> meaning nss s ((id, t) :: segs) x
| me_none id t segs : Forall (fun n => lacks Y s n id) nss ->
    meaning nss s ((id, t) :: segs) (Raise (NotFound id), s)
| me_error pre ns post id t segs e : nss = pre ++ ns :: post -> Forall (fun n => lacks Y s n id) pre ->
    ~ in_mapping Y s ns id -> getattr Y s ns id = Raise e -> e <> AttributeError ->
    meaning nss s ((id, t) :: segs) (Raise e, s).

(** With useSearchList switched off the first identifier is a Python variable, which is never called by
    itself. *)
Inductive meaning_local (s : St) : list seg -> res nexn obj * St -> Prop :=
| ml_var id t segs e s1 : pyvar s id = (Raise e, s1) -> meaning_local s ((id, t) :: segs) (Raise e, s1)
| ml_plain id segs v s1 x : pyvar s id = (Ok v, s1) -> follow s1 v segs x -> meaning_local s ((id, []) :: segs) x
| ml_trail id t segs v s1 e s2 : pyvar s id = (Ok v, s1) -> t <> [] -> trail s1 v t = (Raise e, s2) ->
    meaning_local s ((id, t) :: segs) (Raise e, s2)
| ml_step id t segs v s1 v2 s2 x : pyvar s id = (Ok v, s1) -> t <> [] -> trail s1 v t = (Ok v2, s2) ->
    follow s2 v2 segs x -> meaning_local s ((id, t) :: segs) x.
End Meaning.

(** ** Generated code and its evaluation *)

(** The shapes of the generated code (Cheetah/Compiler.py:276-308): a Python variable, the two search
    functions, VFN, and code followed by brackets. *)
Inductive vcode :=
| KVar (nm : pystr)
| KFrames (nm : pystr) (flag : bool)
| KSearch (nm : pystr) (flag : bool)
| KVfn (k : vcode) (nm : pystr) (flag : bool)
| KTrail (k : vcode) (t : pystr).

(** Its text. *)
Fixpoint show (k : vcode) : pystr :=
  match k with
  | KVar nm => nm
  | KFrames nm f => L "VFFSL(SL," ++ [34%N] ++ nm ++ [34%N] ++ L "," ++ show_bool f ++ L ")"
  | KSearch nm f => L "VFSL([locals()]+SL+[globals(), builtin]," ++ [34%N] ++ nm ++ [34%N] ++ L "," ++ show_bool f ++ L ")"
  | KVfn k nm f => L "VFN(" ++ show k ++ L "," ++ [34%N] ++ nm ++ [34%N] ++ L "," ++ show_bool f ++ L ")"
  | KTrail k t => show k ++ t
  end.

(** Its value: VFN is valueForName, VFFSL is valueFromFrameOrSearchList, VFSL is valueFromSearchList. *)
Section Eval.
Context {obj St : Type}.
Variable Y : psys obj St.
Variable trail : St -> obj -> pystr -> res nexn obj * St.
Variable pyvar : St -> pystr -> res nexn obj * St.
Variable locals globals builtins : obj.
Variable sl : list obj.

Fixpoint eval (s : St) (k : vcode) : res nexn obj * St :=
  match k with
  | KVar nm => pyvar s nm
  | KFrames nm f => valueFromFrameOrSearchList Y s locals globals builtins (Some sl) nm f
  | KSearch nm f => valueFromSearchList Y s ([locals] ++ sl ++ [globals; builtins]) nm f
  | KVfn k nm f => match eval s k with (Ok o, s1) => valueForName Y s1 o nm f | (Raise e, s1) => (Raise e, s1) end
  | KTrail k [] => eval s k
  | KTrail k t => match eval s k with (Ok o, s1) => trail s1 o t | (Raise e, s1) => (Raise e, s1) end
  end.
End Eval.
