(** Model of Cheetah/NameMapper.py:177-338 (the pure Python name mapper), of the C version
    Cheetah/c/_namemapper.c, and of [Template.getVar]/[varExists] (Cheetah/Template.py:1443-1466). *)
From Verif Require Import PyStr.

(** Exceptions (Cheetah/NameMapper.py:181, 236; Cheetah/c/_namemapper.c:122, 290).  [NotFound] carries
    the key of the message; [Other] is any further exception. *)
Inductive nexn := AttributeError | NotFound (key : pystr) | TooManyPeriods | ValueError | Other (n : N).

(** The Python object system, given from outside.  [St] is everything calls may change.  Simplified:
    reading a key or an attribute may raise but changes nothing. *)
Record psys (obj St : Type) := mkSys {
  ismap : obj -> bool;                         (* isinstance(obj, Mapping), NameMapper.py:219 *)
  contains : St -> obj -> pystr -> bool;        (* key in obj, NameMapper.py:219 *)
  getitem : St -> obj -> pystr -> res nexn obj; (* obj[key], NameMapper.py:231 *)
  getattr : St -> obj -> pystr -> res nexn obj; (* getattr(obj, key), NameMapper.py:234 *)
  iscallable : obj -> bool;                     (* callable(obj), NameMapper.py:238 *)
  istype : obj -> bool;                         (* isinstance(obj, type), NameMapper.py:198 *)
  call0 : St -> obj -> res nexn obj * St;       (* obj(), NameMapper.py:240 *)
  cmap : obj -> bool;                           (* PyMapping_Check, _namemapper.c:142 *)
  tname : obj -> pystr                          (* ob_type->tp_name, _namemapper.c:92 *)
}.
Arguments ismap {obj St}. Arguments contains {obj St}. Arguments getitem {obj St}.
Arguments getattr {obj St}. Arguments iscallable {obj St}. Arguments istype {obj St}.
Arguments call0 {obj St}. Arguments cmap {obj St}. Arguments tname {obj St}.

Section NM.
Context {obj St : Type}.
Variable Y : psys obj St.

(** ** The Python version *)

(** Built-in [hasattr] (Cheetah/NameMapper.py:202, 221): only AttributeError means False. *)
Definition hasattr (s : St) (o : obj) (k : pystr) : res nexn bool :=
  match getattr Y s o k with
  | Ok _ => Ok true
  | Raise AttributeError => Ok false
  | Raise e => Raise e
  end.

(** [a or b] with exceptions (Cheetah/NameMapper.py:208-209). *)
Definition orb_res (a b : res nexn bool) : res nexn bool :=
  match a with Ok false => b | x => x end.

(** [_isInstanceOrClass] (Cheetah/NameMapper.py:197-214). *)
Definition isInstanceOrClass (s : St) (o : obj) : res nexn bool :=
  if istype Y o then Ok true
  else match hasattr s o (L "__class__") with
  | Ok true =>
      match hasattr s o (L "mro") with
      | Ok true => Ok true
      | Ok false =>
          match orb_res (hasattr s o (L "__func__"))
                  (orb_res (hasattr s o (L "__code__")) (hasattr s o (L "__self__"))) with
          | Ok true => Ok false
          | Ok false => hasattr s o (L "__init__")
          | Raise e => Raise e
          end
      | Raise e => Raise e
      end
  | x => x
  end.

(** [hasKey] (Cheetah/NameMapper.py:217-224). *)
Definition hasKey (s : St) (o : obj) (k : pystr) : res nexn bool :=
  if ismap Y o && contains Y s o k then Ok true else hasattr s o k.

(** One turn of the loop of [_valueForName]: the lookup (Cheetah/NameMapper.py:230-236). *)
Definition nextObj (s : St) (o : obj) (k : pystr) : res nexn obj :=
  if ismap Y o && contains Y s o k then getitem Y s o k
  else match getattr Y s o k with
       | Raise AttributeError => Raise (NotFound k)
       | x => x
       end.

(** The auto-calling step (Cheetah/NameMapper.py:238-242). *)
Definition autocall (s : St) (ac : bool) (o : obj) : res nexn obj * St :=
  if ac && iscallable Y o then
    match isInstanceOrClass s o with
    | Ok false => call0 Y s o
    | Ok true => (Ok o, s)
    | Raise e => (Raise e, s)
    end
  else (Ok o, s).

(** The loop of [_valueForName] (Cheetah/NameMapper.py:229-243). *)
Fixpoint valueForChunks (s : St) (o : obj) (chunks : list pystr) (ac : bool) : res nexn obj * St :=
  match chunks with
  | [] => (Ok o, s)
  | k :: r =>
      match nextObj s o k with
      | Raise e => (Raise e, s)
      | Ok o1 =>
          match autocall s ac o1 with
          | (Ok o2, s2) => valueForChunks s2 o2 r ac
          | (Raise e, s2) => (Raise e, s2)
          end
      end
  end.

(** [name.split('.')] (Cheetah/NameMapper.py:228). *)
Definition chunks_of (name : pystr) : list pystr := split_char 46 name.

(** [_valueForName]/[valueForName] (Cheetah/NameMapper.py:227-243, 286-290; the rewording of the
    message is not modelled). *)
Definition valueForName (s : St) (o : obj) (name : pystr) (ac : bool) : res nexn obj * St :=
  valueForChunks s o (chunks_of name) ac.

(** [valueForKey] (Cheetah/NameMapper.py:278-284). *)
Definition valueForKey (s : St) (o : obj) (k : pystr) : res nexn obj :=
  if ismap Y o && contains Y s o k then getitem Y s o k
  else match hasattr s o k with
       | Ok true => getattr Y s o k
       | Ok false => Raise (NotFound k)
       | Raise e => Raise e
       end.

(** The loop over namespaces (Cheetah/NameMapper.py:294-298, 333-336). *)
Fixpoint searchLoop (s : St) (nss : list obj) (key name : pystr) (ac : bool) : res nexn obj * St :=
  match nss with
  | [] => (Raise (NotFound key), s)
  | ns :: r =>
      match hasKey s ns key with
      | Ok true => valueForName s ns name ac
      | Ok false => searchLoop s r key name ac
      | Raise e => (Raise e, s)
      end
  end.

(** [valueFromSearchList] (Cheetah/NameMapper.py:292-298). *)
Definition valueFromSearchList (s : St) (sl : list obj) (name : pystr) (ac : bool) :=
  searchLoop s sl (hd [] (chunks_of name)) name ac.

(** [_namespaces] (Cheetah/NameMapper.py:246-252). *)
Definition namespaces (locals globals builtins : obj) (sl : option (list obj)) : list obj :=
  [locals] ++ match sl with Some l => l | None => [] end ++ [globals; builtins].

(** [valueFromFrameOrSearchList] (Cheetah/NameMapper.py:313-334). *)
Definition valueFromFrameOrSearchList (s : St) (locals globals builtins : obj)
    (sl : option (list obj)) (name : pystr) (ac : bool) :=
  searchLoop s (namespaces locals globals builtins sl) (hd [] (chunks_of name)) name ac.

(** [valueFromFrame] (Cheetah/NameMapper.py:300-311). *)
Definition valueFromFrame (s : St) (locals globals builtins : obj) (name : pystr) (ac : bool) :=
  valueFromFrameOrSearchList s locals globals builtins None name ac.

(** [hasName] (Cheetah/NameMapper.py:255-265). *)
Definition hasName (s : St) (o : obj) (name : pystr) : res nexn bool * St :=
  match hasKey s o (hd [] (chunks_of name)) with
  | Raise e => (Raise e, s)
  | Ok false => (Ok false, s)
  | Ok true =>
      match valueForName s o name false with
      | (Ok _, s') => (Ok true, s')
      | (Raise (NotFound _), s') => (Ok false, s')
      | (Raise e, s') => (Raise e, s')
      end
  end.

(** [varName.replace('$', '')] (Cheetah/Template.py:1451, 1463). *)
Definition strip_dollar (name : pystr) : pystr := replace_char 36 [] name.

(** [getVar] (Cheetah/Template.py:1443-1456); [None]: no default given. *)
Definition getVar (s : St) (sl : list obj) (name : pystr) (default : option obj) (ac : bool) :=
  match valueFromSearchList s sl (strip_dollar name) ac with
  | (Raise (NotFound k), s') =>
      match default with Some d => (Ok d, s') | None => (Raise (NotFound k), s') end
  | x => x
  end.

(** [varExists] (Cheetah/Template.py:1458-1466). *)
Definition varExists (s : St) (sl : list obj) (name : pystr) (ac : bool) : res nexn bool * St :=
  match valueFromSearchList s sl (strip_dollar name) ac with
  | (Ok _, s') => (Ok true, s')
  | (Raise (NotFound _), s') => (Ok false, s')
  | (Raise e, s') => (Raise e, s')
  end.

(** ** The C version (for Python before 3.13; names without NUL characters) *)

(** [getNameChunks] (Cheetah/c/_namemapper.c:112-137): [cur] is the current chunk reversed, [n]
    [currChunkNum]; None: TooManyPeriods.  MAXCHUNKS is 15 (Cheetah/c/_namemapper.h:51). *)
Fixpoint c_chunks (n : nat) (cur : pystr) (name : pystr) : option (list pystr) :=
  match name with
  | [] => Some (match cur with [] => [] | _ => [rev cur] end)
  | c :: r =>
      if (c =? 46)%N then
        if 13 <=? n then None
        else match c_chunks (S n) [] r with
             | Some l => Some (rev cur :: l)
             | None => None
             end
      else c_chunks n (c :: cur) r
  end.

(** [PyObject_HasAttrString] (Cheetah/c/_namemapper.c:83, 144): every exception means no. *)
Definition c_hasattr (s : St) (o : obj) (k : pystr) : bool :=
  match getattr Y s o k with Ok _ => true | Raise _ => false end.

(** [PyMapping_Check(obj) && PyMapping_HasKeyString(obj, key)] (Cheetah/c/_namemapper.c:142). *)
Definition c_hasitem (s : St) (o : obj) (k : pystr) : bool :=
  cmap Y o && match getitem Y s o k with Ok _ => true | Raise _ => false end.

(** [isInstanceOrClass] (Cheetah/c/_namemapper.c:75-109). *)
Definition c_isInstanceOrClass (s : St) (o : obj) : bool :=
  if negb (c_hasattr s o (L "__class__")) then false
  else if istype Y o || c_hasattr s o (L "mro") then true
  else if str_eqb (tname Y o) (L "function") then false
  else if c_hasattr s o (L "__func__") || c_hasattr s o (L "__code__") || c_hasattr s o (L "__self__")
       then false
  else negb (c_hasattr s o (L "mro")) && c_hasattr s o (L "__init__").

(** [PyNamemapper_hasKey] (Cheetah/c/_namemapper.c:140-148). *)
Definition c_hasKey (s : St) (o : obj) (k : pystr) : bool := c_hasitem s o k || c_hasattr s o k.

(** The lookup of one turn of [PyNamemapper_valueForName] (Cheetah/c/_namemapper.c:188-229). *)
Definition c_nextVal (s : St) (o : obj) (k : pystr) : res nexn obj :=
  if c_hasitem s o k then getitem Y s o k
  else match getattr Y s o k with
       | Raise AttributeError => Raise (NotFound k)
       | x => x
       end.

(** The auto-calling step (Cheetah/c/_namemapper.c:234-243). *)
Definition c_autocall (s : St) (ac : bool) (o : obj) : res nexn obj * St :=
  if ac && iscallable Y o && negb (c_isInstanceOrClass s o) then call0 Y s o else (Ok o, s).

(** [PyNamemapper_valueForName] (Cheetah/c/_namemapper.c:165-247). *)
Fixpoint c_valueForChunks (s : St) (o : obj) (chunks : list pystr) (ac : bool) : res nexn obj * St :=
  match chunks with
  | [] => (Ok o, s)
  | k :: r =>
      match c_nextVal s o k with
      | Raise e => (Raise e, s)
      | Ok o1 =>
          match c_autocall s ac o1 with
          | (Ok o2, s2) => c_valueForChunks s2 o2 r ac
          | (Raise e, s2) => (Raise e, s2)
          end
      end
  end.

(** Splitting and the emptiness check shared by the entry points
    (Cheetah/c/_namemapper.h:53-63, Cheetah/c/_namemapper.c:289, 326, 386). *)
Definition c_with_chunks (s : St) (name : pystr) (f : list pystr -> res nexn obj * St)
  : res nexn obj * St :=
  match c_chunks 0 [] name with
  | None => (Raise TooManyPeriods, s)
  | Some [] => (Raise ValueError, s)
  | Some l => f l
  end.

(** [namemapper_valueForName] (Cheetah/c/_namemapper.c:267-300). *)
Definition c_valueForName (s : St) (o : obj) (name : pystr) (ac : bool) :=
  c_with_chunks s name (fun l => c_valueForChunks s o l ac).

(** The loop over namespaces (Cheetah/c/_namemapper.c:337-350, Cheetah/c/_namemapper.h:65-76). *)
Fixpoint c_searchLoop (s : St) (nss : list obj) (chunks : list pystr) (ac : bool)
  : res nexn obj * St :=
  match nss with
  | [] => (Raise (NotFound (hd [] chunks)), s)
  | ns :: r =>
      if c_hasKey s ns (hd [] chunks) then c_valueForChunks s ns chunks ac
      else c_searchLoop s r chunks ac
  end.

(** [namemapper_valueFromSearchList] (Cheetah/c/_namemapper.c:302-356). *)
Definition c_valueFromSearchList (s : St) (sl : list obj) (name : pystr) (ac : bool) :=
  c_with_chunks s name (fun l => c_searchLoop s sl l ac).

(** [namemapper_valueFromFrameOrSearchList] (Cheetah/c/_namemapper.c:358-426): the four stages. *)
Definition c_valueFromFrameOrSearchList (s : St) (locals globals builtins : obj) (sl : list obj)
    (name : pystr) (ac : bool) :=
  c_with_chunks s name (fun l =>
    if c_hasKey s locals (hd [] l) then c_valueForChunks s locals l ac
    else
      (fix go (nss : list obj) :=
         match nss with
         | ns :: r => if c_hasKey s ns (hd [] l) then c_valueForChunks s ns l ac else go r
         | [] =>
             if c_hasKey s globals (hd [] l) then c_valueForChunks s globals l ac
             else if c_hasKey s builtins (hd [] l) then c_valueForChunks s builtins l ac
             else (Raise (NotFound (hd [] l)), s)
         end) sl).
End NM.
