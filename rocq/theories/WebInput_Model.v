(** Model of webInput field lookup: Cheetah/Utils/WebInputMixin.py, Cheetah/Utils/Misc.py
    (useOrRaise) and the body of Template.webInput. *)
From Verif Require Export PyStr Alist.

(** Exceptions met by the lookup: TypeError and ValueError are caught around the converter
    (Cheetah/Utils/WebInputMixin.py:76); [OtherError n] stands for any other class. *)
Inductive wexn := TypeError | ValueError | RuntimeError | OtherError (n : nat).

(** What a field source returns: None, a string or a list of strings
    (Cheetah/Utils/WebInputMixin.py:52). *)
Inductive fval := FNone | FStr (s : pystr) | FList (l : list pystr).

(** Python truth of such a value, for the [or] at Cheetah/Utils/WebInputMixin.py:49. *)
Definition truthy (v : fval) : bool :=
  match v with
  | FNone => false
  | FStr s => match s with [] => false | _ => true end
  | FList l => match l with [] => false | _ => true end
  end.

(** [name.find(':')] together with the two slices (Cheetah/Utils/WebInputMixin.py:39-45);
    [None] when there is no colon. *)
Fixpoint split_colon (s : pystr) : option (pystr * pystr) :=
  match s with
  | [] => None
  | c :: r => if (c =? 58)%N then Some ([], r)
              else match split_colon r with Some (a, b) => Some (c :: a, b) | None => None end
  end.

Section WebInput.
(** The type of delivered values (strings, ints, floats, defaults) and the inclusion of strings
    in it (Cheetah/Utils/WebInputMixin.py:81). *)
Context {V : Type}.
Variable str_val : pystr -> V.

(** A default or error setting: a value to use or an exception class to raise
    (Cheetah/Utils/WebInputMixin.py:19-20). *)
Inductive thing := Use (v : V) | RaiseClass (e : wexn).

(** [useOrRaise] (Cheetah/Utils/Misc.py:16-23). *)
Definition useOrRaise (t : thing) : res wexn V :=
  match t with Use v => Ok v | RaiseClass e => Raise e end.

(** [_Converter] without its name, which only appears in messages
    (Cheetah/Utils/WebInputMixin.py:15-26). *)
Record converter := mkConv {
  cv_func : option (pystr -> res wexn V);
  cv_default : thing;
  cv_error : thing }.

(** Step 5: the loop over the elements (Cheetah/Utils/WebInputMixin.py:70-80). *)
Fixpoint convert_all (f : pystr -> res wexn V) (err : thing) (l : list pystr)
  : res wexn (list V) :=
  match l with
  | [] => Ok []
  | x :: r =>
      match (match f x with
             | Raise TypeError | Raise ValueError => useOrRaise err
             | y => y
             end) with
      | Raise e => Raise e
      | Ok v => match convert_all f err r with Ok vs => Ok (v :: vs) | Raise e => Raise e end
      end
  end.

(** The two shapes of a result: one value or a list (Cheetah/Utils/WebInputMixin.py:87-91). *)
Inductive wout := Single (v : V) | Multi (l : list V).

(** [_lookup(name, func, multi, converters)] (Cheetah/Utils/WebInputMixin.py:29-91). *)
Definition lookup (name : pystr) (func : pystr -> fval) (multi : bool)
  (converters : list (pystr * converter)) : res wexn (pystr * wout) :=
  let '(longName, shortName, ext) :=
    match split_colon name with
    | Some (a, b) => (name, a, b)
    | None => (name, name, [])
    end in
  let values :=
    if negb (str_eqb longName shortName)
    then (if truthy (func longName) then func longName else func shortName)
    else func shortName in
  let values := match values with FNone => [] | FStr s => [s] | FList l => l end in
  match aget ext converters with
  | None => Raise TypeError
  | Some c =>
      match (match cv_func c with
             | Some f => convert_all f (cv_error c) values
             | None => Ok (map str_val values)
             end) with
      | Raise e => Raise e
      | Ok values =>
          if multi then Ok (shortName, Multi values)
          else match values with
               | [] => match useOrRaise (cv_default c) with
                       | Ok v => Ok (shortName, Single v)
                       | Raise e => Raise e
                       end
               | v :: _ => Ok (shortName, Single v)
               end
      end
  end.

(** The two loops that fill the dictionary (Cheetah/Template.py:1959-1965). *)
Fixpoint fill_dic (func : pystr -> fval) (cs : list (pystr * converter))
  (reqs : list (pystr * bool)) (dic : list (pystr * wout)) : res wexn (list (pystr * wout)) :=
  match reqs with
  | [] => Ok dic
  | (name, multi) :: r =>
      match lookup name func multi cs with
      | Raise e => Raise e
      | Ok (k, v) => fill_dic func cs r (aset k v dic)
      end
  end.

(** Which source [src] selects (Cheetah/Template.py:1922-1952). *)
Inductive source := SField | SCookie | SValue | SSession.
(** Goes with the definition above (Cheetah/Template.py:1922-1952). *)
Definition select_source (isCgi : bool) (src : pystr) : res wexn source :=
  let is c := str_eqb src (L c) in
  if isCgi && (is "f"%string || is "v"%string) then Ok SField
  else if isCgi && is "c"%string then Raise RuntimeError
  else if isCgi && is "s"%string then Raise RuntimeError
  else if is "f"%string then Ok SField
  else if is "c"%string then Ok SCookie
  else if is "v"%string then Ok SValue
  else if is "s"%string then Ok SSession
  else Raise TypeError.

(** [webInput] after the source is chosen: the new search list and the result; on an exception
    the search list is untouched (Cheetah/Template.py:1953-1975; [debug] printing left out). *)
Definition webInput (func : pystr -> fval) (cs : list (pystr * converter))
  (names namesMulti : list pystr) (searchList : list (list (pystr * wout)))
  : res wexn (list (pystr * wout)) * list (list (pystr * wout)) :=
  match fill_dic func cs
          (map (fun n => (n, false)) names ++ map (fun n => (n, true)) namesMulti) [] with
  | Raise e => (Raise e, searchList)
  | Ok dic => (Ok dic, dic :: searchList)
  end.
End WebInput.
Arguments thing V : clear implicits.
Arguments converter V : clear implicits.
Arguments wout V : clear implicits.
