(** Specification of Python's parameter lists and calls, and of the straight-line code that Cheetah puts
    around the body of a method. *)
From Verif Require Import Base PyStr.

(** ** Parameter lists *)

(** A parameter: a name with perhaps a default value (its code); [*name]; [**name]. *)
Inductive par := PPlain (n : pystr) (dflt : option pystr) | PStar (n : pystr) | PDStar (n : pystr).

Definition par_name (p : par) : pystr := match p with PPlain n _ => n | PStar n => n | PDStar n => n end.

(** A name: not empty, no star and no white space in it. *)
Definition pname (n : pystr) : bool :=
  match n with [] => false | _ => forallb (fun c => negb (N.eqb c 42) && negb (is_space c)) n end.

(** How Python reads one parameter, given as the text in front of the [=] and the text behind it. *)
Definition named (n : pystr) (p : par) : option par := if pname n then Some p else None.
Definition read_par (a : pystr * option pystr) : option par :=
  let '(n, d) := a in
  if starts_with (L "**") n then
    match d with None => named (skipn 2 n) (PDStar (skipn 2 n)) | Some _ => None end
  else if starts_with (L "*") n then
    match d with None => named (skipn 1 n) (PStar (skipn 1 n)) | Some _ => None end
  else named n (PPlain n d).
Fixpoint read_pars (l : list (pystr * option pystr)) : option (list par) :=
  match l with
  | [] => Some []
  | a :: r => match read_par a, read_pars r with Some p, Some ps => Some (p :: ps) | _, _ => None end
  end.

(** The order Python asks for: parameters without a default value in front of those with one, until the one
    that takes the remaining positional arguments; the one that takes the remaining keywords is the last. *)
Fixpoint ordered (dflt star : bool) (ps : list par) : bool :=
  match ps with
  | [] => true
  | PPlain _ d :: r =>
      match d with
      | Some _ => ordered true star r
      | None => (star || negb dflt) && ordered dflt star r
      end
  | PStar _ :: r => negb star && ordered dflt true r
  | PDStar _ :: r => match r with [] => true | _ => false end
  end.
Definition valid (ps : list par) : Prop := NoDup (map par_name ps) /\ ordered false false ps = true.

(** ** Calls *)

Section Call.
Context {V : Type}.

(** What a parameter is bound to: an argument, the default value, the remaining positional arguments, the
    remaining keyword arguments. *)
Inductive bval := BVal (v : V) | BDflt (d : pystr) | BTup (l : list V) | BDict (l : list (pystr * V)).

Fixpoint kw_get (n : pystr) (kws : list (pystr * V)) : option V :=
  match kws with
  | [] => None
  | (k, v) :: r => if str_eqb k n then Some v else kw_get n r
  end.
Definition kw_del (n : pystr) (kws : list (pystr * V)) : list (pystr * V) :=
  filter (fun kv => negb (str_eqb (fst kv) n)) kws.

(** The bindings made by a call with the positional arguments [pos] and the keyword arguments [kws]; [None]:
    [TypeError]. *)
Fixpoint bind (ps : list par) (pos : list V) (kws : list (pystr * V)) : option (list (pystr * bval)) :=
  match ps with
  | [] => match pos, kws with [], [] => Some [] | _, _ => None end
  | PPlain n d :: r =>
      match pos with
      | v :: pos =>
          match kw_get n kws with
          | Some _ => None                                       (* multiple values for an argument *)
          | None => option_map (cons (n, BVal v)) (bind r pos kws)
          end
      | [] =>
          match kw_get n kws, d with
          | Some v, _ => option_map (cons (n, BVal v)) (bind r [] (kw_del n kws))
          | None, Some d => option_map (cons (n, BDflt d)) (bind r [] kws)
          | None, None => None                                   (* missing argument *)
          end
      end
  | PStar n :: r => option_map (cons (n, BTup pos)) (bind r [] kws)
  | PDStar n :: _ => match pos with [] => Some [(n, BDict kws)] | _ => None end
  end.
End Call.
Arguments bval : clear implicits.

(** ** Straight-line code *)

Inductive ex :=
| EName (n : pystr) | EBool (b : bool) | EStr (s : pystr)
| EAttr (e : ex) (a : pystr) | ECall0 (e : ex) | ECall1 (e x : ex)
| ENot (e : ex) | EAnd (a b : ex) | EOr (a b : ex) | EPar (e : ex) | EList1 (e : ex)
| ELam (params body : pystr).                        (* a function that is not called here *)

Inductive stm :=
| SSet (n : pystr) (e : ex)                          (* n = e *)
| SSetNote (n : pystr) (e : ex) (note : pystr)       (* n = e # note *)
| SAttr (o a : pystr) (e : ex)                       (* o.a = e *)
| SIf (c : ex) (body : list stm)
| SIfElse (c : ex) (body : list stm) (n : pystr) (e : ex)  (* if c: body else: n = e *)
| SReturn (e : ex)
| SNote (s : pystr).                                 (* an empty line or a comment *)

Fixpoint ex_src (e : ex) : pystr :=
  match e with
  | EName n => n
  | EBool true => L "True" | EBool false => L "False"
  | EStr s => L """" ++ s ++ L """"
  | EAttr e a => ex_src e ++ L "." ++ a
  | ECall0 e => ex_src e ++ L "()"
  | ECall1 e x => ex_src e ++ L "(" ++ ex_src x ++ L ")"
  | ENot e => L "not " ++ ex_src e
  | EAnd a b => ex_src a ++ L " and " ++ ex_src b
  | EOr a b => ex_src a ++ L " or " ++ ex_src b
  | EPar e => L "(" ++ ex_src e ++ L ")"
  | EList1 e => L "[" ++ ex_src e ++ L "]"
  | ELam p b => L "lambda " ++ p ++ L ": " ++ b
  end.
Fixpoint stm_src (s : stm) : list (nat * pystr) :=
  let block b := map (fun l => (S (fst l), snd l)) (flat_map stm_src b) in
  match s with
  | SSet n e => [(0, n ++ L " = " ++ ex_src e)]
  | SSetNote n e note => [(0, n ++ L " = " ++ ex_src e ++ L " # " ++ note)]
  | SAttr o a e => [(0, o ++ L "." ++ a ++ L " = " ++ ex_src e)]
  | SIf c b => (0, L "if " ++ ex_src c ++ L ":") :: block b
  | SIfElse c b n e => (0, L "if " ++ ex_src c ++ L ":") :: block b
                       ++ [(0, L "else: " ++ n ++ L " = " ++ ex_src e)]
  | SReturn e => [(0, L "return " ++ ex_src e)]
  | SNote t => [(0, t)]
  end.

(** A line that Python skips. *)
Definition is_note (t : pystr) : bool :=
  match t with [] => true | c :: r => N.eqb c 35 && forallb (fun c => negb (N.eqb c 10)) r end.

(** Values: [VAny] are objects of the user; [VTx n] the [n]-th transaction made here; [VMeth v m] the method
    [m] of [v]; [VResp v] the response of a transaction. *)
Inductive val :=
| VNone | VBool (b : bool) | VStr (s : pystr) | VAny (id : nat) (truth call : bool)
| VTx (n : nat) | VResp (v : val) | VMeth (v : val) (m : pystr)
| VSelf | VGlob (n : pystr) | VLam | VList (l : list val) | VDict (l : list (pystr * val)).

Definition truth (v : val) : bool :=
  match v with
  | VNone => false | VBool b => b | VStr [] => false | VAny _ t _ => t
  | VList [] => false | VDict [] => false | _ => true
  end.
Definition callable (v : val) : bool :=
  match v with VAny _ _ c => c | VMeth _ _ | VGlob _ | VLam => true | _ => false end.

Section Run.
Variable out : val -> pystr.                         (* what was written to a response *)

(** The attributes of [self] that matter, how many transactions were made, the local names. *)
Record state := mkState { s_attrs : list (pystr * val); s_made : nat; s_env : list (pystr * val) }.

Definition globals : list pystr := [L "DummyTransaction"; L "callable"; L "unicode"].

Definition name_of (s : state) (n : pystr) : option val :=
  match kw_get n (s_env s) with
  | Some v => Some v
  | None => if existsb (str_eqb n) globals then Some (VGlob n) else None          (* or NameError *)
  end.

Definition attr_of (s : state) (v : val) (a : pystr) : option val :=
  match v with
  | VSelf => kw_get a (s_attrs s)
  | VDict _ => if str_eqb a (L "get") then Some (VMeth v a) else None
  | VAny _ _ _ | VTx _ => if str_eqb a (L "response") then Some (VMeth v a) else None
  | VResp _ => if str_eqb a (L "write") || str_eqb a (L "getvalue") then Some (VMeth v a) else None
  | _ => None
  end.

Definition call (s : state) (f : val) (x : option val) : option (val * state) :=
  match f, x with
  | VGlob n, None => if str_eqb n (L "DummyTransaction")
                     then Some (VTx (s_made s), mkState (s_attrs s) (S (s_made s)) (s_env s)) else None
  | VGlob n, Some v => if str_eqb n (L "callable") then Some (VBool (callable v), s) else None
  | VMeth v m, None => if str_eqb m (L "response") then Some (VResp v, s)
                       else if str_eqb m (L "getvalue") then match v with VResp t => Some (VStr (out t), s)
                                                              | _ => None end
                       else None
  | VMeth (VDict l) m, Some (VStr k) =>
      if str_eqb m (L "get") then Some (match kw_get k l with Some v => v | None => VNone end, s) else None
  | _, _ => None
  end.

(** Evaluation, left to right; [None] is an exception. *)
Fixpoint eval (s : state) (e : ex) : option (val * state) :=
  match e with
  | EName n => option_map (fun v => (v, s)) (name_of s n)
  | EBool b => Some (VBool b, s)
  | EStr t => Some (VStr t, s)
  | EAttr e a => match eval s e with
                 | Some (v, s) => option_map (fun v => (v, s)) (attr_of s v a)
                 | None => None
                 end
  | ECall0 e => match eval s e with Some (v, s) => call s v None | None => None end
  | ECall1 e x => match eval s e with
                  | Some (f, s) => match eval s x with Some (v, s) => call s f (Some v) | None => None end
                  | None => None
                  end
  | ENot e => match eval s e with Some (v, s) => Some (VBool (negb (truth v)), s) | None => None end
  | EAnd a b => match eval s a with
                | Some (v, s) => if truth v then eval s b else Some (v, s)
                | None => None
                end
  | EOr a b => match eval s a with
               | Some (v, s) => if truth v then Some (v, s) else eval s b
               | None => None
               end
  | EPar e => eval s e
  | EList1 e => match eval s e with Some (v, s) => Some (VList [v], s) | None => None end
  | ELam _ _ => Some (VLam, s)
  end.

Definition set_name (n : pystr) (v : val) (s : state) : state :=
  mkState (s_attrs s) (s_made s) ((n, v) :: s_env s).

(** Execution; a value: a [return]. *)
Definition exec_list (ex1 : state -> stm -> option (state * option val)) :=
  fix go (s : state) (l : list stm) : option (state * option val) :=
    match l with
    | [] => Some (s, None)
    | x :: l => match ex1 s x with
                | Some (s, None) => go s l
                | r => r
                end
    end.
Fixpoint exec (s : state) (x : stm) {struct x} : option (state * option val) :=
  match x with
  | SSet n e | SSetNote n e _ =>
      match eval s e with Some (v, s) => Some (set_name n v s, None) | None => None end
  | SAttr o a e =>
      match eval s e, name_of s o with
      | Some (v, s), Some VSelf => Some (mkState ((a, v) :: s_attrs s) (s_made s) (s_env s), None)
      | _, _ => None
      end
  | SIf c b => match eval s c with
               | Some (v, s) => if truth v then exec_list exec s b else Some (s, None)
               | None => None
               end
  | SIfElse c b n e =>
      match eval s c with
      | Some (v, s) => if truth v then exec_list exec s b
                       else match eval s e with Some (v, s) => Some (set_name n v s, None) | None => None end
      | None => None
      end
  | SReturn e => match eval s e with Some (v, s) => Some (s, Some v) | None => None end
  | SNote t => if is_note t then Some (s, None) else None
  end.
Definition run (s : state) (l : list stm) : option (state * option val) := exec_list exec s l.
End Run.

(** The values of bound parameters: [dv] evaluates the default values. *)
Definition bval_val (dv : pystr -> val) (b : bval val) : val :=
  match b with BVal v => v | BDflt d => dv d | BTup l => VList l | BDict l => VDict l end.
Definition env_of (dv : pystr -> val) (l : list (pystr * bval val)) : list (pystr * val) :=
  map (fun kv => (fst kv, bval_val dv (snd kv))) l.

(** Names a template cannot give to its arguments without getting in the way of the generated code. *)
Definition reserved : list pystr :=
  [L "self"; L "cls"; L "trans"; L "KWS"; L "DummyTransaction"; L "callable"; L "unicode";
   L "write"; L "_filter"; L "_dummyTrans"].
Definition unreserved (ps : list par) : Prop := forall p, In p ps -> ~ In (par_name p) reserved.

(** ** What a method is expected to do with its arguments *)

(** The keyword arguments with a transaction [tr], if there is one. *)
Definition withtr {V} (tr : option V) (kws : list (pystr * V)) : list (pystr * V) :=
  match tr with Some t => (L "trans", t) :: kws | None => kws end.
(** The same for what the parameters are bound to: only a dictionary of keywords sees it. *)
Definition add_tr {V} (tr : option V) (b : bval V) : bval V :=
  match b with BDict l => BDict (withtr tr l) | _ => b end.
Definition passed (tr : option val) : val := match tr with Some t => t | None => VNone end.

Definition no_dstar (ps : list par) : Prop := forall n, ~ In (PDStar n) ps.
Definition no_star (ps : list par) : Prop := forall n, ~ In (PStar n) ps.
(** The methods that take a transaction: [respond] is kept free of keywords, and so is everything when the
    setting is off; then the transaction is a parameter of its own, if there are no others with stars. *)
Definition takes_trans (name : pystr) (kws : bool) (ps : list par) : Prop :=
  (name <> L "respond" /\ kws = true) \/ (no_dstar ps /\ no_star ps).

(** The transaction that is used, given the one that was passed: it is the one that was passed, else that of
    the object, else a new one. *)
Definition choose (p buf tx : val) (made : nat) : val * bool :=
  if truth p then (p, false)
  else if negb (truth buf) && negb (callable tx) && truth tx then (tx, false)
  else (VTx made, true).
Definition has_response (v : val) : Prop := match v with VAny _ _ _ | VTx _ => True | _ => False end.
Definition tx_like (v : val) : Prop := v = VNone \/ has_response v.

(** The parameter that replaces the search list, if that is allowed. *)
Definition has_plain (x : pystr) (ps : list par) : bool :=
  existsb (fun p => match p with PPlain n _ => str_eqb n x | _ => false end) ps.
Definition sl_param (allow : bool) (ps : list par) : option pystr :=
  if allow then
    if has_plain (L "SL") ps then Some (L "SL")
    else if has_plain (L "searchList") ps then Some (L "searchList")
    else None
  else None.
