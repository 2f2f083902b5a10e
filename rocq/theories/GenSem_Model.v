(** Model of the execution of generated code.  The statements are those of Gen_Model.v (see
    there for the lines of Cheetah/Compiler.py that write them); here is what Python does with
    them, together with the objects of Cheetah/DummyTransaction.py the output goes to and the
    set-up and clean-up code of a method (Cheetah/Compiler.py:1118-1183).

    Python code of the user (expressions, statements, the functions and filters they name) is
    not modelled: it is given by an [oracle], which may read and change a world [W] (variables,
    search list, ...).  Simplifications: user code does not touch the names the generator makes
    up ([trans], [write], [_filter], [filterName], [_v], [_output], [_cacheData] and those of
    [local_name]); everything written is a text. *)
From Verif Require Import Base PyStr Alist StrConst_Model Gen_Model Gen_Spec.

(** How a piece of code ends. (Cheetah/Compiler.py:1118-1183) *)
Inductive out (E : Type) :=
| ONormal | OBreak | OContinue | OReturn
| OStop (t : pystr)                     (* [#stop]: the text of the active transaction *)
| ORaise (e : E).
Arguments ONormal {E}. Arguments OBreak {E}. Arguments OContinue {E}. Arguments OReturn {E}.
Arguments OStop {E} t. Arguments ORaise {E} e.

(** Calls on cache regions and items (Cheetah/Compiler.py:784-850). *)
Inductive creq :=
| QRegion (id info : pystr)             (* getCacheRegion, Compiler.py:784 *)
| QIsNew (id : pystr)                   (* isNew, Compiler.py:789 *)
| QItem (id vary : pystr)               (* getCacheItem, Compiler.py:794 *)
| QExpired (id : pystr)                 (* hasExpired, Compiler.py:798 *)
| QRefresh (id : pystr)                 (* getRefreshTime, Compiler.py:810, 830 *)
| QRender (id : pystr)                  (* renderOutput, Compiler.py:815 *)
| QExpiry (id n : pystr)                (* setExpiryTime, Compiler.py:839 *)
| QSet (id text : pystr).               (* setData, Compiler.py:850 *)

Section Machine.
Context {W V F E I : Type}.

(** Something the user's code does: given the attributes [_CHEETAH__isBuffering] and
    [_CHEETAH__currentFilter] of the template (the methods it calls look at them,
    Cheetah/Compiler.py:1126, 1158) and the world, it gives the new world, the text it wrote
    directly to [self.transaction], and a result or an exception. *)
Definition act (A : Type) : Type := bool -> F -> W -> W * pystr * res E A.

Record oracle := mkO {
  o_eval : pystr -> act V;                       (* an expression *)
  o_test : pystr -> act bool;                    (* an expression as a condition *)
  o_call : pystr -> pystr -> pystr -> act V;     (* fn(text, args), Compiler.py:930 *)
  o_callkw : pystr -> pystr -> list (pystr * pystr) -> act V;  (* fn(args, kws), Compiler.py:939 *)
  o_none : V -> bool;                            (* is None *)
  o_str : V -> act pystr;                        (* str() *)
  o_filter : F -> V -> pystr -> act pystr;       (* _filter(v, args) *)
  o_stmt : pystr -> bool -> F -> W -> W * pystr * out E;       (* a statement *)
  o_block : pystr -> act pystr;                  (* self.block(trans=trans): what it writes to trans *)
  o_iter : pystr -> act I;                       (* iter() of an expression *)
  o_next : pystr -> I -> act (option I);         (* next() of it and assignment to the target *)
  o_count : pystr -> act nat;                    (* the length of range(...), Compiler.py:617 *)
  o_catch : pystr -> E -> act bool;              (* does the except clause match? *)
  o_notfound : E -> bool;                        (* is it a NotFound? *)
  o_keyerr : E -> bool;                          (* is it a KeyError? *)
  o_assign : pystr -> pystr -> act unit;         (* v = text, Compiler.py:981 *)
  o_klass : pystr -> act F;                      (* Klass(self).filter, Compiler.py:1028 *)
  o_lib : pystr -> act F;                        (* the named filter of the library, Compiler.py:1046 *)
  o_init : F;                                    (* _CHEETAH__initialFilter, Compiler.py:1032 *)
  o_cache : creq -> act (bool * pystr)           (* cache objects *)
}.

(** ** The state *)

(** Values of the made-up local variables. (Cheetah/Compiler.py:764-857, 862-947, 952-985, 1015-1058) *)
Inductive lval := LTrans (a : nat) | LBool (b : bool) | LFilt (f : F) | LText (t : pystr)
| LKws (l : list (pystr * pystr)).

(** [heap]: for every transaction the text its response holds (Cheetah/DummyTransaction.py:24-75);
    transaction 0 is [self.transaction]. *)
Record mst := mkMs {
  ms_w : W;
  ms_heap : list pystr;
  ms_trans : nat;                       (* trans *)
  ms_write : nat;                       (* the transaction whose response.write is [write] *)
  ms_loc : tag -> pystr -> option lval;
  ms_filt : F;                          (* _filter *)
  ms_cur : F;                           (* self._CHEETAH__currentFilter *)
  ms_buf : bool;                        (* self._CHEETAH__isBuffering *)
  ms_flts : list (pystr * F);           (* self._CHEETAH__filters *)
  ms_v : option V;                      (* _v *)
  ms_fname : pystr;                     (* filterName *)
  ms_txt : option pystr                 (* _output or _cacheData *)
}.

(* field updates; the fields are written by the statements executed below *)
Definition ms_set_w w s := mkMs w (ms_heap s) (ms_trans s) (ms_write s) (ms_loc s) (ms_filt s) (ms_cur s) (ms_buf s) (ms_flts s) (ms_v s) (ms_fname s) (ms_txt s).  (* Compiler.py:567 *)
Definition ms_set_heap h s := mkMs (ms_w s) h (ms_trans s) (ms_write s) (ms_loc s) (ms_filt s) (ms_cur s) (ms_buf s) (ms_flts s) (ms_v s) (ms_fname s) (ms_txt s).  (* DummyTransaction.py:50 *)
Definition ms_set_trans t s := mkMs (ms_w s) (ms_heap s) t (ms_write s) (ms_loc s) (ms_filt s) (ms_cur s) (ms_buf s) (ms_flts s) (ms_v s) (ms_fname s) (ms_txt s).  (* Compiler.py:881 *)
Definition ms_set_write a s := mkMs (ms_w s) (ms_heap s) (ms_trans s) a (ms_loc s) (ms_filt s) (ms_cur s) (ms_buf s) (ms_flts s) (ms_v s) (ms_fname s) (ms_txt s).  (* Compiler.py:883 *)
Definition ms_set_loc l s := mkMs (ms_w s) (ms_heap s) (ms_trans s) (ms_write s) l (ms_filt s) (ms_cur s) (ms_buf s) (ms_flts s) (ms_v s) (ms_fname s) (ms_txt s).  (* Compiler.py:877 *)
Definition ms_set_filt f s := mkMs (ms_w s) (ms_heap s) (ms_trans s) (ms_write s) (ms_loc s) f (ms_cur s) (ms_buf s) (ms_flts s) (ms_v s) (ms_fname s) (ms_txt s).  (* Compiler.py:1032 *)
Definition ms_set_both f s := mkMs (ms_w s) (ms_heap s) (ms_trans s) (ms_write s) (ms_loc s) f f (ms_buf s) (ms_flts s) (ms_v s) (ms_fname s) (ms_txt s).  (* Compiler.py:1028 *)
Definition ms_set_buf b s := mkMs (ms_w s) (ms_heap s) (ms_trans s) (ms_write s) (ms_loc s) (ms_filt s) (ms_cur s) b (ms_flts s) (ms_v s) (ms_fname s) (ms_txt s).  (* Compiler.py:880 *)
Definition ms_set_flts l s := mkMs (ms_w s) (ms_heap s) (ms_trans s) (ms_write s) (ms_loc s) (ms_filt s) (ms_cur s) (ms_buf s) l (ms_v s) (ms_fname s) (ms_txt s).  (* Compiler.py:1046 *)
Definition ms_set_v v s := mkMs (ms_w s) (ms_heap s) (ms_trans s) (ms_write s) (ms_loc s) (ms_filt s) (ms_cur s) (ms_buf s) (ms_flts s) v (ms_fname s) (ms_txt s).  (* Compiler.py:453 *)
Definition ms_set_fname n s := mkMs (ms_w s) (ms_heap s) (ms_trans s) (ms_write s) (ms_loc s) (ms_filt s) (ms_cur s) (ms_buf s) (ms_flts s) (ms_v s) n (ms_txt s).  (* Compiler.py:1035 *)
Definition ms_set_txt x s := mkMs (ms_w s) (ms_heap s) (ms_trans s) (ms_write s) (ms_loc s) (ms_filt s) (ms_cur s) (ms_buf s) (ms_flts s) (ms_v s) (ms_fname s) x.  (* Compiler.py:848 *)

(** [DummyResponse.write] and [getvalue] (Cheetah/DummyTransaction.py:50-51, 57-60). *)
Fixpoint put (i : nat) (t : pystr) (h : list pystr) : list pystr :=
  match h with
  | [] => []
  | x :: r => match i with O => (x ++ t) :: r | S i => x :: put i t r end
  end.
Definition getvalue (i : nat) (h : list pystr) : pystr := nth i h [].  (* DummyTransaction.py:57-60 *)

(** Local variables: assignment and [del] (Cheetah/Compiler.py:877, 919). *)
Definition tag_eqb (a b : tag) : bool :=  (* equality of made-up names, Compiler.py:783 *)
  match a, b with
  | TgOrig, TgOrig | TgBuf, TgBuf | TgCall, TgCall | TgKws, TgKws | TgVal, TgVal
  | TgCapt, TgCapt | TgFilt, TgFilt | TgArgName, TgArgName | TgCache, TgCache
  | TgRecache, TgRecache | TgRegion, TgRegion | TgItem, TgItem => true
  | _, _ => false
  end.
Definition upd (t : tag) (id : pystr) (v : option lval) (l : tag -> pystr -> option lval)
    : tag -> pystr -> option lval :=  (* Compiler.py:877 *)
  fun t' id' => if tag_eqb t t' && str_eqb id id' then v else l t' id'.
Definition set_local (t : tag) (id : pystr) (v : option lval) (s : mst) : mst :=  (* Compiler.py:877 *)
  ms_set_loc (upd t id v (ms_loc s)) s.

Variable K : oracle.

(** The user's code runs; what it writes directly goes to transaction 0
    (Cheetah/Compiler.py:1126-1128). *)
Definition perform {A} (a : act A) (s : mst) : mst * res E A :=
  let '(w, direct, r) := a (ms_buf s) (ms_cur s) (ms_w s) in
  (ms_set_heap (put 0 direct (ms_heap s)) (ms_set_w w s), r).

(** Its result goes on, its exception ends the code (same lines). (Cheetah/Compiler.py:1126-1128) *)
Definition use {A} (a : act A) (s : mst) (k : A -> mst -> option (out E * mst))
    : option (out E * mst) :=
  match perform a s with
  | (s, Ok x) => k x s
  | (s, Raise e) => Some (ORaise e, s)
  end.

(** For the code of a method (Cheetah/Compiler.py:1118-1183). *)
Definition done (s : mst) : option (out E * mst) := Some (ONormal, s).  (* end of a statement *)
Definition write (t : pystr) (s : mst) : mst :=  (* DummyTransaction.py:50-51 *)
  ms_set_heap (put (ms_write s) t (ms_heap s)) s.

(** Expressions (Cheetah/Compiler.py:453, 930, 939); [None]: a name that is not defined. *)
Definition gexp_act (x : gexp) (s : mst) : option (act V) :=
  match x with
  | XUser e => Some (o_eval K e)
  | XCall fn args id =>
      match ms_loc s TgVal id with Some (LText t) => Some (o_call K fn args t) | _ => None end
  | XCallKw fn args id =>
      match ms_loc s TgKws id with Some (LKws l) => Some (o_callkw K fn args l) | _ => None end
  end.

(** One statement that is no header.  [None]: NameError or TypeError for a made-up name. (Cheetah/Compiler.py:1118-1183) *)
Definition exec_line (l : line) (s : mst) : option (out E * mst) :=
  match l with
  | GBlank | GComment _ => done s
  | GWrite t => done (write t s)
  | GAssignV x _ =>
      match gexp_act x s with
      | Some a => use a s (fun v s => done (ms_set_v (Some v) s))
      | None => None
      end
  | GWriteV fa =>
      match ms_v s with
      | Some v => if o_none K v then done s
                  else use (o_filter K (ms_filt s) v fa) s (fun t s => done (write t s))
      | None => None
      end
  | GWriteVStr =>
      match ms_v s with
      | Some v => if o_none K v then done s
                  else use (o_str K v) s (fun t s => done (write t s))
      | None => None
      end
  | GWriteE x fa =>
      match gexp_act x s with
      | Some a => use a s (fun v s => use (o_filter K (ms_filt s) v fa) s
                                        (fun t s => done (write t s)))
      | None => None
      end
  | GWriteEStr x =>
      match gexp_act x s with
      | Some a => use a s (fun v s => use (o_str K v) s (fun t s => done (write t s)))
      | None => None
      end
  | GStmt e =>
      let '(w, direct, o) := o_stmt K e (ms_buf s) (ms_cur s) (ms_w s) in
      Some (o, ms_set_heap (put 0 direct (ms_heap s)) (ms_set_w w s))
  | GStop => Some (OStop (getvalue (ms_trans s) (ms_heap s)), s)
  | GCallBlock n =>
      use (o_block K n) s (fun t s => done (ms_set_heap (put (ms_trans s) t (ms_heap s)) s))
  | GSaveTrans id => done (set_local TgOrig id (Some (LTrans (ms_trans s))) s)
  | GSaveBuf id => done (set_local TgBuf id (Some (LBool (ms_buf s))) s)
  | GBufOn => done (ms_set_buf true s)
  | GCollect t id =>
      let a := length (ms_heap s) in
      done (set_local t id (Some (LTrans a)) (ms_set_trans a (ms_set_heap (ms_heap s ++ [[]]) s)))
  | GWriteTo t id =>
      match ms_loc s t id with Some (LTrans a) => done (ms_set_write a s) | _ => None end
  | GRestTrans id =>
      match ms_loc s TgOrig id with Some (LTrans a) => done (ms_set_trans a s) | _ => None end
  | GWriteTrans => done (ms_set_write (ms_trans s) s)
  | GRestBuf id =>
      match ms_loc s TgBuf id with Some (LBool b) => done (ms_set_buf b s) | _ => None end
  | GDel t id =>
      match ms_loc s t id with Some _ => done (set_local t id None s) | None => None end
  | GAssignCap v id =>
      match ms_loc s TgCapt id with
      | Some (LTrans a) => use (o_assign K v (getvalue a (ms_heap s))) s (fun _ s => done s)
      | _ => None
      end
  | GArgVal id =>
      match ms_loc s TgCall id with
      | Some (LTrans a) => done (set_local TgVal id (Some (LText (getvalue a (ms_heap s)))) s)
      | _ => None
      end
  | GKwsNew id => done (set_local TgKws id (Some (LKws [])) s)
  | GArgName id n => done (set_local TgArgName id (Some (LText n)) s)
  | GKwsSet id n =>
      match ms_loc s TgKws id, ms_loc s TgCall id with
      | Some (LKws l), Some (LTrans a) =>
          done (set_local TgKws id (Some (LKws (aset n (getvalue a (ms_heap s)) l))) s)
      | _, _ => None
      end
  | GSaveFilt id => done (set_local TgFilt id (Some (LFilt (ms_filt s))) s)
  | GFiltKlass e => use (o_klass K e) s (fun f s => done (ms_set_both f s))
  | GFiltInit => done (ms_set_filt (o_init K) s)
  | GFiltName n => done (ms_set_fname n s)
  | GFiltCached =>
      match aget (ms_fname s) (ms_flts s) with Some f => done (ms_set_both f s) | None => None end
  | GFiltNew =>
      use (o_lib K (ms_fname s)) s
        (fun f s => done (ms_set_both f (ms_set_flts (aset (ms_fname s) f (ms_flts s)) s)))
  | GFiltRest id =>
      match ms_loc s TgFilt id with Some (LFilt f) => done (ms_set_both f s) | _ => None end
  | GRecache id b => done (set_local TgRecache id (Some (LBool b)) s)
  | GRegion id info =>
      use (o_cache K (QRegion id info)) s (fun _ s => done (set_local TgRegion id (Some (LText [])) s))
  | GItem id vary =>
      use (o_cache K (QItem id vary)) s (fun _ s => done (set_local TgItem id (Some (LText [])) s))
  | GRender id => use (o_cache K (QRender id)) s (fun x s => done (ms_set_txt (Some (snd x)) s))
  | GWriteOut | GWriteData =>
      match ms_txt s with Some t => done (write t s) | None => None end
  | GDelOut | GDelData =>
      match ms_txt s with Some _ => done (ms_set_txt None s) | None => None end
  | GExpiry id n => use (o_cache K (QExpiry id n)) s (fun _ s => done s)
  | GData id =>
      match ms_loc s TgCache id with
      | Some (LTrans a) => done (ms_set_txt (Some (getvalue a (ms_heap s))) s)
      | _ => None
      end
  | GSetData id =>
      match ms_txt s with
      | Some t => use (o_cache K (QSet id t)) s (fun _ s => done s)
      | None => None
      end
  end.

(** ** Compound statements *)

(** What the statement before has left for [elif], [else], [except] and [finally]: nothing; was
    a branch of the [if] taken; how the [try] ended so far and whether a handler or the [else]
    part had its turn. (Cheetah/Compiler.py:1118-1183) *)
Inductive mode := MNo | MIf (taken : bool) | MTry (o : out E) (handled : bool).
(** For the code of a method (Cheetah/Compiler.py:1118-1183). *)
Definition pending (m : mode) : out E := match m with MTry o _ => o | _ => ONormal end.  (* Python's try statement *)

(** Loops; [fuel] bounds the number of rounds ([None] when it is used up).  [next] gives the
    next state of the iteration. (Cheetah/Compiler.py:1118-1183) *)
Fixpoint loop {X Y : Type} (fuel : nat) (next : X -> Y -> option (Y * res E (option X)))
    (body : Y -> option (out E * Y)) (x : X) (s : Y) : option (out E * Y) :=  (* Python's loops *)
  match fuel with
  | O => None
  | S n =>
      match next x s with
      | None => None
      | Some (s, Raise e) => Some (ORaise e, s)
      | Some (s, Ok None) => Some (ONormal, s)
      | Some (s, Ok (Some x)) =>
          match body s with
          | Some (ONormal, s) | Some (OContinue, s) => loop n next body x s
          | Some (OBreak, s) => Some (ONormal, s)
          | r => r
          end
      end
  end.

(** The conditions of the headers that begin with [if] (Cheetah/Compiler.py:646, 789, 798, 810,
    830, 1037). *)
Definition head_test (h : head) (s : mst) (k : bool -> mst -> option (out E * mst))
    : option (out E * mst) :=
  match h with
  | HIf neg e => use (o_test K e) s (fun b s => k (xorb neg b) s)
  | HHasFilter n => k (ahas n (ms_flts s)) s
  | HIsNew id => use (o_cache K (QIsNew id)) s (fun x s => k (fst x) s)
  | HExpired id => use (o_cache K (QExpired id)) s (fun x s => k (fst x) s)
  | HFresh id =>
      match ms_loc s TgRecache id with
      | Some (LBool true) => k false s
      | Some (LBool false) => use (o_cache K (QRefresh id)) s (fun x s => k (fst x) s)
      | _ => None
      end
  | HStale id =>
      match ms_loc s TgRecache id with
      | Some (LBool true) => k true s
      | Some (LBool false) => use (o_cache K (QRefresh id)) s (fun x s => k (negb (fst x)) s)
      | _ => None
      end
  | _ => None
  end.

(** Does an except header match the exception? *)
Definition head_catch (h : head) (e : E) (s : mst) (k : bool -> mst -> option (out E * mst))
    : option (out E * mst) :=  (* Compiler.py:556, 688, 817 *)
  match h with
  | HExcept c => use (o_catch K c e) s k
  | HNotFound => k (o_notfound K e) s
  | HKeyErr => k (o_keyerr K e) s
  | _ => None
  end.

Definition remark (l : line) : bool :=  (* lines Python does not see, Compiler.py:534, 778 *)
  match l with GBlank | GComment _ => true | _ => false end.

(** [exec fuel m c s]: Python executes [c]; [m] is what the statements before have left.
    [None]: no fuel left, a made-up name undefined, or a syntax error. (Cheetah/Compiler.py:1118-1183) *)
Fixpoint exec (fuel : nat) (m : mode) (c : code) (s : mst) {struct c} : option (out E * mst) :=
  match c with
  | CNil => Some (pending m, s)
  | CLine l _ r =>
      if remark l then exec fuel m r s
      else
        match pending m with
        | ONormal =>
            match exec_line l s with
            | Some (ONormal, s) => exec fuel MNo r s
            | x => x
            end
        | o => Some (o, s)
        end
  | CPart h _ b r =>
      match h with
      | HElif e =>
          match m with
          | MIf true => exec fuel m r s
          | MIf false =>
              use (o_test K e) s (fun t s =>
                if t then
                  match exec fuel MNo b s with
                  | Some (ONormal, s) => exec fuel (MIf true) r s
                  | x => x
                  end
                else exec fuel (MIf false) r s)
          | _ => None
          end
      | HElse =>
          match m with
          | MIf true => exec fuel MNo r s
          | MIf false =>
              match exec fuel MNo b s with
              | Some (ONormal, s) => exec fuel MNo r s
              | x => x
              end
          | MTry ONormal false =>
              match exec fuel MNo b s with
              | Some (o, s) => exec fuel (MTry o true) r s
              | None => None
              end
          | MTry o _ => exec fuel (MTry o true) r s
          | _ => None
          end
      | HExcept _ | HNotFound | HKeyErr =>
          match m with
          | MTry (ORaise e) false =>
              head_catch h e s (fun t s =>
                if t then
                  match exec fuel MNo b s with
                  | Some (o, s) => exec fuel (MTry o true) r s
                  | None => None
                  end
                else exec fuel m r s)
          | MTry _ _ => exec fuel m r s
          | _ => None
          end
      | HFinally =>
          match m with
          | MTry o _ =>
              match exec fuel MNo b s with
              | Some (ONormal, s) => exec fuel (MTry o true) r s
              | Some (o', s) => exec fuel (MTry o' true) r s
              | None => None
              end
          | _ => None
          end
      | _ =>
          match pending m with
          | ONormal =>
              match h with
              | HTry =>
                  match exec fuel MNo b s with
                  | Some (o, s) => exec fuel (MTry o false) r s
                  | None => None
                  end
              | HFor t e =>
                  use (o_iter K e) s (fun i s =>
                    match loop fuel (fun i s => Some (perform (o_next K t i) s))
                               (exec fuel MNo b) i s with
                    | Some (ONormal, s) => exec fuel MNo r s
                    | x => x
                    end)
              | HRep _ e =>
                  use (o_count K e) s (fun n s =>
                    match loop fuel (fun n s => Some (s, Ok (match n with O => None | S n => Some n end)))
                               (exec fuel MNo b) n s with
                    | Some (ONormal, s) => exec fuel MNo r s
                    | x => x
                    end)
              | HWhile e =>
                  match loop fuel (fun (_ : unit) s =>
                               let '(s, t) := perform (o_test K e) s in
                               Some (s, match t with
                                        | Ok true => Ok (Some tt) | Ok false => Ok None
                                        | Raise x => Raise x end))
                             (exec fuel MNo b) tt s with
                  | Some (ONormal, s) => exec fuel MNo r s
                  | x => x
                  end
              | HDef _ _ => None             (* nested functions are not modelled *)
              | _ =>
                  head_test h s (fun t s =>
                    if t then
                      match exec fuel MNo b s with
                      | Some (ONormal, s) => exec fuel (MIf true) r s
                      | x => x
                      end
                    else exec fuel (MIf false) r s)
              end
          | o => Some (o, s)
          end
      end
  end.

(** ** A method (Cheetah/Compiler.py:1118-1183) *)

(** A template object between calls: its attributes, and the responses that exist. (Cheetah/Compiler.py:1118-1183) *)
Record obj := mkObj {
  ob_w : W; ob_heap : list pystr; ob_tx : bool;  (* is self.transaction set? *)
  ob_cur : F; ob_buf : bool; ob_flts : list (pystr * F)
}.

(** The set-up code: [arg] is the argument [trans] (lines 1126-1146, 1158); gives also
    [_dummyTrans]. (Cheetah/Compiler.py:1118-1183) *)
Definition setup (arg : option nat) (x : obj) : mst * bool :=
  let tr := match arg with
            | Some a => Some a
            | None => if negb (ob_buf x) && ob_tx x then Some 0%nat else None
            end in
  match tr with
  | Some a => (mkMs (ob_w x) (ob_heap x) a a (fun _ _ => None) (ob_cur x) (ob_cur x) (ob_buf x)
                    (ob_flts x) None [] None, false)
  | None => (mkMs (ob_w x) (ob_heap x ++ [[]]) (length (ob_heap x)) (length (ob_heap x))
                  (fun _ _ => None) (ob_cur x) (ob_cur x) (ob_buf x) (ob_flts x) None [] None, true)
  end.

(** The whole method: body, then [return _dummyTrans and trans.response().getvalue() or ''] (line
    1183).  The result: the value returned ([None]: the user's [#return], whose value is theirs)
    or the exception, and the object afterwards. (Cheetah/Compiler.py:1118-1183) *)
Definition call_method (fuel : nat) (body : code) (arg : option nat) (x : obj)
    : option (res E (option pystr) * obj) :=
  let '(s, dummy) := setup arg x in
  match exec fuel MNo body s with
  | None => None
  | Some (o, s) =>
      let x' := mkObj (ms_w s) (ms_heap s) (ob_tx x) (ms_cur s) (ms_buf s) (ms_flts s) in
      match o with
      | ONormal => Some (Ok (Some (if dummy then getvalue (ms_trans s) (ms_heap s) else [])), x')
      | OStop t => Some (Ok (Some (if dummy then t else [])), x')
      | OReturn => Some (Ok None, x')
      | ORaise e => Some (Raise e, x')
      | _ => None                            (* break or continue outside of a loop *)
      end
  end.

End Machine.
Arguments oracle : clear implicits.
Arguments mst : clear implicits.
Arguments lval : clear implicits.
Arguments obj : clear implicits.
Arguments mode : clear implicits.
