(** What a template means, said without any generated code: there is one output, a text that
    grows; one filter; no transactions and no made-up variables.  A [#capture] runs its body with
    an empty output and assigns what comes out; a [#call] hands it to a function; a [#filter]
    runs its body with another filter.

    [None]: the meaning is left open.  That is so for loops that do not end within [fuel] rounds,
    for functions defined within a method, for [#filter None], for the leaving of a region by
    [#break], [#return], [#stop] or an exception, and for user code in a region that writes to
    [self.transaction] itself. *)
From Verif Require Import Base PyStr Alist Gen_Model Gen_Spec GenSem_Model.

Section Meaning.
Context {W V F E I : Type}.
Variable K : oracle W V F E I.
Variable G : gset.
Variable fuel : nat.

Record ast := mkA {
  a_w : W;                     (* the world *)
  a_out : pystr;               (* the output *)
  a_top : bool;                (* is the output that of self.transaction? *)
  a_filt : F;                  (* the filter *)
  a_buf : bool;                (* are we in a #capture or #call region? *)
  a_flts : list (pystr * F)    (* filters used before *)
}.
Definition a_set_w w a := mkA w (a_out a) (a_top a) (a_filt a) (a_buf a) (a_flts a).
Definition emit t a := mkA (a_w a) (a_out a ++ t) (a_top a) (a_filt a) (a_buf a) (a_flts a).
Definition a_set_filt f a := mkA (a_w a) (a_out a) (a_top a) f (a_buf a) (a_flts a).
Definition a_set_flts l a := mkA (a_w a) (a_out a) (a_top a) (a_filt a) (a_buf a) l.
(** The state for the body of a region with an output of its own, and the return from it. *)
Definition inner (buf : bool) a := mkA (a_w a) [] false (a_filt a) (buf || a_buf a) (a_flts a).
Definition back (a b : ast) := mkA (a_w b) (a_out a) (a_top a) (a_filt a) (a_buf a) (a_flts b).

Definition eff : Type := option (out E * ast).
Definition fin (a : ast) : eff := Some (ONormal, a).

(** The user's code. *)
Definition direct (t : pystr) (a : ast) : option ast :=
  match t with [] => Some a | _ => if a_top a then Some (emit t a) else None end.
Definition go {A} (x : act A) (a : ast) : option (ast * res E A) :=
  let '(w, t, r) := x (a_buf a) (a_filt a) (a_w a) in
  match direct t (a_set_w w a) with Some a => Some (a, r) | None => None end.
Definition ask {A} (x : act A) (a : ast) (k : A -> ast -> eff) : eff :=
  match go x a with
  | None => None
  | Some (a, Ok v) => k v a
  | Some (a, Raise e) => Some (ORaise e, a)
  end.
Definition doing (e : pystr) (a : ast) : eff :=
  let '(w, t, o) := o_stmt K e (a_buf a) (a_filt a) (a_w a) in
  match direct t (a_set_w w a) with Some a => Some (o, a) | None => None end.

(** First this, then that. *)
Definition andthen (x : eff) (k : ast -> eff) : eff :=
  match x with Some (ONormal, a) => k a | _ => x end.

(** Output of a value: through the filter, or as [str] gives it; nothing for None if so set. *)
Definition show (x : act V) (args : pystr) (a : ast) : eff :=
  ask x a (fun v a =>
    if g_alwaysNone G && o_none K v then fin a
    else ask (if g_useFilters G then o_filter K (a_filt a) v args else o_str K v) a
               (fun t a => fin (emit t a))).

(** The filter with a name is made when it is used first. *)
Definition named (f : pystr) (a : ast) (k : ast -> eff) : eff :=
  match aget f (a_flts a) with
  | Some x => k (a_set_filt x a)
  | None => ask (o_lib K f) a (fun x a => k (a_set_filt x (a_set_flts (aset f x (a_flts a)) a)))
  end.

(** A region's body gives its text; only normal ends are specified. *)
Definition text_of_body (x : eff) (k : pystr -> ast -> eff) : eff :=
  match x with Some (ONormal, b) => k (a_out b) b | _ => None end.

(** A call on the cache that is not interrupted by an exception. *)
Definition cached (q : creq) (a : ast) (k : bool * pystr -> ast -> eff) : eff :=
  ask (o_cache K q) a k.

(** Is the cached text to be made anew?  The questions asked before the answer. *)
Definition stale (ci : cinfo) (i : pystr) (a : ast) (k : bool -> ast -> eff) : eff :=
  cached (QRegion i (ci_repr ci)) a (fun _ a =>
  cached (QIsNew i) a (fun new a =>
  cached (QItem i (match ci_vary ci with
                   | Some v => v | None => StrConst_Model.repr (g_printable G) i end)) a (fun _ a =>
  cached (QExpired i) a (fun exp a =>
  let old := fst new || fst exp in
  match ci_test ci with
  | Some (c :: r) => ask (o_test K (c :: r)) a (fun t a => k (old || t) a)
  | _ => k old a
  end)))).

Fixpoint sem (d : bool) (t : tm) (a : ast) {struct t} : eff :=
  match t with
  | TNil => fin a
  | TText s cut r => sem d r (emit (text_of s cut) a)
  | TRem _ r | TSlurp r => sem d r a
  | TPlace e fa raw _ sil r =>
      let x := show (o_eval K e) (all_args G fa raw) a in
      andthen (match x with
               | Some (ORaise ex, a) => if sil && o_notfound K ex then fin a else x
               | _ => x
               end) (sem d r)
  | TExpr k e r =>
      andthen (match k with
               | KEcho => show (o_eval K e) [] a
               | KStop => Some (OStop (a_out a), a)
               | _ => doing e a
               end) (sem d r)
  | TSet g lv op rv r =>
      andthen (doing (if g then set_global_text lv op rv
                      else lv ++ L " " ++ op ++ L " " ++ strip rv) a) (sem d r)
  | TTern c x y _ r =>
      andthen (ask (o_test K c) a (fun b a => show (o_eval K (if b then x else y)) [] a)) (sem d r)
  | TBlk _ o _ b ms r =>
      andthen
        (match o with
         | BIf e => ask (o_test K e) a (fun t a =>
                      if t then andthen (sem d b a) (sem_m d (MIf true) ms)
                      else sem_m d (MIf false) ms a)
         | BUnless e => ask (o_test K e) a (fun t a =>
                      if negb t then andthen (sem d b a) (sem_m d (MIf true) ms)
                      else sem_m d (MIf false) ms a)
         | BTry => match sem d b a with
                   | Some (x, a) => sem_m d (MTry x false) ms a
                   | None => None
                   end
         | BFor t e => ask (o_iter K e) a (fun i a =>
                      andthen (loop fuel (fun i a => go (o_next K t i) a) (sem d b) i a)
                              (sem_m d MNo ms))
         | BRepeat e => ask (o_count K e) a (fun n a =>
                      andthen (loop fuel (fun n a => Some (a, Ok (match n with O => None | S n => Some n end)))
                                    (sem d b) n a) (sem_m d MNo ms))
         | BWhile e =>
             andthen (loop fuel (fun (_ : unit) a =>
                        match go (o_test K e) a with
                        | Some (a, Ok t) => Some (a, Ok (if t then Some tt else None))
                        | Some (a, Raise x) => Some (a, Raise x)
                        | None => None
                        end) (sem d b) tt a) (sem_m d MNo ms)
         end)
        (sem d r)
  | TReg _ (RCapture v) _ _ b r =>
      text_of_body (sem d b (inner true a)) (fun t b =>
        andthen (ask (o_assign K v t) (back a b) (fun _ a => fin a)) (sem d r))
  | TReg _ (RCall fn args) _ _ b r =>
      text_of_body (sem d b (inner true a)) (fun t b =>
        andthen (show (o_call K fn args t) [] (back a b)) (sem d r))
  | TReg _ (RFilter f klass) _ _ b r =>
      (fun body => if klass then ask (o_klass K f) a (fun x a => body (a_set_filt x a))
                   else if str_eqb (lower f) (L "none") then None
                   else named f a body)
      (fun x => match sem d b x with
                | Some (ONormal, y) => sem d r (a_set_filt (a_filt a) y)
                | _ => None
                end)
  | TReg _ (RCache ci) id _ b r =>
      let i := match ci_id ci with Some (c :: rest) => c :: rest | _ => id end in
      (** the region's body: its text is stored and written *)
      let fresh a0 k :=
        (fun k' => match ci_interval ci with
                   | Some n => match go (o_cache K (QExpiry i n)) (inner false a0) with
                               | Some (x, Ok _) => k' x
                               | _ => None
                               end
                   | None => k' (inner false a0)
                   end)
        (fun x => text_of_body (sem d b x) (fun t y =>
                    cached (QSet i t) (back a0 y) (fun _ z => k (emit t z)))) in
      stale ci i a (fun old a =>
        if old then fresh a (sem d r)
        else cached (QRefresh i) a (fun ref a =>
          if fst ref then
            match go (o_cache K (QRender i)) a with
            | Some (a, Ok x) =>
                (** written out; then the second question *)
                cached (QRefresh i) (emit (snd x) a) (fun ref a =>
                  if fst ref then sem d r a else fresh a (sem d r))
            | Some (a, Raise e) => if o_keyerr K e then fresh a (sem d r) else Some (ORaise e, a)
            | None => None
            end
          else cached (QRefresh i) a (fun ref a =>
                 if fst ref then sem d r a else fresh a (sem d r))))
  | TCall fn args _ _ n b more r =>
      text_of_body (sem d b (inner true a)) (fun t y =>
        sem_p d more [(n, t)] (inner true (back a y)) (fun kws z =>
          andthen (show (o_callkw K fn args kws) [] (back a z)) (sem d r)))
  | TDef _ o name _ _ _ r =>
      match o with
      | DBlock => andthen (ask (o_block K name) a (fun t a => fin (emit t a))) (sem d r)
      | _ => if own_method d o then sem d r a else None
      end
  end
with sem_m (d : bool) (m : mode E) (ms : mids) (a : ast) {struct ms} : eff :=
  match ms with
  | MNil => Some (pending m, a)
  | MCons x _ b r =>
      match x, m with
      | MElif _, MIf true => sem_m d m r a
      | MElif e, MIf false =>
          ask (o_test K e) a (fun t a =>
            if t then andthen (sem d b a) (sem_m d (MIf true) r) else sem_m d m r a)
      | MElse, MIf true => sem_m d MNo r a
      | MElse, MIf false => andthen (sem d b a) (sem_m d MNo r)
      | MElse, MTry ONormal false =>
          match sem d b a with Some (o, a) => sem_m d (MTry o true) r a | None => None end
      | MElse, MTry o _ => sem_m d (MTry o true) r a
      | MExcept c, MTry (ORaise e) false =>
          ask (o_catch K c e) a (fun t a =>
            if t then match sem d b a with Some (o, a) => sem_m d (MTry o true) r a | None => None end
            else sem_m d m r a)
      | MExcept _, MTry _ _ => sem_m d m r a
      | MFinally, MTry o _ =>
          match sem d b a with
          | Some (ONormal, a) => sem_m d (MTry o true) r a
          | Some (o', a) => sem_m d (MTry o' true) r a
          | None => None
          end
      | _, _ => None
      end
  end
(** The [#arg] parts of a [#call]; a name given twice has its last text. *)
with sem_p (d : bool) (ps : parts) (kws : list (pystr * pystr)) (a : ast)
     (k : list (pystr * pystr) -> ast -> eff) {struct ps} : eff :=
  match ps with
  | PNil => k kws a
  | PCons n b r =>
      text_of_body (sem d b a) (fun t y => sem_p d r (aset n t kws) (inner true y) k)
  end.

End Meaning.
Arguments ast : clear implicits.

(** ** Identifiers of regions *)

(** A region's made-up names carry its identifier (for [#cache], the one the user may give). *)
Definition rid (o : rop) (id : pystr) : pystr :=
  match o with
  | RCache ci => match ci_id ci with Some (c :: rest) => c :: rest | _ => id end
  | _ => id
  end.
(** The identifiers in a method. *)
Fixpoint ids (t : tm) : list pystr :=
  match t with
  | TNil => []
  | TText _ _ r | TRem _ r | TSlurp r | TPlace _ _ _ _ _ r | TExpr _ _ r | TSet _ _ _ _ r
  | TTern _ _ _ _ r | TDef _ _ _ _ _ _ r => ids r
  | TBlk _ _ _ b ms r => ids b ++ ids_m ms ++ ids r
  | TReg _ o id _ b r => rid o id :: ids b ++ ids r
  | TCall _ _ id _ _ b more r => id :: ids b ++ ids_p more ++ ids r
  end
with ids_m (ms : mids) : list pystr :=
  match ms with MNil => [] | MCons _ _ b r => ids b ++ ids_m r end
with ids_p (ps : parts) : list pystr :=
  match ps with PNil => [] | PCons _ b r => ids b ++ ids_p r end.
(** No region has the identifier of one around it. *)
Fixpoint apart (t : tm) : Prop :=
  match t with
  | TNil => True
  | TText _ _ r | TRem _ r | TSlurp r | TPlace _ _ _ _ _ r | TExpr _ _ r | TSet _ _ _ _ r
  | TTern _ _ _ _ r | TDef _ _ _ _ _ _ r => apart r
  | TBlk _ _ _ b ms r => apart b /\ apart_m ms /\ apart r
  | TReg _ o id _ b r => ~ In (rid o id) (ids b) /\ apart b /\ apart r
  | TCall _ _ id _ _ b more r =>
      ~ In id (ids b) /\ ~ In id (ids_p more) /\ apart b /\ apart_p more /\ apart r
  end
with apart_m (ms : mids) : Prop :=
  match ms with MNil => True | MCons _ _ b r => apart b /\ apart_m r end
with apart_p (ps : parts) : Prop :=
  match ps with PNil => True | PCons _ b r => apart b /\ apart_p r end.

(** ** What a state of the machine stands for *)
Section View.
Context {W V F E I : Type}.
(** The output is the text of the active transaction. *)
Definition view (s : mst W V F) : ast W F :=
  mkA (ms_w s) (getvalue (ms_trans s) (ms_heap s)) (Nat.eqb (ms_trans s) 0) (ms_filt s) (ms_buf s)
      (ms_flts s).
(** [trans] is a transaction that exists, [write] writes to it, and the filter of the method is
    the one the template object remembers. *)
Definition proper (s : mst W V F) : Prop :=
  (ms_trans s < length (ms_heap s))%nat /\ ms_write s = ms_trans s /\ ms_cur s = ms_filt s.
(** From [s] to [s'] no response has changed, except perhaps that of the active transaction. *)
Definition others_same (s s' : mst W V F) : Prop :=
  (length (ms_heap s) <= length (ms_heap s'))%nat
  /\ forall i, (i < length (ms_heap s))%nat -> i <> ms_trans s ->
       getvalue i (ms_heap s') = getvalue i (ms_heap s).
(** Not even that one. *)
Definition all_same (s s' : mst W V F) : Prop :=
  (length (ms_heap s) <= length (ms_heap s'))%nat
  /\ forall i, (i < length (ms_heap s))%nat -> getvalue i (ms_heap s') = getvalue i (ms_heap s).
(** Output goes where it went before, through the same filter. *)
Definition restored (s s' : mst W V F) : Prop :=
  ms_trans s' = ms_trans s /\ ms_write s' = ms_write s /\ ms_buf s' = ms_buf s
  /\ ms_filt s' = ms_filt s /\ ms_cur s' = ms_cur s.

(** The value a method returns; [fresh]: it has no transaction of its caller. *)
Definition answer (fresh : bool) (o : out E) (a : ast W F) : option (res E (option pystr)) :=
  match o with
  | ONormal => Some (Ok (Some (if fresh then a_out a else [])))
  | OStop t => Some (Ok (Some (if fresh then t else [])))
  | OReturn => Some (Ok None)
  | ORaise e => Some (Raise e)
  | _ => None
  end.
End View.

(** ** Regions *)
Section Regions.
Context {W V F E I : Type}.
Variable K : oracle W V F E I.
Variable G : gset.
Variable fuel : nat.

(** The user's code [x], in the world [w], changes it to [w'] and gives [r]; it writes nothing
    to [self.transaction]. *)
Definition quiet {A} (x : act A) (buf : bool) (f : F) (w w' : W) (r : A) : Prop :=
  x buf f w = (w', [], @Ok E A r).

(** The texts of the [#arg] parts of a call, from left to right. *)
Inductive parts_text (d : bool) : parts -> ast W F -> list (pystr * pystr) -> ast W F -> Prop :=
| PTNil a : parts_text d PNil a [] a
| PTCons n b r a y l z : sem K G fuel d b a = Some (ONormal, y) ->
    parts_text d r (inner true y) l z -> parts_text d (PCons n b r) a ((n, a_out y) :: l) z.

(** The answer of the test of a cache region; without one it is no. *)
Definition test_says (ci : cinfo) (buf : bool) (f : F) (w w' : W) (r : bool) : Prop :=
  match ci_test ci with
  | Some (c :: e) => quiet (o_test K (c :: e)) buf f w w' r
  | _ => w' = w /\ r = false
  end.
End Regions.
