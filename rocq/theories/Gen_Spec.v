(** Specifications for the code generator: what "well nested" means, the structured program a
    well nested template stands for, how Python reads indentation, what the generated
    statements do when executed, and what the template means.  Nothing here mentions the
    state of the compiler; from the model only the vocabulary (statements, headers,
    directives) is used. *)
From Verif Require Import Base PyStr Alist Gen_Model.

(** ** Well nested sequences of directives *)

Inductive bracket := BOpen (n : pystr) | BClose (n : pystr).

(** The opening and ending directives of a template, in order. *)
Fixpoint brackets (l : evs) : list bracket :=
  match l with
  | Done => []
  | Ev e r =>
      match e with
      | EOpen o _ _ => [BOpen (oname o)]
      | EEnd n => if str_eqb n (L "errorCatcher") then [] else [BClose n]
      | _ => []
      end ++ brackets r
  | Short _ _ _ b r => brackets b ++ brackets r
  | MidShort _ _ b r => brackets b ++ brackets r
  end.

Inductive balanced : list bracket -> Prop :=
| bal_nil : balanced []
| bal_cat a b : balanced a -> balanced b -> balanced (a ++ b)
| bal_wrap n l : balanced l -> balanced (BOpen n :: l ++ [BClose n]).

(** [leaves l st]: after [l] exactly the directives [st] are open, innermost first. *)
Inductive leaves : list bracket -> list pystr -> Prop :=
| lv_bal l : balanced l -> leaves l []
| lv_open l st n b : leaves l st -> balanced b -> leaves (l ++ BOpen n :: b) (n :: st).

(** ** Structured code: what Python makes of indentation *)

(** A sequence of statements; a header has the suite below it. *)
Inductive code :=
| CNil
| CLine (l : line) (note : pystr) (rest : code)
| CPart (h : head) (note : pystr) (suite rest : code).

(** The lines of such code, when the outermost statements are on level [n]: a suite is one
    level deeper than its header, and what follows it is back on the level of the header. *)
Fixpoint layout (n : nat) (c : code) : list chunk :=
  match c with
  | CNil => []
  | CLine l nt r => mkC n (Ln l) nt :: layout n r
  | CPart h nt b r => mkC n (Hd h) nt :: layout (S n) b ++ layout n r
  end.

(** Headers that continue the statement before them. *)
Definition cont (h : head) : bool :=
  match h with
  | HElif _ | HElse | HExcept _ | HFinally | HNotFound | HKeyErr => true
  | _ => false
  end.

(** Python's grammar.  [gst] says what may continue: nothing, an [if], a [try] without
    handler yet, a [try] with one, or a [try] that had its [else]. *)
Inductive gst := GNo | GIf | GTry | GHand | GElsed.

(** Is there a statement (not only blank lines and comments)? *)
Fixpoint has_stmt (c : code) : bool :=
  match c with
  | CNil => false
  | CLine GBlank _ r => has_stmt r
  | CLine (GComment _) _ r => has_stmt r
  | _ => true
  end.

(** A [try] must have got a handler or a [finally]. *)
Definition may_stop (g : gst) : bool := match g with GTry => false | _ => true end.

Fixpoint py_ok (g : gst) (c : code) : bool :=
  match c with
  | CNil => may_stop g
  | CLine l _ r =>
      match l with
      | GBlank | GComment _ => py_ok g r
      | _ => may_stop g && py_ok GNo r
      end
  | CPart h _ b r =>
      (match h with HNotFound => true | _ => has_stmt b end)
      && py_ok GNo b
      && match h with
         | HElif _ => match g with GIf => py_ok GIf r | _ => false end
         | HElse => match g with
                    | GIf => py_ok GNo r
                    | GHand => py_ok GElsed r
                    | _ => false
                    end
         | HExcept _ | HNotFound | HKeyErr =>
             match g with GTry | GHand => py_ok GHand r | _ => false end
         | HFinally => match g with GTry | GHand | GElsed => py_ok GNo r | _ => false end
         | HTry => may_stop g && py_ok GTry r
         | HIf _ _ | HHasFilter _ | HIsNew _ | HExpired _ | HFresh _ | HStale _ =>
             may_stop g && py_ok GIf r
         | _ => may_stop g && py_ok GNo r
         end
  end.

(** ** Templates with their structure *)

(** Directives that are blocks of Python ([#if], [#for], ...). *)
Inductive bop := BIf (e : pystr) | BUnless (e : pystr) | BFor (t e : pystr) | BWhile (e : pystr)
| BRepeat (e : pystr) | BTry.
Definition bop_open (o : bop) : opener :=
  match o with
  | BIf e => OIf e | BUnless e => OUnless e | BFor t e => OFor t e | BWhile e => OWhile e
  | BRepeat e => ORepeat e | BTry => OTry
  end.

(** Directives that are regions. *)
Inductive rop := RCache (ci : cinfo) | RCall (fn args : pystr) | RCapture (v : pystr)
| RFilter (f : pystr) (klass : bool).
Definition rop_open (o : rop) : opener :=
  match o with
  | RCache ci => OCache ci | RCall f a => OCall f a | RCapture v => OCapture v
  | RFilter f k => OFilter f k
  end.

(** Directives that define something. *)
Inductive dop := DDef | DClosure | DBlock.
Definition dop_open (o : dop) (name : pystr) (args : list (pystr * option pystr)) (rem : pystr) :=
  match o with
  | DDef => ODef name args rem | DClosure => OClosure name args rem | DBlock => OBlock name args rem
  end.

(** A template.  [short]: written in the one-line form.  [TText s cut]: a text, of which the
    part after the last line break is cut off when a directive alone on its line follows. *)
Inductive tm :=
| TNil
| TText (s : pystr) (cut : bool) (r : tm)
| TRem (s : pystr) (r : tm)
| TSlurp (r : tm)
| TPlace (e fargs raw : pystr) (lc : N * N) (silent : bool) (r : tm)
| TExpr (k : xkind) (e : pystr) (r : tm)
| TSet (glob : bool) (lv op rv : pystr) (r : tm)
| TTern (c t f : pystr) (lc : N * N) (r : tm)
| TBlk (short : bool) (o : bop) (lc : N * N) (b : tm) (ms : mids) (r : tm)
| TReg (short : bool) (o : rop) (id : pystr) (lc : N * N) (b : tm) (r : tm)
| TCall (fn args id : pystr) (lc : N * N) (a : pystr) (b : tm) (more : parts) (r : tm)
| TDef (short : bool) (o : dop) (name : pystr) (args : list (pystr * option pystr))
    (rem : pystr) (b : tm) (r : tm)
with mids := MNil | MCons (m : mid) (lc : N * N) (b : tm) (r : mids)
with parts := PNil | PCons (a : pystr) (b : tm) (r : parts).

Scheme tm_mut := Induction for tm Sort Prop
with mids_mut := Induction for mids Sort Prop
with parts_mut := Induction for parts Sort Prop.
Combined Scheme tm_mids_parts from tm_mut, mids_mut, parts_mut.

(** What the parser meets, reading the template from left to right; [k]: what follows. *)
Fixpoint events (t : tm) (k : evs) : evs :=
  match t with
  | TNil => k
  | TText s cut r => Ev (EText s) (if cut then Ev EStrip (events r k) else events r k)
  | TRem s r => Ev (EComment s) (events r k)
  | TSlurp r => Ev ESlurp (events r k)
  | TPlace e fa raw lc sil r => Ev (EPlace e fa raw lc sil) (events r k)
  | TExpr x e r => Ev (EExpr x e) (events r k)
  | TSet g lv op rv r => Ev (ESet g lv op rv) (events r k)
  | TTern c a b lc r => Ev (ETern c a b lc) (events r k)
  | TBlk false o lc b ms r =>
      Ev (EOpen (bop_open o) [] lc)
         (events b (events_m false ms (Ev (EEnd (oname (bop_open o))) (events r k))))
  | TBlk true o lc b ms r =>
      Short (bop_open o) [] lc (events b Done) (events_m true ms (events r k))
  | TReg false o id lc b r =>
      Ev (EOpen (rop_open o) id lc) (events b (Ev (EEnd (oname (rop_open o))) (events r k)))
  | TReg true o id lc b r => Short (rop_open o) id lc (events b Done) (events r k)
  | TCall fn args id lc a b more r =>
      Ev (EOpen (OCall fn args) id lc)
         (Ev (EArg a) (events b (events_p more (Ev (EEnd (L "call")) (events r k)))))
  | TDef false o name args rem b r =>
      Ev (EOpen (dop_open o name args rem) [] (0, 0)%N)
         (events b (Ev (EEnd (oname (dop_open o name args rem))) (events r k)))
  | TDef true o name args rem b r =>
      Short (dop_open o name args rem) [] (0, 0)%N (events b Done) (events r k)
  end
with events_m (short : bool) (ms : mids) (k : evs) : evs :=
  match ms with
  | MNil => k
  | MCons m lc b r =>
      if short then MidShort m lc (events b Done) (events_m short r k)
      else Ev (EMid m lc) (events b (events_m short r k))
  end
with events_p (ps : parts) (k : evs) : evs :=
  match ps with
  | PNil => k
  | PCons a b r => Ev (EArg a) (events b (events_p r k))
  end.

(** ** The structured program of a template *)

(** What is left of a text when its last, unfinished line is cut off. *)
Fixpoint last_break (s : pystr) : bool :=
  match s with [] => false | c :: r => ((c =? 10) || (c =? 13))%N || last_break r end.
Fixpoint cut_line (s : pystr) : pystr :=
  match s with
  | [] => []
  | c :: r => if last_break s then c :: cut_line r else []
  end.
Definition text_of (s : pystr) (cut : bool) : pystr := if cut then cut_line s else s.

(** Texts that follow each other are written at once, empty ones not at all. *)
Definition flush (p : pystr) (k : code) : code :=
  match p with [] => k | _ => CLine (GWrite p) [] k end.

(** Statements in a row. *)
Definition lines (l : list line) (k : code) : code := fold_right (fun x r => CLine x [] r) k l.

(** Remarks put behind statements. *)
Definition at_lc (lc : N * N) : pystr :=
  L "line " ++ str_of_N (fst lc) ++ L ", col " ++ str_of_N (snd lc).
Definition gen_from (lc : N * N) : pystr := L " # generated from " ++ at_lc lc.

(** Evaluate, filter and write; [tail]: remark on the last line. *)
Definition all_args (G : gset) (fargs raw : pystr) : pystr :=
  match raw with
  | [] => fargs
  | _ => if g_inclRaw G then fargs ++ L ", rawExpr=" ++ StrConst_Model.repr (g_printable G) raw
         else fargs
  end.
Definition one_line (s : pystr) : bool :=
  match s with [] => false | _ => negb (existsb (fun c => (c =? 10)%N || (c =? 13)%N) s) end.
Definition show_code (G : gset) (x : gexp) (fargs raw : pystr) (lc : option (N * N)) (tail : pystr)
    (k : code) : code :=
  if g_alwaysNone G then
    CLine (GAssignV x (if one_line raw then L " # " ++ StrConst_Model.repr (g_printable G) raw
                       else []))
          (if one_line raw then match lc with Some p => L " on " ++ at_lc p | None => [] end else [])
    (CLine (if g_useFilters G then GWriteV (all_args G fargs raw) else GWriteVStr) tail k)
  else CLine (if g_useFilters G then GWriteE x (all_args G fargs raw) else GWriteEStr x) tail k.

(** Header of a block directive; [n] numbers the [#repeat]s. *)
Definition bop_head (n : nat) (o : bop) : head :=
  match o with
  | BIf e => HIf false e | BUnless e => HIf true e | BFor t e => HFor t e | BWhile e => HWhile e
  | BRepeat e => HRep n e | BTry => HTry
  end.
Definition bop_note (o : bop) (lc : N * N) : pystr :=
  match o with BUnless _ => [] | _ => gen_from lc end.
Definition bop_count (o : bop) : nat := match o with BRepeat _ => 1 | _ => 0 end.

(** Does the directive open a method of its own?  [d]: inside a [#def], and such ones make
    nested functions. *)
Definition own_method (d : bool) (o : dop) : bool :=
  match o with DBlock => true | DDef => negb d | DClosure => false end.

(** How many [#repeat]s belong to the same method. *)
Fixpoint reps (d : bool) (t : tm) : nat :=
  match t with
  | TNil => 0
  | TText _ _ r | TRem _ r | TSlurp r | TPlace _ _ _ _ _ r | TExpr _ _ r | TSet _ _ _ _ r
  | TTern _ _ _ _ r => reps d r
  | TBlk _ o _ b ms r => bop_count o + reps d b + reps_m d ms + reps d r
  | TReg _ _ _ _ b r => reps d b + reps d r
  | TCall _ _ _ _ _ b more r => reps d b + reps_p d more + reps d r
  | TDef _ o _ _ _ b r => (if own_method d o then 0 else reps d b) + reps d r
  end
with reps_m (d : bool) (ms : mids) : nat :=
  match ms with MNil => 0 | MCons _ _ b r => reps d b + reps_m d r end
with reps_p (d : bool) (ps : parts) : nat :=
  match ps with PNil => 0 | PCons _ b r => reps d b + reps_p d r end.

(** Code around regions: names of the source lines are in Gen_Model.v. *)
Definition region_start (G : gset) (o : rop) (id : pystr) (lc : N * N) (body after : code) : code :=
  match o with
  | RCapture v =>
      lines [GComment (L "## START CAPTURE REGION: " ++ id ++ L " " ++ v ++ L " at " ++ at_lc lc
                       ++ L " in the source.");
             GSaveTrans id; GSaveBuf id; GBufOn; GCollect TgCapt id; GWriteTo TgCapt id] body
  | RCall fn args =>
      lines [GComment (L "## START CALL REGION: " ++ id ++ L " of " ++ fn ++ L " at " ++ at_lc lc
                       ++ L " in the source.");
             GSaveTrans id; GSaveBuf id; GBufOn; GCollect TgCall id; GWriteTo TgCall id] body
  | RFilter f klass =>
      CLine (GSaveFilt id) []
       (if klass then CLine (GFiltKlass f) [] body
        else if str_eqb (lower f) (L "none") then CLine GFiltInit [] body
        else CLine (GFiltName f) []
              (CPart (HHasFilter f) [] (CLine GFiltCached [] CNil)
              (CPart HElse [] (CLine GFiltNew [] CNil) body)))
  | RCache ci =>
      let i := match ci_id ci with Some (c :: r) => c :: r | _ => id end in
      let stale := CLine (GRecache i true) [] CNil in
      lines [GBlank;
             GComment (L "## START CACHE REGION: ID=" ++ i ++ L ". " ++ at_lc lc
                       ++ L " in the source.");
             GRecache i false; GRegion i (ci_repr ci)]
      (CPart (HIsNew i) [] stale
      (CLine (GItem i (match ci_vary ci with
                       | Some v => v | None => StrConst_Model.repr (g_printable G) i end)) []
      (CPart (HExpired i) [] stale
      ((fun k => match ci_test ci with
                 | Some (c :: r) => CPart (HIf false (c :: r)) [] stale k | _ => k end)
      (CPart (HFresh i) []
         (CPart HTry [] (CLine (GRender i) [] CNil)
         (CPart HKeyErr [] stale
         (CPart HElse [] (lines [GWriteOut; GDelOut] CNil) CNil)))
      (CPart (HStale i) []
         (lines ([GSaveTrans i; GCollect TgCache i; GWriteTo TgCache i]
                 ++ match ci_interval ci with Some n => [GExpiry i n] | None => [] end) body)
      after))))))
  end.
Definition call_tail (fn : pystr) (id : pystr) (lc : N * N) (k : code) : code :=
  lines [GComment (L "## END CALL REGION: " ++ id ++ L " of " ++ fn ++ L " at " ++ at_lc lc
                   ++ L " in the source."); GBlank] k.
Definition call_reset (id : pystr) (k : code) : code :=
  lines [GRestTrans id; GWriteTrans; GRestBuf id; GDel TgBuf id; GDel TgOrig id] k.
(** Code at the end of the body, inside the region ... *)
Definition region_end (G : gset) (o : rop) (id : pystr) (lc : N * N) (k : code) : code :=
  match o with
  | RCapture v =>
      lines [GRestTrans id; GWriteTrans; GRestBuf id; GAssignCap v id;
             GDel TgOrig id; GDel TgCapt id; GDel TgBuf id] k
  | RCall fn args =>
      call_reset id
        (lines [GArgVal id; GDel TgCall id]
          (show_code G (XCall fn args id) [] [] None []
            (CLine (GDel TgVal id) [] (call_tail fn id lc k))))
  | RFilter f klass => CLine (GFiltRest id) [] k
  | RCache ci =>
      let i := match ci_id ci with Some (c :: r) => c :: r | _ => id end in
      lines [GRestTrans i; GWriteTrans; GData i; GSetData i; GWriteData; GDelData;
             GDel TgCache i; GDel TgOrig i] CNil
  end.
(** ... and after it. *)
Definition region_after (o : rop) (id : pystr) (k : code) : code :=
  match o with
  | RCache ci =>
      let i := match ci_id ci with Some (c :: r) => c :: r | _ => id end in
      lines [GComment (L "## END CACHE REGION: " ++ i); GBlank] k
  | _ => k
  end.

Definition arg_next (id cur : pystr) (k : code) : code :=
  lines [GKwsSet id cur; GDel TgCall id; GCollect TgCall id; GWriteTo TgCall id] k.

(** The markers around a block. *)
Definition mark_start (G : gset) (name : pystr) : pystr :=
  match g_markers G with Some ((a, b), _) => a ++ name ++ b | None => [] end.
Definition mark_end (G : gset) (name : pystr) : pystr :=
  match g_markers G with Some (_, (a, b)) => a ++ name ++ b | None => [] end.

(** [prog G d n p t k]: the statements of [t] followed by [k]; [p]: text before [t] that is not
    written yet; [n]: number of [#repeat]s so far. *)
Fixpoint prog (G : gset) (d : bool) (n : nat) (p : pystr) (t : tm) (k : code) : code :=
  match t with
  | TNil => flush p k
  | TText s cut r => prog G d n (p ++ text_of s cut) r k
  | TRem s r =>
      flush p (CLine (GComment (L "#" ++ repeat 32%N (g_offset G) ++ s)) [] (prog G d n [] r k))
  | TSlurp r => flush p (prog G d n [] r k)
  | TPlace e fa raw lc sil r =>
      let tail := if g_rowcol G then L " # from " ++ at_lc lc ++ L "." else [] in
      let k' := prog G d n [] r k in
      flush p
       (if sil then CPart HTry [] (show_code G (XUser e) fa raw (Some lc) [] CNil)
                     (CPart HNotFound tail CNil k')
        else show_code G (XUser e) fa raw (Some lc) tail k')
  | TExpr x e r =>
      let k' := prog G d n [] r k in
      flush p (match x with
               | KEcho => show_code G (XUser e) [] [] None [] k'
               | KStop => CLine GStop [] k'
               | _ => CLine (GStmt e) [] k'
               end)
  | TSet g lv op rv r =>
      flush p (CLine (GStmt (if g then set_global_text lv op rv
                             else lv ++ L " " ++ op ++ L " " ++ strip rv)) [] (prog G d n [] r k))
  | TTern c a b lc r =>
      flush p (CPart (HIf false c) (gen_from lc) (show_code G (XUser a) [] [] None [] CNil)
              (CPart HElse [] (show_code G (XUser b) [] [] None [] CNil) (prog G d n [] r k)))
  | TBlk _ o lc b ms r =>
      let n1 := n + bop_count o in
      let n2 := n1 + reps d b in
      flush p (CPart (bop_head n o) (bop_note o lc) (prog G d n1 [] b CNil)
              (prog_m G d n2 ms (prog G d (n2 + reps_m d ms) [] r k)))
  | TReg _ o id lc b r =>
      let rest := region_after o id (prog G d (n + reps d b) [] r k) in
      flush p (region_start G o id lc (prog G d n [] b (region_end G o id lc rest)) rest)
  | TCall fn args id lc a b more r =>
      let n1 := n + reps d b in
      flush p (region_start G (RCall fn args) id lc
        (lines [GKwsNew id; GArgName id a]
          (prog G d n [] b
            (prog_p G d n1 id a more
              (call_reset id
                (show_code G (XCallKw fn args id) [] [] None []
                  (CLine (GDel TgKws id) []
                    (call_tail fn id lc (prog G d (n1 + reps_p d more) [] r k)))))))) CNil)
  | TDef _ o name args rem b r =>
      match o with
      | DBlock => flush p (CLine (GCallBlock name) [] (prog G d n [] r k))
      | _ =>
          if own_method d o then prog G d n p r k
          else flush p (CPart (HDef name args) []
                          (CLine (GComment (L "#" ++ rem)) [] (prog G d n [] b CNil))
                          (prog G d (n + reps d b) [] r k))
      end
  end
with prog_m (G : gset) (d : bool) (n : nat) (ms : mids) (k : code) : code :=
  match ms with
  | MNil => k
  | MCons m lc b r =>
      CPart (mid_head m) (gen_from lc) (prog G d n [] b CNil) (prog_m G d (n + reps d b) r k)
  end
with prog_p (G : gset) (d : bool) (n : nat) (id cur : pystr) (ps : parts) (k : code) : code :=
  match ps with
  | PNil => arg_next id cur k
  | PCons a b r => arg_next id cur (prog G d n [] b (prog_p G d (n + reps d b) id a r k))
  end.

(** The code of a method of its own. *)
Definition meth_code (G : gset) (d : bool) (o : dop) (name : pystr) (b : tm) : code :=
  match o with
  | DBlock => prog G d 0 (mark_start G name) b (flush (mark_end G name) CNil)
  | _ => prog G d 0 [] b CNil
  end.

(** The methods a template defines, in the order in which they end. *)
Fixpoint meths (G : gset) (d : bool) (t : tm) : list (mhead * code) :=
  match t with
  | TNil => []
  | TText _ _ r | TRem _ r | TSlurp r | TPlace _ _ _ _ _ r | TExpr _ _ r | TSet _ _ _ _ r
  | TTern _ _ _ _ r => meths G d r
  | TBlk _ _ _ b ms r => meths G d b ++ meths_m G d ms ++ meths G d r
  | TReg _ _ _ _ b r => meths G d b ++ meths G d r
  | TCall _ _ _ _ _ b more r => meths G d b ++ meths_p G d more ++ meths G d r
  | TDef short o name args _ b r =>
      let d' := match o with DDef => d || (g_nested G && negb short) | _ => d end in
      meths G d' b
      ++ (if own_method d o then [((name, args), meth_code G d' o name b)] else [])
      ++ meths G d r
  end
with meths_m (G : gset) (d : bool) (ms : mids) : list (mhead * code) :=
  match ms with MNil => [] | MCons _ _ b r => meths G d b ++ meths_m G d r end
with meths_p (G : gset) (d : bool) (ps : parts) : list (mhead * code) :=
  match ps with PNil => [] | PCons _ b r => meths G d b ++ meths_p G d r end.

(** Text of [t] that is not written yet at its end. *)
Fixpoint tail_text (d : bool) (p : pystr) (t : tm) : pystr :=
  match t with
  | TNil => p
  | TText s cut r => tail_text d (p ++ text_of s cut) r
  | TRem _ r | TSlurp r | TPlace _ _ _ _ _ r | TExpr _ _ r | TSet _ _ _ _ r
  | TTern _ _ _ _ r | TBlk _ _ _ _ _ r | TReg _ _ _ _ _ r
  | TCall _ _ _ _ _ _ _ r => tail_text d [] r
  | TDef _ o _ _ _ _ r =>
      tail_text d (match o with DBlock => [] | _ => if own_method d o then p else [] end) r
  end.

(** Templates without the constructs the generator gets wrong: [#echo]/[#silent] with an
    expression that starts with the name of a directive (or is empty), one-line [#closure]s
    and one-line nested [#def]s whose body ends in text, one-line [#block]s in a [#def] or
    with markers. *)
Definition word_ok (e : pystr) : bool :=
  match split_ws (strip e) with
  | [] => false
  | w :: _ => negb (mem_str w closeable)
  end.
Definition no_text (s : pystr) : bool := match s with [] => true | _ => false end.
Fixpoint sane (G : gset) (d : bool) (t : tm) : bool :=
  match t with
  | TNil => true
  | TText _ _ r | TRem _ r | TSlurp r | TPlace _ _ _ _ _ r | TSet _ _ _ _ r | TTern _ _ _ _ r => sane G d r
  | TExpr _ e r => word_ok e && sane G d r
  | TBlk _ _ _ b ms r => sane G d b && sane_m G d ms && sane G d r
  | TReg _ _ _ _ b r => sane G d b && sane G d r
  | TCall _ _ _ _ _ b more r => sane G d b && sane_p G d more && sane G d r
  | TDef short o _ _ _ b r =>
      let d' := match o with DDef => d || (g_nested G && negb short) | _ => d end in
      sane G d' b
      && (if short then
            match o with
            | DBlock => negb d && match g_markers G with None => true | Some _ => false end
            | _ => own_method d o || no_text (tail_text d [] b)
            end
          else true)
      && sane G d r
  end
with sane_m (G : gset) (d : bool) (ms : mids) : bool :=
  match ms with MNil => true | MCons _ _ b r => sane G d b && sane_m G d r end
with sane_p (G : gset) (d : bool) (ps : parts) : bool :=
  match ps with PNil => true | PCons _ b r => sane G d b && sane_p G d r end.

(** ** Sequences for which nesting is all that can go wrong *)

(** No stray [#arg], no PSP code, no [#echo]/[#silent] whose first word is the name of a
    directive, only known names after [#end]; the body of a short form is on its line, so it
    ends what it opens; a short [#block] is not in a [#def]. *)
Definition known_end (n : pystr) : bool := mem_str n closeable && negb (str_eqb n (L "defmacro")).
Definition plain_ev (e : ev) : Prop :=
  match e with
  | EExpr _ x => word_ok x = true
  | EEnd n => known_end n = true \/ n = L "errorCatcher"
  | _ => True
  end.
Fixpoint plain_evs (l : evs) : Prop :=
  match l with
  | Done => True
  | Ev e r => plain_ev e /\ plain_evs r
  | Short _ _ _ b r => plain_evs b /\ plain_evs r
  | MidShort _ _ b r => plain_evs b /\ plain_evs r
  end.
Fixpoint regular (G : gset) (l : evs) : Prop :=
  match l with
  | Done => True
  | Ev e r =>
      match e with
      | EExpr _ x => word_ok x = true
      | EArg _ | EPsp _ => False
      | EEnd n => known_end n = true
      | _ => True
      end /\ regular G r
  | Short o _ _ b r =>
      match o with OBlock _ _ _ => g_nested G = false | _ => True end
      /\ regular G b /\ balanced (brackets b) /\ regular G r
  | MidShort _ _ b r => regular G b /\ balanced (brackets b) /\ regular G r
  end.

(** The three [ParseError]s. *)
Definition parse_error (e : gerr) : Prop :=
  match e with PNothing | PMismatch _ _ | PUnclosed _ => True | _ => False end.

(** ** Templates whose code is grammatical Python *)

(** Does the template (after text [p] not yet written) put a statement into the code of the
    method it is in? *)
Fixpoint some_stmt (d : bool) (p : pystr) (t : tm) : bool :=
  match t with
  | TNil => negb (no_text p)
  | TText s cut r => some_stmt d (p ++ text_of s cut) r
  | TRem _ r | TSlurp r => negb (no_text p) || some_stmt d [] r
  | TDef _ DDef _ _ _ _ r => negb d && some_stmt d p r || d
  | _ => true
  end.

(** Every suite has a statement; [#else if] and [#else] follow an [#if] or [#unless];
    [#except], [#else] and [#finally] follow a [#try] in the order Python wants, and there is
    at least one of [#except] and [#finally]. *)
Definition bop_state (o : bop) : gst :=
  match o with BIf _ | BUnless _ => GIf | BTry => GTry | _ => GNo end.
Definition mid_state (g : gst) (m : mid) : option gst :=
  match m, g with
  | MElif _, GIf => Some GIf
  | MElse, GIf => Some GNo
  | MElse, GHand => Some GElsed
  | MExcept _, (GTry | GHand) => Some GHand
  | MFinally, (GTry | GHand | GElsed) => Some GNo
  | _, _ => None
  end.
Fixpoint legal (G : gset) (d : bool) (t : tm) : bool :=
  match t with
  | TNil => true
  | TText _ _ r | TRem _ r | TSlurp r | TPlace _ _ _ _ _ r | TExpr _ _ r | TSet _ _ _ _ r
  | TTern _ _ _ _ r => legal G d r
  | TBlk _ o _ b ms r =>
      some_stmt d [] b && legal G d b && legal_m G d (bop_state o) ms && legal G d r
  | TReg _ _ _ _ b r => legal G d b && legal G d r
  | TCall _ _ _ _ _ b more r => legal G d b && legal_p G d more && legal G d r
  | TDef short o _ _ _ b r =>
      let d' := match o with DDef => d || (g_nested G && negb short) | _ => d end in
      (own_method d o || some_stmt d' [] b) && legal G d' b && legal G d r
  end
with legal_m (G : gset) (d : bool) (g : gst) (ms : mids) : bool :=
  match ms with
  | MNil => may_stop g
  | MCons m _ b r =>
      some_stmt d [] b && legal G d b
      && match mid_state g m with Some g' => legal_m G d g' r | None => false end
  end
with legal_p (G : gset) (d : bool) (ps : parts) : bool :=
  match ps with PNil => true | PCons _ b r => legal G d b && legal_p G d r end.
