(** Specification of the way from the text of a template to its structure: the text of a structured
    template, the structure in the sense of Gen_Spec.v it has to be translated to, and which structured
    templates can be written down.  Nothing here has a parser state, a stack or a loop over the source. *)
From Verif Require Import Base PyStr Reader_Spec Lex_Model Lex_Spec Expr_Model Front_Model.
From Verif Require Gen_Model Gen_Spec.

(** ** Templates with their text *)

(** How a directive ends: with the directive end token, with a line break that belongs to it (the directive
    is alone on its line), or before a line break or the end of the source. *)
Inductive close := Hash | Eol (nl : pystr) | Bare.

(** An expression: its text and the Python code it stands for. *)
Record xp := mkXP { x_src : pystr; x_code : pystr }.

(** A placeholder: silent or not, the text behind the token, code and filter arguments. *)
Record plh := mkPH { ph_sil : bool; ph_src : pystr; ph_code : pystr; ph_fa : option pystr }.

(** Directives of one line. *)
Inductive sdir := ISilent (e : xp) | IEcho (e : xp) | IWord (w : pystr) | IKey (w : pystr) (e : xp)
| ISet (glob : bool) (lv : xp) (op : pystr) (e : xp)
| IThen (c t f : xp).

(** Directives with a body. *)
Inductive sblk := IIf (e : xp) | IUnless (e : xp) | IWhile (e : xp) | IRepeat (e : xp) | IFor (t e : xp) | ITry.
Inductive smid := JElse | JElif (e : xp) | JElseIf (e : xp) | JExcept (e : xp) | JExceptAll | JFinally.
Inductive sdef := IDef | IBlock.

(** The arguments of a definition, in brackets: their text, and the names with their default values. *)
Record sargs := mkSA { sa_src : pystr; sa_val : list (pystr * option pystr) }.

(** Regions: #capture, #filter with a name, #filter with a class, #call of a function with perhaps further arguments, and
    #cache with its arguments and what they mean. *)
Inductive sreg := ICapture (v : xp) | IFilter (f : pystr) | IFilterIs (x : xp) | ICall (fn : xp) (a : option xp)
| ICache (a : sargs) (ci : Gen_Model.cinfo).

(** A template: text and things in turn.  In each constructor [s] is the text before the thing.  The last
    three are the short forms, with the body behind a colon on the line of the directive and no ending
    directive; the body includes the line break, but for [SOneReg] and [SOneDef].  [SCall] is a #call whose body
    is a row of #arg directives, each with the text of its argument behind it. *)
Inductive stm :=
| SEnd (s : pystr)
| SPlace (s : pystr) (h : plh) (r : stm)
| SRem (s c : pystr) (k : close) (r : stm)
| SMul (s c u nl : pystr) (r : stm)
| SSlurp (s : pystr) (word : bool) (w nl : pystr) (r : stm)
| SRaw (s : pystr) (k : close) (body w : pystr) (ke : close) (r : stm)
| SOneRaw (s u : pystr) (r : stm)
| SDir (s : pystr) (d : sdir) (k : close) (r : stm)
| SBlk (s : pystr) (o : sblk) (k : close) (b : stm) (ms : smids) (ke : close) (r : stm)
| SReg (s : pystr) (o : sreg) (k : close) (b : stm) (ke : close) (r : stm)
| SCall (s : pystr) (fn : xp) (a : option xp) (k : close) (ps : sparts) (ke : close) (r : stm)
| SDef (s : pystr) (o : sdef) (name : pystr) (a : option sargs) (k : close) (b : stm) (ke : close) (r : stm)
| SOne (s : pystr) (o : sblk) (b : stm) (ms : sones) (r : stm)
| SOneReg (s : pystr) (o : sreg) (b : stm) (r : stm)
| SOneDef (s : pystr) (o : sdef) (name : pystr) (a : option sargs) (b : stm) (ke : close) (r : stm)
with smids := SMNil | SMCons (m : smid) (k : close) (b : stm) (r : smids)
with sones := SNNil | SNCons (m : smid) (b : stm) (r : sones)
with sparts := SPNil | SPCons (n : pystr) (k : close) (b : stm) (r : sparts).

Scheme stm_mut := Induction for stm Sort Prop
with smids_mut := Induction for smids Sort Prop
with sones_mut := Induction for sones Sort Prop
with sparts_mut := Induction for sparts Sort Prop.
Combined Scheme stm_smids from stm_mut, smids_mut, sones_mut, sparts_mut.

(** ** Their text *)

Definition show_close (k : close) : pystr := match k with Hash => L "#" | Eol nl => nl | Bare => [] end.
Definition show_ph (h : plh) : pystr := L "$" ++ (if ph_sil h then L "!" else []) ++ ph_src h.

Definition dir_name (d : sdir) : pystr :=
  match d with
  | ISilent _ => L "silent" | IEcho _ => L "echo" | IWord w => w | IKey w _ => w | ISet _ _ _ _ => L "set"
  | IThen _ _ _ => L "if"
  end.
Definition dir_args (d : sdir) : pystr :=
  match d with
  | ISilent e | IEcho e | IKey _ e => L " " ++ x_src e
  | IWord _ => []
  | ISet g lv op e => (if g then L " global " else L " ") ++ x_src lv ++ L " " ++ op ++ L " " ++ x_src e
  | IThen c t f => L " " ++ x_src c ++ L " then " ++ x_src t ++ L " else " ++ x_src f
  end.
Definition show_dir (d : sdir) : pystr := L "#" ++ dir_name d ++ dir_args d.

Definition blk_name (o : sblk) : pystr :=
  match o with
  | IIf _ => L "if" | IUnless _ => L "unless" | IWhile _ => L "while" | IRepeat _ => L "repeat"
  | IFor _ _ => L "for" | ITry => L "try"
  end.
Definition blk_args (o : sblk) : pystr :=
  match o with
  | IIf e | IUnless e | IWhile e | IRepeat e => L " " ++ x_src e
  | IFor t e => L " " ++ x_src t ++ L " in " ++ x_src e
  | ITry => []
  end.
Definition show_blk (o : sblk) : pystr := L "#" ++ blk_name o ++ blk_args o.

Definition mid_name (m : smid) : pystr :=
  match m with
  | JElse | JElseIf _ => L "else" | JElif _ => L "elif" | JExcept _ | JExceptAll => L "except"
  | JFinally => L "finally"
  end.
Definition mid_args (m : smid) : pystr :=
  match m with
  | JElseIf e => L " if " ++ x_src e
  | JElif e | JExcept e => L " " ++ x_src e
  | _ => []
  end.
Definition show_mid (m : smid) : pystr := L "#" ++ mid_name m ++ mid_args m.

Definition reg_name (o : sreg) : pystr :=
  match o with ICapture _ => L "capture" | IFilter _ | IFilterIs _ => L "filter" | ICall _ _ => L "call" | ICache _ _ => L "cache" end.
Definition reg_args (o : sreg) : pystr :=
  match o with
  | ICapture v => L " " ++ x_src v
  | IFilter f => L " " ++ f
  | IFilterIs x => L " " ++ x_src x
  | ICall fn a => L " " ++ x_src fn ++ match a with Some x => L " " ++ x_src x | None => [] end
  | ICache a _ => sa_src a
  end.
(** Does the body of the short form include the line break? *)
Definition reg_gobble (o : sreg) : bool := match o with ICache _ _ => true | _ => false end.
Definition show_reg (o : sreg) : pystr := L "#" ++ reg_name o ++ reg_args o.

Definition def_name (o : sdef) : pystr := match o with IDef => L "def" | IBlock => L "block" end.
Definition show_args (a : option sargs) : pystr :=
  match a with Some a => L "(" ++ sa_src a ++ L ")" | None => [] end.
Definition args_val (a : option sargs) : list (pystr * option pystr) :=
  match a with Some a => sa_val a | None => [] end.
Definition show_def (o : sdef) (name : pystr) (a : option sargs) : pystr :=
  L "#" ++ def_name o ++ L " " ++ name ++ show_args a.

Definition show_end (name : pystr) : pystr := L "#end " ++ name.
Definition show_part (n : pystr) : pystr := L "#arg " ++ n.

(** A comment of several lines; [u], [nl]: white space and line break behind it that belong to it. *)
Definition show_mul (c u nl : pystr) : pystr := L "#*" ++ c ++ L "*#" ++ u ++ nl.
(** #slurp or the token for it, with the rest [w] of its line and the line break [nl]. *)
Definition show_slurp (word : bool) (w nl : pystr) : pystr := (if word then L "#slurp" else L "#") ++ w ++ nl.

(** The block of a #raw: its text [body], the indentation [w] of the ending directive, and how this ends. *)
Definition own_line (k : close) : bool := match k with Eol _ => true | _ => false end.
Definition block (name body w : pystr) (ke : close) : pystr := body ++ w ++ L "#end " ++ name ++ show_close ke.

Fixpoint print (t : stm) : pystr :=
  match t with
  | SEnd s => s
  | SPlace s h r => s ++ show_ph h ++ print r
  | SRem s c k r => s ++ L "##" ++ c ++ show_close k ++ print r
  | SMul s c u nl r => s ++ show_mul c u nl ++ print r
  | SSlurp s b w nl r => s ++ show_slurp b w nl ++ print r
  | SRaw s k body w ke r => s ++ L "#raw" ++ show_close k ++ block (L "raw") body w ke ++ print r
  | SOneRaw s u r => s ++ L "#raw: " ++ u ++ print r
  | SDir s d k r => s ++ show_dir d ++ show_close k ++ print r
  | SBlk s o k b ms ke r =>
      s ++ show_blk o ++ show_close k ++ print b ++ print_m ms ++ show_end (blk_name o) ++ show_close ke ++ print r
  | SReg s o k b ke r =>
      s ++ show_reg o ++ show_close k ++ print b ++ show_end (reg_name o) ++ show_close ke ++ print r
  | SCall s fn a k ps ke r =>
      s ++ show_reg (ICall fn a) ++ show_close k ++ print_p ps ++ show_end (L "call") ++ show_close ke ++ print r
  | SDef s o n a k b ke r =>
      s ++ show_def o n a ++ show_close k ++ print b ++ show_end (def_name o) ++ show_close ke ++ print r
  | SOne s o b ms r => s ++ show_blk o ++ L ": " ++ print b ++ print_n ms ++ print r
  | SOneReg s o b r => s ++ show_reg o ++ L ": " ++ print b ++ print r
  | SOneDef s o n a b ke r => s ++ show_def o n a ++ L ": " ++ print b ++ show_close ke ++ print r
  end
with print_m (ms : smids) : pystr :=
  match ms with
  | SMNil => []
  | SMCons m k b r => show_mid m ++ show_close k ++ print b ++ print_m r
  end
with print_n (ms : sones) : pystr :=
  match ms with
  | SNNil => []
  | SNCons m b r => show_mid m ++ L ": " ++ print b ++ print_n r
  end
with print_p (ps : sparts) : pystr :=
  match ps with
  | SPNil => []
  | SPCons n k b r => show_part n ++ show_close k ++ print b ++ print_p r
  end.

(** ** Their structure *)

(** Is the last line of the text before a directive cut off?  [p]: the source before the directive, [rest]:
    the source after it.  Yes, if nothing but white space is before the directive on its line, and it ends
    with its line break or the source ends with it. *)
Definition cut (p : pystr) (k : close) (rest : pystr) : bool :=
  line_clear (rev p) && match k with Eol _ => true | _ => match rest with [] => true | _ => false end end.

(** A text; the empty one does not count. *)
Definition text (s : pystr) (c : bool) (r : Gen_Spec.tm) : Gen_Spec.tm :=
  match s with [] => r | _ => Gen_Spec.TText (unescape dflt s) c r end.

(** ... before a comment of several lines [c]: it loses its last line if the comment has a line break, or takes the
    rest of its line with it. *)
Definition cut_mul (p c u nl rest : pystr) : bool :=
  line_clear (rev p) &&
  match u ++ nl, rest with
  | [], [] => false
  | [], _ => existsb eolchar c
  | _, _ => true
  end.
(** One comment for each line. *)
Definition rems (c : pystr) (r : Gen_Spec.tm) : Gen_Spec.tm := fold_right Gen_Spec.TRem r (Names_Model.splitlines c).

Definition word_kind (w : pystr) : Gen_Model.xkind :=
  if str_eqb w (L "stop") then Gen_Model.KStop else Gen_Model.KOther.
Definition dir_tm (lc : N * N) (d : sdir) (r : Gen_Spec.tm) : Gen_Spec.tm :=
  match d with
  | ISilent e => Gen_Spec.TExpr Gen_Model.KSilent (x_code e) r
  | IEcho e => Gen_Spec.TExpr Gen_Model.KEcho (x_code e) r
  | IWord w => Gen_Spec.TExpr (word_kind w) w r
  | IKey w e => Gen_Spec.TExpr (word_kind w) (w ++ L " " ++ x_code e) r
  | ISet g lv op e => Gen_Spec.TSet g (x_code lv) op (x_code e) r
  | IThen c t f => Gen_Spec.TTern (x_code c ++ L " ") (L " " ++ x_code t ++ L " ") (L " " ++ x_code f) lc r
  end.
Definition blk_bop (o : sblk) : Gen_Spec.bop :=
  match o with
  | IIf e => Gen_Spec.BIf (x_code e) | IUnless e => Gen_Spec.BUnless (x_code e)
  | IWhile e => Gen_Spec.BWhile (x_code e) | IRepeat e => Gen_Spec.BRepeat (x_code e)
  | IFor t e => Gen_Spec.BFor (x_code t) (x_code e) | ITry => Gen_Spec.BTry
  end.
Definition mid_tm (m : smid) : Gen_Model.mid :=
  match m with
  | JElse => Gen_Model.MElse | JElif e | JElseIf e => Gen_Model.MElif (x_code e)
  | JExcept e => Gen_Model.MExcept (x_code e) | JExceptAll => Gen_Model.MExcept [] | JFinally => Gen_Model.MFinally
  end.
Definition reg_rop (o : sreg) : Gen_Spec.rop :=
  match o with
  | ICapture v => Gen_Spec.RCapture (x_code v)
  | IFilter f => Gen_Spec.RFilter f false
  | IFilterIs x => Gen_Spec.RFilter (x_code x) true
  | ICall fn a => Gen_Spec.RCall (x_code fn) match a with Some x => x_code x | None => [] end
  | ICache _ ci => Gen_Spec.RCache ci
  end.
Definition def_dop (o : sdef) : Gen_Spec.dop := match o with IDef => Gen_Spec.DDef | IBlock => Gen_Spec.DBlock end.

(** ... of the text before the directives [ms] between, or else before the ending directive ([last]). *)
Definition cut_next (p : pystr) (ms : smids) (k : pystr) (last : bool) : bool :=
  match ms with
  | SMNil => last
  | SMCons m kc b r => cut p kc (print b ++ print_m r ++ k)
  end.
(** ... of the text before a #arg: never, the indentation of a #arg stays in the text before it. *)
Definition cut_arg (ps : sparts) (last : bool) : bool := match ps with SPNil => last | SPCons _ _ _ _ => false end.

(** A #call with its arguments; without any it is one with an empty body. *)
Definition called (fn args id : pystr) (lc : N * N) (ps : Gen_Spec.parts) (r : Gen_Spec.tm) : Gen_Spec.tm :=
  match ps with
  | Gen_Spec.PNil => Gen_Spec.TReg false (Gen_Spec.RCall fn args) id lc Gen_Spec.TNil r
  | Gen_Spec.PCons n b more => Gen_Spec.TCall fn args id lc n b more r
  end.

Section Elab.
Variable E : env.

(** [elab p t k last]: the structure of [t], written between the sources [p] and [k]; [last]: is the last
    line of its last text cut off (by the directive [k] starts with)? *)
Fixpoint elab (p : pystr) (t : stm) (k : pystr) (last : bool) {struct t} : Gen_Spec.tm :=
  match t with
  | SEnd s => text s last Gen_Spec.TNil
  | SPlace s h r =>
      let p0 := p ++ s in
      text s false
        (Gen_Spec.TPlace (ph_code h) (match ph_fa h with Some a => a | None => [] end) (show_ph h)
           (e_lc E (length p0)) (ph_sil h) (elab (p0 ++ show_ph h) r k last))
  | SRem s c kc r =>
      let p0 := p ++ s in
      text s (cut p0 kc (print r ++ k)) (Gen_Spec.TRem c (elab (p0 ++ L "##" ++ c ++ show_close kc) r k last))
  | SMul s c u nl r =>
      let p0 := p ++ s in
      text s (cut_mul p0 c u nl (print r ++ k)) (rems c (elab (p0 ++ show_mul c u nl) r k last))
  | SSlurp s b w nl r =>
      let p0 := p ++ s in
      text s (line_clear (rev p0)) (Gen_Spec.TSlurp (elab (p0 ++ show_slurp b w nl) r k last))
  | SRaw s kc body w ke r =>
      let p0 := p ++ s in
      text s (own_line kc || own_line ke)
        (Gen_Spec.TText body false (elab (p0 ++ L "#raw" ++ show_close kc ++ block (L "raw") body w ke) r k last))
  | SOneRaw s u r =>
      let p0 := p ++ s in
      text s false (Gen_Spec.TText u false (elab (p0 ++ L "#raw: " ++ u) r k last))
  | SDir s d kc r =>
      let p0 := p ++ s in
      text s (cut p0 kc (print r ++ k)) (dir_tm (e_lc E (length p0)) d (elab (p0 ++ show_dir d ++ show_close kc) r k last))
  | SBlk s o kc b ms ke r =>
      let p0 := p ++ s in
      let p1 := p0 ++ show_blk o ++ show_close kc in
      let p2 := p1 ++ print b in
      let p3 := p2 ++ print_m ms in
      let k3 := print r ++ k in
      let e := show_end (blk_name o) ++ show_close ke in
      text s (cut p0 kc (print b ++ print_m ms ++ e ++ k3))
        (Gen_Spec.TBlk false (blk_bop o) (e_lc E (length p0))
           (elab p1 b (print_m ms ++ e ++ k3) (cut_next p2 ms (e ++ k3) (cut p3 ke k3)))
           (elab_m p2 ms (e ++ k3) (cut p3 ke k3))
           (elab (p3 ++ e) r k last))
  | SReg s o kc b ke r =>
      let p0 := p ++ s in
      let p1 := p0 ++ show_reg o ++ show_close kc in
      let p2 := p1 ++ print b in
      let k3 := print r ++ k in
      let e := show_end (reg_name o) ++ show_close ke in
      text s (cut p0 kc (print b ++ e ++ k3))
        (Gen_Spec.TReg false (reg_rop o) (e_id E (length p0)) (e_lc E (length p0))
           (elab p1 b (e ++ k3) (cut p2 ke k3)) (elab (p2 ++ e) r k last))
  | SCall s fn a kc ps ke r =>
      let p0 := p ++ s in
      let p1 := p0 ++ show_reg (ICall fn a) ++ show_close kc in
      let p2 := p1 ++ print_p ps in
      let k3 := print r ++ k in
      let e := show_end (L "call") ++ show_close ke in
      text s (cut p0 kc (print_p ps ++ e ++ k3))
        (called (x_code fn) (match a with Some x => x_code x | None => [] end) (e_id E (length p0)) (e_lc E (length p0))
           (elab_p p1 ps (e ++ k3) (cut p2 ke k3)) (elab (p2 ++ e) r k last))
  | SDef s o n a kc b ke r =>
      let p0 := p ++ s in
      let p1 := p0 ++ show_def o n a ++ show_close kc in
      let p2 := p1 ++ print b in
      let k3 := print r ++ k in
      let e := show_end (def_name o) ++ show_close ke in
      text s (cut p0 kc (print b ++ e ++ k3))
        (Gen_Spec.TDef false (def_dop o) n (args_val a) []
           (elab p1 b (e ++ k3) (cut p2 ke k3)) (elab (p2 ++ e) r k last))
  | SOne s o b ms r =>
      let p0 := p ++ s in
      let p1 := p0 ++ show_blk o ++ L ": " in
      let p2 := p1 ++ print b in
      text s false
        (Gen_Spec.TBlk true (blk_bop o) (e_lc E (length p0))
           (elab p1 b [] false) (elab_n p2 ms) (elab (p2 ++ print_n ms) r k last))
  | SOneReg s o b r =>
      let p0 := p ++ s in
      let p1 := p0 ++ show_reg o ++ L ": " in
      let p2 := p1 ++ print b in
      text s false
        (Gen_Spec.TReg true (reg_rop o) (e_id E (length p0)) (e_lc E (length p0))
           (elab p1 b [] false) (elab p2 r k last))
  | SOneDef s o n a b ke r =>
      let p0 := p ++ s in
      let p1 := p0 ++ show_def o n a ++ L ": " in
      let p2 := p1 ++ print b in
      text s (match o with IDef => cut p0 ke (print r ++ k) | IBlock => false end)
        (Gen_Spec.TDef true (def_dop o) n (args_val a) []
           (elab p1 b [] false) (elab (p2 ++ show_close ke) r k last))
  end
with elab_m (p : pystr) (ms : smids) (k : pystr) (last : bool) {struct ms} : Gen_Spec.mids :=
  match ms with
  | SMNil => Gen_Spec.MNil
  | SMCons m kc b r =>
      let p1 := p ++ show_mid m ++ show_close kc in
      let p2 := p1 ++ print b in
      Gen_Spec.MCons (mid_tm m) (e_lc E (length p))
        (elab p1 b (print_m r ++ k) (cut_next p2 r k last)) (elab_m p2 r k last)
  end
with elab_n (p : pystr) (ms : sones) {struct ms} : Gen_Spec.mids :=
  match ms with
  | SNNil => Gen_Spec.MNil
  | SNCons m b r =>
      let p1 := p ++ show_mid m ++ L ": " in
      Gen_Spec.MCons (mid_tm m) (e_lc E (length p)) (elab p1 b [] false) (elab_n (p1 ++ print b) r)
  end
with elab_p (p : pystr) (ps : sparts) (k : pystr) (last : bool) {struct ps} : Gen_Spec.parts :=
  match ps with
  | SPNil => Gen_Spec.PNil
  | SPCons n kc b r =>
      let p1 := p ++ show_part n ++ show_close kc in
      let p2 := p1 ++ print b in
      Gen_Spec.PCons n (elab p1 b (print_p r ++ k) (cut_arg r last)) (elab_p p2 r k last)
  end.

(** ** Which of them can be written down *)

(** Where an expression ends: the source ends, the line ends, the directive ends. *)
Definition stop (b r : pystr) : Prop :=
  match r with [] => True | c :: _ => eolchar c = true \/ c = 35%N /\ esc_ok b = true end.

(** ... or, if the expression is read up to a colon, there is one with a blank behind it. *)
Definition halt (brk : list pystr) (b r : pystr) : Prop :=
  stop b r \/ In (L ":") brk /\ starts_with (L ": ") r = true.

(** The settings, when no closure is open. *)
Definition X0 : lang := lang_with (e_X E) (x_autocall (e_X E)) true.

(** The text [s] is an expression with the code [code], wherever it is followed by such an end and no
    backslash is before it.  (The bound on the depth of calls is the one of C64.) *)
Definition reads (um : bool) (brk : list pystr) (s code : pystr) : Prop :=
  forall b r n, esc_ok b = true -> halt brk (rev s ++ b) r -> 5 * length (s ++ r) + 10 <= n ->
    expr X0 n um false [] brk b (s ++ r) = ok code (rev s ++ b) r.

(** No line breaks; does not end with a backslash. *)
Definition one_line (s : pystr) : Prop := forallb (fun c => negb (eolchar c)) s = true /\ esc_ok (rev s) = true.

(** Does not start with a blank or an opening parenthesis. *)
Definition starts_plain (s : pystr) : Prop :=
  match s with c :: _ => blank c = false /\ c <> 40%N | [] => False end.

Definition xok (brk : list pystr) (e : xp) : Prop :=
  reads (e_um E) brk (x_src e) (x_code e) /\ one_line (x_src e) /\ starts_plain (x_src e) /\
  strip (x_code e) = x_code e /\ x_code e <> [].

(** The target of a #for; what is assigned to in a #set. *)
Definition target_ok (t : xp) : Prop :=
  (forall b r n, 5 * length (x_src t ++ r) + 40 <= n ->
    expr X0 n false false [] [L "in"] b (L " " ++ x_src t ++ L " in " ++ r)
    = ok (L " " ++ x_code t ++ L " ") (rev (L " " ++ x_src t ++ L " ") ++ b) (L "in " ++ r)) /\
  one_line (x_src t) /\ forallb (fun c => negb (c =? 32)%N) (x_code t) = true /\
  starts_plain (x_src t).
Definition lvalue_ok (lv : xp) (op : pystr) : Prop :=
  (forall b r n, esc_ok b = true -> 5 * length (x_src lv ++ op ++ r) + 10 <= n ->
    expr X0 n false false [] assign_ops b (x_src lv ++ L " " ++ op ++ L " " ++ r)
    = ok (x_code lv ++ L " ") (rev (x_src lv ++ L " ") ++ b) (op ++ L " " ++ r)) /\
  one_line (x_src lv) /\ strip (x_code lv ++ L " ") = x_code lv /\
  match x_src lv with c :: _ => blank c = false | [] => False end /\
  (forall r, existsb (fun w => starts_with w (x_src lv ++ L " " ++ r)) (map L ["local"; "global"; "module"]%string) = false).

(** Names. *)
Definition ident (w : pystr) : Prop :=
  match w with c :: r => identchar c = true /\ forallb namechar r = true | [] => False end.

(** Arguments of a definition: [getDefArgList] reads them up to their closing bracket, wherever they stand
    (for lists as in DefArgs_Spec.v: C75).  The name self is not written down. *)
Definition args_ok (a : option sargs) : Prop :=
  match a with
  | None => True
  | Some a =>
      (forall c b r, Gen_Model.s_sl c = true ->
        def_args E c false b (L "(" ++ sa_src a ++ L ")" ++ r)
        = fok (sa_val a, (rev (L "(" ++ sa_src a) ++ b, L ")" ++ r))) /\
      one_line (sa_src a) /\
      match sa_val a with (n, _) :: _ => str_eqb n (L "self") = false | [] => True end
  end.

(** Directives of one word, or of a keyword and an expression. *)
Definition words : list pystr := map L ["stop"; "pass"; "break"; "continue"; "return"; "raise"]%string.
Definition keywords : list pystr := map L ["return"; "del"; "assert"; "raise"]%string.

(** Is [w] somewhere in [s]? *)
Fixpoint contains (w s : pystr) : bool :=
  starts_with w s || match s with [] => false | _ :: r => contains w r end.

(** An expression that looks like the start of a block would have to be closed (Gen_Spec.v). *)
Definition no_block (x : pystr) : Prop :=
  match split_ws (strip x) with w :: _ => Gen_Model.mem_str w Gen_Model.closeable = false | [] => False end.

(** The parts of [if c then t else f]: the words then and else are parts of their own, no other part is one
    of them, and what stands between them is the code of the three expressions. *)
Definition then_ok (c t f : xp) : Prop :=
  let src := L "if " ++ x_src c ++ L " then " ++ x_src t ++ L " else " ++ x_src f in
  let quiet := Forall (fun p => strip p <> L "then" /\ strip p <> L "else") in
  (forall b r n, esc_ok b = true -> stop (rev src ++ b) r -> 5 * length (src ++ r) + 10 <= n ->
    exists ps1 ps2 ps3, quiet ps1 /\ quiet ps2 /\ quiet ps3 /\
      concat ps1 = L "if " ++ x_code c ++ L " " /\ concat ps2 = L " " ++ x_code t ++ L " " /\
      concat ps3 = L " " ++ x_code f /\
      parts X0 n (e_um E) [] [L ":"] b (src ++ r)
      = ok (ps1 ++ [L "then"] ++ ps2 ++ [L "else"] ++ ps3) (rev src ++ b) r) /\
  one_line (x_src c) /\ one_line (x_src t) /\ one_line (x_src f) /\ x_src f <> [].

Definition dir_ok (d : sdir) : Prop :=
  match d with
  | ISilent e | IEcho e => xok [] e /\ no_block (x_code e)
  | IWord w => In w words
  | IKey w e => In w keywords /\ xok [] e /\ no_block (w ++ L " " ++ x_code e)
  | ISet g lv op e => lvalue_ok lv op /\ In op assign_ops /\ xok [] e /\
                      (forall r, x_tok (e_X E) (op ++ L " " ++ r) = Some (length op))
  | IThen c t f => then_ok c t f
  end.
Definition blk_ok (o : sblk) : Prop :=
  match o with
  | IIf e => xok [L ":"] e /\
             contains (L "then") (L "if " ++ x_code e) && contains (L "else") (L "if " ++ x_code e) = false
  | IUnless e | IWhile e | IRepeat e => xok [L ":"] e
  | IFor t e => target_ok t /\ xok [L ":"] e
  | ITry => True
  end.
Definition mid_ok (m : smid) : Prop :=
  match m with
  | JElif e | JElseIf e => xok [L ":"] e /\ Gen_Model.else_sub 0 (x_code e) = x_code e
  | JExcept e => xok [L ":"] e
  | _ => True
  end.
(** Something that starts with a placeholder. *)
Definition starts_var (s : pystr) : bool := match s with c :: d :: _ => (c =? 36)%N && identchar d | _ => false end.

(** The function of a #call: a placeholder or a plain name, read without autocalling, wherever a blank or the end of the
    directive follows. *)
Definition fn_ok (f : xp) : Prop :=
  let X := lang_with (e_X E) false true in
  (forall b r n, esc_ok b = true -> at_char 32 r = true \/ halt [L ":"] (rev (x_src f) ++ b) r -> 5 * length (x_src f ++ r) + 10 <= n ->
    if starts_var (x_src f) then cvar X n (e_um E) false b (x_src f ++ r) = ok (x_code f) (rev (x_src f) ++ b) r
    else exists l, chunks X n (e_um E) b (x_src f ++ r) = ok l (rev (x_src f) ++ b) r /\ gen_var X (e_um E) true l = Some (x_code f)) /\
  one_line (x_src f) /\ match x_src f with c :: _ => identchar c = true \/ starts_var (x_src f) = true | [] => False end.

(** The arguments of a #cache: [getDefArgList] reads them up to the end of the directive (for lists as in DefArgs_Spec.v:
    C75), and they mean [ci]. *)
Definition cache_ok (a : sargs) (ci : Gen_Model.cinfo) : Prop :=
  (forall c b r, Gen_Model.s_sl c = true -> esc_ok b = true -> halt [L ":"] (rev (sa_src a) ++ b) r -> r <> [] ->
    def_args E c true b (sa_src a ++ r) = fok (sa_val a, (rev (sa_src a) ++ b, r))) /\
  e_cargs E (sa_val a) = Ok ci /\ one_line (sa_src a) /\
  match sa_src a with [] => True | d :: _ => d = 32%N end.

Definition reg_ok (o : sreg) : Prop :=
  match o with
  | ICapture v => xok [L ":"] v
  | IFilter f => ident f
  | IFilterIs x => xok [L ":"] x /\ starts_var (x_src x) = true
  | ICall fn a => fn_ok fn /\ match a with Some x => xok [L ":"] x | None => True end
  | ICache a ci => cache_ok a ci
  end.

(** The text [s] between [p] and [k] has no place where something else than text starts. *)
Definition plain_text (p s k : pystr) : Prop :=
  forall u c v, s = u ++ c :: v -> top_match dflt (rev (p ++ u)) (c :: v ++ k) = false.

(** The end of a directive that starts after [p0] and ends with [k]; [rest]: the source after it.  A
    directive with a body does not end the source.  What follows a [#] must not make a comment of it. *)
Definition close_ok (body : bool) (p0 : pystr) (k : close) (rest : pystr) : Prop :=
  match k with
  | Hash => at_char 35 rest = true -> m_dir dflt [35%N] rest <> None
  | Eol nl => line_clear (rev p0) = true /\
      (nl = [10%N] \/ nl = [13; 10]%N \/ nl = [13%N] /\ at_char 10 rest = false)
  | Bare => match rest with
            | [] => body = false
            | c :: _ => eolchar c = true /\ line_clear (rev p0) = false
            end
  end.

(** The body of a short form is the rest of its line, with the line break if [nl]; it must not be blank, and
    no comment. *)
Definition shown (u : pystr) : Prop :=
  forallb (fun c => negb (eolchar c)) u = true /\ strip u <> [] /\ starts_with (L "##") (strip u) = false.
Definition line_ok (nl : bool) (w rest : pystr) : Prop :=
  if nl then
    exists u e, w = u ++ e /\ shown u /\
      (e = [10%N] \/ e = [13; 10]%N \/ e = [13%N] /\ at_char 10 rest = false \/ e = [] /\ rest = [])
  else shown w /\ match rest with [] => True | c :: _ => eolchar c = true end.

(** A comment: one line of ordinary text. *)
Definition rem_ok (p0 c : pystr) (k : close) (rest : pystr) : Prop :=
  c <> [] /\ forallb (fun x => negb (Names_Model.is_linebreak x)) c = true /\ k <> Hash /\
  close_ok false p0 k rest /\
  bar_comment c = false /\ special_var c = false /\
  existsb (fun q => starts_with q c) [L "doc:"; L "doc-method:"; L "doc-module:"; L "doc-class:"; L "header:"] = false.

(** A line break between its line and [rest]. *)
Definition break_ok (nl rest : pystr) : Prop :=
  nl = [10%N] \/ nl = [13; 10]%N \/ nl = [13%N] /\ at_char 10 rest = false.

(** A comment of several lines behind [p0]; what belongs to it is the rest of its line, if this is white space,
    and the line break, if also nothing else is before it. *)
Definition mul_ok (p0 c u nl rest : pystr) : Prop :=
  c <> [] /\ comment_body c /\ bar_comment c = false /\ special_var c = false /\
  existsb (fun q => starts_with q c) [L "doc:"; L "doc-method:"; L "doc-module:"; L "doc-class:"; L "header:"] = false /\
  ((u = [] /\ nl = [] /\ rest = []) \/
   (u = [] /\ nl = [] /\ exists v x y, rest = v ++ x :: y /\ forallb (fun c => negb (eolchar c)) (v ++ [x]) = true /\ is_space x = false) \/
   (forallb (fun c => is_space c && negb (eolchar c)) u = true /\
    if line_clear (rev p0) then break_ok nl rest \/ (u <> [] /\ nl = [] /\ rest = [])
    else nl = [] /\ match rest with [] => u <> [] | x :: _ => eolchar x = true end)).

(** #slurp takes the rest of its line, whatever that is. *)
Definition slurp_ok (word : bool) (w nl rest : pystr) : Prop :=
  forallb (fun c => negb (eolchar c)) w = true /\
  (if word then match w with c :: _ => dnchar c = false | [] => True end else forallb blank w = true) /\
  (break_ok nl rest \/ (word = true /\ nl = [] /\ rest = [])).

(** A text in which nothing is taken for the ending directive of [name]: #end only behind a backslash, or before
    another name. *)
Inductive quiet (name : pystr) : pystr -> Prop :=
| q_nil : quiet name []
| q_char : forall c t, starts_with (L "#end") (c :: t) = false -> quiet name t -> quiet name (c :: t)
| q_esc : forall t, quiet name t -> quiet name (92%N :: 35%N :: t)
| q_other : forall w c t, forallb blank w = true -> blank c = false -> c <> 35%N ->
    starts_with name (c :: t) = false -> quiet name t -> quiet name (L "#end" ++ w ++ c :: t).

(** The ending directive behind [p ++ t ++ w] is alone on its line, with the indentation [w]; or behind other
    text. *)
Definition laid (p t w : pystr) : Prop :=
  (w = [] /\ line_clear (rev (p ++ t)) = false) \/ (after_break (p ++ t) /\ indent w).

(** [k] ends a directive that starts behind [p0]. *)
Definition ends_tag (p0 : pystr) (k : close) (rest : pystr) : Prop :=
  match k with
  | Hash => at_char 35 rest = false
  | Eol nl => line_clear (rev p0) = true /\ (nl = [10%N] \/ nl = [13; 10]%N \/ nl = [13%N] /\ at_char 10 rest = false)
  | Bare => match rest with [] => True | c :: _ => eolchar c = true /\ line_clear (rev p0) = false end
  end.

Definition block_ok (name p body w : pystr) (ke : close) (rest : pystr) : Prop :=
  quiet name (body ++ w) /\ laid p body w /\ esc_ok (rev (p ++ body ++ w)) = true /\ ends_tag (p ++ body ++ w) ke rest.

(** The placeholder [h] between [p0] and [rest] is read as such. *)
Definition ph_ok (p0 : pystr) (h : plh) (rest : pystr) : Prop :=
  m_var dflt (rev p0) (show_ph h ++ rest) || m_expr dflt (rev p0) (show_ph h ++ rest) = true /\
  match ph_src h with c :: _ => identchar c || opener c = true | [] => False end /\
  forall n, 5 * length (show_ph h ++ rest) + 10 <= n ->
    placeholder X0 n (e_um E) true (rev p0) (show_ph h ++ rest)
    = ok (ph_code h, ph_fa h) (rev (show_ph h) ++ rev p0) rest.

(** [wf ind p t k]: [t] can be written between the sources [p] and [k]; [ind]: inside of a #def.

    The condition on #def excludes that text directly before a #def is taken for white space before the
    first directive after it (see C73_def_cuts_text_refuted). *)
Fixpoint wf (ind : bool) (p : pystr) (t : stm) (k : pystr) {struct t} : Prop :=
  match t with
  | SEnd s => plain_text p s k
  | SPlace s h r =>
      let p0 := p ++ s in
      plain_text p s (show_ph h ++ print r ++ k) /\ ph_ok p0 h (print r ++ k) /\ wf ind (p0 ++ show_ph h) r k
  | SRem s c kc r =>
      let p0 := p ++ s in
      let k1 := print r ++ k in
      plain_text p s (L "##" ++ c ++ show_close kc ++ k1) /\ esc_ok (rev p0) = true /\
      rem_ok p0 c kc k1 /\ wf ind (p0 ++ L "##" ++ c ++ show_close kc) r k
  | SMul s c u nl r =>
      let p0 := p ++ s in
      let k1 := print r ++ k in
      plain_text p s (show_mul c u nl ++ k1) /\ esc_ok (rev p0) = true /\
      mul_ok p0 c u nl k1 /\ wf ind (p0 ++ show_mul c u nl) r k
  | SSlurp s b w nl r =>
      let p0 := p ++ s in
      let k1 := print r ++ k in
      plain_text p s (show_slurp b w nl ++ k1) /\ esc_ok (rev p0) = true /\
      slurp_ok b w nl k1 /\ wf ind (p0 ++ show_slurp b w nl) r k
  | SRaw s kc body w ke r =>
      let p0 := p ++ s in
      let p1 := p0 ++ L "#raw" ++ show_close kc in
      let k1 := print r ++ k in
      let e := block (L "raw") body w ke in
      plain_text p s (L "#raw" ++ show_close kc ++ e ++ k1) /\ esc_ok (rev p0) = true /\
      ends_tag p0 kc (e ++ k1) /\ block_ok (L "raw") p1 body w ke k1 /\
      (own_line ke = true -> line_clear (rev p0) = true) /\ wf ind (p0 ++ L "#raw" ++ show_close kc ++ e) r k
  | SOneRaw s u r =>
      let p0 := p ++ s in
      let k1 := print r ++ k in
      plain_text p s (L "#raw: " ++ u ++ k1) /\ esc_ok (rev p0) = true /\
      line_ok false u k1 /\ wf ind (p0 ++ L "#raw: " ++ u) r k
  | SDir s d kc r =>
      let p0 := p ++ s in
      let k1 := print r ++ k in
      plain_text p s (show_dir d ++ show_close kc ++ k1) /\ esc_ok (rev p0) = true /\
      dir_ok d /\ close_ok false p0 kc k1 /\ wf ind (p0 ++ show_dir d ++ show_close kc) r k
  | SBlk s o kc b ms ke r =>
      let p0 := p ++ s in
      let p1 := p0 ++ show_blk o ++ show_close kc in
      let p2 := p1 ++ print b in
      let p3 := p2 ++ print_m ms in
      let k3 := print r ++ k in
      let e := show_end (blk_name o) ++ show_close ke in
      let k1 := print b ++ print_m ms ++ e ++ k3 in
      plain_text p s (show_blk o ++ show_close kc ++ k1) /\ esc_ok (rev p0) = true /\
      blk_ok o /\ close_ok true p0 kc k1 /\
      wf ind p1 b (print_m ms ++ e ++ k3) /\ esc_ok (rev p2) = true /\
      wf_m ind p2 ms (e ++ k3) /\ esc_ok (rev p3) = true /\ close_ok false p3 ke k3 /\ wf ind (p3 ++ e) r k
  | SReg s o kc b ke r =>
      let p0 := p ++ s in
      let p1 := p0 ++ show_reg o ++ show_close kc in
      let p2 := p1 ++ print b in
      let k3 := print r ++ k in
      let e := show_end (reg_name o) ++ show_close ke in
      let k1 := print b ++ e ++ k3 in
      plain_text p s (show_reg o ++ show_close kc ++ k1) /\ esc_ok (rev p0) = true /\
      reg_ok o /\ close_ok true p0 kc k1 /\
      wf ind p1 b (e ++ k3) /\ esc_ok (rev p2) = true /\ close_ok false p2 ke k3 /\ wf ind (p2 ++ e) r k
  | SCall s fn a kc ps ke r =>
      let p0 := p ++ s in
      let p1 := p0 ++ show_reg (ICall fn a) ++ show_close kc in
      let p2 := p1 ++ print_p ps in
      let k3 := print r ++ k in
      let e := show_end (L "call") ++ show_close ke in
      let k1 := print_p ps ++ e ++ k3 in
      plain_text p s (show_reg (ICall fn a) ++ show_close kc ++ k1) /\ esc_ok (rev p0) = true /\
      reg_ok (ICall fn a) /\ close_ok true p0 kc k1 /\
      esc_ok (rev p1) = true /\ wf_p ind p1 ps (e ++ k3) /\ esc_ok (rev p2) = true /\ close_ok false p2 ke k3 /\ wf ind (p2 ++ e) r k
  | SDef s o n a kc b ke r =>
      let p0 := p ++ s in
      let p1 := p0 ++ show_def o n a ++ show_close kc in
      let p2 := p1 ++ print b in
      let k3 := print r ++ k in
      let e := show_end (def_name o) ++ show_close ke in
      let k1 := print b ++ e ++ k3 in
      plain_text p s (show_def o n a ++ show_close kc ++ k1) /\ esc_ok (rev p0) = true /\
      ident n /\ args_ok a /\ close_ok true p0 kc k1 /\
      (o = IDef -> ind = false /\ (line_clear (rev (p2 ++ e)) = true -> cut p0 kc k1 = true)) /\
      wf (match o with IDef => true | IBlock => ind end) p1 b (e ++ k3) /\ esc_ok (rev p2) = true /\
      close_ok false p2 ke k3 /\ wf ind (p2 ++ e) r k
  | SOne s o b ms r =>
      let p0 := p ++ s in
      let p1 := p0 ++ show_blk o ++ L ": " in
      let p2 := p1 ++ print b in
      let k3 := print r ++ k in
      plain_text p s (show_blk o ++ L ": " ++ print b ++ print_n ms ++ k3) /\ esc_ok (rev p0) = true /\
      blk_ok o /\ line_ok true (print b) (print_n ms ++ k3) /\ wf ind p1 b [] /\
      wf_n ind p2 ms k3 /\ wf ind (p2 ++ print_n ms) r k
  | SOneReg s o b r =>
      let p0 := p ++ s in
      let p1 := p0 ++ show_reg o ++ L ": " in
      let k3 := print r ++ k in
      plain_text p s (show_reg o ++ L ": " ++ print b ++ k3) /\ esc_ok (rev p0) = true /\
      reg_ok o /\ line_ok (reg_gobble o) (print b) k3 /\ wf ind p1 b [] /\ wf ind (p1 ++ print b) r k
  | SOneDef s o n a b ke r =>
      let p0 := p ++ s in
      let p1 := p0 ++ show_def o n a ++ L ": " in
      let p2 := p1 ++ print b in
      let k3 := print r ++ k in
      plain_text p s (show_def o n a ++ L ": " ++ print b ++ show_close ke ++ k3) /\ esc_ok (rev p0) = true /\
      ident n /\ args_ok a /\ ind = false /\ line_ok false (print b) (show_close ke ++ k3) /\ wf ind p1 b [] /\
      esc_ok (rev p2) = true /\ close_ok false p0 ke k3 /\ wf ind (p2 ++ show_close ke) r k
  end
with wf_m (ind : bool) (p : pystr) (ms : smids) (k : pystr) {struct ms} : Prop :=
  match ms with
  | SMNil => True
  | SMCons m kc b r =>
      let p1 := p ++ show_mid m ++ show_close kc in
      let p2 := p1 ++ print b in
      let k1 := print b ++ print_m r ++ k in
      mid_ok m /\ close_ok true p kc k1 /\ wf ind p1 b (print_m r ++ k) /\ esc_ok (rev p2) = true /\
      wf_m ind p2 r k
  end
with wf_n (ind : bool) (p : pystr) (ms : sones) (k : pystr) {struct ms} : Prop :=
  match ms with
  | SNNil => True
  | SNCons m b r =>
      let p1 := p ++ show_mid m ++ L ": " in
      let p2 := p1 ++ print b in
      esc_ok (rev p) = true /\ mid_ok m /\ line_ok true (print b) (print_n r ++ k) /\ wf ind p1 b [] /\
      wf_n ind p2 r k
  end
with wf_p (ind : bool) (p : pystr) (ps : sparts) (k : pystr) {struct ps} : Prop :=
  match ps with
  | SPNil => True
  | SPCons n kc b r =>
      let p1 := p ++ show_part n ++ show_close kc in
      let p2 := p1 ++ print b in
      ident n /\ close_ok true p kc (print b ++ print_p r ++ k) /\ wf ind p1 b (print_p r ++ k) /\
      esc_ok (rev p2) = true /\ wf_p ind p2 r k
  end.
End Elab.

(** Python's tokenizer takes a word that is followed by a blank, the end of the line, a [#] or a colon and a
    blank as one token; and a colon that is followed by a blank. *)
Definition word_end (r : pystr) : bool :=
  match r with [] => true | c :: _ => blank c || eolchar c || (c =? 35)%N end || starts_with (L ": ") r.
Definition tokenizes_words (X : lang) : Prop :=
  (forall w r, ident w -> word_end r = true -> x_tok X (w ++ r) = Some (length w)) /\
  forall r, x_tok X (L ": " ++ r) = Some 1%nat.
