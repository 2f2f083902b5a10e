(** Model of the settings given in a template: #compiler, #compiler-settings and the reader of config
    strings (Cheetah/SettingsManager.py:46-70, 123-203, 257-303; Cheetah/Compiler.py:1926-1947;
    Cheetah/Parser.py:1903-1980).

    Python's ConfigParser, [eval], [exec] and the regular expressions for numbers, which are made from a constant of
    the standard library's tokenize module, are parameters.  Sections and options reach the code below as
    ConfigParser gives them: in order, without duplicates. *)
From Verif Require Import Base PyStr Alist.

(** Values of settings: texts, None, booleans, dictionaries; other objects are told apart by a number and
    have a truth value (Cheetah/SettingsManager.py:166-181). *)
Inductive cv :=
| CStr (s : pystr) | CNone | CBool (b : bool) | CObj (truth : bool) (n : N) | CDict (d : list (pystr * cv)).
(** A dictionary of settings (Cheetah/SettingsManager.py:217). *)
Definition tree := list (pystr * cv).

(** IndexError: [S[0]] of an empty string; AttributeError: the reader of Python files, which does not exist;
    TypeError or ValueError: [dict.update] with something else than a dictionary (a list of pairs, which
    Python would take, is not modelled); an error of ConfigParser or of the evaluated code
    (Cheetah/SettingsManager.py:52, 150-152, 168, 189, 200). *)
Inductive cexn := CIndex | CAttr | CType | CCode (n : N).

(** [eval] of an expression with no names but the built-in ones, [eval] inside [setCompilerSetting], the names
    that [exec] of a program binds, the sections and options that ConfigParser reads (p_config), and the ends of the matches
    of numberRE and complexNumberRE at the start of a text (Cheetah/SettingsManager.py:16-18, 54-56, 69,
    111-116, 147-161, 168; Cheetah/Compiler.py:1927).  Effects of the evaluated code are not modelled. *)
Record pyenv := mkPy {
  p_eval : pystr -> res cexn cv;
  p_here : pystr -> res cexn cv;
  p_exec : pystr -> res cexn tree;
  p_config : pystr -> res cexn (list (pystr * list (pystr * pystr)));
  p_num : pystr -> option nat;
  p_cnum : pystr -> option nat
}.

(** [str.lower] as far as comparisons with words of ASCII letters without k can tell
    (Cheetah/SettingsManager.py:167-176, 185, 199): the only other characters that become ASCII letters are
    the Kelvin sign and, with a second character, the dotted capital I. *)
Definition lower (s : pystr) : pystr :=
  map (fun c => if (65 <=? c)%N && (c <=? 90)%N then (c + 32)%N else c) s.

Section Config.
Variable P : pyenv.

(** Sequencing (Python's; exceptions pass). (Cheetah/SettingsManager.py:167-176, 185, 199) *)
Definition bind {A B} (x : res cexn A) (f : A -> res cexn B) : res cexn B :=
  match x with Ok a => f a | Raise e => Raise e end.

(** [stringIsNumber] (Cheetah/SettingsManager.py:46-61). *)
Definition is_number (s : pystr) : res cexn bool :=
  match strip s with
  | [] => Raise CIndex
  | c :: r =>
      let s := if ((c =? 45) || (c =? 43))%N && negb (match r with [] => true | _ => false end)
               then strip r else c :: r in
      let m := match p_cnum P s with Some e => Some e | None => p_num P s end in
      Ok (match m with None => false | Some e => e =? length s end)
  end.

(** One value (Cheetah/SettingsManager.py:165-181; [convStringToNum], 63-69).  [v]: subDict[key]. *)
Definition convert (val : pystr) : res cexn cv :=
  bind (if starts_with (L "python:") (lower val) then p_eval P (skipn 7 val) else Ok (CStr val)) (fun v =>
  let v := if str_eqb (lower val) (L "none") then CNone else v in
  let v := if str_eqb (lower val) (L "true") then CBool true else v in
  let v := if str_eqb (lower val) (L "false") then CBool false else v in
  bind (is_number val) (fun n => if n then p_eval P val else Ok v)).

(** The options of a section (Cheetah/SettingsManager.py:164-196): the conversion, then the command
    importSettings, whose reader self.readSettingsFromPySrcFile is defined nowhere. *)
Fixpoint options (conv : bool) (l : list (pystr * pystr)) : res cexn tree :=
  match l with
  | [] => Ok []
  | (k, val) :: l =>
      bind (if conv then convert val else Ok (CStr val)) (fun v =>
      if str_eqb (lower k) (L "importsettings") then Raise CAttr
      else bind (options conv l) (fun d => Ok ((k, v) :: d)))
  end.

(** What newSettings holds under a name: the dictionary made for the section, or a value put there by the
    options of a section globals (Cheetah/SettingsManager.py:157-161, 200). *)
Inductive entry := Sec (l : list (pystr * pystr)) | Done (v : cv).

(** [dict.update] with a list of settings (Cheetah/SettingsManager.py:200). *)
Fixpoint update {A} (st : list (pystr * A)) (d : list (pystr * A)) : list (pystr * A) :=
  match d with
  | [] => st
  | (k, v) :: d => update (aset k v st) d
  end.

(** The loop over the sections (Cheetah/SettingsManager.py:163-201).  The dictionary of a section that is
    no longer in newSettings is converted all the same. *)
Fixpoint sections (conv : bool) (l : list (pystr * list (pystr * pystr))) (st : list (pystr * entry))
  : res cexn (list (pystr * entry)) :=
  match l with
  | [] => Ok st
  | (s, o) :: l =>
      bind (options conv o) (fun d =>
      let st := match aget s st with Some (Sec _) => aset s (Done (CDict d)) st | _ => st end in
      if str_eqb (lower s) (L "globals") then
        match aget s st with
        | Some (Done (CDict d)) => sections conv l (adel s (update st (map (fun p => (fst p, Done (snd p))) d)))
        | _ => Raise CType
        end
      else sections conv l st)
  end.

(** The value of an entry (the loop has replaced every [Sec] by then). (Cheetah/SettingsManager.py:163-201) *)
Definition entry_val (e : entry) : cv := match e with Sec l => CDict (map (fun p => (fst p, CStr (snd p))) l) | Done v => v end.

(** [readSettingsFromConfigFileObj] (Cheetah/SettingsManager.py:123-203), given what ConfigParser read. *)
Definition read_config (conv : bool) (l : list (pystr * list (pystr * pystr))) : res cexn tree :=
  bind (sections conv l (map (fun p => (fst p, Sec (snd p))) l)) (fun st =>
  Ok (map (fun p => (fst p, entry_val (snd p))) st)).

(** One entry of the merge (Cheetah/SettingsManager.py:37-42), as in Settings_Spec.v. *)
Fixpoint over (old : option cv) (new : cv) {struct new} : cv :=
  match new with
  | CDict b =>
      match old with
      | Some (CDict a) =>
          CDict ((fix go (a : tree) (b : tree) {struct b} : tree :=
                    match b with
                    | [] => a
                    | (k, w) :: r => go (aset k (over (aget k a) w) a) r
                    end) a b)
      | _ => CDict b
      end
  | v => v
  end.

(** [mergeNestedDictionaries] on trees (Cheetah/SettingsManager.py:25-43). *)
Fixpoint merge (a b : tree) : tree :=
  match b with
  | [] => a
  | (k, w) :: r => merge (aset k (over (aget k a) w) a) r
  end.

(** Python's truth value (Cheetah/SettingsManager.py:268). *)
Definition truth (v : cv) : bool :=
  match v with
  | CStr [] | CNone | CBool false | CDict [] => false
  | CObj t _ => t
  | _ => true
  end.

(** [updateSettings] (Cheetah/SettingsManager.py:264-271). *)
Definition update_settings (st new : tree) (mrg : bool) : tree := if mrg then merge st new else update st new.

(** The end of the readers: [merge=newSettings.get('mergeSettings', merge)], with the default merge=True
    (Cheetah/SettingsManager.py:277-279, 301-303). *)
Definition take (st new : tree) : tree :=
  update_settings st new (match aget (L "mergeSettings") new with Some v => truth v | None => true end).

(** [updateSettingsFromConfigStr], with the default convert=True (Cheetah/SettingsManager.py:293-303). *)
Definition update_from_config (s : pystr) (st : tree) : res cexn tree :=
  bind (p_config P (L "[globals]" ++ [10%N] ++ s)) (fun l =>
  bind (read_config true l) (fun new => Ok (take st new))).

(** Names that readSettingsFromModule takes (Cheetah/SettingsManager.py:96-106). *)
Definition public (p : pystr * cv) : bool := negb (starts_with (L "_") (fst p)).

(** [updateSettingsFromPySrcStr] (Cheetah/SettingsManager.py:108-121, 273-279). *)
Definition update_from_py (s : pystr) (st : tree) : res cexn tree :=
  bind (p_exec P s) (fun new => Ok (take st (filter public new))).

(** ** The directives *)

(** #compiler name = expr, where the name may be reset; #compiler-settings keywords, with the text up to the
    end directive (Cheetah/Parser.py:1903-1980). *)
Inductive sop :=
| ODir (k : pystr) (e : pystr)
| OBlock (kws : list pystr) (s : pystr).

(** Keyword tests [x in keywords] (Cheetah/Parser.py:1960; Cheetah/Compiler.py:1933-1939). *)
Definition has (x : pystr) (kws : list pystr) : bool := existsb (str_eqb x) kws.

(** [_initializeSettings] (Cheetah/Compiler.py:1740-1741).  [dflt]: DEFAULT_COMPILER_SETTINGS. *)
Definition initialize (dflt st : tree) : tree := update_settings st dflt true.

(** [eatCompiler] and [setCompilerSetting]; [eatCompilerSettings] and [setCompilerSettings]
    (Cheetah/Parser.py:1914-1935, 1960-1975; Cheetah/Compiler.py:1926-1947).  What configureParser does with
    the settings is not here. *)
Definition apply_op (dflt : tree) (o : sop) (st : tree) : res cexn tree :=
  match o with
  | ODir k e => if str_eqb (lower k) (L "reset") then Ok (initialize dflt st)
                else bind (p_here P e) (fun v => Ok (aset k v st))
  | OBlock kws s => if has (L "reset") kws then Ok (initialize dflt st)
                    else if has (L "python") kws then update_from_py s st
                    else update_from_config s st
  end.

(** The directives of a template in turn (Cheetah/Parser.py:1537-1563). *)
Fixpoint apply_ops (dflt : tree) (l : list sop) (st : tree) : res cexn tree :=
  match l with
  | [] => Ok st
  | o :: l => bind (apply_op dflt o st) (apply_ops dflt l)
  end.
End Config.
