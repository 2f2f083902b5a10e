(** Specification of search lists, #include, preprocessor settings and class plumbing, independent of how
    Cheetah/Template.py computes them. *)
From Verif Require Import Base PyStr Alist Tmpl_Model.

(** ** Search lists *)

(** The namespaces a user passes, in order. *)
Definition passed (a : option nsarg) : list entry :=
  match a with None => [] | Some (NOne e) => [e] | Some (NList l) => l | Some (NTuple l) => l end.

(** The dictionaries added by webInput, the latest first. *)
Fixpoint inputs (os : list op) (l : list entry) : list entry :=
  match os with
  | [] => l
  | OInput d :: os => inputs os (EInput d :: l)
  | _ :: os => inputs os l
  end.

(** ** #include *)

(** The text an #include names. *)
Definition content (w : world) (own : option pystr) (a : srcarg) (f : from) : res terr pystr :=
  match f, a with
  | FSource, AStr s => Ok s
  | FSource, AFile _ _ => Raise ETypeE
  | FFile, AFile _ t => Ok t
  | FFile, AStr s =>
      match server_path w own s with
      | None => Raise ETypeE
      | Some p => match w_files w p with Some t => Ok t | None => Raise EIO end
      end
  end.

(** What an #include outputs: the text, or what the template does whose source the text is, with the search
    list of the including template. *)
Definition shows (w : world) (own : option pystr) (sl : list entry) (a : srcarg) (f : from) (raw : bool)
  : res terr pystr :=
  match content w own a f with
  | Raise e => Raise e
  | Ok t => if raw then Ok t else if w_compiles w t then w_run w t sl else Raise ECompile
  end.

(** Operations that include the same argument. *)
Definition includes (a : srcarg) (o : op) : bool :=
  match o with OInclude _ b _ _ => arg_eqb a b | _ => false end.

(** An operation that may come between two #includes of [a] without the second showing something else: no
    web input, and #includes of the same argument are of the same kind and name the same text. *)
Definition harmless (w : world) (own : option pystr) (a : srcarg) (f : from) (raw : bool) (o : op) : Prop :=
  match o with
  | OInit _ _ _ _ _ _ _ => True
  | OInput _ => False
  | OInclude w' b f' raw' => arg_eqb a b = true ->
      raw' = raw /\ f' = f /\ content w' own b f = content w own a f /\
      (forall t, w_compiles w' t = w_compiles w t)
  end.

(** ** Preprocessors *)

(** The settings that follow from the two tokens. *)
Definition derived (ph dir : option pystr) (k : pystr) : option pystr :=
  if str_eqb k (L "cheetahVarStartToken") then ph
  else match dir with
       | None => None
       | Some t =>
           if str_eqb k (L "directiveStartToken") then Some t
           else if str_eqb k (L "directiveEndToken") then Some t
           else if str_eqb k (L "commentStartToken") then Some (t ++ t)
           else if str_eqb k (L "multiLineCommentStartToken") then Some (t ++ L "*")
           else if str_eqb k (L "multiLineCommentEndToken") then Some (L "*" ++ t)
           else if str_eqb k (L "EOLSlurpToken") then Some t
           else None
       end.

(** An absent or empty token. *)
Definition nonempty (t : option pystr) : option pystr :=
  match t with Some [] => None | _ => t end.

(** The two tokens of a preprocessor. *)
Definition tokens_of (p : pp) (ph dir : option pystr) : Prop :=
  match p_tokens p with
  | None => ph = p_ph p /\ dir = p_dir p
  | Some (TSeq l) => exists a b, l = [a; b] /\ ph = Some a /\ dir = Some b
  | Some (TStr s) => exists a b, split_ws s = [a; b] /\ ph = Some a /\ dir = Some b
  | Some TBad => False
  end.

(** The compiler settings a user wrote down. *)
Definition written (p : pp) : list (pystr * sval) :=
  match p_cs p with Some (Some cs) => cs | _ => [] end.

(** The search list of a preprocessor: from templateInitArgs, else searchList, else namespaces. *)
Definition pp_list (p : pp) : option nsarg :=
  match p_init p, p_sl p with
  | Some (Some a), _ => Some a
  | _, Some a => Some a
  | _, None => p_ns p
  end.

(** ** Classes *)

(** The names a template class must have. *)
Definition needed (nm : pystr) : Prop := In nm required_methods \/ In nm required_class_attrs.

(** Whether a class has a [__str__] of its own or from a base other than [object]. *)
Definition has_str (c : cls) : bool :=
  match cget c (L "__str__") with None | Some VObjStr => false | Some _ => true end.
