(** Specification of the options of a template run as a program. *)
From Verif Require Import Base PyStr.

(** The options. *)
Inductive iopt := IHelp | IEnv | IPickle (f : pystr) | IJson (f : pystr).

(** A beginning of a name. *)
Definition begins (p name : pystr) : Prop := p <> [] /\ exists r, name = p ++ r.

(** How options are written: -h, also several times; --help, --env, --pickle and --json or beginnings of these words, the
    last two with a file as the next argument or after an equals sign. *)
Inductive spelled : list pystr -> list iopt -> Prop :=
| sp_h : forall k, spelled [L "-" ++ repeat 104%N (S k)] (repeat IHelp (S k))
| sp_help : forall p, begins p (L "help") -> spelled [L "--" ++ p] [IHelp]
| sp_env : forall p, begins p (L "env") -> spelled [L "--" ++ p] [IEnv]
| sp_pickle : forall p f, begins p (L "pickle") -> spelled [L "--" ++ p; f] [IPickle f]
| sp_pickle_eq : forall p f, begins p (L "pickle") -> spelled [L "--" ++ p ++ L "=" ++ f] [IPickle f]
| sp_json : forall p f, begins p (L "json") -> spelled [L "--" ++ p; f] [IJson f]
| sp_json_eq : forall p f, begins p (L "json") -> spelled [L "--" ++ p ++ L "=" ++ f] [IJson f].

(** Where the options end. *)
Definition over (args : list pystr) : Prop :=
  match args with [] => True | a :: _ => a = L "-" \/ a = L "--" \/ forall r, a <> 45%N :: r end.

(** The arguments of a run, and the options they are. *)
Inductive written : list pystr -> list iopt -> Prop :=
| wr_end : forall args, over args -> written args []
| wr_more : forall a os r os', spelled a os -> written r os' -> written (a ++ r) (os ++ os').

Section Meaning.
Variable V : Type.
Variable load : bool -> pystr -> nat -> option V.
Variable environ : V.

(** The dictionaries the options bring, in their order; [k]: how many were loaded before. *)
Inductive loads : nat -> list iopt -> nat -> list V -> Prop :=
| lo_nil : forall k, loads k [] k []
| lo_env : forall k os k' vs, loads k os k' vs -> loads k (IEnv :: os) k' (environ :: vs)
| lo_pickle : forall k f d os k' vs, load false f k = Some d -> loads (S k) os k' vs -> loads k (IPickle f :: os) k' (d :: vs)
| lo_json : forall k f d os k' vs, load true f k = Some d -> loads (S k) os k' vs -> loads k (IJson f :: os) k' (d :: vs).
End Meaning.
