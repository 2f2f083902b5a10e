(** Property theorems C91 (a template run as a program; --templateAPIClass). *)
From Verif Require Import Base PyStr Alist Iface_Model Iface_Spec Iface_Proofs.
Local Open Scope nat_scope.
Local Open Scope string_scope.
Local Open Scope list_scope.

(** ** Dictionaries for examples *)
Definition dic (l : list (string * nat)) : space nat := map (fun e => (L (fst e), snd e)) l.
Definition env0 := dic [("HOME", 1); ("x", 2)].
Definition load0 (json : bool) (f : pystr) (k : nat) : option (space nat) :=
  if str_eqb f (L "a.pkl") then (if json then None else Some (dic [("x", 3); ("y", 4)]))
  else if str_eqb f (L "b.json") then (if json then Some (dic [("y", 5)]) else None)
  else if str_eqb f (L "-") then Some (dic [("z", 6 + k)])
  else None.
Definition own0 : list (space nat) := [dic []; dic [("x", 9); ("title", 8)]].

Ltac starts p := split; [discriminate|exists p; reflexivity].
Definition args0 := map L ["--en"; "--pickle=a.pkl"; "--j"; "b.json"; "rest"; "--env"].
Lemma written0 : written args0 [IEnv; IPickle (L "a.pkl"); IJson (L "b.json")].
Proof.
  apply (wr_more [L "--en"] [IEnv] _ [IPickle (L "a.pkl"); IJson (L "b.json")]); [apply (sp_env (L "en")); starts (L "v")|].
  apply (wr_more [L "--pickle=a.pkl"] [IPickle (L "a.pkl")] _ [IJson (L "b.json")]);
    [apply (sp_pickle_eq (L "pickle") (L "a.pkl")); starts (@nil N)|].
  apply (wr_more [L "--j"; L "b.json"] [IJson (L "b.json")] _ []); [apply (sp_json (L "j") (L "b.json")); starts (L "son")|].
  apply wr_end. right. right. intros r E. discriminate E.
Qed.
Lemma loads0 : loads (space nat) load0 env0 0 [IEnv; IPickle (L "a.pkl"); IJson (L "b.json")] 2 [env0; dic [("x", 3); ("y", 4)]; dic [("y", 5)]].
Proof. apply lo_env. apply lo_pickle; [reflexivity|]. apply lo_json; [reflexivity|]. apply lo_nil. Qed.

(** ** C91: the options *)

(** C91: with options that bring dictionaries, the template is printed with these before everything else on its search list,
    the last one first. *)
Theorem C91_prints : forall V load environ args os k vs sl, written args os -> loads (space V) load environ 0 os k vs ->
  run V load environ args sl = Some (Prints V (rev vs ++ sl)).
Proof. exact run_prints. Qed.
Print Assumptions C91_prints.

Example C91_prints_ex : written args0 [IEnv; IPickle (L "a.pkl"); IJson (L "b.json")]
  /\ loads (space nat) load0 env0 0 [IEnv; IPickle (L "a.pkl"); IJson (L "b.json")] 2 [env0; dic [("x", 3); ("y", 4)]; dic [("y", 5)]]
  /\ run nat load0 env0 args0 own0 = Some (Prints nat (dic [("y", 5)] :: dic [("x", 3); ("y", 4)] :: env0 :: own0)).
Proof. split; [exact written0|]. split; [exact loads0|]. vm_compute. reflexivity. Qed.

(** C91: a name then has the value in the last of them that has it. *)
Theorem C91_last_wins : forall V (vs sl : list (space V)) x, (exists s, In s vs /\ aget x s <> None) ->
  exists a s b v, vs = a ++ s :: b /\ aget x s = Some v /\ (forall t, In t b -> aget x t = None) /\ value V x (rev vs ++ sl) = Some v.
Proof. exact value_first. Qed.
Print Assumptions C91_last_wins.

(** C91: and if none has it, the value it has without them. *)
Theorem C91_others : forall V (vs sl : list (space V)) x, (forall s, In s vs -> aget x s = None) -> value V x (rev vs ++ sl) = value V x sl.
Proof. exact value_rest. Qed.
Print Assumptions C91_others.

Definition vs0 : list (space nat) := [env0; dic [("x", 3); ("y", 4)]; dic [("y", 5)]].
Example C91_last_wins_ex : (exists s, In s vs0 /\ aget (L "x") s <> None) /\ value nat (L "x") (rev vs0 ++ own0) = Some 3
  /\ value nat (L "y") (rev vs0 ++ own0) = Some 5.
Proof. split; [exists env0; split; [left; reflexivity|discriminate]|]. split; vm_compute; reflexivity. Qed.
Example C91_others_ex : (forall s, In s vs0 -> aget (L "title") s = None) /\ value nat (L "title") (rev vs0 ++ own0) = Some 8.
Proof. split; [intros s [<-|[<-|[<-|[]]]]; reflexivity|vm_compute; reflexivity]. Qed.

(** C91: asking for help shows it, if the dictionaries before can be loaded. *)
Theorem C91_help : forall V load environ args pre post k vs sl, written args (pre ++ IHelp :: post) ->
  loads (space V) load environ 0 pre k vs -> run V load environ args sl = Some (Help V).
Proof. exact run_help. Qed.
Print Assumptions C91_help.

Example C91_help_ex : written [L "--env"; L "-hh"] ([IEnv] ++ IHelp :: [IHelp]) /\ loads (space nat) load0 env0 0 [IEnv] 0 [env0]
  /\ run nat load0 env0 [L "--env"; L "-hh"] own0 = Some (Help nat).
Proof.
  split.
  - apply (wr_more [L "--env"] [IEnv] [L "-hh"] [IHelp; IHelp]); [apply (sp_env (L "env")); starts (@nil N)|].
    apply (wr_more [L "-hh"] [IHelp; IHelp] [] []); [exact (sp_h 1)|]. apply wr_end. exact I.
  - split; [apply lo_env; apply lo_nil|vm_compute; reflexivity].
Qed.

(** C91: a dictionary that cannot be loaded is an exception. *)
Theorem C91_load_fails : forall V load environ args pre f post k vs sl j,
  written args (pre ++ (if j : bool then IJson f else IPickle f) :: post) ->
  loads (space V) load environ 0 pre k vs -> load j f k = None ->
  run V load environ args sl = Some (LoadFails V f).
Proof. exact run_fails. Qed.
Print Assumptions C91_load_fails.

Example C91_load_fails_ex : written [L "--p"; L "gone"] ([] ++ IPickle (L "gone") :: []) /\ load0 false (L "gone") 0 = None
  /\ run nat load0 env0 [L "--p"; L "gone"] own0 = Some (LoadFails nat (L "gone")).
Proof.
  split; [|split; [reflexivity|vm_compute; reflexivity]].
  apply (wr_more [L "--p"; L "gone"] [IPickle (L "gone")] [] []); [apply (sp_pickle (L "p")); starts (L "ickle")|apply wr_end; exact I].
Qed.

(** C91: arguments that are not written so, and only those, are answered with an error and the help. *)
Theorem C91_wrong : forall V load environ args sl,
  (exists e, run V load environ args sl = Some (Wrong V e)) <-> ~ exists os, written args os.
Proof. exact run_wrong. Qed.
Print Assumptions C91_wrong.

Example C91_wrong_ex :
  map (fun a => run nat load0 env0 (map L a) own0) [["--pickle"]; ["--env=1"]; ["--quiet"]; ["-hx"]; ["--=a"]; ["--env"; "-v"]]
  = map (fun e => Some (Wrong nat e))
      [Requires (L "--pickle"); MustNot (L "--env"); Unknown (L "--quiet"); Unknown (L "-x"); NotUnique (L "--"); Unknown (L "-v")]
  /\ exists os, written args0 os.
Proof. split; [vm_compute; reflexivity|]. eexists. exact written0. Qed.

(** C91 does not hold of #set global: a name that one of the dictionaries has keeps the value there. *)
Theorem C91_set_global_refuted : exists args sl' (sl : list (space nat)), run nat load0 env0 args own0 = Some (Prints nat sl)
  /\ sl' = set_global nat 1 (L "x") 7 sl /\ (exists s, nth_error sl' 1 = Some s /\ aget (L "x") s = Some 7) /\ value nat (L "x") sl' = Some 2
  /\ value nat (L "x") (set_global nat 0 (L "x") 7 own0) = Some 7.
Proof.
  exists [L "--env"], (env0 :: dic [("x", 7)] :: tl own0), (env0 :: own0).
  split; [vm_compute; reflexivity|]. split; [vm_compute; reflexivity|]. split; [exists (dic [("x", 7)]); split; reflexivity|].
  split; vm_compute; reflexivity.
Qed.
Print Assumptions C91_set_global_refuted.

(** C91 does not hold of options after another argument: they have no effect, and nothing is said. *)
Theorem C91_ignored_refuted : exists args, In (L "--env") args /\ In (L "--nonsense") args
  /\ run nat load0 env0 args own0 = Some (Prints nat own0).
Proof. exists [L "page"; L "--env"; L "--nonsense"]. split; [cbn; auto|]. split; [cbn; auto|]. vm_compute. reflexivity. Qed.
Print Assumptions C91_ignored_refuted.

(** C91 does not hold of help after a file that is not there: the exception comes first. *)
Theorem C91_help_late_refuted : exists args, In (L "--help") args /\ run nat load0 env0 args own0 = Some (LoadFails nat (L "gone")).
Proof. exists [L "--pickle"; L "gone"; L "--help"]. split; [cbn; auto|]. vm_compute. reflexivity. Qed.
Print Assumptions C91_help_late_refuted.

(** ** C91: --templateAPIClass *)

(** C91: module:class is the class in the module, for names with and without dots. *)
Theorem C91_class : forall m c, ~ In 58%N m -> ~ In 58%N c -> ~ In 46%N m -> ~ In 46%N c -> template_class (m ++ L ":" ++ c) = Class m c.
Proof. exact class_plain. Qed.
Print Assumptions C91_class.
Theorem C91_class_dotted : forall p m c, ~ In 58%N p -> ~ In 58%N m -> ~ In 58%N c -> ~ In 46%N m -> ~ In 46%N c ->
  template_class (p ++ L "." ++ m ++ L ":" ++ c) = SubAttr p m c.
Proof. exact class_dotted. Qed.
Print Assumptions C91_class_dotted.
Example C91_class_ex : (~ In 58%N (L "lib") /\ ~ In 58%N (L "Page") /\ ~ In 46%N (L "lib") /\ ~ In 46%N (L "Page"))
  /\ template_class (L "lib:Page") = Class (L "lib") (L "Page") /\ template_class (L "lib") = BadForm /\ template_class [] = Standard.
Proof. split; [repeat split; cbn; intuition discriminate|]. split; [|split]; vm_compute; reflexivity. Qed.
Example C91_class_dotted_ex : template_class (L "Cheetah.lib.Template:Template") = SubAttr (L "Cheetah.lib") (L "Template") (L "Template").
Proof. vm_compute. reflexivity. Qed.

(** C91 does not hold of a class in a class: the dot in it is looked for in the name of the module, and the empty attribute of
    the module is asked for. *)
Theorem C91_inner_refuted : exists m c, ~ In 58%N m /\ ~ In 58%N c /\ ~ In 46%N m /\ template_class (m ++ L ":" ++ c) = SubAttr m [] c.
Proof.
  exists (L "lib"), (L "Outer.Page"). split; [cbn; intuition discriminate|]. split; [cbn; intuition discriminate|]. split; [cbn; intuition discriminate|].
  vm_compute. reflexivity.
Qed.
Print Assumptions C91_inner_refuted.
