(** C76: the signature of a generated method and the code around its body. *)
From Verif Require Import Base PyStr Meth_Model Meth_Spec Meth_Proofs.
Local Open Scope string_scope.
Local Open Scope list_scope.

(** Settings as they are by default, and a method [#def f($a, $b=1, *$rest)]. *)
Definition dset : mset := mkMset true false true true true.
Definition demo_m (decos : list string) (args : list (pystr * option pystr)) : mdesc :=
  mkMdesc (L "f") (map L decos) (Some (L "## CHEETAH: generated from #def f at line 1, col 1.")) false args.
Definition demo_args : list (pystr * option pystr) := [(L "a", None); (L "b", Some (L "1")); (L "*rest", None)].
Definition demo_ps : list par := [PPlain (L "a") None; PPlain (L "b") (Some (L "1")); PStar (L "rest")].

Ltac names_ok := repeat constructor; simpl; intuition discriminate.
Lemma demo_ps_ok : read_pars demo_args = Some demo_ps /\ valid demo_ps /\ unreserved demo_ps.
Proof.
  split; [reflexivity|]. split; [split; [names_ok|reflexivity]|].
  intros p [<-|[<-|[<-|[]]]]; simpl; intuition discriminate.
Qed.

(** A valid parameter list gives a valid signature: the names that are added do not repeat one that is there
    and come where Python allows them, whatever the decorators and the settings are. *)
Theorem C76_signature_valid : forall st d ps,
  read_pars (d_user d) = Some ps -> valid ps -> unreserved ps ->
  exists sig, read_pars (sig_args st d) = Some sig /\ valid sig.
Proof. exact signature_valid. Qed.
Print Assumptions C76_signature_valid.
Example C76_signature_valid_ex :
  (exists sig, read_pars (sig_args dset (demo_m [] demo_args)) = Some sig /\ valid sig) /\
  sig_text (L "    ") dset (demo_m [] demo_args)
  = L "    def f(self, a, b=1, *rest, **KWS):" ++ [10; 10]%N /\
  sig_text (L "    ") dset (demo_m ["@staticmethod"] demo_args)
  = L "    @staticmethod" ++ [10%N] ++ L "    def f(a, b=1, *rest, **KWS):" ++ [10; 10]%N /\
  sig_text [] (mkMset false false true true true) (demo_m ["@classmethod"] [(L "a", None)])
  = L "@classmethod" ++ [10%N] ++ L "def f(cls, a, trans=None):" ++ [10; 10]%N.
Proof.
  destruct demo_ps_ok as (A & B & C).
  split; [exact (C76_signature_valid dset (demo_m [] demo_args) demo_ps A B C)|].
  repeat split; vm_compute; reflexivity.
Qed.

(** It does not for an argument called [trans], as in [#def f($trans)]: it is added once more. *)
Theorem C76_signature_valid_trans_refuted : exists st d ps,
  read_pars (d_user d) = Some ps /\ valid ps /\
  (forall p, In p ps -> par_name p = L "trans") /\
  forall sig, read_pars (sig_args st d) = Some sig -> ~ valid sig.
Proof.
  exists dset, (demo_m [] [(L "trans", None)]), [PPlain (L "trans") None].
  split; [reflexivity|]. split; [split; [names_ok|reflexivity]|].
  split; [intros p [<-|[]]; reflexivity|].
  intros sig H. vm_compute in H. inversion H; subst sig. intros [N _]. simpl in N.
  inversion N; subst. inversion H3; subst. apply H4. left. reflexivity.
Qed.
Print Assumptions C76_signature_valid_trans_refuted.

(** A call that the list written in the template accepts is accepted by the method, and every name of the list
    gets the same value: the object comes first, what is added is empty. *)
Theorem C76_call_same : forall V st d ps sig pos (kws : list (pystr * V)) env v,
  read_pars (d_user d) = Some ps -> valid ps -> unreserved ps -> read_pars (sig_args st d) = Some sig ->
  bind ps pos kws = Some env ->
  kw_get (L "self") kws = None -> kw_get (L "cls") kws = None -> kw_get (L "trans") kws = None ->
  exists first more,
    bind sig ((if is_static d && negb (is_class d) then [] else [v]) ++ pos) kws = Some (first ++ env ++ more) /\
    (forall n b, In (n, b) first -> b = BVal v) /\
    (forall n b, In (n, b) more -> b = BDict [] \/ b = BDflt (L "None")).
Proof. exact @call_same. Qed.
Print Assumptions C76_call_same.
Example C76_call_same_ex :
  let kws := [(L "b", 20%nat)] in
  bind demo_ps [10%nat] kws = Some [(L "a", BVal 10%nat); (L "b", BVal 20%nat); (L "rest", BTup [])] /\
  exists sig, read_pars (sig_args dset (demo_m [] demo_args)) = Some sig /\
    bind sig [7%nat; 10%nat] kws
    = Some [(L "self", BVal 7%nat); (L "a", BVal 10%nat); (L "b", BVal 20%nat); (L "rest", BTup []);
            (L "KWS", BDict [])].
Proof. split; [vm_compute; reflexivity|]. eexists. split; vm_compute; reflexivity. Qed.

(** A call that the list written in the template rejects can be accepted: any keyword is. *)
Theorem C76_call_rejected_refuted : exists st d ps sig pos (kws : list (pystr * nat)) v,
  read_pars (d_user d) = Some ps /\ valid ps /\ unreserved ps /\ read_pars (sig_args st d) = Some sig /\
  bind ps pos kws = None /\ bind sig (v :: pos) kws <> None.
Proof.
  exists dset, (demo_m [] [(L "a", None)]), [PPlain (L "a") None].
  exists [PPlain (L "self") None; PPlain (L "a") None; PDStar (L "KWS")], [1%nat], [(L "colour", 2%nat)], 0%nat.
  split; [reflexivity|]. split; [split; [names_ok|reflexivity]|].
  split; [intros p [<-|[]]; simpl; intuition discriminate|].
  split; [reflexivity|]. split; [reflexivity|]. vm_compute. discriminate.
Qed.
Print Assumptions C76_call_rejected_refuted.

(** The code in front of the body, for a method that takes a transaction, called with the transaction [tr] or
    without one: it runs without an exception; [trans] is the transaction that was passed, else that of the
    object, else a new one; [_dummyTrans] says whether it is new; [write], [SL] and [_filter] are set, and the
    arguments of the template have kept their values. *)
Theorem C76_transaction : forall out st d ps pos kws env tr attrs made dv buf tx sl flt,
  is_class d = false -> is_static d = false ->
  match d_note d with Some t => is_note t = true | None => True end ->
  read_pars (d_user d) = Some ps -> valid ps -> unreserved ps -> takes_trans (d_name d) (st_kws st) ps ->
  bind ps pos kws = Some env -> kw_get (L "self") kws = None -> kw_get (L "trans") kws = None ->
  dv (L "None") = VNone -> tx_like (passed tr) -> tx_like tx ->
  kw_get (L "_CHEETAH__isBuffering") attrs = Some buf -> kw_get (L "transaction") attrs = Some tx ->
  kw_get (L "_CHEETAH__searchList") attrs = Some sl -> kw_get (L "_CHEETAH__currentFilter") attrs = Some flt ->
  exists sig code envc s',
    read_pars (sig_args st d) = Some sig /\ flat_map stm_src code = setup_lines st d /\
    bind sig (VSelf :: pos) (withtr tr kws) = Some envc /\
    run out (mkState attrs made (env_of dv envc)) code = Some (s', None) /\
    let '(t, new) := choose (passed tr) buf tx made in
    kw_get (L "trans") (s_env s') = Some t /\
    kw_get (L "_dummyTrans") (s_env s') = Some (VBool new) /\
    kw_get (L "write") (s_env s') = Some (VMeth (VResp t) (L "write")) /\
    s_attrs s' = (if new && st_auto st then (L "transaction", t) :: attrs else attrs) /\
    (st_nm st = true ->
       match sl_param (st_sl st) ps with
       | Some n => forall b, In (n, b) env -> kw_get (L "SL") (s_env s') = Some (bval_val dv (add_tr tr b))
       | None => kw_get (L "SL") (s_env s') = Some sl
       end) /\
    (st_filters st = true -> kw_get (L "_filter") (s_env s') = Some flt) /\
    (forall n b, In (n, b) env -> n <> L "SL" -> kw_get n (s_env s') = Some (bval_val dv (add_tr tr b))).
Proof. exact method_call. Qed.
Print Assumptions C76_transaction.

(** An object that is not buffering and has a transaction; a call [f(10, b=20, trans=t)]. *)
Definition demo_attrs (buf : bool) (tx : val) : list (pystr * val) :=
  [(L "_CHEETAH__isBuffering", VBool buf); (L "transaction", tx);
   (L "_CHEETAH__searchList", VList []); (L "_CHEETAH__currentFilter", VLam)].
Definition demo_dv (s : pystr) : val := if str_eqb s (L "None") then VNone else VStr s.
Example C76_transaction_ex : forall tr buf tx, tx_like (passed tr) -> tx_like tx ->
  exists sig code envc s',
    read_pars (sig_args dset (demo_m [] demo_args)) = Some sig /\
    flat_map stm_src code = setup_lines dset (demo_m [] demo_args) /\
    bind sig [VSelf; VAny 10 true false] (withtr tr [(L "b", VAny 20 true false)]) = Some envc /\
    run (fun _ => []) (mkState (demo_attrs buf tx) 0 (env_of demo_dv envc)) code = Some (s', None) /\
    kw_get (L "trans") (s_env s') = Some (fst (choose (passed tr) (VBool buf) tx 0)) /\
    kw_get (L "b") (s_env s') = Some (VAny 20 true false).
Proof.
  intros tr buf tx A B. destruct demo_ps_ok as (P & Q & R).
  destruct (C76_transaction (fun _ => []) dset (demo_m [] demo_args) demo_ps [VAny 10 true false]
    [(L "b", VAny 20 true false)]
    [(L "a", BVal (VAny 10 true false)); (L "b", BVal (VAny 20 true false)); (L "rest", BTup [])]
    tr (demo_attrs buf tx) 0 demo_dv (VBool buf) tx (VList []) VLam eq_refl eq_refl eq_refl P Q R)
    as (sig & code & envc & s' & H1 & H2 & H3 & H4 & H5); try reflexivity; try assumption.
  - left. split; [discriminate|reflexivity].
  - exists sig, code, envc, s'. destruct (choose (passed tr) (VBool buf) tx 0) as [t new].
    destruct H5 as (K1 & _ & _ & _ & _ & _ & K). repeat (split; [assumption|]).
    apply (K (L "b") (BVal (VAny 20 true false))); [right; left; reflexivity|discriminate].
Qed.

(** The others ([#def respond( *args)], or the setting is off and there is a star) always make a transaction of
    their own. *)
Theorem C76_no_transaction : forall out st d ps pos kws env attrs made dv sl flt,
  is_class d = false -> is_static d = false ->
  match d_note d with Some t => is_note t = true | None => True end ->
  read_pars (d_user d) = Some ps -> valid ps -> unreserved ps -> ~ takes_trans (d_name d) (st_kws st) ps ->
  bind ps pos kws = Some env -> kw_get (L "self") kws = None -> kw_get (L "trans") kws = None ->
  kw_get (L "_CHEETAH__searchList") attrs = Some sl -> kw_get (L "_CHEETAH__currentFilter") attrs = Some flt ->
  exists code s',
    flat_map stm_src code = setup_lines st d /\
    read_pars (sig_args st d) = Some (PPlain (L "self") None :: ps) /\
    run out (mkState attrs made (env_of dv ((L "self", BVal VSelf) :: env))) code = Some (s', None) /\
    kw_get (L "trans") (s_env s') = Some (VTx made) /\
    kw_get (L "_dummyTrans") (s_env s') = Some (VBool true) /\
    kw_get (L "write") (s_env s') = Some (VMeth (VResp (VTx made)) (L "write")) /\
    (forall n b, In (n, b) env -> n <> L "SL" -> kw_get n (s_env s') = Some (bval_val dv b)).
Proof. exact method_call_off. Qed.
Print Assumptions C76_no_transaction.
Example C76_no_transaction_ex :
  let st := mkMset false false true true true in
  ~ takes_trans (d_name (demo_m [] demo_args)) (st_kws st) demo_ps /\
  sig_text [] st (demo_m [] demo_args) = L "def f(self, a, b=1, *rest):" ++ [10; 10]%N /\
  setup_lines st (demo_m [] demo_args)
  = [(0%nat, L "## CHEETAH: generated from #def f at line 1, col 1.");
     (0%nat, L "trans = DummyTransaction()"); (0%nat, L "_dummyTrans = True");
     (0%nat, L "write = trans.response().write"); (0%nat, L "SL = self._CHEETAH__searchList");
     (0%nat, L "_filter = self._CHEETAH__currentFilter"); (0%nat, []); (0%nat, repeat 35%N 40);
     (0%nat, L "## START - generated method body"); (0%nat, [])].
Proof.
  cbv zeta. split; [|split; vm_compute; reflexivity].
  intros [[_ H]|[_ H]]; [discriminate|]. apply (H (L "rest")). right; right; left. reflexivity.
Qed.

(** The code behind the body gives what was written to a transaction of the method's own, and the empty
    string if the transaction came from the caller. *)
Theorem C76_result : forall out d s t new, d_gen d = false ->
  kw_get (L "trans") (s_env s) = Some t -> has_response t ->
  kw_get (L "_dummyTrans") (s_env s) = Some (VBool new) ->
  exists code, flat_map stm_src code = cleanup_lines d /\
    run out s code = Some (s, Some (VStr (if new then out t else []))).
Proof. exact method_end. Qed.
Print Assumptions C76_result.
Example C76_result_ex : forall new,
  exists code, flat_map stm_src code = cleanup_lines (demo_m [] demo_args) /\
    run (fun _ => L "text") (mkState [] 1 [(L "trans", VTx 0); (L "_dummyTrans", VBool new)]) code
    = Some (mkState [] 1 [(L "trans", VTx 0); (L "_dummyTrans", VBool new)],
            Some (VStr (if new then L "text" else []))).
Proof.
  intro new.
  exact (C76_result (fun _ => L "text") (demo_m [] demo_args)
    (mkState [] 1 [(L "trans", VTx 0); (L "_dummyTrans", VBool new)]) (VTx 0) new eq_refl eq_refl I eq_refl).
Qed.

(** A static method with keywords of its own, [#@staticmethod] and [#def f( **$kw)], fails on every call: the
    name [KWS] of the dictionary that would have been added is used. *)
Theorem C76_static_keywords_refuted : exists st d ps,
  read_pars (d_user d) = Some ps /\ valid ps /\ unreserved ps /\ is_static d = true /\
  exists code, flat_map stm_src code = setup_lines st d /\
    forall out attrs made dv pos kws sig env,
      read_pars (sig_args st d) = Some sig -> bind sig pos kws = Some env ->
      run out (mkState attrs made (env_of dv env)) code = None.
Proof.
  exists dset, (demo_m ["@staticmethod"] [(L "**kw", None)]), [PDStar (L "kw")].
  split; [reflexivity|]. split; [split; [names_ok|reflexivity]|].
  split; [intros p [<-|[]]; simpl; intuition discriminate|]. split; [reflexivity|].
  exists ([SNote (L "## CHEETAH: generated from #def f at line 1, col 1.")] ++ p_new ++ p_write
          ++ [SSet (L "SL") (EList1 (EName (L "KWS")))]
          ++ [SSet (L "_filter") (ELam (L "x, **kwargs") (L "unicode(x)"))] ++ p_notes).
  split; [vm_compute; reflexivity|].
  intros out attrs made dv pos kws sig env H B. vm_compute in H. inversion H; subst sig.
  cbn [bind] in B. destruct pos; [|discriminate]. inversion B; subst env. vm_compute. reflexivity.
Qed.
Print Assumptions C76_static_keywords_refuted.
