(** Property theorems C21, C22 (compile lock), C23 (import-hook lock), C24 (process pool). *)
From Verif Require Import Conc_Model Conc_Spec Conc_Proofs.
Local Open Scope string_scope.
Local Open Scope list_scope.

(** C21: in every schedule of compile calls of any number of threads, with imports by other code
    in between, each finished call's module is in sys.modules under its name, was made from the
    source of that very call, has a name and a module of its own, and no module loaded before has
    been replaced.  (No call is interrupted while waiting for the lock.) *)
Theorem C21_own_module : forall mods made ls s, uninterrupted ls ->
  crun ls (cinit mods made) = Some s ->
  (forall r, In r (c_res s) ->
     aget (r_name r) (c_mods s) = Some (r_mod r)
     /\ nth_error (c_made s) (r_mod r) = Some (r_src r)
     /\ aget (r_name r) mods = None)
  /\ NoDup (map r_name (c_res s)) /\ NoDup (map r_mod (c_res s))
  /\ (forall n i, aget n mods = Some i -> aget n (c_mods s) = Some i).
Proof. exact own_modules. Qed.
Print Assumptions C21_own_module.

(** Two threads compile two sources under one module name; the second one starts while the first
    one is inside. *)
Definition two_calls : list label :=
  [Act 1 (Call 11 (L "page")); Act 2 (Call 22 (L "page")); Act 1 Acquire; Act 1 (Name []);
   Import (L "os"); Act 1 Exec; Act 1 Finish; Act 1 Register; Act 1 Release;
   Act 2 Acquire; Act 2 (Name [(L "1_5", L "77")]); Act 2 Exec; Act 2 Finish; Act 2 Register;
   Act 2 Release].
Example C21_own_module_ex :
  uninterrupted two_calls
  /\ match crun two_calls (cinit [(L "sys", 0)] [0]) with
     | Some s => c_res s = [mkR 2 22 (L "cheetah_page_1_5_77") 3; mkR 1 11 (L "page") 2]
     | None => False
     end.
Proof.
  split.
  - intros t F. unfold two_calls in F. repeat (destruct F as [F|F]; [discriminate F|]). exact F.
  - vm_compute. reflexivity.
Qed.

(** C21: two calls are never between acquire and release at the same time. *)
Theorem C21_one_call_inside : forall mods made ls s, uninterrupted ls ->
  crun ls (cinit mods made) = Some s ->
  forall t u f g, In f (c_thr s t) -> In g (c_thr s u) -> inside f -> inside g -> t = u /\ f = g.
Proof. exact one_inside. Qed.
Print Assumptions C21_one_call_inside.
Example C21_one_call_inside_ex :
  match crun (firstn 4 two_calls) (cinit [] []) with
  | Some s => c_thr s 1 = [mkF 11 (L "page") (Named (L "page"))] /\ c_thr s 2 = [mkF 22 (L "page") Waiting]
  | None => False
  end.
Proof. vm_compute. split; reflexivity. Qed.

(** C21 fails when a call is interrupted while it waits for the lock (KeyboardInterrupt): acquire
    stands inside the try, so the finally clause releases the lock another call holds; two calls
    then choose one name and the first one's module is replaced. *)
Theorem C21_interrupt_refuted : exists ls s r, crun ls (cinit [] []) = Some s
  /\ In r (c_res s) /\ aget (r_name r) (c_mods s) <> Some (r_mod r).
Proof.
  exists [Act 1 (Call 11 (L "page")); Act 2 (Call 22 (L "page")); Act 3 (Call 33 (L "page"));
          Act 1 Acquire; Act 1 (Name []); Act 2 Interrupt; Act 2 Release;
          Act 3 Acquire; Act 3 (Name []); Act 1 Exec; Act 1 Finish; Act 1 Register;
          Act 3 Exec; Act 3 Finish; Act 3 Register; Act 1 Release; Act 3 Release].
  eexists. exists (mkR 1 11 (L "page") 0). split; [vm_compute; reflexivity|].
  split; [right; left; reflexivity|]. vm_compute. discriminate.
Qed.
Print Assumptions C21_interrupt_refuted.

(** C21: what compile does not protect: a module that other code imports under the chosen name
    while the template's code runs is replaced. *)
Theorem C21_import_replaced_refuted : exists ls s n i, uninterrupted (ls ++ [Act 1 Register])
  /\ crun ls (cinit [] []) = Some s /\ aget n (c_mods s) = Some i
  /\ exists s', crun [Act 1 Register] s = Some s' /\ aget n (c_mods s') <> Some i.
Proof.
  exists [Act 1 (Call 11 (L "page")); Act 1 Acquire; Act 1 (Name []); Act 1 Exec;
          Import (L "page"); Act 1 Finish].
  eexists. exists (L "page"), 1. split; [|split; [vm_compute; reflexivity|]].
  - intros t F. cbn [app] in F. repeat (destruct F as [F|F]; [discriminate F|]). exact F.
  - split; [vm_compute; reflexivity|]. eexists. split; [vm_compute; reflexivity|].
    vm_compute. discriminate.
Qed.
Print Assumptions C21_import_replaced_refuted.

(** C22: in every schedule the lock is held exactly while some call is between acquire and
    release; so when every call has returned or raised it is free. *)
Theorem C22_lock_held_iff_inside : forall mods made ls s, uninterrupted ls ->
  crun ls (cinit mods made) = Some s ->
  (c_lock s = true <-> exists t f, In f (c_thr s t) /\ inside f).
Proof. exact lock_iff_inside. Qed.
Print Assumptions C22_lock_held_iff_inside.
Example C22_lock_held_iff_inside_ex :
  match crun [Act 1 (Call 11 (L "page")); Act 1 Acquire; Act 1 (Name []); Act 1 Exec; Act 1 Fail]
             (cinit [] []) with
  | Some s => c_lock s = true /\ c_thr s 1 = [mkF 11 (L "page") Failed]
              /\ match crun [Act 1 Release] s with Some s' => c_lock s' = false | None => False end
  | None => False
  end.
Proof. vm_compute. repeat split. Qed.

(** C22: at whatever point inside the section an exception is raised, the call leaves by way of
    the release and the lock is free. *)
Theorem C22_failure_frees_lock : forall s t f fs, c_thr s t = f :: fs -> inside f ->
  exists ls s', incl ls [Act t Fail; Act t Release] /\ crun ls s = Some s'
    /\ c_lock s' = false /\ c_thr s' t = fs.
Proof. exact failure_frees. Qed.
Print Assumptions C22_failure_frees_lock.
Example C22_failure_frees_lock_ex :
  match crun (firstn 6 two_calls) (cinit [] []) with
  | Some s => c_thr s 1 = [mkF 11 (L "page") (Running (L "page") 1)]
              /\ inside (mkF 11 (L "page") (Running (L "page") 1))
  | None => False
  end.
Proof. vm_compute. split; [reflexivity|discriminate]. Qed.

(** C22 fails for a template whose module code itself calls compile: the lock is not reentrant;
    the inner call never gets it, the outer one never ends, and no later call of any thread gets
    it either. *)
Theorem C22_nested_compile_refuted : exists ls s t, uninterrupted ls
  /\ crun ls (cinit [] []) = Some s
  /\ forall ls' s', uninterrupted ls' -> crun ls' s = Some s' ->
       c_lock s' = true /\ c_thr s' t = c_thr s t.
Proof.
  exists [Act 1 (Call 11 (L "page")); Act 1 Acquire; Act 1 (Name []); Act 1 Exec;
          Act 1 (Call 12 (L "inner"))].
  eexists. exists 1. split; [|split; [vm_compute; reflexivity|]].
  - intros t F. repeat (destruct F as [F|F]; [discriminate F|]). exact F.
  - intros ls' s' Hu Hr.
    match type of Hr with crun _ ?st = _ =>
      refine (nested_stuck ls' st s' 1 (mkF 12 (L "inner") Waiting)
                (mkF 11 (L "page") (Running (L "page") 0)) Hu eq_refl eq_refl eq_refl _ Hr)
    end.
    intros u Hu1. left. cbn [c_thr]. destruct u as [|[|u]]; [reflexivity|congruence|reflexivity].
Qed.
Print Assumptions C22_nested_compile_refuted.

(** C22: after an interrupt during the wait the lock counts as free although a call is inside. *)
Theorem C22_interrupt_refuted : exists ls s f, crun ls (cinit [] []) = Some s
  /\ In f (c_thr s 1) /\ inside f /\ c_lock s = false.
Proof.
  exists [Act 1 (Call 11 (L "page")); Act 2 (Call 22 (L "page")); Act 1 Acquire; Act 2 Interrupt;
          Act 2 Release].
  eexists. exists (mkF 11 (L "page") Locked). split; [vm_compute; reflexivity|].
  split; [left; reflexivity|]. split; [discriminate|reflexivity].
Qed.
Print Assumptions C22_interrupt_refuted.

(** C23: at most one thread is inside the section, if a thread that has just obtained the lock
    writes locker and lockcount before any other thread moves and no import raises inside.
    Missing: without that assumption the statement is false, see below. *)
Theorem C23_exclusion_partial : forall ls s, no_escape ls -> undisturbed ls linit ->
  irun ls linit = Some s -> forall t u, in_section s t -> in_section s u -> t = u.
Proof. exact import_exclusion. Qed.
Print Assumptions C23_exclusion_partial.

Ltac undisturbed_check :=
  vm_compute; repeat match goal with |- _ /\ _ => split end; try exact I;
  (let u := fresh in let Hu := fresh in
   intros u Hu; destruct u as [|[|[|u]]];
   try (exfalso; apply Hu; reflexivity); split; intro; discriminate).
Example C23_exclusion_partial_ex :
  let ls := [(2, StartAcquire); (1, StartAcquire); (1, Next); (1, Next); (1, Next);
             (1, StartAcquire); (1, Next); (1, Next); (1, StartRelease); (1, Next)] in
  no_escape ls /\ undisturbed ls linit
  /\ match irun ls linit with
     | Some s => in_section s 1 /\ t_pc (l_thr s 2) = A_get
     | None => False
     end.
Proof.
  cbv zeta. split; [|split].
  - intros t F. repeat (destruct F as [F|F]; [discriminate F|]). exact F.
  - undisturbed_check.
  - vm_compute. split; [repeat constructor|reflexivity].
Qed.

(** C23: under the same assumption, whenever no thread is in the middle of _acquire or _release the
    lock is held exactly if some thread is inside a section: it is released when the outermost
    section ends and not before. *)
Theorem C23_released_at_outermost_partial : forall ls s, no_escape ls -> undisturbed ls linit ->
  irun ls linit = Some s -> (forall t, t_pc (l_thr s t) = Idle) ->
  (l_locked s = true <-> exists t, in_section s t).
Proof. exact import_lock_iff. Qed.
Print Assumptions C23_released_at_outermost_partial.
Example C23_released_at_outermost_partial_ex :
  let ls := [(1, StartAcquire); (1, Next); (1, Next); (1, Next);
             (1, StartAcquire); (1, Next); (1, Next); (1, StartRelease); (1, Next)] in
  match irun ls linit with
  | Some s => l_locked s = true /\ t_depth (l_thr s 1) = 1
      /\ match irun [(1, StartRelease); (1, Next)] s with
         | Some s' => l_locked s' = false /\ t_depth (l_thr s' 1) = 0
         | None => False
         end
  | None => False
  end.
Proof. vm_compute. repeat split. Qed.

(** C23: under the same assumption a thread inside a section enters again without waiting. *)
Theorem C23_reentrant_partial : forall ls s, no_escape ls -> undisturbed ls linit ->
  irun ls linit = Some s -> forall t, in_section s t -> t_pc (l_thr s t) = Idle ->
  exists s', irun [(t, StartAcquire); (t, Next); (t, Next)] s = Some s'
    /\ t_depth (l_thr s' t) = S (t_depth (l_thr s t)) /\ t_pc (l_thr s' t) = Idle.
Proof. exact import_reentry. Qed.
Print Assumptions C23_reentrant_partial.
Example C23_reentrant_partial_ex :
  match irun [(1, StartAcquire); (1, Next); (1, Next); (1, Next)] linit with
  | Some s => in_section s 1 /\ t_pc (l_thr s 1) = Idle
  | None => False
  end.
Proof. vm_compute. split; [repeat constructor|reflexivity]. Qed.

(** C23 is false: between obtaining the lock and writing locker, a thread that held the lock last
    still finds itself in locker and walks in. *)
Theorem C23_exclusion_refuted : exists ls s, no_escape ls /\ irun ls linit = Some s
  /\ in_section s 1 /\ in_section s 2.
Proof.
  exists [(1, StartAcquire); (1, Next); (1, Next); (1, Next); (1, StartRelease); (1, Next);
          (2, StartAcquire); (2, Next); (1, StartAcquire); (1, Next); (1, Next); (2, Next); (2, Next)].
  eexists. split; [|split; [vm_compute; reflexivity|]].
  - intros t F. repeat (destruct F as [F|F]; [discriminate F|]). exact F.
  - split; vm_compute; repeat constructor.
Qed.
Print Assumptions C23_exclusion_refuted.

(** C23 is false: when an import raises inside the section, the lock stays held although no thread
    is inside. *)
Theorem C23_exception_keeps_lock_refuted : exists ls s, undisturbed ls linit
  /\ irun ls linit = Some s /\ l_locked s = true /\ forall t, ~ in_section s t.
Proof.
  exists [(1, StartAcquire); (1, Next); (1, Next); (1, Next); (1, Escape)].
  eexists. split; [|split; [vm_compute; reflexivity|]].
  - undisturbed_check.
  - split; [reflexivity|]. intros t. destruct t as [|[|t]]; vm_compute; lia.
Qed.
Print Assumptions C23_exception_keeps_lock_refuted.

(** C24: whatever children os.wait reports and however they end: never more than N children are
    alive; the bundles are started in order from the last one, each once; every child started is
    waited for; success is reported exactly if all bundles were started and os.WEXITSTATUS was 0
    for all of them. *)
Theorem C24_pool : forall outcome size, 1 <= size -> forall bundles ks ok log,
  parallel outcome size bundles ks = (ok, log) ->
  (forall k, length (starts (firstn k log)) <= length (reaps (firstn k log)) + size)
  /\ (exists rest, rev bundles = starts log ++ rest)
  /\ Permutation (starts log) (reaps log)
  /\ (ok = true <-> starts log = rev bundles
                    /\ forall b, In b bundles -> wexitstatus (outcome b) = 0).
Proof. exact parallel_spec. Qed.
Print Assumptions C24_pool.
Example C24_pool_ex :
  parallel (fun b => if Nat.eqb b 3 then Exit 1 else Exit 0) 2 [1; 2; 3; 4; 5] [1; 0]
  = (false, [Started 5; Started 4; Reaped 5; Started 3; Reaped 3; Reaped 4]).
Proof. vm_compute. reflexivity. Qed.

(** C24: if no child is killed by a signal, success means that every child exited with 0.
    Missing: killed children, see below. *)
Theorem C24_success_means_success_partial : forall outcome size, 1 <= size -> forall bundles ks log,
  (forall b, In b bundles -> exists c, outcome b = Exit c) ->
  parallel outcome size bundles ks = (true, log) ->
  forall b, In b bundles -> outcome b = Exit 0.
Proof.
  intros outcome size Hs bundles ks log Hk H b Hb.
  destruct (parallel_spec outcome size Hs bundles ks true log H) as (_ & _ & _ & [F _]).
  destruct (F eq_refl) as [_ G]. pose proof (G b Hb) as E. destruct (Hk b Hb) as [c Ec].
  unfold good in E. rewrite Ec in E. cbn in E. subst c. exact Ec.
Qed.
Print Assumptions C24_success_means_success_partial.
Example C24_success_means_success_partial_ex :
  (forall b, In b [1; 2; 3] -> exists c, (fun _ : nat => Exit 0) b = Exit c)
  /\ fst (parallel (fun _ => Exit 0) 2 [1; 2; 3] [1]) = true.
Proof. split; [intros b _; exists 0; reflexivity|vm_compute; reflexivity]. Qed.

(** C24 is false: a child that is killed by a signal counts as successful. *)
Theorem C24_killed_child_refuted : exists outcome bundles ks b,
  fst (parallel outcome 2 bundles ks) = true /\ In b bundles /\ outcome b = Killed 9.
Proof.
  exists (fun _ => Killed 9), [1; 2; 3], [], 1.
  split; [vm_compute; reflexivity|]. split; [left; reflexivity|reflexivity].
Qed.
Print Assumptions C24_killed_child_refuted.
