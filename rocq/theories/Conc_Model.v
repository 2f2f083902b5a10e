(** Models of the code that runs concurrently: the lock section of Template.compile
    (Cheetah/Template.py), the lock of the import hooks (Cheetah/ImportManager.py) and the pool of
    child processes (Cheetah/CheetahWrapper.py).  Each is a step function over labels; a list of
    labels is a schedule. *)
From Verif Require Export PyStr Alist.

(** ** The lock section of compile *)

(** [_genUniqueModuleName] (Cheetah/Template.py:116-124).  [cands]: the names built from the clock
    and the random numbers drawn, in order; [None]: the loop needs more of them. *)
Fixpoint first_free {A} (mods : list (pystr * A)) (cands : list pystr) : option pystr :=
  match cands with
  | [] => None
  | n :: r => if ahas n mods then first_free mods r else Some n
  end.
(** Goes with the definition above (Cheetah/Template.py:116-124). *)
Definition candidate (base : pystr) (clock random : pystr) : pystr :=
  L "cheetah_" ++ base ++ L "_" ++ clock ++ L "_" ++ random.
(** Goes with the definition above (Cheetah/Template.py:116-124). *)
Definition genUniqueModuleName {A} (mods : list (pystr * A)) (base : pystr)
  (draws : list (pystr * pystr)) : option pystr :=
  first_free mods (base :: map (fun '(c, r) => candidate base c r) draws).

(** Where a compile call stands (Cheetah/Template.py:798-846): waiting for the lock; locked;
    name chosen; module object made and its code running; code done; entered in sys.modules; on
    the way out with an exception.  Modules are numbered by creation. *)
Inductive pc :=
| Waiting | Locked | Named (n : pystr) | Running (n : pystr) (m : nat) | Ran (n : pystr) (m : nat)
| Registered (n : pystr) (m : nat) | Failed.

(** A call: which source it compiles, the module name asked for, where it stands
    (Cheetah/Template.py:774-846). *)
Record frame := mkF { f_src : nat; f_base : pystr; f_pc : pc }.

(** What a finished call returned: thread, source, module name, module
    (Cheetah/Template.py:848-875). *)
Record result := mkR { r_thread : nat; r_src : nat; r_name : pystr; r_mod : nat }.

(** The program state: the lock (threading.Lock, Cheetah/Template.py:51, 322), sys.modules, the
    source of each module made, the calls in progress per thread (innermost first; the code of a
    module may call compile again), and the results so far. *)
Record cstate := mkC {
  c_lock : bool; c_mods : list (pystr * nat); c_made : list nat;
  c_thr : nat -> list frame; c_res : list result }.

(** What can happen next: a thread's call takes a step, or some other code enters a module into
    sys.modules. *)
Inductive action :=
| Call (src : nat) (base : pystr)   (* compile is called *)
| Acquire                           (* Cheetah/Template.py:799 returns *)
| Interrupt                         (* 799 is left by an exception while waiting *)
| Name (draws : list (pystr * pystr))  (* 800 *)
| Exec                              (* 814-828 module made, its code starts *)
| Finish                            (* 828 the code ends *)
| Register                          (* 844 *)
| Fail                              (* an exception in 800-844 *)
| Release.                          (* 846 *)
(** One step: of a thread, or of other code (Cheetah/Template.py:798-846). *)
Inductive label := Act (t : nat) (a : action) | Import (n : pystr).

(** Replacing the calls of one thread. (Cheetah/Template.py:798-846) *)
Definition put (s : nat -> list frame) (t : nat) (fs : list frame) : nat -> list frame :=
  fun u => if Nat.eqb u t then fs else s u.
(** Moving a call on (Cheetah/Template.py:798-846). *)
Definition at_pc (f : frame) (p : pc) : frame := mkF (f_src f) (f_base f) p.

(** One step (Cheetah/Template.py:798-846); [None]: it cannot happen here.  The lock is not
    reentrant; releasing it does not depend on who holds it. *)
Definition cstep (l : label) (s : cstate) : option cstate :=
  match l with
  | Import n =>
      if ahas n (c_mods s) then None
      else Some (mkC (c_lock s) (aset n (length (c_made s)) (c_mods s)) (c_made s ++ [0])
                     (c_thr s) (c_res s))
  | Act t a =>
      let set f fs := mkC (c_lock s) (c_mods s) (c_made s) (put (c_thr s) t (f :: fs)) (c_res s) in
      match a, c_thr s t with
      | Call src base, [] => Some (set (mkF src base Waiting) [])
      | Call src base, (mkF _ _ (Running _ _) as f) :: fs => Some (set (mkF src base Waiting) (f :: fs))
      | Acquire, (mkF _ _ Waiting as f) :: fs =>
          if c_lock s then None
          else Some (mkC true (c_mods s) (c_made s) (put (c_thr s) t (at_pc f Locked :: fs)) (c_res s))
      | Interrupt, (mkF _ _ Waiting as f) :: fs => Some (set (at_pc f Failed) fs)
      | Name draws, (mkF _ b Locked as f) :: fs =>
          match genUniqueModuleName (c_mods s) b draws with
          | Some n => Some (set (at_pc f (Named n)) fs)
          | None => None
          end
      | Exec, (mkF src _ (Named n) as f) :: fs =>
          Some (mkC (c_lock s) (c_mods s) (c_made s ++ [src])
                    (put (c_thr s) t (at_pc f (Running n (length (c_made s))) :: fs)) (c_res s))
      | Finish, (mkF _ _ (Running n m) as f) :: fs => Some (set (at_pc f (Ran n m)) fs)
      | Register, (mkF _ _ (Ran n m) as f) :: fs =>
          Some (mkC (c_lock s) (aset n m (c_mods s)) (c_made s)
                    (put (c_thr s) t (at_pc f (Registered n m) :: fs)) (c_res s))
      | Fail, (mkF _ _ (Locked | Named _ | Running _ _ | Ran _ _) as f) :: fs =>
          Some (set (at_pc f Failed) fs)
      | Release, mkF src _ (Registered n m) :: fs =>
          Some (mkC false (c_mods s) (c_made s) (put (c_thr s) t fs) (mkR t src n m :: c_res s))
      | Release, mkF _ _ Failed :: fs =>
          Some (mkC false (c_mods s) (c_made s) (put (c_thr s) t fs) (c_res s))
      | _, _ => None
      end
  end.

(** A schedule. (Cheetah/Template.py:798-846) *)
Fixpoint crun (ls : list label) (s : cstate) : option cstate :=
  match ls with
  | [] => Some s
  | l :: r => match cstep l s with Some s' => crun r s' | None => None end
  end.

(** Before any call: some modules are loaded (Cheetah/Template.py:116-124). *)
Definition cinit (mods : list (pystr * nat)) (made : list nat) : cstate :=
  mkC false mods made (fun _ => []) [].

(** ** The import-hook lock *)

(** Where a thread stands in _acquire and _release (Cheetah/ImportManager.py:578-591).  [Idle]:
    outside both.  Each step is one read or write of the shared attributes. *)
Inductive ipc :=
| Idle
| A_who       (* 580: rlock was seen locked *)
| A_more      (* 581: locker was seen to be this thread *)
| A_get       (* 583: waiting for rlock *)
| A_sign      (* 584: rlock obtained *)
| A_zero      (* 585 *)
| R_less      (* 589: lockcount was seen nonzero *)
| R_free.     (* 591 *)

(** A thread: where it stands and how many critical sections it is inside of (the calls of
    doimport between _acquire and _release, Cheetah/ImportManager.py:481-487, 520-524). *)
Record ithread := mkT { t_pc : ipc; t_depth : nat }.

(** Shared attributes (Cheetah/ImportManager.py:426-428, 584-585) and the threads. *)
Record lstate := mkL { l_locked : bool; l_who : option nat; l_count : nat; l_thr : nat -> ithread }.

(** What a thread does: start _acquire or _release, take the next step of either, or leave its
    innermost section by an exception of doimport, in which case nothing is released
    (Cheetah/ImportManager.py:481-487: no try/finally). *)
Inductive iact := StartAcquire | StartRelease | Next | Escape.

(** Goes with the definition above (Cheetah/ImportManager.py:481-487). *)
Definition lput (s : lstate) (t : nat) (x : ithread) : nat -> ithread :=
  fun u => if Nat.eqb u t then x else l_thr s u.

(** One step of one thread (Cheetah/ImportManager.py:578-591). *)
Definition istep (t : nat) (a : iact) (s : lstate) : option lstate :=
  let '(mkT p d) := l_thr s t in
  let go p' d' := Some (mkL (l_locked s) (l_who s) (l_count s) (lput s t (mkT p' d'))) in
  match a, p with
  | StartAcquire, Idle => if l_locked s then go A_who d else go A_get d
  | StartRelease, Idle =>
      match d with
      | O => None
      | S _ => match l_count s with O => go R_free d | S _ => go R_less d end
      end
  | Escape, Idle => match d with O => None | S d' => go Idle d' end
  | Next, A_who =>
      match l_who s with
      | Some w => if Nat.eqb w t then go A_more d else go A_get d
      | None => go A_get d
      end
  | Next, A_more => Some (mkL (l_locked s) (l_who s) (S (l_count s)) (lput s t (mkT Idle (S d))))
  | Next, A_get =>
      if l_locked s then None
      else Some (mkL true (l_who s) (l_count s) (lput s t (mkT A_sign d)))
  | Next, A_sign => Some (mkL (l_locked s) (Some t) (l_count s) (lput s t (mkT A_zero d)))
  | Next, A_zero => Some (mkL (l_locked s) (l_who s) 0 (lput s t (mkT Idle (S d))))
  | Next, R_less => Some (mkL (l_locked s) (l_who s) (pred (l_count s)) (lput s t (mkT Idle (pred d))))
  | Next, R_free => Some (mkL false (l_who s) (l_count s) (lput s t (mkT Idle (pred d))))
  | _, _ => None
  end.

(** Goes with the definition above (Cheetah/ImportManager.py:578-591). *)
Fixpoint irun (ls : list (nat * iact)) (s : lstate) : option lstate :=
  match ls with
  | [] => Some s
  | (t, a) :: r => match istep t a s with Some s' => irun r s' | None => None end
  end.
(** Before any import (Cheetah/ImportManager.py:426-436). *)
Definition linit : lstate := mkL false None 0 (fun _ => mkT Idle 0).

(** ** Parallel compilation *)

(** How a child ends: exit code, or killed by a signal (Cheetah/CheetahWrapper.py:389-392). *)
Inductive ending := Exit (code : nat) | Killed (signal : nat).
(** [os.WEXITSTATUS(status)]: 0 for a killed child (Cheetah/CheetahWrapper.py:392). *)
Definition wexitstatus (e : ending) : nat := match e with Exit c => c | Killed _ => 0 end.

(** What happened so far, latest first: a child was started for a bundle, a child ended and was
    waited for (Cheetah/CheetahWrapper.py:389-413). *)
Inductive event := Started (b : nat) | Reaped (b : nat).

(** Taking element [k] out of a list, counted cyclically: which child os.wait() reports is up to
    the operating system (Cheetah/CheetahWrapper.py:390-391). *)
Fixpoint take_at (k : nat) (l : list nat) {struct l} : option (nat * list nat) :=
  match l with
  | [] => None
  | x :: r => match k with
              | O => Some (x, r)
              | S k' => match take_at k' r with
                        | Some (y, r') => Some (y, x :: r')
                        | None => Some (x, r)
                        end
              end
  end.

Section Pool.
(** How the child for a bundle ends, and the pool size (Cheetah/CheetahWrapper.py:385). *)
Variable outcome : nat -> ending.
Variable size : nat.

(** State of the parent: bad_child_exit, the pool, and what happened
    (Cheetah/CheetahWrapper.py:386-391). *)
Record pstate := mkP { p_bad : nat; p_pool : list nat; p_log : list event }.

(** [child_wait()] (Cheetah/CheetahWrapper.py:389-392): the status and the new pool and log;
    [k] is the system's choice. *)
Definition child_wait (k : nat) (pool : list nat) (log : list event) : nat * list nat * list event :=
  match take_at k pool with
  | Some (b, pool') => (wexitstatus (outcome b), pool', Reaped b :: log)
  | None => (0, pool, log)
  end.

(** The first loop (Cheetah/CheetahWrapper.py:394-406); bundles are taken from the end, so the
    argument is the reversed list; [ks]: the choices of the system, 0 when there are no more. *)
Fixpoint first_loop (bundles : list nat) (ks : list nat) (s : pstate) : pstate * list nat :=
  match bundles with
  | [] => (s, ks)
  | b :: r =>
      let pool := b :: p_pool s in
      let log := Started b :: p_log s in
      if Nat.eqb (length pool) size then
        let '(st, pool', log') := child_wait (hd 0 ks) pool log in
        let s' := mkP st pool' log' in
        match st with
        | O => first_loop r (tl ks) s'
        | S _ => (s', tl ks)
        end
      else first_loop r ks (mkP (p_bad s) pool log)
  end.

(** The second loop (Cheetah/CheetahWrapper.py:408-411), once per child left. *)
Fixpoint second_loop (n : nat) (ks : list nat) (s : pstate) : pstate :=
  match n with
  | O => s
  | S n' =>
      let '(st, pool', log') := child_wait (hd 0 ks) (p_pool s) (p_log s) in
      second_loop n' (tl ks) (mkP (match p_bad s with O => st | S _ => p_bad s end) pool' log')
  end.

(** The parallel branch (Cheetah/CheetahWrapper.py:385-415): the exit status (sys.exit with a
    message gives 1, modelled as the bad status itself being nonzero) and what happened, in
    order. *)
Definition parallel (bundles : list nat) (ks : list nat) : bool * list event :=
  let '(s, ks') := first_loop (rev bundles) ks (mkP 0 [] []) in
  let s' := second_loop (length (p_pool s)) ks' s in
  (match p_bad s' with O => true | S _ => false end, rev (p_log s')).
End Pool.
