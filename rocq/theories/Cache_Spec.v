(** Specification side of C14-C17. *)
From Verif Require Import Base Cache_Model.

(** ** C14: a map with per-key expiry, as documented in Cheetah/CacheStore.py:6-15.  A key is present
    at time [now] when its last stored entry has not been removed and has not expired. *)
Definition smap := pystr -> option (pystr * Z).

Definition smap_empty : smap := fun _ => None.

Definition expired (e : Z) (now : Z) : Prop := e <> 0%Z /\ (now > e)%Z.

Definition live (m : smap) (now : Z) (k : pystr) (v : pystr) : Prop :=
  exists e, m k = Some (v, e) /\ ~ expired e now.

Definition present (m : smap) (now : Z) (k : pystr) : Prop := exists v, live m now k v.

Definition upd (m : smap) (k : pystr) (x : option (pystr * Z)) (m' : smap) : Prop :=
  m' k = x /\ forall k', k' <> k -> m' k' = m k'.

Definition same_map (m m' : smap) : Prop := forall k, m' k = m k.

(** One call at time [now]: result and effect. *)
Inductive spec_step (m : smap) (now : Z) : sop -> sres -> smap -> Prop :=
| spec_set : forall k v t m', upd m k (Some (v, t)) m' -> spec_step m now (SSet k v t) SDone m'
| spec_add_new : forall k v t m', ~ present m now k -> upd m k (Some (v, t)) m' ->
    spec_step m now (SAdd k v t) SDone m'
| spec_add_old : forall k v t m', present m now k -> same_map m m' ->
    spec_step m now (SAdd k v t) (SExn StoreError) m'
| spec_replace_old : forall k v t m', present m now k -> upd m k (Some (v, t)) m' ->
    spec_step m now (SReplace k v t) SDone m'
| spec_replace_new : forall k v t m', ~ present m now k -> same_map m m' ->
    spec_step m now (SReplace k v t) (SExn StoreError) m'
| spec_delete_old : forall k m', present m now k -> upd m k None m' ->
    spec_step m now (SDelete k) SDone m'
| spec_delete_new : forall k m', ~ present m now k -> same_map m m' ->
    spec_step m now (SDelete k) (SExn KeyError) m'
| spec_get_old : forall k v m', live m now k v -> same_map m m' ->
    spec_step m now (SGet k) (SVal v) m'
| spec_get_new : forall k m', ~ present m now k -> same_map m m' ->
    spec_step m now (SGet k) (SExn KeyError) m'
| spec_clear : forall m', same_map smap_empty m' -> spec_step m now SClear SDone m'.

Inductive spec_run : smap -> list (Z * sop) -> list sres -> smap -> Prop :=
| spec_nil : forall m, spec_run m [] [] m
| spec_cons : forall m now op r m' ops rs m'', spec_step m now op r m' ->
    spec_run m' ops rs m'' -> spec_run m ((now, op) :: ops) (r :: rs) m''.

(** ** C15-C17, on the log of what happened (newest event first). *)

(** Does [refreshCache(r, v)] concern region [rid], item [vid]?  No argument: everything. *)
Definition affects (r v rid vid : pystr) : bool :=
  match r with
  | [] => true
  | _ => str_eqb r rid && match v with [] => true | _ => str_eqb v vid end
  end.

Definition same_item (t : N) (r v : pystr) (tid : N) (rid vid : pystr) : bool :=
  (t =? tid)%N && str_eqb r rid && str_eqb v vid.

(** Output and start time of the last execution of the body for this item, if no refresh that
    succeeded removed it since. *)
Fixpoint last_exec (evs : list cev) (tid : N) (rid vid : pystr) : option (pystr * Z) :=
  match evs with
  | [] => None
  | EvExec t r v o s :: l =>
      if same_item t r v tid rid vid then Some (o, s) else last_exec l tid rid vid
  | EvRefresh t r v true :: l =>
      if (t =? tid)%N && affects r v rid vid then None else last_exec l tid rid vid
  | _ :: l => last_exec l tid rid vid
  end.

(** The same, but forgetting the execution also at a refresh that raised. *)
Fixpoint last_sure (evs : list cev) (tid : N) (rid vid : pystr) : option (pystr * Z) :=
  match evs with
  | [] => None
  | EvExec t r v o s :: l =>
      if same_item t r v tid rid vid then Some (o, s) else last_sure l tid rid vid
  | EvRefresh t r v _ :: l =>
      if (t =? tid)%N && affects r v rid vid then None else last_sure l tid rid vid
  | _ :: l => last_sure l tid rid vid
  end.

(** Is output of age [now - start] still within the region's interval? *)
Definition fresh (ivl : option Z) (start now : Z) : Prop :=
  match ivl with Some i => (now <= start + i)%Z | None => True end.

Definition op_ids (op : cop) : list pystr :=
  match op with ORender _ _ vid _ _ _ _ _ _ => [vid] | ORefresh _ _ vid => [vid] end.

Definition ids (ops : list cop) : list pystr := flat_map op_ids ops.

(** The digest is usable for these ids: no collisions among them, all digests equally long. *)
Definition md5_ok (md5 : pystr -> pystr) (l : list pystr) : Prop :=
  (forall a b, In a l -> In b l -> md5 a = md5 b -> a = b) /\
  (forall a b, In a l -> In b l -> length (md5 a) = length (md5 b)).

(** Distinct templates have distinct colon-free prefixes (true of [str(id(self))]). *)
Definition prefix_ok (prefix : N -> pystr) : Prop :=
  (forall t, ~ In 58%N (prefix t)) /\ (forall t u, prefix t = prefix u -> t = u).

(** Clock readings of an operation, in order. *)
Definition readings (op : cop) : list Z :=
  match op with ORender _ _ _ _ _ t1 t2 t3 t4 => [t1; t2; t3; t4] | ORefresh _ _ _ => [] end.

(** The clock of the whole history is positive and never goes back, beginning at [t0]. *)
Fixpoint monotone_from (t0 : Z) (l : list Z) : Prop :=
  match l with
  | [] => True
  | t :: r => (t0 <= t)%Z /\ monotone_from t r
  end.

(** ** C14, what every history of calls does satisfy.  The log of calls and results, newest first,
    determines the entry last stored under a key and not removed since. *)
Fixpoint last_write (log : list (sop * sres)) (k : pystr) : option (pystr * Z) :=
  match log with
  | [] => None
  | (SSet k' v t, SDone) :: l | (SAdd k' v t, SDone) :: l | (SReplace k' v t, SDone) :: l =>
      if str_eqb k' k then Some (v, t) else last_write l k
  | (SDelete k', SDone) :: l => if str_eqb k' k then None else last_write l k
  | (SClear, SDone) :: _ => None
  | _ :: l => last_write l k
  end.

Definition stores (op : sop) (k : pystr) (e : Z) : Prop :=
  match op with
  | SSet k' _ t | SAdd k' _ t | SReplace k' _ t => k' = k /\ t = e
  | _ => False
  end.

(** [op] is a call whose outcome depends on the presence of [k] without reading it. *)
Definition tests_key (op : sop) (k : pystr) : Prop :=
  match op with SAdd k' _ _ | SDelete k' => k' = k | _ => False end.

(** No [add]/[delete] of a key comes after an expiry time that was given for that key. *)
Definition never_tests_expired (ops : list (Z * sop)) : Prop :=
  forall a now op b k now' op' e, ops = a ++ (now, op) :: b -> tests_key op k ->
    In (now', op') a -> stores op' k e -> ~ expired e now.

Definition no_replace (ops : list (Z * sop)) : Prop :=
  forall now k v t, ~ In (now, SReplace k v t) ops.

(** Refresh intervals written in templates are positive. *)
Definition pos_intervals (interval : N -> pystr -> option Z) : Prop :=
  forall t r i, interval t r = Some i -> (0 < i)%Z.

(** Refreshes that concern a whole template or a whole region only. *)
Definition region_wide (op : cop) : Prop :=
  match op with ORefresh _ _ v => v = [] | _ => True end.
