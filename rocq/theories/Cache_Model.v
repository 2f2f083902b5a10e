(** Model of Cheetah/CacheStore.py:42-71 (MemoryCacheStore), Cheetah/CacheRegion.py, the cache code the
    compiler generates (Cheetah/Compiler.py:764-857) and [Template.refreshCache]
    (Cheetah/Template.py:1371-1427).  Times are integers in an arbitrary unit (simplified: Python
    uses floats); every call of the clock is a separate input. *)
From Verif Require Import PyStr Alist.

(** The exceptions that occur (Cheetah/CacheStore.py:20, 51, 63, 66; Cheetah/CacheRegion.py:132). *)
Inductive cexn := KeyError | StoreError | UnicodeEncodeError | AssertionError | BodyError.

(** ** MemoryCacheStore *)

(** [_data] (Cheetah/CacheStore.py:44): key -> (value, expiry time; 0 = never). *)
Definition store := list (pystr * (pystr * Z)).

(** [set] (Cheetah/CacheStore.py:46-47). *)
Definition st_set (d : store) (k v : pystr) (t : Z) : store := aset k (v, t) d.

(** [add] (Cheetah/CacheStore.py:49-52). *)
Definition st_add (d : store) (k v : pystr) (t : Z) : res cexn store :=
  if ahas k d then Raise StoreError else Ok (aset k (v, t) d).

(** [replace] (Cheetah/CacheStore.py:54-57). *)
Definition st_replace (d : store) (k v : pystr) (t : Z) : res cexn store :=
  if ahas k d then Raise StoreError else Ok (aset k (v, t) d).

(** [delete] (Cheetah/CacheStore.py:59-60). *)
Definition st_delete (d : store) (k : pystr) : res cexn store :=
  if ahas k d then Ok (adel k d) else Raise KeyError.

(** [get] (Cheetah/CacheStore.py:62-68) at clock reading [now]; the store may change. *)
Definition st_get (d : store) (k : pystr) (now : Z) : res cexn pystr * store :=
  match aget k d with
  | None => (Raise KeyError, d)
  | Some (v, exptime) =>
      if negb (exptime =? 0)%Z && (now >? exptime)%Z then (Raise KeyError, adel k d)
      else (Ok v, d)
  end.

(** [clear] (Cheetah/CacheStore.py:70-71). *)
Definition st_clear (d : store) : store := [].

(** The store as an object receiving calls; [sop] is one call with its clock reading. (Cheetah/CacheStore.py:46-71) *)
Inductive sop :=
| SSet (k v : pystr) (t : Z)
| SAdd (k v : pystr) (t : Z)
| SReplace (k v : pystr) (t : Z)
| SDelete (k : pystr)
| SGet (k : pystr)
| SClear.

(** Result of a call seen by the caller (Cheetah/CacheStore.py:6-15). *)
Inductive sres := SDone | SVal (v : pystr) | SExn (e : cexn).

(** Dispatch of one call (Cheetah/CacheStore.py:42-71). *)
Definition st_step (d : store) (now : Z) (op : sop) : sres * store :=
  match op with
  | SSet k v t => (SDone, st_set d k v t)
  | SAdd k v t => match st_add d k v t with Ok d' => (SDone, d') | Raise e => (SExn e, d) end
  | SReplace k v t => match st_replace d k v t with Ok d' => (SDone, d') | Raise e => (SExn e, d) end
  | SDelete k => match st_delete d k with Ok d' => (SDone, d') | Raise e => (SExn e, d) end
  | SGet k => match st_get d k now with (Ok v, d') => (SVal v, d') | (Raise e, d') => (SExn e, d') end
  | SClear => (SDone, st_clear d)
  end.

(** A sequence of calls (Cheetah/CacheStore.py:42-71). *)
Fixpoint st_run (d : store) (ops : list (Z * sop)) : list sres * store :=
  match ops with
  | [] => ([], d)
  | (now, op) :: r =>
      let (x, d') := st_step d now op in
      let (xs, d'') := st_run d' r in (x :: xs, d'')
  end.

(** ** CacheItem and CacheRegion *)

(** The mutable fields of a [CacheItem] (Cheetah/CacheRegion.py:40-44). *)
Record item := mkItem { it_refresh : option Z; it_expiry : Z }.

(** Truth value of [getRefreshTime()] (Cheetah/CacheRegion.py:59-60, Cheetah/Compiler.py:810). *)
Definition refresh_truth (i : item) : bool :=
  match it_refresh i with Some t => negb (t =? 0)%Z | None => false end.

(** [hasExpired] (Cheetah/CacheRegion.py:46-47). *)
Definition has_expired (i : item) (now : Z) : bool :=
  negb (it_expiry i =? 0)%Z && (now >? it_expiry i)%Z.

(** The fields of a [CacheRegion] (Cheetah/CacheRegion.py:103-112); the key prefix is computed by
    [item_key]. *)
Record region := mkRegion { rg_new : bool; rg_items : list (pystr * item) }.

Section Cache.
(** [md5(...).hexdigest()] (Cheetah/CacheRegion.py:132). *)
Variable md5 : pystr -> pystr.
(** [_getCacheStoreIdPrefix()] of each template instance (Cheetah/Template.py:1381-1385). *)
Variable prefix : N -> pystr.
(** Refresh interval of each region as fixed by its directive (Cheetah/Compiler.py:769). *)
Variable interval : N -> pystr -> option Z.

(** Key under which the data of an item is kept (Cheetah/CacheRegion.py:81, 111). *)
Definition item_key (tid : N) (rid h : pystr) : pystr :=
  prefix tid ++ L ":" ++ rid ++ L ":" ++ h.

(** All template instances that share one cache store: their regions
    (Cheetah/Template.py:1394-1398) and the store. *)
Record world := mkWorld { w_regions : N -> list (pystr * region); w_store : store }.

(** Start: no regions, empty store (Cheetah/Template.py:1571-1573, Cheetah/CacheStore.py:43-44). *)
Definition init_world : world := mkWorld (fun _ => []) [].

Definition set_regions (w : world) (tid : N) (rs : list (pystr * region)) : world :=
  mkWorld (fun t => if (t =? tid)%N then rs else w_regions w t) (w_store w).
  (* assignment to self._CHEETAH__cacheRegions[...]; Cheetah/Template.py:1397 *)

Definition set_store (w : world) (d : store) : world := mkWorld (w_regions w) d.
  (* update of the store's dictionary; Cheetah/CacheStore.py:47 *)

(** [getCacheRegion] (Cheetah/Template.py:1393-1398). *)
Definition get_region (w : world) (tid : N) (rid : pystr) : region * world :=
  match aget rid (w_regions w tid) with
  | Some rg => (rg, w)
  | None => let rg := mkRegion true [] in (rg, set_regions w tid (aset rid rg (w_regions w tid)))
  end.

(** Can [str(id).encode('ascii')] be computed (Cheetah/CacheRegion.py:132)? *)
Definition is_ascii (s : pystr) : bool := forallb (fun c => c <? 128)%N s.

(** Stores back one region of a template (in Python the object is shared;
    Cheetah/CacheRegion.py:138). *)
Definition put_region (w : world) (tid : N) (rid : pystr) (rg : region) : world :=
  set_regions w tid (aset rid rg (w_regions w tid)).

(** [getCacheItem] (Cheetah/CacheRegion.py:124-140) on the region just obtained; [vid] is
    [str(cacheItemID)].  Returns the item's id and fields. *)
Definition get_item (w : world) (tid : N) (rid : pystr) (rg : region) (vid : pystr)
  : res cexn (pystr * item) * world :=
  if is_ascii vid then
    let h := md5 vid in
    match aget h (rg_items rg) with
    | Some it => (Ok (h, it), w)
    | None =>
        let it := mkItem None 0%Z in
        (Ok (h, it), put_region w tid rid (mkRegion false (aset h it (rg_items rg))))
    end
  else (Raise UnicodeEncodeError, w).

(** Writes an item's fields back (object update, Cheetah/CacheRegion.py:49-57, 72). *)
Definition put_item (w : world) (tid : N) (rid h : pystr) (it : item) : world :=
  match aget rid (w_regions w tid) with
  | Some rg => put_region w tid rid (mkRegion (rg_new rg) (aset h it (rg_items rg)))
  | None => w
  end.

(** What one execution of the generated cache code gives (Cheetah/Compiler.py:764-857):
    the text written, and whether the body was executed. *)
Inductive outcome := Served (out : pystr) | Executed (out : pystr) | Failed (e : cexn).

(** One execution of a cached region.  [test]: value of the directive's test expression
    (false when there is none); [body]: the text written by the body, or that it raised;
    [t1]..[t4]: clock readings in the order they are made (Cheetah/CacheRegion.py:47,
    Cheetah/CacheStore.py:64, Cheetah/Compiler.py:839, Cheetah/CacheRegion.py:56).  Simplified: the
    body does not itself use the cache of this template. *)
Definition render (w : world) (tid : N) (rid vid : pystr) (test : bool)
    (body : option pystr) (t1 t2 t3 t4 : Z) : outcome * world :=
  (* Compiler.py:783-791 *)
  let (rg, w) := get_region w tid rid in
  let recache := rg_new rg in
  (* Compiler.py:794-796 *)
  match get_item w tid rid rg vid with
  | (Raise e, w) => (Failed e, w)
  | (Ok (h, it), w) =>
      let key := item_key tid rid h in
      (* Compiler.py:798-807 *)
      let recache := recache || has_expired it t1 || test in
      (* Compiler.py:809-827 *)
      let served :=
        if negb recache && refresh_truth it then
          match st_get (w_store w) key t2 with
          | (Ok out, d) => (Some out, false, set_store w d)
          | (Raise _, d) => (None, true, set_store w d)
          end
        else (None, recache, w) in
      let '(out, recache, w) := served in
      match out with
      | Some o =>
          (* the second test of Compiler.py:829-831 is false here *)
          if recache || negb (refresh_truth it) then (Failed AssertionError, w) else (Served o, w)
      | None =>
          if recache || negb (refresh_truth it) then
            (* Compiler.py:838-841 *)
            let it' := match interval tid rid with
                       | Some i => if (i =? 0)%Z then it else mkItem (it_refresh it) (t3 + i)%Z
                       | None => it
                       end in
            let w := put_item w tid rid h it' in
            match body with
            | None => (Failed BodyError, w)
            | Some o =>
                (* Compiler.py:843-853; CacheRegion.py:55-57 *)
                let w := put_item w tid rid h (mkItem (Some t4) (it_expiry it')) in
                (Executed o, set_store w (st_set (w_store w) key o (it_expiry it')))
            end
          else (Failed AssertionError, w)
      end
  end.

(** [CacheItem.clear] (Cheetah/CacheRegion.py:70-72) followed by [del] (line 122). *)
Fixpoint clear_items (tid : N) (rid : pystr) (hs : list pystr) (items : list (pystr * item))
    (d : store) : option cexn * list (pystr * item) * store :=
  match hs with
  | [] => (None, items, d)
  | h :: r =>
      match st_delete d (item_key tid rid h) with
      | Raise e => (Some e, items, d)
      | Ok d' => clear_items tid rid r (adel h items) d'
      end
  end.

(** [CacheRegion.clear] (Cheetah/CacheRegion.py:117-122). *)
Definition clear_region (w : world) (tid : N) (rid : pystr) : option cexn * world :=
  match aget rid (w_regions w tid) with
  | None => (None, w)
  | Some rg =>
      let '(e, items, d) := clear_items tid rid (keys (rg_items rg)) (rg_items rg) (w_store w) in
      (e, set_store (put_region w tid rid (mkRegion (rg_new rg) items)) d)
  end.

(** The loop of [refreshCache()] (Cheetah/Template.py:1415-1416). *)
Fixpoint clear_regions (w : world) (tid : N) (rids : list pystr) : option cexn * world :=
  match rids with
  | [] => (None, w)
  | rid :: r =>
      match clear_region w tid rid with
      | (Some e, w') => (Some e, w')
      | (None, w') => clear_regions w' tid r
      end
  end.

(** [refreshCache(cacheRegionId, cacheItemId)] (Cheetah/Template.py:1410-1427); the empty string
    stands for an argument not given (both are false in the tests of lines 1414 and 1421). *)
Definition refresh (w : world) (tid : N) (rid vid : pystr) : option cexn * world :=
  match rid with
  | [] => clear_regions w tid (keys (w_regions w tid))
  | _ =>
      match aget rid (w_regions w tid) with
      | None => (None, w)
      | Some rg =>
          match vid with
          | [] => clear_region w tid rid
          | _ =>
              match get_item w tid rid rg vid with
              | (Raise e, w) => (Some e, w)
              | (Ok (h, it), w) =>
                  match st_delete (w_store w) (item_key tid rid h) with
                  | Raise e => (Some e, w)
                  | Ok d => (None, put_item (set_store w d) tid rid h (mkItem None (it_expiry it)))
                  end
              end
          end
      end
  end.

(** One use of the templates sharing the store. *)
Inductive cop :=
| ORender (tid : N) (rid vid : pystr) (test : bool) (body : option pystr) (t1 t2 t3 t4 : Z)
| ORefresh (tid : N) (rid vid : pystr).
(* Cheetah/Compiler.py:764-857; Cheetah/Template.py:1410 *)

(** What happened, for the log. *)
Inductive cev :=
| EvServe (tid : N) (rid vid : pystr) (out : pystr)
| EvExec (tid : N) (rid vid : pystr) (out : pystr) (start : Z)
| EvFail (tid : N) (rid vid : pystr)
| EvRefresh (tid : N) (rid vid : pystr) (ok : bool).
(* Cheetah/Compiler.py:764-857; Cheetah/Template.py:1410 *)

(** One operation (Cheetah/Compiler.py:764-857; Cheetah/Template.py:1410). *)
Definition cstep (w : world) (op : cop) : cev * world :=
  match op with
  | ORender tid rid vid test body t1 t2 t3 t4 =>
      match render w tid rid vid test body t1 t2 t3 t4 with
      | (Served o, w') => (EvServe tid rid vid o, w')
      | (Executed o, w') => (EvExec tid rid vid o t3, w')
      | (Failed _, w') => (EvFail tid rid vid, w')
      end
  | ORefresh tid rid vid =>
      match refresh w tid rid vid with
      | (None, w') => (EvRefresh tid rid vid true, w')
      | (Some _, w') => (EvRefresh tid rid vid false, w')
      end
  end.

(** A history: log (newest first) and final state (Cheetah/Template.py:1410-1427). *)
Definition crun (ops : list cop) : list cev * world :=
  fold_left (fun s op => let (e, w) := cstep (snd s) op in (e :: fst s, w)) ops ([], init_world).
End Cache.

(** Values of the [varyBy] expression (Cheetah/CacheRegion.py:124; simplified to natural numbers and
    strings) and [str(cacheItemID)] (line 132). *)
Inductive vval := VInt (n : N) | VStr (s : pystr).
Definition vval_str (v : vval) : pystr :=  (* Cheetah/CacheRegion.py:132 *)
  match v with VInt n => str_of_N n | VStr s => s end.
