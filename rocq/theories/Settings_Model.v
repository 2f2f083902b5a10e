(** Model of the settings merge: Cheetah/SettingsManager.py:25-43, 264-271.  Dictionaries live in a
    heap, so that sharing and in-place updates are visible. *)
From Verif Require Import Base Alist.

(** A setting: a value other than a dictionary, or a reference to a dictionary
    (Cheetah/SettingsManager.py:38). *)
Inductive hval := HAtom (n : N) | HRef (l : nat).
(** A dictionary object and the heap (Cheetah/SettingsManager.py:25). *)
Definition hdict := list (pystr * hval).
Definition heap := list hdict.   (* Cheetah/SettingsManager.py:25 *)

(** RuntimeError: the dictionary iterated over changed its size; Dangling: no such object
    (Cheetah/SettingsManager.py:37). *)
Inductive sexn := RuntimeError | Dangling.

(** Replaces one object of the heap (Cheetah/SettingsManager.py:42). *)
Fixpoint upd (h : heap) (l : nat) (d : hdict) : heap :=
  match h, l with
  | [], _ => []
  | _ :: r, O => d :: r
  | x :: r, S l' => x :: upd r l' d
  end.

(** [dict[key] = val] (Cheetah/SettingsManager.py:40, 42). *)
Definition hset (h : heap) (l : nat) (k : pystr) (v : hval) : heap :=
  match nth_error h l with
  | Some d => upd h l (aset k v d)
  | None => h
  end.

(** The loop over [dict2.items()] (Cheetah/SettingsManager.py:37-42) from item [i] on; [n] is the
    size of dict2 when the loop began (the iterator checks it before every item).  [None]: not
    finished within [fuel] turns (a cyclic structure recurses for ever). *)
Fixpoint mloop (fuel : nat) (h : heap) (l1 l2 n i : nat) : option (res sexn heap) :=
  match fuel with
  | O => None
  | S f =>
      match nth_error h l2, nth_error h l1 with
      | Some d2, Some d1 =>
          if length d2 =? n then
            match nth_error d2 i with
            | None => Some (Ok h)
            | Some (k, v) =>
                match aget k d1, v with
                | Some (HRef m1), HRef m2 =>
                    match mloop f h m1 m2 (length (nth m2 h [])) 0 with
                    | Some (Ok h') => mloop f (hset h' l1 k (HRef m1)) l1 l2 n (S i)
                    | x => x
                    end
                | _, _ => mloop f (hset h l1 k v) l1 l2 n (S i)
                end
            end
          else Some (Raise RuntimeError)
      | _, _ => Some (Raise Dangling)
      end
  end.

(** [mergeNestedDictionaries(dict1, dict2)] without copying (Cheetah/SettingsManager.py:37-43);
    the result is the object [l1]. *)
Definition merge_in_place (fuel : nat) (h : heap) (l1 l2 : nat) : option (res sexn heap) :=
  mloop fuel h l1 l2 (length (nth l2 h [])) 0.

(** Lookup in the memo of [copy.deepcopy] (Cheetah/SettingsManager.py:35). *)
Fixpoint mfind (m : nat) (memo : list (nat * nat)) : option nat :=
  match memo with
  | [] => None
  | (a, b) :: r => if m =? a then Some b else mfind m r
  end.

(** [copy.deepcopy] of a dictionary, filling the new object [l'] with copies of [items]
    (Cheetah/SettingsManager.py:35).  Values other than dictionaries are immutable here. *)
Fixpoint dcopy (fuel : nat) (h : heap) (memo : list (nat * nat)) (l' : nat) (items : hdict)
  : option (heap * list (nat * nat)) :=
  match fuel with
  | O => None
  | S f =>
      match items with
      | [] => Some (h, memo)
      | (k, HAtom a) :: r => dcopy f (hset h l' k (HAtom a)) memo l' r
      | (k, HRef m) :: r =>
          match mfind m memo with
          | Some m' => dcopy f (hset h l' k (HRef m')) memo l' r
          | None =>
              match dcopy f (h ++ [[]]) ((m, length h) :: memo) (length h) (nth m h []) with
              | Some (h', memo') => dcopy f (hset h' l' k (HRef (length h))) memo' l' r
              | None => None
              end
          end
      end
  end.

(** The two flags (Cheetah/SettingsManager.py:32-35). *)
Inductive cmode := NoCopy | Copy | DeepCopy.

(** [mergeNestedDictionaries(dict1, dict2, copy, deepcopy)] (Cheetah/SettingsManager.py:25-43):
    final heap and the object returned. *)
Definition mergeNested (fuel : nat) (md : cmode) (h : heap) (l1 l2 : nat)
  : option (res sexn (heap * nat)) :=
  let start :=
    match md with
    | NoCopy => Some (h, l1)
    | Copy => Some (h ++ [nth l1 h []], length h)
    | DeepCopy =>
        match dcopy fuel (h ++ [[]]) [(l1, length h)] (length h) (nth l1 h []) with
        | Some (h', _) => Some (h', length h)
        | None => None
        end
    end in
  match start with
  | None => None
  | Some (h', l) =>
      match merge_in_place fuel h' l l2 with
      | Some (Ok h'') => Some (Ok (h'', l))
      | Some (Raise e) => Some (Raise e)
      | None => None
      end
  end.

(** [dict.update] (Cheetah/SettingsManager.py:271). *)
Definition dict_update (h : heap) (l1 l2 : nat) : heap :=
  fold_left (fun h '(k, v) => hset h l1 k v) (nth l2 h []) h.

(** [updateSettings(newSettings, merge)] of a manager whose settings are the object [l1]
    (Cheetah/SettingsManager.py:264-271). *)
Definition updateSettings (fuel : nat) (h : heap) (l1 l2 : nat) (merge : bool)
  : option (res sexn heap) :=
  if merge then merge_in_place fuel h l1 l2 else Some (Ok (dict_update h l1 l2)).
