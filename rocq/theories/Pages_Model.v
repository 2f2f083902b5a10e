(** Model of the neighbouring pages in Cheetah/Tools/MondoReport.py: [prev] and [next] of a record (257-271), the object they
    give (381-386), and the window of Zope's batching code, [_prevNextHelper] (285-329). *)
From Verif Require Import PyStr Report_Model.

(** A PrevNextPage: the first index and its record, the last index and its record, the length
    (Cheetah/Tools/MondoReport.py:382-386). *)
Record ends (A : Type) := mkEnds { e_start : Z; e_first : A; e_end : Z; e_last : A; e_len : Z }.
Arguments mkEnds {A}. Arguments e_start {A}. Arguments e_first {A}. Arguments e_end {A}. Arguments e_last {A}. Arguments e_len {A}.

(** [PrevNextPage(origList, size, start)] (Cheetah/Tools/MondoReport.py:382-386). *)
Definition prev_next_page {A} (l : list A) (size start : Z) : res rexn (ends A) :=
  let e := (start + size)%Z in
  match py_get l start with
  | Raise x => Raise x
  | Ok a => match py_get l e with
            | Raise x => Raise x
            | Ok b => Ok (mkEnds start a e b size)
            end
  end.

(** [length()] of a record (Cheetah/Tools/MondoReport.py:196-197). *)
Definition st_length {A} (s : stats A) : Z := Z.of_nat (length (st_list s)).

(** What [prev] and [next] do with the exception or the object (Cheetah/Tools/MondoReport.py:263, 271). *)
Definition some_page {A} (r : res rexn (ends A)) : res rexn (option (ends A)) :=
  match r with Ok p => Ok (Some p) | Raise x => Raise x end.

(** [prev()] (Cheetah/Tools/MondoReport.py:257-263). *)
Definition prev {A} (s : stats A) : res rexn (option (ends A)) :=
  if (st_index s =? 0)%Z then Ok None
  else some_page (prev_next_page (st_list s) (st_length s) (st_index s - st_length s)).

(** [next()] (Cheetah/Tools/MondoReport.py:265-271). *)
Definition next {A} (s : stats A) : res rexn (option (ends A)) :=
  if (st_index s + st_length s =? st_length s)%Z then Ok None
  else some_page (prev_next_page (st_list s) (st_length s) (st_index s + st_length s)).

(** [try: sequence[i] except Exception: ...] (Cheetah/Tools/MondoReport.py:296-299, 307-310, 313-316, 324-327): whether the
    index is good. *)
Definition there {A} (l : list A) (i : Z) : bool := match py_get l i with Ok _ => true | Raise _ => false end.

(** [_prevNextHelper(start, end, size, orphan, sequence)] (Cheetah/Tools/MondoReport.py:285-329); numbers of records count
    from one. *)
Definition helper {A} (start end_ size orphan : Z) (l : list A) : Z * Z * Z :=
  let len := Z.of_nat (length l) in
  let size :=
    if (size <? 1)%Z then
      if (0 <? start)%Z && (0 <? end_)%Z && (start <=? end_)%Z then (end_ + 1 - start)%Z else 7%Z
    else size in
  if (0 <? start)%Z then
    let start := if there l (start - 1) then start else len in
    if (0 <? end_)%Z then (start, if (end_ <? start)%Z then start else end_, size)
    else
      let e := (start + size - 1)%Z in
      (start, if there l (e + orphan - 1) then e else len, size)
  else if (0 <? end_)%Z then
    let e := if there l (end_ - 1) then end_ else len in
    let s := (e + 1 - size)%Z in
    (if (s - 1 <? orphan)%Z then 1%Z else s, e, size)
  else
    let e := (1 + size - 1)%Z in
    (1%Z, if there l (e + orphan - 1) then e else len, size).
