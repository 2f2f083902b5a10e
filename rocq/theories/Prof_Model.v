(** Model of the sampling profiler (Cheetah/Utils/statprof.py:145-313), as Python 3 runs it.

    Simplified: times are whole numbers of ticks, code objects are numbers; the timer is only the time it is set to; the remaining
    time is kept as the timer returns it; what [display] prints is the order of the rows. *)
From Verif Require Import Base.

(** [CallData] without name and place: self_sample_count and cum_sample_count (Cheetah/Utils/statprof.py:191-199). *)
Record cdata := mkD { d_self : nat; d_cum : nat }.

(** [call_data], in the order in which the code objects came (Cheetah/Utils/statprof.py:187-188). *)
Definition table := list (nat * cdata).

(** [state] (Cheetah/Utils/statprof.py:153-178); the frequency instead of the interval; [p_timer]: the time ITIMER_PROF is set to, in ticks
    or as the interval, [None]: switched off (Cheetah/Utils/statprof.py:226, 243, 253). *)
Inductive timer := Off | Interval | Ticks (t : Z).
(** The whole of [state] (Cheetah/Utils/statprof.py:153-178). *)
Record pst := mkP {
  p_acc : Z; p_last : option Z; p_count : nat; p_freq : N; p_rem : option Z; p_level : Z; p_data : table; p_timer : timer }.

(** The exceptions: of an assertion, of None in a subtraction, of objects without an order (Cheetah/Utils/statprof.py:182, 260, 297). *)
Inductive perr := AssertE | NoneE | OrderE.

(** At the start (Cheetah/Utils/statprof.py:153-178, 185-188). *)
Definition fresh : pst := mkP 0 None 0 100 None 0 [] Off.

(** [get_call_data(code)] and a change of it: a new row, or the one that is there (Cheetah/Utils/statprof.py:202-203). *)
Fixpoint upd (f : cdata -> cdata) (k : nat) (l : table) : table :=
  match l with
  | [] => [(k, f (mkD 0 0))]
  | (j, d) :: r => if Nat.eqb j k then (j, f d) :: r else (j, d) :: upd f k r
  end.
(** The two counters (Cheetah/Utils/statprof.py:211, 218). *)
Definition bump_self (d : cdata) : cdata := mkD (S (d_self d)) (d_cum d).
(** Goes with the definition above (Cheetah/Utils/statprof.py:211, 218). *)
Definition bump_cum (d : cdata) : cdata := mkD (d_self d) (S (d_cum d)).

(** [code_seen]: the keys of the dict, in order (Cheetah/Utils/statprof.py:213-216). *)
Fixpoint seen (stack acc : list nat) : list nat :=
  match stack with
  | [] => acc
  | k :: r => seen r (if existsb (Nat.eqb k) acc then acc else acc ++ [k])
  end.

(** [sample_stack_procs(frame)], with the codes of the stack from [top] on (Cheetah/Utils/statprof.py:209-218). *)
Definition sample (top : nat) (below : list nat) (s : pst) : pst :=
  let data := upd bump_self top (p_data s) in
  let data := fold_left (fun l k => upd bump_cum k l) (seen (top :: below) []) data in
  mkP (p_acc s) (p_last s) (S (p_count s)) (p_freq s) (p_rem s) (p_level s) data (p_timer s).

(** [accumulate_time(stop_time)] (Cheetah/Utils/statprof.py:181-182). *)
Definition accumulate (t : Z) (s : pst) : res perr pst :=
  match p_last s with
  | None => Raise NoneE
  | Some l => Ok (mkP (p_acc s + (t - l)) (p_last s) (p_count s) (p_freq s) (p_rem s) (p_level s) (p_data s) (p_timer s))
  end.

(** [profile_signal_handler(signum, frame)]; the clock is [t1] at the start and [t2] in the end (Cheetah/Utils/statprof.py:221-226). *)
Definition handler (t1 t2 : Z) (top : nat) (below : list nat) (s : pst) : res perr unit * pst :=
  if (0 <? p_level s)%Z then
    match accumulate t1 s with
    | Raise e => (Raise e, s)
    | Ok s =>
        let s := sample top below s in
        (Ok tt, mkP (p_acc s) (Some t2) (p_count s) (p_freq s) (p_rem s) (p_level s) (p_data s) Interval)
    end
  else (Ok tt, s).

(** [start()] at [t] (Cheetah/Utils/statprof.py:236-245). *)
Definition start (t : Z) (s : pst) : pst :=
  let level := (p_level s + 1)%Z in
  if (level =? 1)%Z then
    mkP (p_acc s) (Some t) (p_count s) (p_freq s) None level (p_data s)
      (match p_rem s with Some r => if (r =? 0)%Z then Interval else Ticks r | None => Interval end)
  else mkP (p_acc s) (p_last s) (p_count s) (p_freq s) (p_rem s) level (p_data s) (p_timer s).

(** [stop()] at [t]; the timer had [rest] to go (Cheetah/Utils/statprof.py:248-256). *)
Definition stop (t rest : Z) (s : pst) : res perr unit * pst :=
  let s := mkP (p_acc s) (p_last s) (p_count s) (p_freq s) (p_rem s) (p_level s - 1) (p_data s) (p_timer s) in
  if (p_level s =? 0)%Z then
    match accumulate t s with
    | Raise e => (Raise e, s)
    | Ok s => (Ok tt, mkP (p_acc s) None (p_count s) (p_freq s) (Some rest) (p_level s) (p_data s) Off)
    end
  else (Ok tt, s).

(** [reset(frequency)] (Cheetah/Utils/statprof.py:157-178, 259-262). *)
Definition reset (f : option N) (s : pst) : res perr unit * pst :=
  if (p_level s =? 0)%Z then
    (Ok tt, mkP 0 None 0 (match f with Some f => if (f =? 0)%N then p_freq s else f | None => p_freq s end) None 0 [] (p_timer s))
  else (Raise AssertE, s).

(** What happens, with the time: calls of the functions and signals (Cheetah/Utils/statprof.py:221, 236, 248, 259). *)
Inductive pop := PStart (t : Z) | PStop (t rest : Z) | PReset (t : Z) (f : option N) | PSignal (t1 t2 : Z) (top : nat) (below : list nat).
(** One of them (Cheetah/Utils/statprof.py:221, 236, 248, 259). *)
Definition pstep (o : pop) (s : pst) : res perr unit * pst :=
  match o with
  | PStart t => (Ok tt, start t s)
  | PStop t rest => stop t rest s
  | PReset _ f => reset f s
  | PSignal t1 t2 top below => handler t1 t2 top below s
  end.

(** Several, whether there are exceptions or not; [h]: what has happened, the last first (Cheetah/Utils/statprof.py:221, 236, 248, 259). *)
Fixpoint prun (h : list pop) : pst := match h with [] => fresh | o :: r => snd (pstep o (prun r)) end.

(** The rows of [display]: self_secs_in_proc and cum_secs_in_proc, but for the division by the number of samples (Cheetah/Utils/statprof.py:268-277,
    296). *)
Definition row (acc : Z) (x : nat * cdata) : Z * Z * nat :=
  (Z.of_nat (d_self (snd x)) * acc, Z.of_nat (d_cum (snd x)) * acc, fst x)%Z.

(** [x < y] for two rows; objects of [CallStats] have no order (Cheetah/Utils/statprof.py:296-297). *)
Definition below (x y : Z * Z * nat) : res perr bool :=
  let '(a, b, _) := x in
  let '(c, d, _) := y in
  if (a =? c)%Z then if (b =? d)%Z then Raise OrderE else Ok (b <? d)%Z else Ok (a <? c)%Z.

(** [_l.sort(reverse=True)], as an insertion sort (Cheetah/Utils/statprof.py:297). *)
Fixpoint insert (x : Z * Z * nat) (l : list (Z * Z * nat)) : res perr (list (Z * Z * nat)) :=
  match l with
  | [] => Ok [x]
  | y :: r =>
      match below x y with
      | Raise e => Raise e
      | Ok true => match insert x r with Ok r => Ok (y :: r) | Raise e => Raise e end
      | Ok false => Ok (x :: y :: r)
      end
  end.
(** ... (Cheetah/Utils/statprof.py:297). *)
Fixpoint sort (l : list (Z * Z * nat)) : res perr (list (Z * Z * nat)) :=
  match l with
  | [] => Ok []
  | x :: r => match sort r with Ok r => insert x r | Raise e => Raise e end
  end.

(** [display()]: nothing, or the code objects in the order of the rows (Cheetah/Utils/statprof.py:291-313). *)
Definition display (s : pst) : res perr (option (list nat)) :=
  match p_count s with
  | O => Ok None
  | _ => match sort (map (row (p_acc s)) (p_data s)) with Ok l => Ok (Some (map snd l)) | Raise e => Raise e end
  end.
