(** What neighbouring pages are: records are numbered from one, a window is its first and its last number. *)
From Verif Require Import PyStr.
Local Open Scope Z_scope.

(** The numbers from [a] to [b]. *)
Definition numbers (a b : Z) : list Z := map (fun k => a + Z.of_nat k) (seq 0 (Z.to_nat (b + 1 - a))).

(** A window that begins at [s] goes forward: [size] records if at least [orphan] are left after them, otherwise all that are
    left. *)
Definition forward (n size orphan s e : Z) : Prop :=
  (e = s + size - 1 /\ e + orphan <= n) \/ (e = n /\ n < s + size - 1 + orphan).

(** A window that ends at [e] goes back: [size] records if at least [orphan] are left before them, otherwise all from the
    first. *)
Definition backward (size orphan s e : Z) : Prop :=
  (s = e - size + 1 /\ orphan <= s - 1) \/ (s = 1 /\ e - size < orphan).

(** Windows one after the other, from number [s] on, as [window] gives them; at most [fuel]. *)
Fixpoint walk (window : Z -> Z * Z * Z) (n : Z) (fuel : nat) (s : Z) : option (list (Z * Z)) :=
  match fuel with
  | O => None
  | S f =>
      let '(a, b, _) := window s in
      if b <? n then match walk window n f (b + 1) with Some r => Some ((a, b) :: r) | None => None end
      else Some [(a, b)]
  end.

(** The sizes of the windows: [size] each, but for the last, which has at least one record and at least [orphan] (unless there are no windows before
    it), and fewer than [size + orphan] or at most [size]. *)
Fixpoint sizes (size orphan : Z) (first : bool) (l : list (Z * Z)) : Prop :=
  match l with
  | [] => True
  | [(a, b)] => a <= b /\ (first = true \/ orphan <= b - a + 1) /\ (b - a + 1 < size + orphan \/ b - a + 1 = size)
  | (a, b) :: r => b - a + 1 = size /\ sizes size orphan false r
  end.
