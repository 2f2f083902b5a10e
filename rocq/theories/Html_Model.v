(** Model of Cheetah/Utils/htmlEncode.py, Cheetah/Utils/htmlDecode.py and of the string filters
    of Cheetah/Filters.py. *)
From Verif Require Import PyStr.

Definition AMP : N := 38.    (* ampersand; Cheetah/Utils/htmlEncode.py:8 *)
Definition LT : N := 60.     (* less-than; Cheetah/Utils/htmlEncode.py:9 *)
Definition GT : N := 62.     (* greater-than; Cheetah/Utils/htmlEncode.py:10 *)
Definition QUOT : N := 34.   (* double quote; Cheetah/Utils/htmlEncode.py:11 *)

(** [htmlCodes] (Cheetah/Utils/htmlEncode.py:7-12). *)
Definition htmlCodes : list (pystr * pystr) :=
  [(L "&", L "&amp;"); (L "<", L "&lt;"); (L ">", L "&gt;"); ([QUOT], L "&quot;")].

(** [htmlCodesReversed] (Cheetah/Utils/htmlEncode.py:13-14). *)
Definition htmlCodesReversed : list (pystr * pystr) := rev htmlCodes.

(** [htmlEncode] (Cheetah/Utils/htmlEncode.py:17-22). *)
Definition htmlEncode_with (codes : list (pystr * pystr)) (s : pystr) : pystr :=
  fold_left (fun s code => replace_str (fst code) (snd code) s) codes s.

(** [htmlEncode] with its default argument (Cheetah/Utils/htmlEncode.py:17). *)
Definition htmlEncode (s : pystr) : pystr := htmlEncode_with htmlCodes s.

(** [htmlDecode] (Cheetah/Utils/htmlDecode.py:11-16). *)
Definition htmlDecode_with (codes : list (pystr * pystr)) (s : pystr) : pystr :=
  fold_left (fun s code => replace_str (snd code) (fst code) s) codes s.

(** [htmlDecode] with its default argument (Cheetah/Utils/htmlDecode.py:11). *)
Definition htmlDecode (s : pystr) : pystr := htmlDecode_with htmlCodesReversed s.

(** ** Cheetah/Filters.py *)

(** What [Filter.filter] distinguishes about its argument (Cheetah/Filters.py:33-44): [None], a
    text, or another object, given by what [unicode(val)] returns.  Simplified: the Python 2
    fallback of lines 41-44 cannot happen on Python 3. *)
Inductive fval := FNone | FStr (s : pystr) | FObj (shown : pystr).

(** [Filter.filter] (Cheetah/Filters.py:28-44). *)
Definition base_filter (v : fval) : pystr :=
  match v with
  | FNone => []
  | FStr s => s
  | FObj s => s
  end.

(** [output[:n]] for any integer [n] (Cheetah/Filters.py:133). *)
Definition slice_upto (n : Z) (s : pystr) : pystr :=
  if (0 <=? n)%Z then firstn (Z.to_nat n) s
  else firstn (Z.to_nat (Z.of_nat (length s) + n)) s.

(** [MaxLen.filter] (Cheetah/Filters.py:128-134); [None]: no [maxlen] keyword. *)
Definition maxlen_filter (v : fval) (maxlen : option Z) : pystr :=
  let output := base_filter v in
  match maxlen with
  | Some n => if (Z.of_nat (length output) >? n)%Z then slice_upto n output else output
  | None => output
  end.

(** [webSafeEntities] (Cheetah/Filters.py:13). *)
Definition webSafeEntities (k : N) : option pystr :=
  if (k =? 32)%N then Some (L "&nbsp;")
  else if (k =? 34)%N then Some (L "&quot;")
  else None.

(** The replacement text for one character of [also] (Cheetah/Filters.py:151-154). *)
Definition also_entity (k : N) : pystr :=
  match webSafeEntities k with
  | Some v => v
  | None => L "&#" ++ str_of_N k ++ L ";"
  end.

(** [WebSafe.filter] (Cheetah/Filters.py:140-156); [also] is the keyword, [[]] when absent. *)
Definition websafe_filter (v : fval) (also : pystr) : pystr :=
  let s := base_filter v in
  let s := replace_char AMP (L "&amp;") s in
  let s := replace_char LT (L "&lt;") s in
  let s := replace_char GT (L "&gt;") s in
  fold_left (fun s k => replace_char k (also_entity k) s) also s.

(** [s.find] of a newline from [start] on, and the slices around it (Cheetah/Filters.py:180-186):
    the text before the first newline and the text after it.  Simplified: the loop carries
    the rest of the text instead of the index [start]. *)
Fixpoint cut_newline (s : pystr) : option (pystr * pystr) :=
  match s with
  | [] => None
  | c :: r =>
      if (c =? 10)%N then Some ([], r)
      else match cut_newline r with
           | Some (a, b) => Some (c :: a, b)
           | None => None
           end
  end.

(** The loop of [Strip.filter] (Cheetah/Filters.py:179-189) with a bound on the number of rounds;
    the bound used below is never reached ([strip_loop_enough]). *)
Fixpoint strip_loop (fuel : nat) (result : pystr) (s : pystr) : option pystr :=
  match fuel with
  | O => None
  | S fuel' =>
      match cut_newline s with
      | None => Some (result ++ strip s)
      | Some (line, rest) => strip_loop fuel' (result ++ strip line ++ [10%N]) rest
      end
  end.

(** [Strip.filter] (Cheetah/Filters.py:175-190). *)
Definition strip_filter (v : fval) : option pystr :=
  let s := base_filter v in strip_loop (S (length s)) [] s.

(** [StripSqueeze.filter] (Cheetah/Filters.py:199-202). *)
Definition stripsqueeze_filter (v : fval) : pystr :=
  join [32%N] (split_ws (base_filter v)).
