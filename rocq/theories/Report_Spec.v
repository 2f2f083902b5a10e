(** What Roman numerals and report pages should be; nothing here comes from the model. *)
From Verif Require Export Base.

(** Value of a Roman letter. *)
Definition letter_value (c : N) : Z :=
  if (c =? 77)%N then 1000 else if (c =? 68)%N then 500 else if (c =? 67)%N then 100
  else if (c =? 76)%N then 50 else if (c =? 88)%N then 10 else if (c =? 86)%N then 5
  else if (c =? 73)%N then 1 else 0.

(** The subtractive reading: a letter before a greater one counts negatively. *)
Fixpoint numeral_value (s : pystr) : Z :=
  match s with
  | [] => 0
  | c :: t =>
      let v := letter_value c in
      ((match t with d :: _ => if (v <? letter_value d)%Z then - v else v | [] => v end)
       + numeral_value t)%Z
  end.

(** The standard form, from the school-book tables for hundreds, tens and ones. *)
Definition hundreds : list pystr :=
  map L ["";"C";"CC";"CCC";"CD";"D";"DC";"DCC";"DCCC";"CM"]%string.
Definition tens : list pystr :=
  map L ["";"X";"XX";"XXX";"XL";"L";"LX";"LXX";"LXXX";"XC"]%string.
Definition ones : list pystr :=
  map L ["";"I";"II";"III";"IV";"V";"VI";"VII";"VIII";"IX"]%string.
Definition digit_of (n p : Z) : nat := Z.to_nat ((n / p) mod 10).
Definition standard_numeral (n : Z) : pystr :=
  repeat 77%N (Z.to_nat (n / 1000))
  ++ nth (digit_of n 100) hundreds [] ++ nth (digit_of n 10) tens [] ++ nth (digit_of n 1) ones [].

(** The records of the page that exist. *)
Definition page_records {A} (l : list A) (size start : nat) : list A :=
  firstn size (skipn start l).

(** [pages_from l size start k]: the records of k consecutive pages. *)
Fixpoint consecutive (size start k : nat) : list nat :=
  match k with O => [] | S k' => start :: consecutive size (start + size) k' end.
