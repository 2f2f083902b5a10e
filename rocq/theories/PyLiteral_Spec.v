(** Specification side: what a Python 3 string literal denotes (Python Language Reference
    2.4.1), written without reference to the model of the compiler. *)
From Verif Require Import Base.

(** Value of a hexadecimal digit. *)
Definition hexval (c : N) : option N :=
  (if (48 <=? c) && (c <=? 57) then Some (c - 48)
   else if (97 <=? c) && (c <=? 102) then Some (c - 87)
   else if (65 <=? c) && (c <=? 70) then Some (c - 55)
   else None)%N.

(** Value of exactly the given hexadecimal digits. *)
Fixpoint hexnum (acc : N) (ds : pystr) : option N :=
  match ds with
  | [] => Some acc
  | d :: r => match hexval d with Some v => hexnum (acc * 16 + v)%N r | None => None end
  end.

Definition is_oct (c : N) : bool := ((48 <=? c) && (c <=? 55))%N.

(** One-character escapes: backslash, quotes, a b f n r t v. *)
Definition simple_escape (c : N) : option N :=
  if (c =? 92)%N then Some 92%N else if (c =? 39)%N then Some 39%N
  else if (c =? 34)%N then Some 34%N else if (c =? 97)%N then Some 7%N
  else if (c =? 98)%N then Some 8%N else if (c =? 102)%N then Some 12%N
  else if (c =? 110)%N then Some 10%N else if (c =? 114)%N then Some 13%N
  else if (c =? 116)%N then Some 9%N else if (c =? 118)%N then Some 11%N else None.

Definition ocons (c : N) (o : option pystr) : option pystr :=
  match o with Some s => Some (c :: s) | None => None end.

(** Reading of source text: [\r\n] and [\r] are line ends, equivalent to [\n]. *)
Fixpoint universal_newlines (s : pystr) : pystr :=
  match s with
  | [] => []
  | c :: r =>
      if (c =? 13)%N then
        match r with
        | d :: r' => if (d =? 10)%N then universal_newlines r else 10%N :: universal_newlines r
        | [] => [10%N]
        end
      else c :: universal_newlines r
  end.

(** Body of a literal quoted with [q] ([triple]: with three of them), up to and including the
    closing quotes, which must end the text.  [None]: not one valid literal. *)
Fixpoint lit_body (triple : bool) (q : N) (s : pystr) {struct s} : option pystr :=
  match s with
  | [] => None
  | c :: r =>
      if (c =? q)%N then
        if triple then
          match r with
          | q1 :: q2 :: rest =>
              if (q1 =? q)%N && (q2 =? q)%N
              then match rest with [] => Some [] | _ => None end
              else ocons c (lit_body triple q r)
          | _ => None
          end
        else match r with [] => Some [] | _ => None end
      else if (c =? 92)%N then
        match r with
        | [] => None
        | e :: r1 =>
            if (e =? 10)%N then lit_body triple q r1          (* continued line *)
            else match simple_escape e with
            | Some v => ocons v (lit_body triple q r1)
            | None =>
                if (e =? 120)%N then
                  match r1 with
                  | h1 :: h2 :: r2 =>
                      match hexnum 0 [h1; h2] with
                      | Some v => ocons v (lit_body triple q r2)
                      | None => None
                      end
                  | _ => None
                  end
                else if (e =? 117)%N then
                  match r1 with
                  | h1 :: h2 :: h3 :: h4 :: r2 =>
                      match hexnum 0 [h1; h2; h3; h4] with
                      | Some v => ocons v (lit_body triple q r2)
                      | None => None
                      end
                  | _ => None
                  end
                else if (e =? 85)%N then
                  match r1 with
                  | h1 :: h2 :: h3 :: h4 :: h5 :: h6 :: h7 :: h8 :: r2 =>
                      match hexnum 0 [h1; h2; h3; h4; h5; h6; h7; h8] with
                      | Some v => if (v <=? 1114111)%N then ocons v (lit_body triple q r2) else None
                      | None => None
                      end
                  | _ => None
                  end
                else if (e =? 78)%N then None    (* named characters: not covered *)
                else if is_oct e then
                  match r1 with
                  | o2 :: r2 =>
                      if is_oct o2 then
                        match r2 with
                        | o3 :: r3 =>
                            if is_oct o3
                            then ocons (((e - 48) * 8 + (o2 - 48)) * 8 + (o3 - 48))%N
                                       (lit_body triple q r3)
                            else ocons ((e - 48) * 8 + (o2 - 48))%N (lit_body triple q r2)
                        | [] => None
                        end
                      else ocons (e - 48)%N (lit_body triple q r1)
                  | [] => None
                  end
                else ocons c (ocons e (lit_body triple q r1))  (* unknown escape: kept *)
            end
        end
      else if (c =? 10)%N && negb triple then None             (* line ends in short literal *)
      else if (c =? 0)%N then None                             (* null byte in source *)
      else ocons c (lit_body triple q r)
  end.

(** The value of a text that is one whole string literal without prefix. *)
Definition eval_literal (src : pystr) : option pystr :=
  match universal_newlines src with
  | q :: r =>
      if (q =? 39)%N || (q =? 34)%N then
        match r with
        | q1 :: q2 :: r' =>
            if (q1 =? q)%N && (q2 =? q)%N then lit_body true q r' else lit_body false q r
        | _ => lit_body false q r
        end
      else None
  | [] => None
  end.
