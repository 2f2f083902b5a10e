(** Specification side for error catchers: how Python reads the lines of an added method (string
    literals by the Python Language Reference 2.4.1) and what the documentation of the catchers
    promises.  From the model only the types of steps and results are used. *)
From Verif Require Import Base PyLiteral_Spec Catch_Model.

(** Length of the body of a string literal with its closing quotes, when one starts here. *)
Fixpoint lit_scan (triple : bool) (q : N) (esc : bool) (s : pystr) : option nat :=
  match s with
  | [] => None
  | c :: r =>
      if esc then option_map S (lit_scan triple q false r)
      else if (c =? 92)%N then option_map S (lit_scan triple q true r)
      else if (c =? q)%N then
        if triple then
          match r with
          | q1 :: q2 :: _ =>
              if (q1 =? q)%N && (q2 =? q)%N then Some 3 else option_map S (lit_scan triple q false r)
          | _ => None
          end
        else Some 1
      else option_map S (lit_scan triple q false r)
  end.

(** The string literal that the text starts with: its value and the text behind it. *)
Definition take_lit (s : pystr) : option (pystr * pystr) :=
  match s with
  | q :: r =>
      if ((q =? 39) || (q =? 34))%N then
        let n := match r with
                 | q1 :: q2 :: r' =>
                     if (q1 =? q)%N && (q2 =? q)%N then option_map (Nat.add 3) (lit_scan true q false r')
                     else option_map (Nat.add 1) (lit_scan false q false r)
                 | _ => option_map (Nat.add 1) (lit_scan false q false r)
                 end in
        match n with
        | Some n => match eval_literal (firstn n s) with
                    | Some v => Some (v, skipn n s)
                    | None => None
                    end
        | None => None
        end
      else None
  | [] => None
  end.

(** The text behind a given beginning. *)
Fixpoint after (p s : pystr) : option pystr :=
  match p, s with
  | [], _ => Some s
  | c :: p', d :: s' => if (c =? d)%N then after p' s' else None
  | _, [] => None
  end.

(** The code that a line [return eval(LITERAL, globals(), localsDict)] evaluates. *)
Definition read_eval (l : pystr) : option pystr :=
  match after (L "return eval(") l with
  | Some t => match take_lit t with
              | Some (v, r) => if str_eqb r (L ", globals(), localsDict)") then Some v else None
              | None => None
              end
  | None => None
  end.

(** The arguments of a line [return self._CHEETAH__errorCatcher.warn(exc_val=e, code=LITERAL,
    rawCode=LITERAL, lineCol=EXPRESSION)]. *)
Definition read_warn (l : pystr) : option (pystr * pystr * pystr) :=
  match after (L "return self._CHEETAH__errorCatcher.warn(exc_val=e, code= ") l with
  | None => None
  | Some t =>
      match take_lit t with
      | None => None
      | Some (code, t1) =>
          match after (L " , rawCode= ") t1 with
          | None => None
          | Some t2 =>
              match take_lit t2 with
              | None => None
              | Some (raw, t3) =>
                  match after (L " , lineCol=") t3 with
                  | None => None
                  | Some t4 =>
                      match rev t4 with
                      | c :: r => if (c =? 41)%N then Some (code, raw, rev r) else None
                      | [] => None
                      end
                  end
              end
          end
      end
  end.

(** What a method of four lines with these levels does: the code it evaluates and what it reports. *)
Definition read_method (ls : list (nat * pystr)) : option (pystr * (pystr * pystr * pystr)) :=
  match ls with
  | [(a, t); (b, ev); (c, ex); (d, w)] =>
      if (a =? 2)%nat && (b =? 3)%nat && (c =? 2)%nat && (d =? 3)%nat
         && str_eqb t (L "try:")
         && str_eqb ex (L "except self._CHEETAH__errorCatcher.exceptions() as e:")
      then match read_eval ev, read_warn w with
           | Some x, Some y => Some (x, y)
           | _, _ => None
           end
      else None
  | _ => None
  end.

(** Texts that may stand between three quotes [q] as they are: no backslash, carriage return or null, no
    three quotes in a row and no quote at the end. *)
Fixpoint quotes3 (q : N) (s : pystr) : bool :=
  match s with
  | a :: ((b :: c :: _) as r) => ((a =? q) && (b =? q) && (c =? q))%N || quotes3 q r
  | _ => false
  end.

Definition plain_in3 (q : N) (s : pystr) : Prop :=
  (forall c, In c s -> c <> 92%N /\ c <> 13%N /\ c <> 0%N) /\ quotes3 q s = false /\ last s 0%N <> q.

(** ** The methods of a page *)

(** The first placeholder with this source text: its code and position. *)
Fixpoint first_use (raw : pystr) (ps : list (pystr * pystr * (N * N))) : option (pystr * (N * N)) :=
  match ps with
  | [] => None
  | (code, raw', pos) :: r => if str_eqb raw raw' then Some (code, pos) else first_use raw r
  end.

(** ** What the catchers promise (the documentation of #errorCatcher) *)

(** The text that stands for a placeholder that was not found. *)
Definition stands_for (name raw : pystr) : pystr :=
  if str_eqb name (L "BigEcho")
  then L "===============&lt;" ++ raw ++ L " could not be found&gt;==============="
  else raw.

(** The output of a page and the list of errors under [ListErrors], given the name of the catcher
    selected so far: the value of each placeholder, the text that stands for it when it is not found,
    the end at any other exception. *)
Fixpoint page (cur : option pystr) (ss : list step) : list pystr * option result * list entry :=
  match ss with
  | [] => ([], None, [])
  | SSet name :: t => page (Some name) t
  | SCall (code, raw, lc) o :: t =>
      match o, cur with
      | Done v, _ => let '(out, x, log) := page cur t in (v :: out, x, log)
      | _, None => ([], Some AttributeErr, [])
      | NotFoundErr, Some name =>
          let '(out, x, log) := page cur t in
          (stands_for name raw :: out, x,
           if str_eqb name (L "ListErrors") then (code, raw, lc) :: log else log)
      | _, Some _ => ([], Some o, [])
      end
  end.

(** The names of the catchers that the documentation describes as giving text. *)
Definition text_catcher (name : pystr) : Prop :=
  In name [L "Echo"; L "ErrorCatcher"; L "BigEcho"; L "ListErrors"].

(** Pages that select such catchers only. *)
Definition selects_text (ss : list step) : Prop :=
  forall name, In (SSet name) ss -> text_catcher name.
