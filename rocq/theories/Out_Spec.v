(** How Python reads the file of a module, and what a text with a declared encoding is; written without the
    model's functions, but for its codecs. *)
From Verif Require Import Base PyStr Prep_Spec Out_Model.

(** ** Python's declaration of an encoding (PEP 263) *)

Definition space (c : N) : bool := ((c =? 32) || (c =? 9) || (c =? 12))%N.
Fixpoint after_space (s : pystr) : pystr :=
  match s with c :: r => if space c then after_space r else s | [] => [] end.

(** The characters of the name of an encoding. *)
Definition in_name (c : N) : bool :=
  ((48 <=? c) && (c <=? 57) || (65 <=? c) && (c <=? 90) || (97 <=? c) && (c <=? 122) || (c =? 95) || (c =? 45) || (c =? 46))%N.
Fixpoint name_at (s : pystr) : pystr :=
  match s with c :: r => if in_name c then c :: name_at r else [] | [] => [] end.

(** In a comment: the word coding, a colon or an equals sign, blanks, a name. *)
Definition declares_here (s : pystr) : option pystr :=
  if starts_with (L "coding") s then
    match skipn 6 s with
    | c :: r => if ((c =? 58) || (c =? 61))%N
                then match name_at (after_space r) with [] => None | n => Some n end
                else None
    | [] => None
    end
  else None.
Fixpoint declares (s : pystr) : option pystr :=
  match declares_here s with
  | Some n => Some n
  | None => match s with [] => None | _ :: r => declares r end
  end.

(** A line of which only a comment or nothing is left. *)
Definition comment (l : pystr) : bool := match after_space l with c :: _ => (c =? 35)%N | [] => false end.
Definition empty_line (l : pystr) : bool := match after_space l with [] => true | _ => false end.
Definition line_declares (l : pystr) : option pystr := if comment l then declares l else None.

(** The line a text starts with and the text behind its line break. *)
Fixpoint first_line (s : pystr) : pystr :=
  match s with c :: r => if (c =? 10)%N then [] else c :: first_line r | [] => [] end.
Fixpoint behind_line (s : pystr) : pystr :=
  match s with c :: r => if (c =? 10)%N then r else behind_line r | [] => [] end.

(** The encoding of a file: declared in its first line, or in the second if the first has no code; otherwise
    utf-8. *)
Definition declared (b : pystr) : pystr :=
  match line_declares (first_line b) with
  | Some n => n
  | None => match (if comment (first_line b) || empty_line (first_line b) then line_declares (first_line (behind_line b)) else None) with
            | Some n => n
            | None => L "utf-8"
            end
  end.

Section Reading.
Variable K : pystr -> option codec.

(** The text Python reads in a file; None: it is refused. *)
Definition python_reads (b : pystr) : option pystr :=
  match K (declared b) with Some cd => cd_dec cd b | None => None end.

(** The codecs every Python has. *)
Definition has_standard : Prop := K (L "ascii") = Some ascii /\ K (L "utf-8") = Some utf8.

(** A codec for source files: what it encodes it reads back, and ASCII stays as it is. *)
Definition reads_back (cd : codec) : Prop := forall s b, cd_enc cd s = Some b -> cd_dec cd b = Some s.
Definition keeps_ascii (cd : codec) : Prop :=
  forall a s, Forall (fun c => (c < 128)%N) a -> cd_enc cd (a ++ s) = option_map (app a) (cd_enc cd s).

(** There is one way only to encode a text. *)
Definition one_form (cd : codec) : Prop := forall b s, cd_dec cd b = Some s -> cd_enc cd s = Some b.
End Reading.

(** The first line of a script: a comment in ASCII that declares nothing. *)
Definition script_line (s : pystr) : Prop :=
  (exists r, s = L "#" ++ r) /\ Forall (fun c => (c < 128 /\ c <> 10)%N) s /\ ~ within (L "coding") s.

(** The module with a line that declares its encoding behind the first. *)
Definition with_declaration (enc shbang rest : pystr) : pystr :=
  shbang ++ [10%N] ++ L "# -*- coding: " ++ enc ++ L " -*-" ++ [10%N] ++ rest.

(** Characters that can be encoded in utf-8. *)
Definition scalar (c : N) : Prop := (c < 55296 \/ 57343 < c <= 1114111)%N.
