(** C29: webInput field lookup. *)
From Verif Require Import WebInput_Model WebInput_Spec WebInput_Proofs.
Local Open Scope string_scope.
Local Open Scope list_scope.

(** Every name has exactly one split into short name and suffix, so the hypotheses
    [name_parts] below are always met. *)
Theorem C29_name_parts_exist : forall name, exists short ext, name_parts name short ext.
Proof. exact name_parts_exists. Qed.
Print Assumptions C29_name_parts_exist.
Example C29_name_parts_exist_ex : name_parts (L "height:int") (L "height") (L "int").
Proof. split; [intro H; cbn in H; intuition discriminate|left; reflexivity]. Qed.

(** The name comes back without its suffix. *)
Theorem C29_short_name : forall (V : Type) (sv : pystr -> V) name func multi cs short ext n o,
  name_parts name short ext -> lookup sv name func multi cs = Ok (n, o) -> n = short.
Proof. exact @lookup_name. Qed.
Print Assumptions C29_short_name.
Example C29_short_name_ex :
  lookup (fun s => s) (L "a:") (fun _ => FStr (L "1")) false
    [([], mkConv None (Use (L "?")) (Use (L "!")))] = Ok (L "a", Single (L "1")).
Proof. reflexivity. Qed.

(** Multi values: every element converted, in order, or the first exception. *)
Theorem C29_multi : forall (V : Type) (sv : pystr -> V) name func cs short ext c vals r,
  name_parts name short ext -> aget ext cs = Some c ->
  field_values func name short vals -> all_converted sv c vals r ->
  lookup sv name func true cs
  = match r with Ok vs => Ok (short, Multi vs) | Raise e => Raise e end.
Proof. exact @lookup_multi. Qed.
Print Assumptions C29_multi.

(** Test converter for the examples: accepts only "1" and "2". *)
Definition ex_func (s : pystr) : res wexn nat :=
  if str_eqb s (L "1") then Ok 1 else if str_eqb s (L "2") then Ok 2 else Raise ValueError.
Definition ex_cs : list (pystr * converter nat) :=
  [(L "int", mkConv (Some ex_func) (Use 0) (Use 99)); (L "req", mkConv (Some ex_func)
    (RaiseClass ValueError) (RaiseClass TypeError))].
Definition ex_form (k : pystr) : fval :=
  if str_eqb k (L "h") then FList [L "2"; L "x"; L "1"] else FNone.
Example C29_multi_ex :
  lookup (fun _ => 7) (L "h:int") ex_form true ex_cs = Ok (L "h", Multi [2; 99; 1])
  /\ lookup (fun _ => 7) (L "h:req") ex_form true ex_cs = Raise TypeError
  /\ all_converted (fun _ => 7) (mkConv (Some ex_func) (Use 0) (Use 99)) [L "2"; L "x"] (Ok [2; 99]).
Proof.
  repeat split; try reflexivity.
  apply ac_cons; [eapply conv_good; reflexivity|].
  apply ac_cons; [|constructor].
  eapply conv_bad_use; try reflexivity. right. reflexivity.
Qed.

(** Single values: the first converted element, or the default when there is none; an element
    that cannot be converted gives the converter's error value or exception.  All elements are
    converted, so a bad later element raises too. *)
Theorem C29_single : forall (V : Type) (sv : pystr -> V) name func cs short ext c vals r,
  name_parts name short ext -> aget ext cs = Some c ->
  field_values func name short vals -> all_converted sv c vals r ->
  lookup sv name func false cs
  = match r with
    | Raise e => Raise e
    | Ok (v :: _) => Ok (short, Single v)
    | Ok [] => match cv_default c with
               | Use v => Ok (short, Single v)
               | RaiseClass e => Raise e
               end
    end.
Proof. exact @lookup_single. Qed.
Print Assumptions C29_single.
Example C29_single_ex :
  lookup (fun _ => 7) (L "h:int") ex_form false ex_cs = Ok (L "h", Single 2)
  /\ lookup (fun _ => 7) (L "k:int") ex_form false ex_cs = Ok (L "k", Single 0)
  /\ lookup (fun _ => 7) (L "k:req") ex_form false ex_cs = Raise ValueError
  /\ field_values ex_form (L "h:int") (L "h") [L "2"; L "x"; L "1"].
Proof. repeat split; try reflexivity. right. split; reflexivity. Qed.

(** The hypotheses on values can always be met. *)
Theorem C29_conversion_total : forall (V : Type) (sv : pystr -> V) c l,
  exists r, all_converted sv c l r.
Proof. exact @all_converted_total. Qed.
Print Assumptions C29_conversion_total.
Example C29_conversion_total_ex :
  all_converted (fun _ => 7) (mkConv None (Use 0) (Use 0)) [L "a"] (Ok [7]).
Proof. apply (ac_cons (fun _ => 7)); [|constructor]. exact (conv_none (fun _ => 7) (mkConv None (Use 0) (Use 0)) (L "a") eq_refl). Qed.

(** An unknown suffix always raises TypeError. *)
Theorem C29_unknown_suffix : forall (V : Type) (sv : pystr -> V) name func multi cs short ext,
  name_parts name short ext -> aget ext cs = None ->
  lookup sv name func multi cs = Raise TypeError.
Proof. exact @lookup_unknown. Qed.
Print Assumptions C29_unknown_suffix.
Example C29_unknown_suffix_ex :
  lookup (fun _ => 7) (L "h:integer") ex_form true ex_cs = Raise TypeError.
Proof. reflexivity. Qed.

(** webInput as a whole: the new dictionary goes first in the search list, binds every requested
    name to its lookup (the last request for a short name wins) and nothing else. *)
Theorem C29_webinput_dictionary :
  forall (V : Type) (sv : pystr -> V) func cs names multis sl dic sl',
  webInput sv func cs names multis sl = (Ok dic, sl') ->
  sl' = dic :: sl
  /\ (forall pre name multi post k v,
        map (fun n => (n, false)) names ++ map (fun n => (n, true)) multis
          = pre ++ (name, multi) :: post ->
        lookup sv name func multi cs = Ok (k, v) ->
        (forall name' multi' v', In (name', multi') post ->
           lookup sv name' func multi' cs <> Ok (k, v')) ->
        aget k dic = Some v)
  /\ (forall k v, aget k dic = Some v ->
        exists name multi,
          In (name, multi) (map (fun n => (n, false)) names ++ map (fun n => (n, true)) multis)
          /\ lookup sv name func multi cs = Ok (k, v)).
Proof. exact @webInput_last. Qed.
Print Assumptions C29_webinput_dictionary.
Example C29_webinput_dictionary_ex :
  webInput (fun _ => 7) ex_form ex_cs [L "k:int"; L "h:int"] [L "h:int"] []
  = (Ok [(L "k", Single 0); (L "h", Multi [2; 99; 1])],
     [[(L "k", Single 0); (L "h", Multi [2; 99; 1])]]).
Proof. reflexivity. Qed.

(** A failing webInput leaves the search list as it was. *)
Theorem C29_webinput_failure : forall (V : Type) (sv : pystr -> V) func cs names multis sl e sl',
  webInput sv func cs names multis sl = (Raise e, sl') -> sl' = sl.
Proof. exact @webInput_raises. Qed.
Print Assumptions C29_webinput_failure.
Example C29_webinput_failure_ex :
  webInput (fun _ => 7) ex_form ex_cs [L "h:int"; L "h:zz"] [] [[]] = (Raise TypeError, [[]]).
Proof. reflexivity. Qed.
