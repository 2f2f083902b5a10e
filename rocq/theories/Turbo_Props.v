(** C96: the TurboGears plug-in. *)
From Verif Require Import Base PyStr Alist Turbo_Model Turbo_Spec Turbo_Proofs.
Local Open Scope nat_scope.
Local Open Scope string_scope.
Local Open Scope list_scope.

(** For the examples: a text that begins with an exclamation mark cannot be compiled. *)
Definition demo_env : tenv := mkT (fun t => match t with 33%N :: _ => None | _ => Some (L "C:" ++ t) end)
  (fun n => if str_eqb n (L "lib.mod") then Some 1 else None) (fun k n => str_eqb n (L "mod")).
Definition nothing : tst := mkTS [] [(L "os", TImp 9)] (fun _ => []).
Definition one (t : string) : tst := mkTS [((L "web.page", L "tmpl"), (3%N, L t))] [(L "os", TImp 9)] (fun _ => []).

(** C96: after any history of edits and of loads by any instances, a load gives the class of the template as it is now, if every
    edit is later than the one before it and every text can be compiled; and an OSError if there is no template. *)
Theorem C96_current : forall E now s l i n b, start E now s -> paced now l -> good E l -> base_name n = Some b ->
  match text_after n l (option_map snd (file_of n (L "tmpl") s)) with
  | Some t => exists code, v_compile E t = Some code /\ fst (load E (L "tmpl") false i n (steps E l s)) = Ok (CTmpl code)
  | None => fst (load E (L "tmpl") false i n (steps E l s)) = Raise EStat
  end.
Proof. exact always_current. Qed.
Print Assumptions C96_current.
Definition demo_history : list op :=
  [Load 0 (L "web.page"); Write (L "web.page") 5 (L "two"); Load 1 (L "web.page"); Load 0 (L "web.page"); Write (L "web.page") 7 (L "three");
   Write (L "web.other") 8 (L "other"); Load 1 (L "web.page")].
Example C96_current_ex : start demo_env 3 (one "one") /\ paced 3 demo_history /\ good demo_env demo_history /\
  base_name (L "web.page") = Some (L "page") /\
  fst (load demo_env (L "tmpl") false 0 (L "web.page") (steps demo_env demo_history (one "one"))) = Ok (CTmpl (L "C:three")).
Proof.
  split; [|split; [|split; [|split]]].
  - split; [repeat constructor; cbn; tauto|]. split; [reflexivity|]. intros n mt t H. unfold file_of in H. cbn in H.
    destruct (pair_eqb _ _); [|discriminate H]. injection H as <- <-. split; [lia|discriminate].
  - cbn. repeat split; lia.
  - intros n mt t H. cbn in H. repeat (destruct H as [H|H]; [try discriminate H; injection H as _ _ <-; discriminate|]). destruct H.
  - reflexivity.
  - vm_compute. reflexivity.
Qed.

(** C96: a name without a package is a ValueError, and exactly one of the three arguments must be given, of which two are not
    implemented. *)
Theorem C96_arguments : forall E ext pre i a b c s,
  (given a = true -> given b = false -> given c = false -> load_template E ext pre i a b c s = load E ext pre i a s) /\
  (given a = false -> given b = true -> given c = false -> load_template E ext pre i a b c s = (Raise ENotImplemented, s)) /\
  (given a = false -> given b = false -> given c = true -> load_template E ext pre i a b c s = (Raise ENotImplemented, s)) /\
  (given a = false -> given b = false -> given c = false -> load_template E ext pre i a b c s = (Raise ENone, s)) /\
  (given a && given b || given a && given c || given b && given c = true -> load_template E ext pre i a b c s = (Raise EMany, s)) /\
  (~ In 46%N a -> load E ext pre i a s = (Raise ENoPackage, s)).
Proof.
  intros E ext pre i a b c s. unfold load_template. cbn [filter].
  destruct (given a), (given b), (given c); (repeat split; try discriminate; try reflexivity);
    (intros H; unfold load; replace (base_name a) with (@None pystr); [reflexivity|];
     symmetry; clear -H; induction a as [|x a IH]; [reflexivity|]; cbn [base_name];
     rewrite IH by (intros H'; apply H; right; exact H'); destruct (N.eqb_spec x 46) as [->|_]; [exfalso; apply H; left; reflexivity|reflexivity]).
Qed.
Print Assumptions C96_arguments.
Example C96_arguments_ex : fst (load_template demo_env (L "tmpl") false 0 (L "web.page") [] [] (one "one")) = Ok (CTmpl (L "C:one"))
  /\ fst (load_template demo_env (L "tmpl") false 0 (L "web.page") (L "x") [] (one "one")) = Raise EMany
  /\ fst (load_template demo_env (L "tmpl") false 0 (L "page") [] [] (one "one")) = Raise ENoPackage.
Proof. repeat split; vm_compute; reflexivity. Qed.

(** C96: a template that could not be compiled once is never loaded again by this instance: whatever is written afterwards and
    whatever else it loads, every load is an exception. *)
Theorem C96_never_again : forall E i n s s' l, NoDup (keys (t_mods s)) -> v_import E n = None ->
  aget n (t_mods s) = None \/ (exists old, aget n (t_ct s i) = Some old) ->
  load E (L "tmpl") false i n s = (Raise ECompile, s') -> alone i l ->
  exists e, fst (load E (L "tmpl") false i n (steps E l s')) = Raise e.
Proof. exact never_again. Qed.
Print Assumptions C96_never_again.
Example C96_never_again_ex :
  fst (load demo_env (L "tmpl") false 0 (L "web.page") (one "!")) = Raise ECompile /\
  NoDup (keys (t_mods (one "!"))) /\ v_import demo_env (L "web.page") = None /\ aget (L "web.page") (t_mods (one "!")) = None /\
  alone 0 [Write (L "web.page") 5 (L "mended"); Load 0 (L "web.page")].
Proof.
  split; [vm_compute; reflexivity|]. split; [repeat constructor; cbn; tauto|]. split; [reflexivity|]. split; [reflexivity|].
  intros j n H. cbn in H. destruct H as [H|[H|[]]]; [discriminate H|injection H as -> _; reflexivity].
Qed.

(** C96, refuted: after an edit that can be compiled the template is loaded: first it is a KeyError, then an ImportError. *)
Theorem C96_mended_refuted : exists E s l t code, start E 3 (one "fine") /\ paced 3 l /\ s = steps E l (one "fine") /\
  file_of (L "web.page") (L "tmpl") s = Some (7%N, t) /\ v_compile E t = Some code /\
  fst (load E (L "tmpl") false 0 (L "web.page") s) = Raise EKey /\
  fst (load E (L "tmpl") false 0 (L "web.page") (snd (load E (L "tmpl") false 0 (L "web.page") s))) = Raise EImport.
Proof.
  exists demo_env, (steps demo_env [Load 0 (L "web.page"); Write (L "web.page") 5 (L "!"); Load 0 (L "web.page"); Write (L "web.page") 7 (L "mended")] (one "fine")),
    [Load 0 (L "web.page"); Write (L "web.page") 5 (L "!"); Load 0 (L "web.page"); Write (L "web.page") 7 (L "mended")], (L "mended"), (L "C:mended").
  split; [|split; [cbn; repeat split; lia|split; [reflexivity|repeat split; vm_compute; reflexivity]]].
  split; [repeat constructor; cbn; tauto|]. split; [reflexivity|]. intros n mt t H. unfold file_of in H. cbn in H.
  destruct (pair_eqb _ _); [|discriminate H]. injection H as <- <-. split; [lia|discriminate].
Qed.
Print Assumptions C96_mended_refuted.

(** C96, refuted: a template that cannot be compiled is an error every time: if another instance has loaded it before, the second
    attempt gives the old class. *)
Theorem C96_second_attempt_refuted : exists E s code, v_compile E (L "!") = None /\ file_of (L "web.page") (L "tmpl") s = Some (5%N, L "!") /\
  fst (load E (L "tmpl") false 1 (L "web.page") s) = Raise ECompile /\
  fst (load E (L "tmpl") false 1 (L "web.page") (snd (load E (L "tmpl") false 1 (L "web.page") s))) = Ok (CTmpl code).
Proof.
  exists demo_env, (steps demo_env [Load 0 (L "web.page"); Write (L "web.page") 5 (L "!")] (one "fine")), (L "C:fine").
  repeat split; vm_compute; reflexivity.
Qed.
Print Assumptions C96_second_attempt_refuted.

(** C96, refuted: without the pace: an edit that keeps the time is not seen. *)
Theorem C96_same_time_refuted : exists E s t code code', file_of (L "web.page") (L "tmpl") s = Some (3%N, t) /\ v_compile E t = Some code /\
  fst (load E (L "tmpl") false 0 (L "web.page") s) = Ok (CTmpl code') /\ code <> code'.
Proof.
  exists demo_env, (steps demo_env [Load 0 (L "web.page"); Write (L "web.page") 3 (L "two")] (one "one")), (L "two"), (L "C:two"), (L "C:one").
  split; [vm_compute; reflexivity|]. split; [reflexivity|]. split; [vm_compute; reflexivity|discriminate].
Qed.
Print Assumptions C96_same_time_refuted.

(** C96, refuted: a subclass can have templates with another extension: the time is that of its file, the text is that of the
    file with the extension tmpl. *)
Theorem C96_extension_refuted : exists E s t code code', file_of (L "web.page") (L "html") s = Some (3%N, t) /\ v_compile E t = Some code /\
  fst (load E (L "html") false 0 (L "web.page") s) = Ok (CTmpl code') /\ code <> code'.
Proof.
  exists demo_env, (mkTS [((L "web.page", L "html"), (3%N, L "new")); ((L "web.page", L "tmpl"), (1%N, L "other"))] [] (fun _ => [])), (L "new"), (L "C:new"), (L "C:other").
  split; [vm_compute; reflexivity|]. split; [reflexivity|]. split; [vm_compute; reflexivity|discriminate].
Qed.
Print Assumptions C96_extension_refuted.
