(** C80: the methods of the class. *)
From Verif Require Import Base PyStr Class_Model Class_Spec Class_Proofs.
Local Open Scope string_scope.
Local Open Scope list_scope.

(** A finished class, its methods as written. *)
Definition methods_of (st : cstate) : list method := map strip_id (c_fin st).

(** ** C80a: a page is compiled to a class with the constructor, then one method for each definition, block and
    error catcher (inner ones first) with the decorators written in front of it, its arguments and the text
    of its own level, then the main method with the text outside of definitions, under the name given last. *)
Theorem C80_layout : forall cls main p, no_clash main p ->
  exists st, compile_class cls main (calls p) = Ok st
  /\ methods_of st = init_of cls :: defs p ++ [(main_name main p, [], flat_map snd (impls p), own p)]
  /\ c_attrs st = fixed_attrs ++ attrs p
       ++ (if str_eqb (main_name main p) (L "respond") then [(L "__str__", L "def")] else [])
       ++ [(L "_mainCheetahMethod_for_" ++ cls, main_name main p)]
  /\ c_main st = main_name main p.
Proof. exact class_layout. Qed.
Print Assumptions C80_layout.

Definition ex_page : page :=
  PExt (L "writeBody")
  (PText (L "write(a)")
  (PDef [L "@staticmethod"; L "@cached"] (L "f") [L "x"; L "y"]
     (PText (L "write(x)") (PBlock [] (L "inner") [] (PText (L "write(i)") PEnd) (PImpl (L "page") [L "title"] PEnd)))
  (PBlock [] (L "menu") [] (PText (L "write(m)") PEnd)
  (PCatch (L "__errorCatcher1") [L "try:"]
  (PAttr (L "size") (L "3") (PText (L "write(z)") PEnd)))))).

Example C80_layout_ex :
  no_clash (L "respond") ex_page
  /\ defs ex_page
     = [(L "inner", [], [], [L "write(i)"]);
        (L "f", [L "@staticmethod"; L "@cached"], [L "x"; L "y"], [L "write(x)"; L "self.inner(trans=trans)"]);
        (L "menu", [], [], [L "write(m)"]); (L "__errorCatcher1", [], [], [L "try:"])]
  /\ main_name (L "respond") ex_page = L "page"
  /\ own ex_page = [L "write(a)"; L "self.menu(trans=trans)"; L "write(z)"].
Proof.
  split; [|split; [|split]]; try (vm_compute; reflexivity). right. split.
  - intros n Hn. vm_compute in Hn.
    repeat (destruct Hn as [Hn|Hn]; [subst n; split; [discriminate|vm_compute; intros Hx;
      repeat (destruct Hx as [Hx|Hx]; [discriminate Hx|]); exact Hx]|]). contradiction.
  - intros c Hc. cbn in Hc. repeat (destruct Hc as [Hc|Hc]; [subst c; reflexivity|]). contradiction.
Qed.

(** ** C80b: the name recorded for the class is the main method's, and it leads to the text outside of
    definitions, also if a definition has that name. *)
Theorem C80_main : forall cls main p st, no_clash main p -> compile_class cls main (calls p) = Ok st ->
  ~ In (main_name main p) (map fst (c_attrs st)) ->
  lookup (main_name main p) (class_binds true st) = Some (BMeth [] (flat_map snd (impls p)) (own p)).
Proof. exact class_main. Qed.
Print Assumptions C80_main.

Theorem C80_main_recorded : forall cls main p st, no_clash main p -> compile_class cls main (calls p) = Ok st ->
  lookup (L "_mainCheetahMethod_for_" ++ cls) (class_binds true st) = Some (BAttr (main_name main p)).
Proof. exact main_recorded. Qed.
Print Assumptions C80_main_recorded.

Definition respond_page : page :=
  PText (L "write(a)") (PDef [] (L "respond") [] (PText (L "write(b)") PEnd) PEnd).
Example C80_main_ex :
  no_clash (L "respond") respond_page
  /\ match compile_class (L "K") (L "respond") (calls respond_page) with
     | Ok st => ~ In (L "respond") (map fst (c_attrs st))
                /\ lookup (L "respond") (class_binds true st) = Some (BMeth [] [] [L "write(a)"])
                /\ lookup (L "_mainCheetahMethod_for_K") (class_binds true st) = Some (BAttr (L "respond"))
     | Raise _ => False
     end.
Proof.
  split; [left; reflexivity|]. vm_compute. split; [|split; reflexivity].
  intros H. repeat (destruct H as [H|H]; [discriminate H|]). exact H.
Qed.
Definition C80_main_recorded_ex := C80_main_ex.

(** ** C80c: with different names every definition, block and error catcher is found under its name, so that
    the call that stands for a block runs that block. *)
Theorem C80_found : forall cls main p st n ds args body, no_clash main p -> compile_class cls main (calls p) = Ok st ->
  NoDup (map name_of (init_of cls :: defs p) ++ main_name main p :: map fst (c_attrs st)) ->
  In (n, ds, args, body) (defs p) ->
  lookup n (class_binds true st) = Some (BMeth ds args body).
Proof. exact class_method. Qed.
Print Assumptions C80_found.

Fixpoint distinct (l : list pystr) : bool :=
  match l with [] => true | x :: r => negb (existsb (str_eqb x) r) && distinct r end.
Lemma distinct_nodup : forall l, distinct l = true -> NoDup l.
Proof.
  induction l as [|x l IH]; intros H; [constructor|]. cbn [distinct] in H. apply Bool.andb_true_iff in H as [H1 H2].
  constructor; [|apply IH; exact H2]. intros Hx. apply Bool.negb_true_iff in H1.
  assert (E : existsb (str_eqb x) l = true) by (apply existsb_exists; exists x; split; [exact Hx|apply seq_refl]). congruence.
Qed.

Example C80_found_ex :
  match compile_class (L "K") (L "respond") (calls ex_page) with
  | Ok st => NoDup (map name_of (init_of (L "K") :: defs ex_page) ++ main_name (L "respond") ex_page :: map fst (c_attrs st))
             /\ lookup (L "menu") (class_binds true st) = Some (BMeth [] [] [L "write(m)"])
  | Raise _ => False
  end.
Proof. vm_compute. split; [apply distinct_nodup; vm_compute|]; reflexivity. Qed.

(** ** C80d: whatever the calls, in any order, the main method is always in the index: no KeyError. *)
Theorem C80_no_key_error : forall cls main ops, compile_class cls main ops <> Raise KeyError.
Proof. exact never_key_error. Qed.
Print Assumptions C80_no_key_error.

Example C80_no_key_error_ex :
  exists st, compile_class (L "K") (L "respond")
    [OStart (L "respond") []; OEndDef; OExtends (L "writeBody"); OStart (L "writeBody") []; OImplements (L "a") [L "x"]; OEndDef] = Ok st.
Proof. eexists. vm_compute. reflexivity. Qed.

(** Refuted with a clash: after a definition called [respond], #implements renames this definition and not the
    main method; the class then gives out the definition's text, and [respond] is the text of the page. *)
Theorem C80_implements_refuted : exists p st,
  p = PText (L "write(page)") (PDef [] (L "respond") [] (PText (L "write(inner)") PEnd) (PImpl (L "body") [] PEnd))
  /\ compile_class (L "K") (L "respond") (calls p) = Ok st
  /\ lookup (L "_mainCheetahMethod_for_K") (class_binds true st) = Some (BAttr (L "body"))
  /\ lookup (L "body") (class_binds true st) = Some (BMeth [] [] [L "write(inner)"])
  /\ lookup (L "respond") (class_binds true st) = Some (BMeth [] [] [L "write(page)"]).
Proof. eexists. eexists. split; [reflexivity|]. split; [vm_compute; reflexivity|]. vm_compute. auto. Qed.
Print Assumptions C80_implements_refuted.

(** Refuted: #extends after #implements takes the name away again. *)
Theorem C80_order_refuted : exists p st,
  p = PImpl (L "respond2") [] (PExt (L "writeBody") (PText (L "write(page)") PEnd))
  /\ compile_class (L "K") (L "respond") (calls p) = Ok st
  /\ lookup (L "respond2") (class_binds true st) = None
  /\ lookup (L "writeBody") (class_binds true st) = Some (BMeth [] [] [L "write(page)"]).
Proof. eexists. eexists. split; [reflexivity|]. split; [vm_compute; reflexivity|]. vm_compute. auto. Qed.
Print Assumptions C80_order_refuted.

(** Refuted for equal names: of two blocks called the same both places run the second. *)
Theorem C80_twice_refuted : exists p st,
  p = PBlock [] (L "b") [] (PText (L "write(1)") PEnd) (PBlock [] (L "b") [] (PText (L "write(2)") PEnd) PEnd)
  /\ compile_class (L "K") (L "respond") (calls p) = Ok st
  /\ own p = [L "self.b(trans=trans)"; L "self.b(trans=trans)"]
  /\ lookup (L "b") (class_binds true st) = Some (BMeth [] [] [L "write(2)"]).
Proof. eexists. eexists. split; [reflexivity|]. split; [vm_compute; reflexivity|]. vm_compute. auto. Qed.
Print Assumptions C80_twice_refuted.

(** Refuted: a decorator in front of a #closure (which the parser accepts, Cheetah/Parser.py:2028-2032) is
    not taken by the closure, which is no method; the next method takes it, here the constructor. *)
Theorem C80_closure_refuted : exists st,
  compile_class (L "K") (L "respond") [ODeco (L "@cached"); OText (L "def c():")] = Ok st
  /\ lookup (L "respond") (class_binds true st) = Some (BMeth [] [] [L "def c():"])
  /\ match lookup (L "__init__") (class_binds true st) with Some (BMeth [d] _ _) => d = L "@cached" | _ => False end.
Proof. eexists. split; [vm_compute; reflexivity|]. vm_compute. auto. Qed.
Print Assumptions C80_closure_refuted.

(** Refuted: a definition called [__init__] replaces the constructor that prepares the template. *)
Theorem C80_init_refuted : exists p st,
  p = PDef [] (L "__init__") [] (PText (L "write(x)") PEnd) PEnd
  /\ compile_class (L "K") (L "respond") (calls p) = Ok st
  /\ lookup (L "__init__") (class_binds true st) = Some (BMeth [] [] [L "write(x)"]).
Proof. eexists. eexists. split; [reflexivity|]. split; vm_compute; reflexivity. Qed.
Print Assumptions C80_init_refuted.
