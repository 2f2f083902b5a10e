(** C79: imports and base classes. *)
From Verif Require Import Base PyStr Import_Model Import_Spec Import_Proofs.
Local Open Scope string_scope.
Local Open Scope list_scope.

(** The state at the start of a template (Cheetah/Compiler.py:1754-1796), without the fixed statements. *)
Definition i0 : istate := mkI [] start_names [] (L "Template").

(** ** C79a: the import directives of a template become statements of the module, in their order and as
    written, whatever text comes before them; the names they make known are the aliases, else the names
    and paths written. *)
Theorem C79_imports : forall ss st, (forall s, In s ss -> stmt_ok s) ->
  run_imports true (map stmt_text ss) st
  = Ok (mkI (i_stmts st ++ map stmt_text ss) (i_names st ++ flat_map stmt_names ss) (i_body st) (i_base st)).
Proof. exact run_imports_legacy. Qed.
Print Assumptions C79_imports.

Definition ex_stmts : list stmt :=
  [SImport [mkItem (L " ") (L "a.b") None []; mkItem (L "  ") (L "c") (Some (L " ", L " ", L "d")) (L " ")];
   SFrom (L " ") (L "importlib") (L "  ") [mkItem (L " ") (L "x") None (L " "); mkItem (L " ") (L "y") (Some (L " ", L "  ", L "z")) []];
   SFrom (L " ") (L "m") (L " ") [mkItem (L " ") (L "*") None []]].

Ltac all_in := let c := fresh in let H := fresh in
  intros c H; cbn in H; repeat (destruct H as [H|H]; [subst; vm_compute; repeat split; try reflexivity; discriminate|]); contradiction.

Example C79_imports_ex :
  (forall s, In s ex_stmts -> stmt_ok s)
  /\ map stmt_text ex_stmts
     = [L "import a.b,  c as d "; L "from importlib  import x , y as  z"; L "from m import *"]
  /\ flat_map stmt_names ex_stmts = [L "a.b"; L "d"; L "x"; L "z"].
Proof.
  split; [|split; vm_compute; reflexivity].
  intros s [<-|[<-|[<-|[]]]]; cbn [stmt_ok];
    unfold items_ok, item_ok, word, gap1, gap; cbn [In it_lead it_path it_alias it_trail];
    repeat match goal with
    | |- _ /\ _ => split
    | |- _ <> _ => discriminate
    | |- True => exact Logic.I
    | |- forall it, _ \/ _ -> _ => let x := fresh in let H := fresh in intros x H;
         repeat (destruct H as [H|H]; [subst x; cbn [it_lead it_path it_alias it_trail]|]); try contradiction
    | |- forall c, In c _ -> _ => all_in
    end.
Qed.

(** Text of an import that is outside the grammar above: the parentheses stay on the names, and a
    trailing comma is an [IndexError] of the compiler. *)
Theorem C79_parentheses_refuted : exists s,
  s = L "from m import (a, b)"
  /\ (match add_import true s i0 with Ok st => known (L "a") (i_names st) || known (L "b") (i_names st) | Raise _ => true end) = false
  /\ add_import true (L "import a, ") i0 = Raise IndexError.
Proof. eexists. split; [reflexivity|]. split; vm_compute; reflexivity. Qed.
Print Assumptions C79_parentheses_refuted.

(** A [#from] without the word [import] is not refused: [find] gives -1, so the text from the sixth character
    on is taken for the names; nothing there is an [IndexError]. *)
Theorem C79_no_import_refuted : exists st, add_import true (L "from os") i0 = Ok st /\ known (L "os") (i_names st) = true
  /\ add_import true (L "from") i0 = Raise IndexError.
Proof. eexists. split; [reflexivity|]. split; vm_compute; reflexivity. Qed.
Print Assumptions C79_no_import_refuted.

(** ** C79b: #extends with a list of classes.  When no path goes through a known module, the base classes
    are the last parts of the paths in their order; the statements added to the module are, for each path,
    [from MODULE import CLASS], and none for a plain name that is known already; the body of the method
    gets nothing. *)
Theorem C79_extends : forall bs st, bs <> [] -> (forall b, In b bs -> base_ok b) ->
  (forall b, In b bs -> ~ through (i_names st ++ map class_of (map base_path bs)) (base_path b)) ->
  bases_text bs <> L "object" -> ~ In (bases_text bs) (i_names st) ->
  exists st1, set_base true true (bases_text bs) st = Ok st1
    /\ i_base st1 = join (L ", ") (map class_of (map base_path bs))
    /\ i_stmts st1 = i_stmts st ++ map stmt_text (wanted (i_names st) (map base_path bs))
    /\ (forall n, In n (i_names st1) <-> In n (i_names st) \/ In n (map class_of (map base_path bs)))
    /\ i_body st1 = i_body st.
Proof. exact set_base_all. Qed.
Print Assumptions C79_extends.

Definition ex_bases : list base :=
  [([], [L "Site"], []); (L " ", [L "lib"; L "pages"; L "Page"], []); (L " ", [L "lib"; L "Menu"; L "Menu"], L " ");
   (L " ", [L "Template"], [])].

Example C79_extends_ex :
  bases_text ex_bases = L "Site, lib.pages.Page, lib.Menu.Menu , Template"
  /\ (forall b, In b ex_bases -> base_ok b)
  /\ (forall b, In b ex_bases -> ~ through (start_names ++ map class_of (map base_path ex_bases)) (base_path b))
  /\ map stmt_text (wanted start_names (map base_path ex_bases))
     = [L "from Site import Site"; L "from lib.pages.Page import Page"; L "from lib.Menu import Menu"]
  /\ match set_base true true (bases_text ex_bases) i0 with
     | Ok st => i_base st = L "Site, Page, Menu, Template" | Raise _ => False end.
Proof.
  split; [vm_compute; reflexivity|]. split; [|split; [|split; vm_compute; reflexivity]].
  - intros b [<-|[<-|[<-|[<-|[]]]]]; unfold base_ok, path_ok, part, gap, base_path; cbn [fst snd];
    repeat match goal with
    | |- _ /\ _ => split
    | |- _ <> _ => discriminate
    | |- forall x, In x (_ :: _) -> _ /\ (forall _, _) => let x := fresh in let H := fresh in intros x H; cbn [In] in H;
         repeat (destruct H as [H|H]; [subst x; split; [discriminate|]|]); try contradiction
    | |- forall c, In c _ -> _ => all_in
    end.
  - intros b Hb (q & r & E & Hq & Hr & Hin).
    assert (Hc : In (path_text q) [L "lib"]).
    { assert (EL := f_equal (@length _) E). rewrite app_length in EL. destruct q as [|x q]; [congruence|].
      destruct q as [|y q]; [|exfalso; destruct Hb as [<-|[<-|[<-|[<-|[]]]]]; cbn in EL; lia].
      destruct Hb as [<-|[<-|[<-|[<-|[]]]]]; cbn in EL, E; try lia; injection E as <- _; left; reflexivity. }
    destruct Hc as [Hc|[]]. rewrite <- Hc in Hin. vm_compute in Hin.
    repeat (destruct Hin as [Hin|Hin]; [discriminate Hin|]). exact Hin.
Qed.

(** ** C79c: so every base class written is a name that is known before, or bound by a statement added to
    the module. *)
Theorem C79_bound : forall ps ns p, (forall q, In q ps -> path_ok q) -> In p ps -> class_of p <> L "*" ->
  In (class_of p) ns \/ exists s, In s (wanted ns ps) /\ stmt_names s = [class_of p].
Proof. exact wanted_binds. Qed.
Print Assumptions C79_bound.

Example C79_bound_ex :
  In (class_of [L "Template"]) start_names
  /\ stmt_names (plain_from (L "lib.pages.Page") (L "Page")) = [class_of [L "lib"; L "pages"; L "Page"]].
Proof. split; [vm_compute; tauto|vm_compute; reflexivity]. Qed.

(** A single name that is known is the base class as it is, and nothing is imported. *)
Theorem C79_known : forall legacy auto n st, In n (i_names st) \/ n = L "object" \/ auto = false ->
  set_base legacy auto n st = Ok (mkI (i_stmts st) (i_names st) (i_body st) n).
Proof. exact set_base_known. Qed.
Print Assumptions C79_known.
Example C79_known_ex : In (L "Template") (i_names i0) /\ set_base true true (L "Template") i0 = Ok i0.
Proof. split; [vm_compute; tauto|vm_compute; reflexivity]. Qed.

(** Refuted in general: after [#import a] the class [a.b.C] becomes the base [b.C], and nothing binds [b].
    The leading module is taken off, not kept. *)
Theorem C79_through_refuted : exists st1 st2,
  add_import true (L "import a") i0 = Ok st1 /\ set_base true true (L "a.b.C") st1 = Ok st2
  /\ i_base st2 = L "b.C" /\ i_stmts st2 = [L "import a"] /\ known (L "b") (i_names st2) = false.
Proof. eexists. eexists. split; [reflexivity|]. split; [vm_compute; reflexivity|]. vm_compute. auto. Qed.
Print Assumptions C79_through_refuted.

(** Refuted: [#import mod] and [#extends mod.Base] does not use the imported module: the loop never asks
    for the whole module path, so [from mod.Base import Base] is added. *)
Theorem C79_module_refuted : exists st1 st2,
  add_import true (L "import mod") i0 = Ok st1 /\ set_base true true (L "mod.Base") st1 = Ok st2
  /\ i_base st2 = L "Base" /\ i_stmts st2 = [L "import mod"; L "from mod.Base import Base"].
Proof. eexists. eexists. split; [reflexivity|]. split; [vm_compute; reflexivity|]. vm_compute. auto. Qed.
Print Assumptions C79_module_refuted.

(** Refuted: the module's text is taken out wherever it occurs in the path, also inside a longer name. *)
Theorem C79_replace_refuted : exists st1 st2,
  add_import true (L "import a") i0 = Ok st1 /\ set_base true true (L "a.schema.C") st1 = Ok st2
  /\ i_base st2 = L "schemC".
Proof. eexists. eexists. split; [reflexivity|]. split; vm_compute; reflexivity. Qed.
Print Assumptions C79_replace_refuted.

(** Refuted: [object] is only known as the whole text; in a list it is imported from a module [object]. *)
Theorem C79_object_refuted : exists st,
  set_base true true (L "Mixin, object") i0 = Ok st
  /\ i_stmts st = [L "from Mixin import Mixin"; L "from object import object"].
Proof. eexists. split; vm_compute; reflexivity. Qed.
Print Assumptions C79_object_refuted.

(** Refuted without the legacy mode: names are never recorded, so the class imported by the template is
    imported again from a module of its own name; behind text this import lands in the method's body. *)
Theorem C79_strict_refuted : exists st1 st2 st3,
  add_import false (L "from m import Page") i0 = Ok st1 /\ set_base false true (L "Page") st1 = Ok st2
  /\ i_stmts st2 = [L "from m import Page"; L "from Page import Page"]
  /\ set_base false true (L "Page") (mkI [] start_names [L "text"] (L "Template")) = Ok st3
  /\ i_stmts st3 = [] /\ i_body st3 = [L "text"; L "from Page import Page"].
Proof.
  eexists. eexists. eexists. split; [reflexivity|]. split; [vm_compute; reflexivity|]. split; [vm_compute; reflexivity|].
  split; [vm_compute; reflexivity|]. vm_compute. auto.
Qed.
Print Assumptions C79_strict_refuted.
