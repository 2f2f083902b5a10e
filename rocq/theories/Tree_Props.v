(** Property theorems C27 (directories with package files), C49 (site hierarchy) and
    C61 (list and keyword helpers). *)
From Verif Require Import Tree_Model Tree_Spec Tree_Proofs.
Local Open Scope string_scope.
Local Open Scope list_scope.

(** C27: the call ends without error whenever nothing on the way is a file and no component is
    called __init__.py; afterwards the path and all its parents are directories, exactly the
    directories that were missing have received an empty __init__.py, everything that existed is
    as it was, and nothing else has appeared. *)
Theorem C27_makes_package_dirs : forall f p, p <> [] -> tree_shaped f -> way_clear f (resolve p) ->
  ~ In init (snd (resolve p)) ->
  exists f', mkdirs (S (length p)) f p = Some (Ok f')
    /\ (forall x, on_the_way x (resolve p) -> fget f' x = Some Dir)
    /\ (forall x, on_the_way x (resolve p) -> fget f x = None ->
          fget f' (child x init) = Some (File []))
    /\ (forall x n, fget f x = Some n -> fget f' x = Some n)
    /\ (forall x n, fget f x = None -> fget f' x = Some n ->
          on_the_way x (resolve p)
          \/ exists y, x = child y init /\ on_the_way y (resolve p) /\ fget f y = None).
Proof. exact mkdirs_makes. Qed.
Print Assumptions C27_makes_package_dirs.

Example C27_makes_package_dirs_ex :
  let f := [((true, [L "srv"]), Dir)] in
  let p := L "/srv//app/pages/" in
  tree_shaped f /\ way_clear f (resolve p) /\ ~ In init (snd (resolve p))
  /\ fget f (true, [L "srv"; L "app"]) = None
  /\ match mkdirs (S (length p)) f p with
     | Some (Ok f') => fget f' (true, [L "srv"; L "app"; L "pages"; L "__init__.py"]) = Some (File [])
                       /\ fget f' (true, [L "srv"; L "__init__.py"]) = None
     | _ => False
     end.
Proof.
  cbv zeta. split; [|split; [|split; [|split]]].
  - intros x n H Hne. unfold fget in H. destruct x as [b l]. cbn [snd] in *.
    destruct l as [|a l]; [congruence|]. cbn [flook] in H.
    destruct (place_eqb_spec (b, a :: l) (true, [L "srv"])) as [E|_]; [|discriminate].
    injection E as -> -> ->. reflexivity.
  - intros x n _ H. unfold fget in H. destruct (snd x); [congruence|]. cbn [flook] in H.
    destruct (place_eqb x (true, [L "srv"])); congruence.
  - intro F. vm_compute in F. repeat (destruct F as [F|F]; [discriminate|]). exact F.
  - reflexivity.
  - vm_compute. split; reflexivity.
Qed.

(** C27, what does not hold: when a plain file is already at the path the call reports success
    and there is no directory. *)
Theorem C27_file_in_place_refuted : exists f p,
  mkdirs (S (length p)) f p = Some (Ok f) /\ exists c, fget f (resolve p) = Some (File c).
Proof.
  exists [((false, [L "site"]), File (L "x"))], (L "site"). vm_compute. split; [reflexivity|].
  eexists. reflexivity.
Qed.
Print Assumptions C27_file_in_place_refuted.

(** C27, what does not hold: after an interruption between the creation of the directory and that
    of its file (the state that os.mkdir leaves), calling again does not supply the file. *)
Theorem C27_interrupted_refuted : exists f p f1,
  mkdir f p = Ok f1
  /\ mkdirs (S (length p)) f1 p = Some (Ok f1)
  /\ fget f1 (resolve p) = Some Dir /\ fget f1 (child (resolve p) init) = None.
Proof. exists [], (L "site"), [((false, [L "site"]), Dir)]. vm_compute. repeat split. Qed.
Print Assumptions C27_interrupted_refuted.

(** C49: if the current URL is somewhere in the hierarchy, the crumbs are the links of the pages
    on a way from the root down to a page with that URL, or nothing when that page is the root. *)
Theorem C49_crumbs_lead_to_page : forall url prefix css root, occurs url root ->
  exists l y, rooted root l y /\ fst (label y) = url
    /\ crumbs url prefix css root
       = match l with
         | [_] => []
         | _ => join (L "&nbsp;&gt;&nbsp;") (map (crumbLink url prefix css) l)
         end.
Proof.
  intros url prefix css root H. destruct (crumb_path_spec url root H) as (y & Hr & Hy).
  exists (crumb_path url root), y. split; [exact Hr|]. split; [exact Hy|].
  unfold crumbs. destruct (crumb_path url root) as [|? [|]]; reflexivity.
Qed.
Print Assumptions C49_crumbs_lead_to_page.

Definition demo_site : item :=
  Node (L "/", L "home")
       [Leaf (L "/about", L "About");
        Node (L "/svc", L "Services") [Leaf (L "/svc/w", L "Widget"); Leaf (L "/svc/p", L "Prices")];
        Node (L "/x", L "X") [Leaf (L "/x/y", L "Y")]].

Example C49_crumbs_lead_to_page_ex :
  occurs (L "/svc/p") demo_site
  /\ crumb_path (L "/svc/p") demo_site
     = [(L "/", L "home"); (L "/svc", L "Services"); (L "/svc/p", L "Prices")]
  /\ crumbs (L "/svc/p") (L "/here") [] demo_site
     = L "<A HREF=""/here/"">home</A>&nbsp;&gt;&nbsp;<A HREF=""/here/svc"">Services</A>&nbsp;&gt;&nbsp;<B>Prices</B>".
Proof.
  split; [apply inContents_spec; vm_compute; reflexivity|].
  split; vm_compute; reflexivity.
Qed.

(** C49: a URL that is not in the hierarchy gives no crumbs. *)
Theorem C49_unknown_page_no_crumbs : forall url prefix css root, ~ occurs url root ->
  crumbs url prefix css root = [].
Proof.
  intros url prefix css root H. unfold crumbs. rewrite (crumb_path_absent url root H). reflexivity.
Qed.
Print Assumptions C49_unknown_page_no_crumbs.

Example C49_unknown_page_no_crumbs_ex : ~ occurs (L "/nowhere") demo_site.
Proof. rewrite <- inContents_spec. vm_compute. discriminate. Qed.

(** C49: the menu has one line for each page of which every ancestor below the root contains the
    current page, in the order of the hierarchy and indented by its depth, and no other line. *)
Theorem C49_menu_lists_open_pages : forall url prefix css p cs,
  exists open, (forall r, open r = true <-> forall a, In a (snd r) -> occurs url a)
  /\ menuList url prefix css (Node p cs)
     = concat (map (fun r => menuLink url prefix css (fst (fst r)) (snd (fst r)))
                   (filter open (flat_map (listing 0 []) cs))).
Proof.
  intros url prefix css p cs. exists (shown url). split; [exact (shown_spec url)|].
  unfold menuList. rewrite menu_listing, map_map. reflexivity.
Qed.
Print Assumptions C49_menu_lists_open_pages.

Example C49_menu_lists_open_pages_ex :
  flat_map (menu_rows (L "/svc") 0)
    [Leaf (L "/about", L "About");
     Node (L "/svc", L "Services") [Leaf (L "/svc/w", L "Widget")];
     Node (L "/x", L "X") [Leaf (L "/x/y", L "Y")]]
  = [((L "/about", L "About"), 0); ((L "/svc", L "Services"), 0); ((L "/svc/w", L "Widget"), 1);
     ((L "/x", L "X"), 0)].
Proof. vm_compute. reflexivity. Qed.

(** C49: the page that is current is written in bold, any other one as a link that carries the
    prefix. *)
Theorem C49_current_page_bold : forall url prefix css p,
  (fst p = url -> crumbLink url prefix css p = L "<B" ++ css ++ L ">" ++ snd p ++ L "</B>")
  /\ (fst p <> url -> prefix ++ fst p <> url ->
      crumbLink url prefix css p
      = L "<A HREF=""" ++ prefix ++ fst p ++ L """" ++ css ++ L ">" ++ snd p ++ L "</A>").
Proof.
  intros url prefix css p. unfold crumbLink. split.
  - intros ->. rewrite str_eqb_refl. reflexivity.
  - intros H1 H2. destruct (str_eqb_spec (fst p) url) as [E|_]; [congruence|].
    destruct (str_eqb_spec (prefix ++ fst p) url) as [E|_]; [congruence|]. reflexivity.
Qed.
Print Assumptions C49_current_page_bold.

Example C49_current_page_bold_ex :
  crumbLink (L "/a") (L "/here") (L " class=""c""") (L "/a", L "A") = L "<B class=""c"">A</B>"
  /\ crumbLink (L "/b") (L "/here") [] (L "/a", L "A") = L "<A HREF=""/here/a"">A</A>".
Proof. vm_compute. split; reflexivity. Qed.

(** C49, what does not hold: the page counts as current for its own link when the URL is given
    with the prefix, but crumbs and submenus are then missing. *)
Theorem C49_prefixed_url_refuted : exists url prefix root p l y,
  rooted root l y /\ label y = p /\ l <> [p]
  /\ crumbLink url prefix [] p = L "<B>" ++ snd p ++ L "</B>"
  /\ crumbs url prefix [] root = [].
Proof.
  exists (L "/here/about"), (L "/here"), demo_site, (L "/about", L "About"),
    [(L "/", L "home"); (L "/about", L "About")], (Leaf (L "/about", L "About")).
  split; [|split; [reflexivity|split; [discriminate|split; vm_compute; reflexivity]]].
  eapply rooted_child; [left; reflexivity|]. apply (rooted_here (Leaf (L "/about", L "About"))).
Qed.
Print Assumptions C49_prefixed_url_refuted.

(** C61: removeFromList takes away, for each element, as many occurrences as it is given, as far
    as there are any, and nothing else. *)
Theorem C61_remove_counts : forall els l y,
  count_occ (list_eq_dec N.eq_dec) (removeFromList l els) y
  = count_occ (list_eq_dec N.eq_dec) l y - count_occ (list_eq_dec N.eq_dec) els y.
Proof. exact removeFromList_count. Qed.
Print Assumptions C61_remove_counts.

Example C61_remove_counts_ex :
  removeFromList [L "a"; L "b"; L "a"; L "c"] [L "a"; L "z"] = [L "b"; L "a"; L "c"].
Proof. vm_compute. reflexivity. Qed.

(** C61: checkKeywords accepts exactly the calls whose keywords are all legal. *)
Theorem C61_keywords_accepted_iff_legal : forall dic legal,
  checkKeywords dic legal = None <-> (forall k, In k dic -> In k legal).
Proof. exact checkKeywords_none. Qed.
Print Assumptions C61_keywords_accepted_iff_legal.

Example C61_keywords_accepted_iff_legal_ex :
  checkKeywords [L "a"; L "b"] [L "b"; L "a"; L "c"] = None
  /\ checkKeywords [L "a"; L "zz"] [L "b"; L "a"; L "c"] = Some (L "zz").
Proof. vm_compute. split; reflexivity. Qed.
