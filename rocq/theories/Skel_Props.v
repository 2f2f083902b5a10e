(** Property theorems C99 (the base class of the skeleton page, Cheetah/Templates/_SkeletonPage.py). *)
From Verif Require Import Base Skel_Model Skel_Spec Skel_Proofs.
Local Open Scope string_scope. Local Open Scope list_scope.

(** C99, a tag: a reader of tags gets the name and the attributes back, all of them, in order, the names in small letters. *)
Theorem C99_tag : forall n l, is_name n -> atts_ok l ->
  tags_of (form_tag n l) = Some [mkT (map small n) (map (fun p => (map small (fst p), snd p)) l)].
Proof. exact form_read. Qed.
Print Assumptions C99_tag.
Example C99_tag_ex : is_name (L "BODY") /\ atts_ok [(L "bgColor", L "white"); (L "onLoad", L "f('a', 1 > 2)")] /\
  form_tag (L "BODY") [(L "bgColor", L "white"); (L "onLoad", L "f('a', 1 > 2)")] = L "<body bgcolor=""white"" onload=""f('a', 1 > 2)"">" /\
  body_tag [] = L "<body>".
Proof.
  split; [apply plain_name; reflexivity|]. split; [|split; reflexivity].
  intros a v [E|[E|[]]]; inversion E; (split; [apply plain_name|apply plain_value]; reflexivity).
Qed.

(** ... without the condition on the values this is false: a quotation mark is not escaped, and a value becomes an attribute. *)
Theorem C99_tag_refuted : exists n l t, is_name n /\ (forall a v, In (a, v) l -> is_name a) /\
  tags_of (form_tag n l) = Some [t] /\ (length l < length (t_atts t))%nat.
Proof.
  exists (L "a"), [(L "href", L "x"" onclick=""y()")], (mkT (L "a") [(L "href", L "x"); (L "onclick", L "y()")]).
  split; [apply plain_name; reflexivity|]. split; [intros a v [E|[]]; inversion E; apply plain_name; reflexivity|]. split; [vm_compute; reflexivity|cbn; lia].
Qed.
Print Assumptions C99_tag_refuted.

(** C99, the meta tags: one for each entry, those for HTTP-EQUIV first, in the order of the dicts; other kinds have none. *)
Theorem C99_meta : forall d e n, NoDup (map fst d) -> entry (L "HTTP-EQUIV") d e -> entry (L "NAME") d n -> values_ok e -> values_ok n ->
  tags_of (meta_tags d) = Some (map (fun p => mkT (L "meta") [(L "http-equiv", fst p); (L "content", snd p)]) e ++
                                map (fun p => mkT (L "meta") [(L "name", fst p); (L "content", snd p)]) n).
Proof.
  intros d e n N He Hn Ve Vn. rewrite <- (part_is _ _ _ N He) in *. rewrite <- (part_is _ _ _ N Hn) in *. exact (meta_read d Ve Vn).
Qed.
Print Assumptions C99_meta.
Example C99_meta_ex :
  let e := [(L "keywords", L "Cheetah"); (L "Content-Type", L "text/html; charset=iso-8859-1")] in
  let d := [(L "PROPERTY", [(L "x", L "y")]); (L "HTTP-EQUIV", e)] in
  NoDup (map fst d) /\ entry (L "HTTP-EQUIV") d e /\ entry (L "NAME") d [] /\ values_ok e /\
  meta_tags d = L "<meta http-equiv=""keywords"" content=""Cheetah"" />" ++ [EOL] ++
                L "<meta http-equiv=""Content-Type"" content=""text/html; charset=iso-8859-1"" />" ++ [EOL].
Proof.
  cbv zeta. split; [repeat constructor; cbn; intros H; decompose [or] H; try discriminate; assumption|].
  split; [left; right; left; reflexivity|]. split; [right; split; [cbn; intro H; decompose [or] H; try discriminate; assumption|reflexivity]|].
  split; [intros a v [E|[E|[]]]; inversion E; split; apply plain_value; reflexivity|reflexivity].
Qed.

(** C99, the style sheets: a link for each library, then the rules, in the order of the list, with the declarations of the dict between
    braces and a semicolon between every two. *)
Theorem C99_styles : forall libs sheets order f, NoDup (map fst sheets) -> order <> [] -> (forall i, In i order -> In (i, f i) sheets) ->
  (forall s, In s (map snd libs) -> is_value s) ->
  exists links, tags_of links = Some (map (fun s => mkT (L "link") [(L "rel", L "stylesheet"); (L "type", L "text/css"); (L "href", s)]) (map snd libs)) /\
    stylesheet_tags libs sheets [] = links /\
    stylesheet_tags libs sheets order = links ++ (L "<style type=""text/css""><!--" ++ [EOL]) ++
      concat (map (fun i => [EOL] ++ rule i (f i)) order) ++ [EOL] ++ L "//--></style>" ++ [EOL].
Proof.
  intros libs sheets order f N K H V. exists (css_links libs). split; [apply links_read; exact V|]. split; [reflexivity|]. apply sheet_is; assumption.
Qed.
Print Assumptions C99_styles.
Example C99_styles_ex :
  let f i := if str_eqb i (L "a") then [(L "color", L "red"); (L "top", L "0")] else [] in
  let sheets := [(L "a", f (L "a")); (L "p", []); (L "q", [(L "x", L "y")])] in
  NoDup (map fst sheets) /\ (forall i, In i [L "p"; L "a"] -> In (i, f i) sheets) /\
  stylesheet_tags [(L "main", L "m.css")] sheets [L "p"; L "a"] =
    L "<link rel=""stylesheet"" type=""text/css"" href=""m.css"" />" ++ [EOL] ++ L "<style type=""text/css""><!--" ++ [EOL] ++
    [EOL] ++ L "p {}" ++ [EOL] ++ L "a {color: red; top: 0}" ++ [EOL] ++ L "//--></style>" ++ [EOL].
Proof.
  cbv zeta. split; [repeat constructor; cbn; intros H; decompose [or] H; try discriminate; assumption|].
  split; [intros i [<-|[<-|[]]]; cbn; auto|reflexivity].
Qed.

(** ... an identifier without a sheet is left out: false, the warning is written into the style sheet, and there it is not a comment. *)
Theorem C99_styles_refuted : exists libs sheets order, 
  stylesheet_tags libs sheets order <>
  stylesheet_tags libs sheets (filter (fun i => match lookup i sheets with Some _ => true | None => false end) order) /\
  exists a b, stylesheet_tags libs sheets order = a ++ L "# the identifier .ywas in stylesheetsOrder" ++ b.
Proof.
  exists [], [(L ".x", [])], [L ".x"; L ".y"]. split; [vm_compute; discriminate|].
  exists (L "<style type=""text/css""><!--" ++ [EOL; EOL] ++ L ".x {}"), (L ", but not in stylesheets" ++ [EOL] ++ L "//--></style>" ++ [EOL]).
  vm_compute. reflexivity.
Qed.
Print Assumptions C99_styles_refuted.

(** C99, the scripts with a source: one tag for each, with its version and its source, whether it is given as a string, a list or a tuple. *)
Theorem C99_scripts : forall libs l,
  Forall2 (fun p q => (snd p = DStr (snd q) /\ fst q = []) \/ exists r, snd p = DSeq (fst q :: snd q :: r)) libs l -> values_ok l ->
  exists s, javascript_tags [] libs = Ok s /\
    tags_of s = Some (map (fun q => mkT (L "script") [(L "language", L "JavaScript" ++ fst q); (L "type", L "text/javascript"); (L "src", snd q)]) l).
Proof. exact libs_read. Qed.
Print Assumptions C99_scripts.
Example C99_scripts_ex : let libs := [(L "a", DStr (L "a.js")); (L "b", DSeq [L "1.2"; L "b.js"])] in
  let l := [([], L "a.js"); (L "1.2", L "b.js")] in
  Forall2 (fun p q => (snd p = DStr (snd q) /\ fst q = []) \/ exists r, snd p = DSeq (fst q :: snd q :: r)) libs l /\ values_ok l /\
  javascript_tags [] libs = Ok (L "<script language=""JavaScript"" type=""text/javascript"" src=""a.js"" />" ++ [EOL] ++
     L "<script language=""JavaScript1.2"" type=""text/javascript"" src=""b.js"" />" ++ [EOL]).
Proof.
  cbv zeta. split; [constructor; [left; split; reflexivity|constructor; [right; eexists; reflexivity|constructor]]|].
  split; [intros a v [E|[E|[]]]; inversion E; split; apply plain_value; reflexivity|reflexivity].
Qed.

(** ... the page has the code of a script with code: false, it has the version in its place, and the code has no effect at all. *)
Theorem C99_code_refuted : exists code, code <> [] /\ forall key v libs other,
  javascript_tags [(key, DSeq [v; code])] libs = javascript_tags [(key, DSeq [v; other])] libs /\
  javascript_tags [(key, DStr code)] libs = javascript_tags [(key, DStr other)] libs.
Proof. exists (L "start();"). split; [discriminate|]. intros. split; reflexivity. Qed.
Print Assumptions C99_code_refuted.

(** ... a list without a source is an error for a library; it is none for a script with code, which would need the code. *)
Theorem C99_short_refuted : exists v, javascript_tags [] [(L "k", DSeq [v])] = Raise IndexE /\
  exists s, javascript_tags [(L "k", DSeq [v])] [] = Ok s.
Proof. exists (L "1.2"). split; [reflexivity|]. eexists. vm_compute. reflexivity. Qed.
Print Assumptions C99_short_refuted.

(** C99, images: of a page that has [normalizePath], with the path it gives and the size that is asked for. *)
Theorem C99_image : forall w f src alt wd ht border, w_attr w (L "normalizePath") = Some f -> wd <> [] -> ht <> [] ->
  is_value (f src) -> is_value alt -> is_value wd -> is_value ht -> is_value border ->
  exists s, img_tag w src alt (Some wd) (Some ht) border = Ok s /\
    tags_of s = Some [mkT (L "img") [(L "src", f src); (L "width", wd); (L "height", ht); (L "alt", alt); (L "border", border)]].
Proof. exact img_given. Qed.
Print Assumptions C99_image.
Example C99_image_ex : let w := mkW (fun _ => Some (fun s => L "/d/" ++ s)) (fun _ => None) (fun _ => L "30,40") in
  img_tag w (L "a.png") (L "A") (Some (L "10")) (Some (L "20")) (L "0") =
    Ok (L "<img src=""/d/a.png"" width=""10"" height=""20"" alt=""A"" border=""0"" />") /\
  img_tag w (L "a.png") (L "A") (Some (L "10")) None (L "0") =
    Ok (L "<img src=""/d/a.png"" width=""10"" height=""40"" alt=""A"" border=""0"" />").
Proof. split; reflexivity. Qed.

(** ... where a size is not asked for, it is the one that PIL finds or, without PIL, that identify prints; *)
Theorem C99_image_found : forall w f src alt wd ht border a b, w_attr w (L "normalizePath") = Some f ->
  w_pil w (f src) = Some (a, b) \/
  (w_pil w (f src) = None /\ w_popen w (L "identify -format ""%w,%h"" " ++ f src) = a ++ COMMA :: b /\ ~ In COMMA a /\ ~ In COMMA b) ->
  a <> [] -> b <> [] -> is_value (f src) -> is_value alt -> is_value (or_else wd a) -> is_value (or_else ht b) -> is_value border ->
  exists s, img_tag w src alt wd ht border = Ok s /\
    tags_of s = Some [mkT (L "img") [(L "src", f src); (L "width", or_else wd a); (L "height", or_else ht b); (L "alt", alt); (L "border", border)]].
Proof. exact img_found. Qed.
Print Assumptions C99_image_found.
Example C99_image_found_ex : let w := mkW (fun _ => Some (fun s => L "/d/" ++ s)) (fun _ => None) (fun _ => L "30,40") in
  w_popen w (L "identify -format ""%w,%h"" " ++ L "/d/a.png") = L "30" ++ COMMA :: L "40" /\ ~ In COMMA (L "30") /\ ~ In COMMA (L "40") /\
  img_tag w (L "a.png") (L "A") None (Some (L "5")) (L "0") = Ok (L "<img src=""/d/a.png"" width=""30"" height=""5"" alt=""A"" border=""0"" />").
Proof. cbv zeta. split; [reflexivity|]. split; [vm_compute; intro H; decompose [or] H; try discriminate; assumption|]. split; [vm_compute; intro H; decompose [or] H; try discriminate; assumption|reflexivity]. Qed.

(** ... and if neither does, the tag has the sizes that are asked for and no others. *)
Theorem C99_image_alone : forall w f src alt wd ht border, w_attr w (L "normalizePath") = Some f -> w_pil w (f src) = None ->
  ~ In COMMA (w_popen w (L "identify -format ""%w,%h"" " ++ f src)) ->
  is_value (f src) -> is_value alt -> (forall v, wd = Some v -> is_value v) -> (forall v, ht = Some v -> is_value v) -> is_value border ->
  exists s, img_tag w src alt wd ht border = Ok s /\
    tags_of s = Some [mkT (L "img") ([(L "src", f src)] ++ shown (L "width") wd ++ shown (L "height") ht ++ [(L "alt", alt); (L "border", border)])].
Proof. exact img_alone. Qed.
Print Assumptions C99_image_alone.
Example C99_image_alone_ex : let w := mkW (fun _ => Some (fun s => L "/d/" ++ s)) (fun _ => None) (fun _ => []) in
  ~ In COMMA (w_popen w (L "identify -format ""%w,%h"" " ++ L "/d/a.png")) /\
  img_tag w (L "a.png") (L "A") None (Some (L "5")) (L "0") = Ok (L "<img src=""/d/a.png"" height=""5"" alt=""A"" border=""0"" />").
Proof. cbv zeta. split; [intros []|reflexivity]. Qed.

(** ... a page with no more attributes than its base classes gives has no images: every call is an error, because none of them has
    [normalizePath]. *)
Theorem C99_image_error : forall w, (forall n, w_attr w n <> None -> In n page_names) ->
  forall src alt wd ht border, img_tag w src alt wd ht border = Raise (AttributeE (L "normalizePath")).
Proof.
  intros w H src alt wd ht border. unfold img_tag. destruct (w_attr w (L "normalizePath")) as [f|] eqn:E; [|reflexivity].
  exfalso. assert (K : In (L "normalizePath") page_names) by (apply H; rewrite E; discriminate). revert K. vm_compute. intro K. decompose [or] K; try discriminate; assumption.
Qed.
Print Assumptions C99_image_error.
Example C99_image_error_ex : let w := mkW (fun n => if existsb (str_eqb n) page_names then Some (fun s => s) else None) (fun _ => None) (fun _ => []) in
  (forall n, w_attr w n <> None -> In n page_names) /\ w_attr w (L "serverSidePath") <> None.
Proof.
  cbv zeta. split; [|vm_compute; discriminate]. intros n H. cbn [w_attr] in H. destruct (existsb (str_eqb n) page_names) eqn:E; [|congruence].
  apply existsb_exists in E as (m & Hm & E). apply str_eqb_eq in E. subst. exact Hm.
Qed.

(** ... so that this is false: [imgTag] of a page with all of these attributes gives a tag. *)
Theorem C99_image_refuted : exists w, (forall n, In n page_names -> w_attr w n <> None) /\
  exists src alt wd ht border s, is_value src /\ img_tag w src alt wd ht border = Raise s.
Proof.
  exists (mkW (fun n => if existsb (str_eqb n) page_names then Some (fun s => s) else None) (fun _ => None) (fun _ => [])).
  split.
  - intros n H. cbn [w_attr]. destruct (existsb (str_eqb n) page_names) eqn:E; [discriminate|].
    assert (existsb (str_eqb n) page_names = true) by (apply existsb_exists; exists n; split; [exact H|apply str_eqb_eq; reflexivity]). congruence.
  - exists (L "a.png"), [], (Some (L "1")), (Some (L "1")), (L "0"). eexists. split; [apply plain_value; reflexivity|vm_compute; reflexivity].
Qed.
Print Assumptions C99_image_refuted.

Theorem C99_spacer : forall w h, is_value w -> is_value h ->
  tags_of (spacer w h) = Some [mkT (L "img") [(L "src", L "spacer.gif"); (L "width", w); (L "height", h); (L "alt", [])]].
Proof. exact spacer_read. Qed.
Print Assumptions C99_spacer.
Example C99_spacer_ex : is_value (L "1") /\ spacer (L "1") (L "5") = L "<img src=""spacer.gif"" width=""1"" height=""5"" alt="""" />".
Proof. split; [apply plain_value|]; reflexivity. Qed.
