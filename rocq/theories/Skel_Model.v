(** Model of the base class of the skeleton page (Cheetah/Templates/_SkeletonPage.py:17-219), as Python 3 runs it.

    Simplified: the values in the dicts are strings ([str] of them is themselves); [lower] is that of ASCII; the warning that
    [stylesheetTags] also prints is left out; the clock ([currentYr], [currentDate]) is left out. *)
From Verif Require Import Base.

(** A dict, in the order in which its keys came (Cheetah/Templates/_SkeletonPage.py:35-57). *)
Definition sdict := list (pystr * pystr).

(** [name.lower()] (built-in; Cheetah/Templates/_SkeletonPage.py:201, 203). *)
Definition low (s : pystr) : pystr := map (fun c => if (65 <=? c)%N && (c <=? 90)%N then (c + 32)%N else c) s.

(** [d[k]] and [k in d] (built-in; Cheetah/Templates/_SkeletonPage.py:84, 91, 210-216). *)
Fixpoint lookup {A} (k : pystr) (d : list (pystr * A)) : option A :=
  match d with
  | [] => None
  | (j, v) :: r => if str_eqb j k then Some v else lookup k r
  end.

(** [formHTMLTag(tagName, attributes)] (Cheetah/Templates/_SkeletonPage.py:199-205). *)
Definition form_tag (name : pystr) (atts : sdict) : pystr :=
  (L "<" ++ low name) ++ concat (map (fun '(n, v) => L " " ++ low n ++ L "=""" ++ v ++ L """") atts) ++ L ">".

(** [bodyTag()] (Cheetah/Templates/_SkeletonPage.py:136-138). *)
Definition body_tag (atts : sdict) : pystr := form_tag (L "body") atts.

(** One line of [formatMetaTags] (Cheetah/Templates/_SkeletonPage.py:212-213, 217-218). *)
Definition meta_line (kind : pystr) (p : pystr * pystr) : pystr :=
  L "<meta " ++ kind ++ L "=""" ++ fst p ++ L """ content=""" ++ snd p ++ L """ />" ++ [10%N].

(** [formatMetaTags(metaTags)], for the dict of dicts (Cheetah/Templates/_SkeletonPage.py:207-219). *)
Definition meta_tags (d : list (pystr * sdict)) : pystr :=
  (match lookup (L "HTTP-EQUIV") d with Some e => concat (map (meta_line (L "http-equiv")) e) | None => [] end) ++
  (match lookup (L "NAME") d with Some e => concat (map (meta_line (L "name")) e) | None => [] end).

(** [s[:-2]] (built-in; Cheetah/Templates/_SkeletonPage.py:96). *)
Definition cut2 (s : pystr) : pystr := firstn (length s - 2) s.

(** The rule of one identifier (Cheetah/Templates/_SkeletonPage.py:91-99). *)
Definition css_rule (ident : pystr) (atts : sdict) : pystr :=
  let code := fold_left (fun acc '(k, v) => acc ++ k ++ L ": " ++ v ++ L "; ") atts [] in
  [10%N] ++ ident ++ L " {" ++ cut2 code ++ L "}".

(** The warning (Cheetah/Templates/_SkeletonPage.py:85-88). *)
Definition css_warning (ident : pystr) : pystr :=
  L "# the identifier " ++ ident ++ L "was in stylesheetsOrder, but not in stylesheets".

(** The loop over [_stylesheetsOrder] (Cheetah/Templates/_SkeletonPage.py:83-99). *)
Fixpoint css_loop (sheets : list (pystr * sdict)) (order : list pystr) (acc : pystr) : pystr :=
  match order with
  | [] => acc
  | i :: r =>
      match lookup i sheets with
      | None => css_loop sheets r (acc ++ css_warning i)
      | Some atts => css_loop sheets r (acc ++ css_rule i atts)
      end
  end.

(** The links to the libraries (Cheetah/Templates/_SkeletonPage.py:74-78). *)
Definition css_links (libs : sdict) : pystr :=
  fold_left (fun acc '(_, src) => acc ++ L "<link rel=""stylesheet"" type=""text/css"" href=""" ++ src ++ L """ />" ++ [10%N]) libs [].

(** [stylesheetTags()] (Cheetah/Templates/_SkeletonPage.py:66-103). *)
Definition stylesheet_tags (libs : sdict) (sheets : list (pystr * sdict)) (order : list pystr) : pystr :=
  match order with
  | [] => css_links libs
  | _ => css_loop sheets order (css_links libs ++ L "<style type=""text/css""><!--" ++ [10%N]) ++ [10%N] ++ L "//--></style>" ++ [10%N]
  end.

(** A value of [_javascriptTags] or [_javascriptLibs]: a string, or a list or tuple (Cheetah/Templates/_SkeletonPage.py:109-113, 118, 127). *)
Inductive details := DStr (s : pystr) | DSeq (l : list pystr).
(** [if not isinstance(details, (list, tuple)): details = ['', details]] (Cheetah/Templates/_SkeletonPage.py:118-119, 127-128). *)
Definition as_seq (d : details) : list pystr := match d with DStr s => [[]; s] | DSeq l => l end.

(** The exceptions: of an index, of an attribute that is not there (Cheetah/Templates/_SkeletonPage.py:122, 133, 148). *)
Inductive serr := IndexE | AttributeE (name : pystr).

(** [details[n]] (built-in; Cheetah/Templates/_SkeletonPage.py:122-133). *)
Definition item (n : nat) (l : list pystr) : res serr pystr :=
  match nth_error l n with Some s => Ok s | None => Raise IndexE end.

(** One script with code, as it is: the version stands in both places (Cheetah/Templates/_SkeletonPage.py:121-124). *)
Definition js_tag (d : details) : res serr pystr :=
  match item 0 (as_seq d) with
  | Raise e => Raise e
  | Ok v =>
      match item 0 (as_seq d) with
      | Raise e => Raise e
      | Ok c => Ok (L "<script language=""JavaScript" ++ v ++ L """ type=""text/javascript""><!--" ++ [10%N] ++ c ++ [10%N] ++ L "//--></script>" ++ [10%N])
      end
  end.
(** One script with a source (Cheetah/Templates/_SkeletonPage.py:130-133). *)
Definition js_lib (d : details) : res serr pystr :=
  match item 0 (as_seq d) with
  | Raise e => Raise e
  | Ok v =>
      match item 1 (as_seq d) with
      | Raise e => Raise e
      | Ok c => Ok (L "<script language=""JavaScript" ++ v ++ L """ type=""text/javascript"" src=""" ++ c ++ L """ />" ++ [10%N])
      end
  end.
(** The two loops (Cheetah/Templates/_SkeletonPage.py:117, 126). *)
Fixpoint js_loop (f : details -> res serr pystr) (d : list (pystr * details)) : res serr pystr :=
  match d with
  | [] => Ok []
  | (_, x) :: r =>
      match f x with
      | Raise e => Raise e
      | Ok s => match js_loop f r with Raise e => Raise e | Ok t => Ok (s ++ t) end
      end
  end.
(** [javascriptTags()] (Cheetah/Templates/_SkeletonPage.py:105-134). *)
Definition javascript_tags (tags libs : list (pystr * details)) : res serr pystr :=
  match js_loop js_tag tags with
  | Raise e => Raise e
  | Ok s => match js_loop js_lib libs with Raise e => Raise e | Ok t => Ok (s ++ t) end
  end.

(** What the outside has for [imgTag]: the attribute of a name on the page, as a function on strings; the size PIL finds
    (Cheetah/Templates/_SkeletonPage.py:148, 152-159). *)
Record world := mkW { w_attr : pystr -> option (pystr -> pystr); w_pil : pystr -> option (pystr * pystr); w_popen : pystr -> pystr }.
(** The names that [Template], [Servlet] and [_SkeletonPage] have and that are of interest here; [normalizePath] is in none of them
    (Cheetah/Servlet.py:9-47, Cheetah/Template.py:190-1980, Cheetah/Templates/_SkeletonPage.py:17-219). *)
Definition page_names : list pystr :=
  [L "serverSidePath"; L "respond"; L "sleep"; L "shutdown"; L "getVar"; L "hasVar"; L "varExists"; L "getFileContents"; L "i18n"; L "runAsMainProgram";
   L "metaTags"; L "stylesheetTags"; L "javascriptTags"; L "bodyTag"; L "imgTag"; L "currentYr"; L "currentDate"; L "spacer"; L "formHTMLTag"; L "formatMetaTags"].
(** [s.split(',')] into two (built-in; Cheetah/Templates/_SkeletonPage.py:163-164). *)
Fixpoint split_comma (s : pystr) : list pystr :=
  match s with
  | [] => [[]]
  | c :: r => if N.eqb c 44 then [] :: split_comma r else match split_comma r with a :: q => (c :: a) :: q | [] => [[c]] end
  end.
(** The size that is found: PIL, or the command (Cheetah/Templates/_SkeletonPage.py:151-171). *)
Definition identify (src : pystr) : pystr := L "identify -format ""%w,%h"" " ++ src.
(** Goes with the definition above (Cheetah/Templates/_SkeletonPage.py:151-171). *)
Definition measure (w : world) (src : pystr) : option (pystr * pystr) :=
  match w_pil w src with
  | Some p => Some p
  | None => match split_comma (w_popen w (identify src)) with [a; b] => Some (a, b) | _ => None end
  end.
(** [not width]: None and the empty string (built-in; Cheetah/Templates/_SkeletonPage.py:150, 156-158). *)
Definition given (o : option pystr) : bool := match o with Some (_ :: _) => true | _ => false end.
(** The text of [width] where it is given (built-in; Cheetah/Templates/_SkeletonPage.py:173-185). *)
Definition text_of (o : option pystr) : pystr := match o with Some s => s | None => [] end.
(** [imgTag(src, alt, width, height, border)] (Cheetah/Templates/_SkeletonPage.py:140-185). *)
Definition img_tag (w : world) (src alt : pystr) (width height : option pystr) (border : pystr) : res serr pystr :=
  match w_attr w (L "normalizePath") with
  | None => Raise (AttributeE (L "normalizePath"))
  | Some f =>
      let src := f src in
      let '(width, height) :=
        if given width && given height then (width, height)
        else match measure w src with
             | None => (width, height)
             | Some (cw, ch) => (if given width then width else Some cw, if given height then height else Some ch)
             end in
      let tail := L """ alt=""" ++ alt ++ L """ border=""" ++ border ++ L """ />" in
      Ok (if given width && given height then
            L "<img src=""" ++ src ++ L """ width=""" ++ text_of width ++ L """ height=""" ++ text_of height ++ tail
          else if given width then L "<img src=""" ++ src ++ L """ width=""" ++ text_of width ++ tail
          else if given height then L "<img src=""" ++ src ++ L """ height=""" ++ text_of height ++ tail
          else L "<img src=""" ++ src ++ tail)
  end.

(** [spacer(width, height)] (Cheetah/Templates/_SkeletonPage.py:195-197). *)
Definition spacer (width height : pystr) : pystr :=
  L "<img src=""spacer.gif"" width=""" ++ width ++ L """ height=""" ++ height ++ L """ alt="""" />".
