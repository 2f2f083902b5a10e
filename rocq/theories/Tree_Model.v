(** Models of mkdirsWithPyInitFiles and the list helpers (Cheetah/Utils/Misc.py) and of the site
    hierarchy (Cheetah/Tools/SiteHierarchy.py). *)
From Verif Require Export PyStr.

(** ** Directories *)

(** A POSIX path as [os.path.split] sees it (Cheetah/Utils/Misc.py:59): everything up to the last
    slash, and the rest.  Trailing slashes of the head are removed unless it consists of slashes
    only. *)
Fixpoint split_last_slash (s : pystr) : option (pystr * pystr) :=
  match s with
  | [] => None
  | c :: r =>
      match split_last_slash r with
      | Some (a, b) => Some (c :: a, b)
      | None => if (c =? 47)%N then Some ([c], r) else None
      end
  end.
(** [head.rstrip('/')] (posixpath.split, called at Cheetah/Utils/Misc.py:59). *)
Fixpoint rstrip_slash (s : pystr) : pystr :=
  match s with
  | [] => []
  | c :: r => match rstrip_slash r with
              | [] => if (c =? 47)%N then [] else [c]
              | r' => c :: r'
              end
  end.
(** Goes with the definition above (Cheetah/Utils/Misc.py:59). *)
Definition path_split (p : pystr) : pystr * pystr :=
  match split_last_slash p with
  | None => ([], p)
  | Some (head, tail) =>
      (match rstrip_slash head with [] => head | h => h end, tail)
  end.

(** [os.path.join(path, name)] for a relative name (Cheetah/Utils/Misc.py:64). *)
Definition path_join (p name : pystr) : pystr :=
  match rev p with
  | [] => name
  | c :: _ => if (c =? 47)%N then p ++ name else p ++ 47%N :: name
  end.

(** What a path leads to: the names between the slashes, empty ones skipped; the flag says
    whether the path is absolute (file system calls at Cheetah/Utils/Misc.py:60-65).  Simplified:
    no symbolic links, and [.] and [..] are ordinary names. *)
Definition place : Type := (bool * list pystr).
(** Goes with the definition above (Cheetah/Utils/Misc.py:60-65). *)
Definition resolve (p : pystr) : place :=
  (match p with c :: _ => (c =? 47)%N | [] => false end,
   filter (fun s => match s with [] => false | _ => true end) (split_char 47 p)).

(** A file system: which places are directories or files (with contents).  The root and the
    current directory, i.e. the places without names, are always directories
    (Cheetah/Utils/Misc.py:60-65). *)
Inductive node := Dir | File (contents : pystr).
(** Goes with the definition above (Cheetah/Utils/Misc.py:60-65). *)
Definition fs := list (place * node).

(** Equality of places (file system lookup, Cheetah/Utils/Misc.py:60, 62). *)
Fixpoint names_eqb (a b : list pystr) : bool :=
  match a, b with
  | [], [] => true
  | x :: a', y :: b' => str_eqb x y && names_eqb a' b'
  | _, _ => false
  end.
(** Goes with the definition above (Cheetah/Utils/Misc.py:60, 62). *)
Definition place_eqb (a b : place) : bool :=
  Bool.eqb (fst a) (fst b) && names_eqb (snd a) (snd b).
(** Goes with the definition above (Cheetah/Utils/Misc.py:60, 62). *)
Fixpoint flook (f : fs) (x : place) : option node :=
  match f with
  | [] => None
  | (y, n) :: r => if place_eqb x y then Some n else flook r x
  end.
(** Goes with the definition above (Cheetah/Utils/Misc.py:60, 62). *)
Definition fget (f : fs) (x : place) : option node :=
  match snd x with [] => Some Dir | _ => flook f x end.

(** OSError of mkdir or open (Cheetah/Utils/Misc.py:63, 65); RecursionError never happens. *)
Inductive oserr := FileExists | NoSuchDir | NotADir.

(** The parent of a place (Cheetah/Utils/Misc.py:63, 65). *)
Definition parent (x : place) : place := (fst x, removelast (snd x)).

(** [os.path.exists(p)] (Cheetah/Utils/Misc.py:60, 62): something is there; the empty path does
    not exist. *)
Definition exists_path (f : fs) (p : pystr) : bool :=
  match p with
  | [] => false
  | _ => match fget f (resolve p) with Some _ => true | None => false end
  end.

(** [os.mkdir(p)] (Cheetah/Utils/Misc.py:63). *)
Definition mkdir (f : fs) (p : pystr) : res oserr fs :=
  match p with
  | [] => Raise NoSuchDir
  | _ =>
      match fget f (resolve p) with
      | Some _ => Raise FileExists
      | None =>
          match fget f (parent (resolve p)) with
          | Some Dir => Ok ((resolve p, Dir) :: f)
          | Some (File _) => Raise NotADir
          | None => Raise NoSuchDir
          end
      end
  end.

(** [open(p, 'w').close()] (Cheetah/Utils/Misc.py:65-66). *)
Definition touch (f : fs) (p : pystr) : res oserr fs :=
  match fget f (parent (resolve p)) with
  | Some Dir => match fget f (resolve p) with
                | Some Dir => Raise FileExists
                | _ => Ok ((resolve p, File []) :: f)
                end
  | Some (File _) => Raise NotADir
  | None => Raise NoSuchDir
  end.

(** [mkdirsWithPyInitFiles(path)] (Cheetah/Utils/Misc.py:53-66); each level shortens the path.
    [None]: the fuel ran out. *)
Fixpoint mkdirs (fuel : nat) (f : fs) (p : pystr) : option (res oserr fs) :=
  match fuel with
  | O => None
  | S n =>
      let '(dir, fil) := path_split p in
      let first :=
        match dir with
        | [] => Some (Ok f)
        | _ => if exists_path f dir then Some (Ok f) else mkdirs n f dir
        end in
      match first with
      | None => None
      | Some (Raise e) => Some (Raise e)
      | Some (Ok f1) =>
          if exists_path f1 p then Some (Ok f1)
          else match mkdir f1 p with
               | Raise e => Some (Raise e)
               | Ok f2 => Some (touch f2 (path_join p (L "__init__.py")))
               end
      end
  end.

(** ** List helpers *)

(** [list_.remove(elm)], a missing element being ignored (Cheetah/Utils/Misc.py:46-50). *)
Fixpoint remove_first (x : pystr) (l : list pystr) : list pystr :=
  match l with
  | [] => []
  | y :: r => if str_eqb x y then r else y :: remove_first x r
  end.
(** [removeFromList(list_, *elements)] (Cheetah/Utils/Misc.py:42-50). *)
Definition removeFromList (l elements : list pystr) : list pystr :=
  fold_left (fun l x => remove_first x l) elements l.

(** [checkKeywords]: the first key that is not legal, if any, for which TypeError is raised
    (Cheetah/Utils/Misc.py:26-39). *)
Fixpoint checkKeywords (dic legal : list pystr) : option pystr :=
  match dic with
  | [] => None
  | k :: r => if existsb (str_eqb k) legal then checkKeywords r legal else Some k
  end.

(** ** Site hierarchy *)

(** A page: URL and text.  An item of the hierarchy: a page (tuple), or a list whose first element
    is a page and whose other elements are items (Cheetah/Tools/SiteHierarchy.py:5-9, as the
    module's documentation prescribes). *)
Definition page : Type := (pystr * pystr).
(** Goes with the definition above (Cheetah/Tools/SiteHierarchy.py:5-9). *)
Inductive item := Leaf (p : page) | Node (p : page) (children : list item).

Section Site.
(** currentURL, prefix and the two class attributes (Cheetah/Tools/SiteHierarchy.py:40-50). *)
Variables (currentURL prefix menuCSS crumbCSS : pystr).

(** [_inContents] (Cheetah/Tools/SiteHierarchy.py:135-141). *)
Fixpoint inContents (x : item) : bool :=
  match x with
  | Leaf p => str_eqb currentURL (fst p)
  | Node p cs => str_eqb currentURL (fst p) || existsb inContents cs
  end.

(** The path collected by [crumbs] (Cheetah/Tools/SiteHierarchy.py:68-86): the first child that
    contains the current page is followed. *)
Fixpoint crumb_path (x : item) : list page :=
  match x with
  | Leaf p => [p]
  | Node p cs =>
      p :: (fix go (l : list item) : list page :=
              match l with
              | [] => []
              | c :: r => if inContents c then crumb_path c else go r
              end) cs
  end.

(** [crumbLink] (Cheetah/Tools/SiteHierarchy.py:104-109). *)
Definition crumbLink (p : page) : pystr :=
  if str_eqb (fst p) currentURL || str_eqb (prefix ++ fst p) currentURL
  then L "<B" ++ crumbCSS ++ L ">" ++ snd p ++ L "</B>"
  else L "<A HREF=""" ++ prefix ++ fst p ++ L """" ++ crumbCSS ++ L ">" ++ snd p ++ L "</A>".

(** [crumbs()] (Cheetah/Tools/SiteHierarchy.py:63-91). *)
Definition crumbs (root : item) : pystr :=
  match crumb_path root with
  | [_] => []
  | path => join (L "&nbsp;&gt;&nbsp;") (map crumbLink path)
  end.

(** [menuLink] (Cheetah/Tools/SiteHierarchy.py:95-102). *)
Definition menuLink (p : page) (indent : nat) : pystr :=
  concat (repeat (L "&nbsp;") (2 * indent)) ++
  (if str_eqb (fst p) currentURL || str_eqb (prefix ++ fst p) currentURL
   then L "<B" ++ menuCSS ++ L ">" ++ snd p ++ L "</B>"
   else L "<A HREF=""" ++ prefix ++ fst p ++ L """" ++ menuCSS ++ L ">" ++ snd p ++ L "</A>")
  ++ L " <BR>" ++ [10%N].

(** [_menubarRecurse] (Cheetah/Tools/SiteHierarchy.py:123-133): the rows written. *)
Fixpoint menu_rows (indent : nat) (x : item) : list (page * nat) :=
  match x with
  | Leaf p => [(p, indent)]
  | Node p cs =>
      (p, indent)
      :: (if inContents (Node p cs) then flat_map (menu_rows (S indent)) cs else [])
  end.

(** [menuList()] (Cheetah/Tools/SiteHierarchy.py:53-61). *)
Definition menuList (root : item) : pystr :=
  match root with
  | Leaf _ => []
  | Node _ cs => concat (map (fun r => menuLink (fst r) (snd r)) (flat_map (menu_rows 0) cs))
  end.
End Site.
