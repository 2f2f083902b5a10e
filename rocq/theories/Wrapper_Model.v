(** Model of the command line tool's choice of output files and of how it writes them
    (Cheetah/CheetahWrapper.py). *)
From Verif Require Export Tree_Model Names_Model Alist.

(** [os.path.join(a, b)] (Cheetah/CheetahWrapper.py:499, 514, 516). *)
Definition os_join (a b : pystr) : pystr :=
  match b with
  | c :: _ => if (c =? 47)%N then b else match a with [] => b | _ => path_join a b end
  | [] => match a with [] => b | _ => path_join a b end
  end.

(** Options after parseOpts (Cheetah/CheetahWrapper.py:159-166, 185, 241-249, 342-348). *)
Record wopts := mkWO { w_flat : bool; w_idir : pystr; w_iext : pystr; w_odir : pystr; w_oext : pystr }.

(** Cutting a trailing separator off idir and odir (Cheetah/CheetahWrapper.py:239-247). *)
Definition cleanup_dir (d : pystr) : pystr :=
  match rev d with c :: r => if (c =? 47)%N then rev r else d | [] => d end.

(** [_fixExts] for one extension (Cheetah/CheetahWrapper.py:345-348). *)
Definition fix_ext (e : pystr) : pystr :=
  match e with [] => [] | c :: _ => if (c =? 46)%N then e else 46%N :: e end.

(** [s.endswith(e)] (Cheetah/CheetahWrapper.py:495). *)
Definition ends_with (e s : pystr) : bool := starts_with (rev e) (rev s).

(** IndexError of [dbn[0]] (Cheetah/CheetahWrapper.py:508). *)
Inductive werr := WIndexError.

(** The subdirectory plus basename (Cheetah/CheetahWrapper.py:492-496). *)
Definition bundle_base (o : wopts) (src : pystr) : pystr :=
  let slash := w_idir o ++ [47%N] in
  let base := match w_idir o with
              | [] => src
              | _ => if starts_with slash src then skipn (length slash) src else src
              end in
  match w_iext o with
  | [] => base
  | e => if ends_with e base then firstn (length base - length e) base else base
  end.

(** The loop that looks for a part of odir at the start of an absolute base
    (Cheetah/CheetahWrapper.py:501-513); [None]: out of fuel. *)
Fixpoint odd_loop (fuel : nat) (base dbn odd : pystr) : option (res werr pystr) :=
  match fuel with
  | O => None
  | S n =>
      match odd with
      | [] => Some (Ok dbn)
      | _ =>
          if starts_with odd base then
            match skipn (length odd) base with
            | [] => Some (Raise WIndexError)
            | c :: r => Some (Ok (if (c =? 47)%N then r else c :: r))
            end
          else
            let odd' := fst (path_split odd) in
            if str_eqb odd' [47%N] then Some (Ok dbn) else odd_loop n base dbn odd'
      end
  end.

(** The output path of one source file (Cheetah/CheetahWrapper.py:497-516); outer [None]: the loop
    does not end. *)
Definition bundle_dst (o : wopts) (src : pystr) : option (res werr pystr) :=
  let base := bundle_base o src in
  let basename := snd (path_split base) in
  if w_flat o then Some (Ok (os_join (w_odir o) (basename ++ w_oext o)))
  else match w_odir o, base with
       | _ :: _, 47%N :: _ =>
           match odd_loop (S (length (w_odir o))) base basename (w_odir o) with
           | Some (Ok dbn) => Some (Ok (os_join (w_odir o) (dbn ++ w_oext o)))
           | x => x
           end
       | _, _ => Some (Ok (os_join (w_odir o) (base ++ w_oext o)))
       end.

(** [_getBundles] (Cheetah/CheetahWrapper.py:482-520): source and destination of each bundle. *)
Definition bundle : Type := (pystr * pystr).
(** Goes with the definition above (Cheetah/CheetahWrapper.py:482-520). *)
Fixpoint getBundles (o : wopts) (srcs : list pystr) : option (res werr (list bundle)) :=
  match srcs with
  | [] => Some (Ok [])
  | s :: r =>
      match bundle_dst o s with
      | None => None
      | Some (Raise e) => Some (Raise e)
      | Some (Ok d) =>
          match getBundles o r with
          | Some (Ok l) => Some (Ok ((s, d) :: l))
          | x => x
          end
      end
  end.

(** Sorting of strings (Cheetah/CheetahWrapper.py:433, 438). *)
Fixpoint sinsert (x : pystr) (l : list pystr) : list pystr :=
  match l with [] => [x] | y :: r => if str_ltb x y then x :: l else y :: sinsert x r end.
(** Goes with the definition above (Cheetah/CheetahWrapper.py:433, 438). *)
Fixpoint ssort (l : list pystr) : list pystr :=
  match l with [] => [] | x :: r => sinsert x (ssort r) end.

(** The dictionary of sources by destination (Cheetah/CheetahWrapper.py:427-432). *)
Fixpoint dstSources (bs : list bundle) (d : list (pystr * list pystr)) : list (pystr * list pystr) :=
  match bs with
  | [] => d
  | (src, dst) :: r =>
      match aget dst d with
      | Some l => dstSources r (aset dst (l ++ [src]) d)
      | None => dstSources r (aset dst [src] d)
      end
  end.

(** [_checkForCollisions]: the warnings, i.e. the destinations with more than one source, with the
    sources sorted (Cheetah/CheetahWrapper.py:421-444); the run is aborted if there is one. *)
Definition collisions (bs : list bundle) : list (pystr * list pystr) :=
  let d := dstSources bs [] in
  flat_map (fun dst => match aget dst d with
                       | Some (a :: b :: l) => [(dst, ssort (a :: b :: l))]
                       | _ => []
                       end) (ssort (keys d)).

(** The run as far as files are concerned (Cheetah/CheetahWrapper.py:372-419): aborted with
    warnings, an error, or the bundles that are processed. *)
Inductive wrun := Aborted (ws : list (pystr * list pystr)) | Crashed (e : werr) | Processed (bs : list bundle).
(** Goes with the definition above (Cheetah/CheetahWrapper.py:372-419). *)
Definition run_wrapper (o : wopts) (srcs : list pystr) : option wrun :=
  match getBundles o srcs with
  | None => None
  | Some (Raise e) => Some (Crashed e)
  | Some (Ok bs) =>
      if w_flat o then match collisions bs with [] => Some (Processed bs) | ws => Some (Aborted ws) end
      else Some (Processed bs)
  end.

(** ** Writing one output file *)

(** Effects on files (Cheetah/CheetahWrapper.py:636-660): opening for writing empties the file,
    writing adds a piece.  Simplified: directories are left out (the backup is only made when the
    file, hence its directory, exists), every effect is durable at once. *)
Inductive fop := Create (p : pystr) | Append (p : pystr) (piece : pystr).
(** Goes with the definition above (Cheetah/CheetahWrapper.py:636-660). *)
Definition files := list (pystr * pystr).
(** Goes with the definition above (Cheetah/CheetahWrapper.py:636-660). *)
Definition fapply (f : files) (o : fop) : files :=
  match o with
  | Create p => aset p [] f
  | Append p s => match aget p f with Some t => aset p (t ++ s) f | None => aset p s f end
  end.
(** Goes with the definition above (Cheetah/CheetahWrapper.py:636-660). *)
Definition fapply_all (f : files) (ops : list fop) : files := fold_left fapply ops f.

(** Copying or writing a text in pieces (shutil.copyfile and f.write, 637 and 657). (Cheetah/CheetahWrapper.py:637, 657) *)
Definition write_ops (p : pystr) (pieces : list pystr) : list fop := Create p :: map (Append p) pieces.

(** The name of the backup file (Cheetah/CheetahWrapper.py:103, 517). *)
Definition bak_of (dst : pystr) : pystr := dst ++ L ".bak".

(** [_compileOrFillBundle] (Cheetah/CheetahWrapper.py:602-660): the file effects in order.
    [compiled]: what compiling or filling gave (an oracle); [bak_pieces], [out_pieces]: how the two
    texts are cut when written. *)
Definition bundle_ops {E} (f : files) (dst : pystr) (nobackup to_stdout : bool)
  (compiled : res E pystr) (bak_pieces out_pieces : list pystr) : res E (list fop) :=
  match compiled with
  | Raise e => Raise e
  | Ok output =>
      let backup := match aget dst f with
                    | Some _ => if nobackup then [] else write_ops (bak_of dst) bak_pieces
                    | None => []
                    end in
      Ok (backup ++ (if to_stdout then [] else write_ops dst out_pieces))
  end.
