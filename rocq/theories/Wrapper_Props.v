(** Property theorems C25 (output collisions) and C26 (backups). *)
From Coq Require Import Permutation.
From Verif Require Import Wrapper_Model Wrapper_Spec Wrapper_Proofs.
Local Open Scope string_scope.
Local Open Scope list_scope.

(** C25: with --flat the run always gets as far as the collision check, for every list of sources;
    it goes on exactly if all destinations are different, and otherwise it is aborted before
    anything is written, with one warning per destination that has several sources, naming all
    of them. *)
Theorem C25_flat_checked : forall o srcs, w_flat o = true ->
  exists bs, map fst bs = srcs /\ Forall (fun b => bundle_dst o (fst b) = Some (Ok (snd b))) bs
  /\ ((NoDup (map snd bs) /\ run_wrapper o srcs = Some (Processed bs))
      \/ (~ NoDup (map snd bs) /\ exists ws, run_wrapper o srcs = Some (Aborted ws)
          /\ forall dst ss, In (dst, ss) ws <->
               2 <= length (sources_of dst bs) /\ ss = ssort (sources_of dst bs))).
Proof. exact flat_run. Qed.
Print Assumptions C25_flat_checked.
Example C25_flat_checked_ex :
  run_wrapper (mkWO true (L "in") (L ".tmpl") (L "out") (L ".py"))
              [L "in/b/x.tmpl"; L "in/y.tmpl"; L "in/a/x.tmpl"]
  = Some (Aborted [(L "out/x.py", [L "in/a/x.tmpl"; L "in/b/x.tmpl"])])
  /\ run_wrapper (mkWO true (L "in") (L ".tmpl") (L "out") (L ".py")) [L "in/b/x.tmpl"; L "in/y.tmpl"]
  = Some (Processed [(L "in/b/x.tmpl", L "out/x.py"); (L "in/y.tmpl", L "out/y.py")]).
Proof. vm_compute. split; reflexivity. Qed.

(** C25: without --flat, different sources that lie below idir, carry the input extension and have
    a relative base (if there is an output directory) get different destinations.
    Missing: other sources, for which there is no check, see below. *)
Theorem C25_plain_sources_partial : forall o srcs, w_flat o = false -> NoDup srcs ->
  (forall s, In s srcs -> plain_source o s) ->
  exists bs, run_wrapper o srcs = Some (Processed bs) /\ map fst bs = srcs /\ NoDup (map snd bs).
Proof. exact plain_run. Qed.
Print Assumptions C25_plain_sources_partial.
Example C25_plain_sources_partial_ex :
  let o := mkWO false (L "in") (L ".tmpl") (L "out") (L ".py") in
  plain_source o (L "in/a/x.tmpl") /\ plain_source o (L "in/x.tmpl")
  /\ run_wrapper o [L "in/a/x.tmpl"; L "in/x.tmpl"]
     = Some (Processed [(L "in/a/x.tmpl", L "out/a/x.py"); (L "in/x.tmpl", L "out/x.py")]).
Proof.
  cbv zeta. split; [|split].
  - exists (L "a/x"). split; [reflexivity|]. intros _. cbn. discriminate.
  - exists (L "x"). split; [reflexivity|]. intros _. cbn. discriminate.
  - vm_compute. reflexivity.
Qed.

(** C25 is false without --flat: a source with and one without the extension; a source inside and
    one outside idir; and two absolute sources in different directories with an output directory
    are written onto one file, and nothing is said. *)
Theorem C25_extension_refuted : exists o srcs bs d, NoDup srcs
  /\ run_wrapper o srcs = Some (Processed bs) /\ map snd bs = [d; d].
Proof.
  exists (mkWO false [] (L ".tmpl") [] (L ".py")), [L "page"; L "page.tmpl"]. eexists _, _.
  split; [|split; vm_compute; reflexivity].
  repeat (constructor; [intro F; repeat (destruct F as [F|F]; [discriminate F|]); exact F|]). constructor.
Qed.
Print Assumptions C25_extension_refuted.

Theorem C25_outside_idir_refuted : exists o srcs bs d, NoDup srcs
  /\ (forall s, In s srcs -> ends_with (w_iext o) s = true)
  /\ run_wrapper o srcs = Some (Processed bs) /\ map snd bs = [d; d].
Proof.
  exists (mkWO false (L "in") (L ".tmpl") [] (L ".py")), [L "in/page.tmpl"; L "page.tmpl"]. eexists _, _.
  split; [|split; [|split; vm_compute; reflexivity]].
  - repeat (constructor; [intro F; repeat (destruct F as [F|F]; [discriminate F|]); exact F|]). constructor.
  - intros s [<-|[<-|[]]]; reflexivity.
Qed.
Print Assumptions C25_outside_idir_refuted.

Theorem C25_absolute_sources_refuted : exists o srcs bs d, NoDup srcs
  /\ (forall s, In s srcs -> ends_with (w_iext o) s = true)
  /\ run_wrapper o srcs = Some (Processed bs) /\ map snd bs = [d; d].
Proof.
  exists (mkWO false [] (L ".tmpl") (L "/out") (L ".py")), [L "/src/a/page.tmpl"; L "/src/b/page.tmpl"].
  eexists _, _. split; [|split; [|split; vm_compute; reflexivity]].
  - repeat (constructor; [intro F; repeat (destruct F as [F|F]; [discriminate F|]); exact F|]). constructor.
  - intros s [<-|[<-|[]]]; reflexivity.
Qed.
Print Assumptions C25_absolute_sources_refuted.

(** C25 is false in the other direction: with --flat, one file named twice aborts the run. *)
Theorem C25_same_source_twice_refuted : exists o s ws, w_flat o = true
  /\ run_wrapper o [s; s] = Some (Aborted ws) /\ ws <> [].
Proof.
  exists (mkWO true [] (L ".tmpl") [] (L ".py")), (L "page.tmpl"). eexists.
  split; [reflexivity|]. split; [vm_compute; reflexivity|discriminate].
Qed.
Print Assumptions C25_same_source_twice_refuted.

(** C25: where the output goes.  Without --flat the place below idir is kept, with --flat only the name;
    the output directory is given without its trailing slash. *)
Theorem C25_destination : forall o d c rel, w_flat o = false -> w_odir o = d ++ [c] -> c <> 47%N ->
  (forall u, rel ++ w_oext o <> 47%N :: u) ->
  bundle_dst o ((match w_idir o with [] => [] | i => i ++ [47%N] end) ++ rel ++ w_iext o)
  = Some (Ok (w_odir o ++ L "/" ++ rel ++ w_oext o)).
Proof. exact destination. Qed.
Print Assumptions C25_destination.
Example C25_destination_ex :
  bundle_dst (mkWO false (L "in") (L ".tmpl") (L "out/x") (L ".py")) (L "in/a/b.tmpl") = Some (Ok (L "out/x/a/b.py")).
Proof. vm_compute. reflexivity. Qed.

Theorem C25_flat_destination : forall o d c dir n, w_flat o = true -> w_odir o = d ++ [c] -> c <> 47%N ->
  (dir = [] \/ exists a, dir = a ++ [47%N]) -> ~ In 47%N n -> n <> [] ->
  bundle_dst o ((match w_idir o with [] => [] | i => i ++ [47%N] end) ++ (dir ++ n) ++ w_iext o)
  = Some (Ok (w_odir o ++ L "/" ++ n ++ w_oext o)).
Proof. exact flat_destination. Qed.
Print Assumptions C25_flat_destination.
Example C25_flat_destination_ex :
  bundle_dst (mkWO true (L "in") (L ".tmpl") (L "out/x") (L ".py")) (L "in/a/c/b.tmpl") = Some (Ok (L "out/x/b.py")).
Proof. vm_compute. reflexivity. Qed.

(** C25: extensions always get exactly one dot in front. *)
Theorem C25_extension_dot : forall e, e <> [] -> exists r, fix_ext e = 46%N :: r /\ (e = r \/ e = 46%N :: r)
  /\ fix_ext (fix_ext e) = fix_ext e /\ (forall u, e = 46%N :: u -> r = u).
Proof. exact fix_ext_dot. Qed.
Print Assumptions C25_extension_dot.
Example C25_extension_dot_ex : fix_ext (L "tmpl") = L ".tmpl" /\ fix_ext (L ".tmpl") = L ".tmpl".
Proof. vm_compute. split; reflexivity. Qed.

(** C25: an absolute source below the output directory with a doubled slash is written outside of it. *)
Theorem C25_outside_odir_refuted : exists o s,
  w_odir o = L "/out" /\ bundle_dst o s = Some (Ok (L "/x.py")).
Proof. exists (mkWO false [] (L ".tmpl") (L "/out") (L ".py")), (L "/out//x.tmpl"). split; vm_compute; reflexivity. Qed.
Print Assumptions C25_outside_odir_refuted.

(** C25: beyond collisions, the search for the output directory in an absolute base can fail
    (IndexError) or, for an output directory that starts with two slashes, never end. *)
Theorem C25_output_path_refuted :
  (exists o s, run_wrapper o [s] = Some (Crashed WIndexError))
  /\ (exists o s base dbn odd, base = bundle_base o s /\ odd = w_odir o
        /\ forall fuel, odd_loop fuel base dbn odd = None).
Proof.
  split.
  - exists (mkWO false [] (L ".tmpl") (L "/out/page") (L ".py")), (L "/out/page.tmpl"). vm_compute. reflexivity.
  - exists (mkWO false [] (L ".tmpl") (L "//") (L ".py")), (L "/a.tmpl"), (L "/a"), (L "a"), (L "//").
    split; [reflexivity|]. split; [reflexivity|]. intro fuel. induction fuel as [|n IH]; [reflexivity|].
    exact IH.
Qed.
Print Assumptions C25_output_path_refuted.

(** C26: when compiling or filling raises, no file is touched. *)
Theorem C26_failed_compile_touches_nothing : forall {E} f dst nobackup to_stdout (e : E) bp op,
  bundle_ops f dst nobackup to_stdout (Raise e) bp op = Raise e.
Proof. reflexivity. Qed.
Print Assumptions C26_failed_compile_touches_nothing.
Example C26_failed_compile_touches_nothing_ex :
  bundle_ops [(L "a.py", L "old")] (L "a.py") false false (@Raise nat pystr 7) [L "old"] [] = Raise 7.
Proof. reflexivity. Qed.

(** C26: with backups on, at every crash point, however copying and writing are cut into pieces,
    the previous contents are in full in the output file or in the backup. *)
Theorem C26_backup_safe : forall {E} f dst to_stdout (compiled : res E pystr) old bp op ops k,
  aget dst f = Some old -> concat bp = old ->
  bundle_ops f dst false to_stdout compiled bp op = Ok ops ->
  aget dst (fapply_all f (firstn k ops)) = Some old
  \/ aget (bak_of dst) (fapply_all f (firstn k ops)) = Some old.
Proof. exact @backup_safe. Qed.
Print Assumptions C26_backup_safe.
Example C26_backup_safe_ex :
  let f := [(L "a.py", L "old text"); (L "a.py.bak", L "older")] in
  match bundle_ops f (L "a.py") false false (@Ok nat pystr (L "new")) [L "old "; L "text"] [L "n"; L "ew"] with
  | Ok ops => length ops = 6
      /\ fapply_all f (firstn 2 ops) = [(L "a.py", L "old text"); (L "a.py.bak", L "old ")]
      /\ fapply_all f (firstn 5 ops) = [(L "a.py", L "n"); (L "a.py.bak", L "old text")]
  | Raise _ => False
  end.
Proof. vm_compute. repeat split. Qed.

(** C26: after a complete run the output file holds the new text, the backup (if made) the old one,
    and no other file has changed. *)
Theorem C26_done : forall {E} f dst nobackup (compiled : res E pystr) bp op ops output,
  compiled = Ok output -> concat op = output ->
  bundle_ops f dst nobackup false compiled bp op = Ok ops ->
  aget dst (fapply_all f ops) = Some output
  /\ (forall old, aget dst f = Some old -> nobackup = false -> concat bp = old ->
        aget (bak_of dst) (fapply_all f ops) = Some old)
  /\ (forall p, p <> dst -> (p <> bak_of dst \/ nobackup = true \/ aget dst f = None) ->
        aget p (fapply_all f ops) = aget p f).
Proof. exact @bundle_done. Qed.
Print Assumptions C26_done.
Example C26_done_ex :
  let f := [(L "a.py", L "old"); (L "b.py", L "b")] in
  match bundle_ops f (L "a.py") false false (@Ok nat pystr (L "new")) [L "old"] [L "n"; L "ew"] with
  | Ok ops => fapply_all f ops = [(L "a.py", L "new"); (L "b.py", L "b"); (L "a.py.bak", L "old")]
  | Raise _ => False
  end.
Proof. vm_compute. reflexivity. Qed.

(** C26, why backups are needed: with --nobackup there is a crash point at which neither the old nor
    the new text is anywhere. *)
Theorem C26_nobackup_refuted : exists f dst old output op ops k,
  aget dst f = Some old /\ concat op = output
  /\ bundle_ops f dst true false (@Ok unit pystr output) [] op = Ok ops
  /\ forall p t, aget p (fapply_all f (firstn k ops)) = Some t -> t <> old /\ t <> output.
Proof.
  exists [(L "a.py", L "old")], (L "a.py"), (L "old"), (L "new"), [L "new"]. eexists. exists 1.
  split; [reflexivity|]. split; [reflexivity|]. split; [reflexivity|].
  intros p t H. change (aget p [(L "a.py", [])] = Some t) in H. cbn [aget] in H.
  match type of H with (if ?b then _ else _) = _ => destruct b end; [|discriminate H].
  injection H as <-. split; discriminate.
Qed.
Print Assumptions C26_nobackup_refuted.
