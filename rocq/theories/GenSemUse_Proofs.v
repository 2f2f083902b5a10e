(** Consequences of GenSem_Proofs.v: methods, single regions, and that output only grows. *)
From Verif Require Import Base PyStr Alist StrConst_Model Gen_Model Gen_Spec Gen_Proofs GenLayout_Proofs GenSem_Model GenSem_Spec GenSem_Proofs.

Section Use.
Context {W V F E I : Type}.
Variable K : oracle W V F E I.
Variable G : gset.
Variable fuel : nat.
Notation mst := (mst W V F).
Notation ast := (ast W F).
Notation act := (act (W:=W) (F:=F) (E:=E)).
Notation exec := (exec K fuel).
Notation sem := (sem K G fuel).

(** ** Methods *)
Theorem method_returns main t x o a' r :
  sane G false t = true -> apart t -> ob_heap x <> [] -> ob_buf x = true \/ ob_tx x = false ->
  sem false t (mkA (ob_w x) [] false (ob_cur x) (ob_buf x) (ob_flts x)) = Some (o, a') ->
  answer true o a' = Some r ->
  exists c x',
    compile G main (events t Done)
      = Ok (map (fun p => (fst p, layout (g_lev G) (snd p))) (meths G false t ++ [((main, []), c)]))
    /\ call_method K fuel c None x = Some (r, x')
    /\ ob_w x' = a_w a' /\ ob_flts x' = a_flts a' /\ ob_tx x' = ob_tx x
    /\ ob_cur x' = ob_cur x /\ ob_buf x' = ob_buf x
    /\ (forall i, (i < length (ob_heap x))%nat -> getvalue i (ob_heap x') = getvalue i (ob_heap x)).
Proof.
  intros Hs Ha Hh Hd H Hr. exists (prog G false 0 [] t CNil).
  set (s := mkMs (V:=V) (ob_w x) (ob_heap x ++ [[]]) (length (ob_heap x)) (length (ob_heap x))
                  (fun _ _ => None) (ob_cur x) (ob_cur x) (ob_buf x) (ob_flts x) None [] None).
  assert (Es : setup None x = (s, true)).
  { unfold setup, s. destruct Hd as [Hd|Hd]; rewrite Hd; [reflexivity|]. rewrite andb_false_r. reflexivity. }
  assert (Hl : length (ob_heap x) <> 0%nat) by (destruct (ob_heap x); [contradiction Hh; reflexivity|discriminate]).
  assert (Hv : view s = mkA (ob_w x) [] false (ob_cur x) (ob_buf x) (ob_flts x)).
  { unfold view, s. simpl. rewrite getvalue_new. f_equal. apply Nat.eqb_neq. exact Hl. }
  assert (Hp : proper s) by (unfold proper, s; simpl; rewrite app_length; simpl; repeat split; lia).
  rewrite <- Hv in H.
  destruct (run_all K G fuel false 0 t s o a' Ha Hp H) as (s' & X & V' & P' & R' & O').
  destruct (method_ok K fuel (prog G false 0 [] t CNil) x None o s true a' r Es) as (x' & X1 & X2 & X3 & X4 & X5 & X6 & X7 & X8).
  { exists s'. split; [exact X|]. split; [exact V'|]. split; [apply R'|]. split; [exact O'|exact R']. }
  { exact Hr. }
  exists x'. split; [exact (compile_layout G main t Hs)|]. split; [exact X1|]. split; [exact X2|]. split; [exact X3|].
  split; [exact X4|]. split; [exact X5|]. split; [exact X6|].
  intros i Hi. rewrite X8; [apply getvalue_old; exact Hi| |]; unfold s; simpl; rewrite ?app_length; lia.
Qed.

Theorem method_writes main t x arg i o a' r :
  sane G false t = true -> apart t -> (i < length (ob_heap x))%nat ->
  arg = Some i \/ (arg = None /\ i = 0%nat /\ ob_buf x = false /\ ob_tx x = true) ->
  sem false t (mkA (ob_w x) (getvalue i (ob_heap x)) (Nat.eqb i 0) (ob_cur x) (ob_buf x) (ob_flts x))
    = Some (o, a') ->
  answer false o a' = Some r ->
  exists c x',
    compile G main (events t Done)
      = Ok (map (fun p => (fst p, layout (g_lev G) (snd p))) (meths G false t ++ [((main, []), c)]))
    /\ call_method K fuel c arg x = Some (r, x')
    /\ ob_w x' = a_w a' /\ ob_flts x' = a_flts a' /\ ob_tx x' = ob_tx x
    /\ ob_cur x' = ob_cur x /\ ob_buf x' = ob_buf x
    /\ getvalue i (ob_heap x') = a_out a'
    /\ (forall j, (j < length (ob_heap x))%nat -> j <> i -> getvalue j (ob_heap x') = getvalue j (ob_heap x)).
Proof.
  intros Hs Ha Hi Hd H Hr. exists (prog G false 0 [] t CNil).
  set (s := mkMs (V:=V) (ob_w x) (ob_heap x) i i (fun _ _ => None) (ob_cur x) (ob_cur x) (ob_buf x)
                    (ob_flts x) None [] None).
  assert (Es : setup arg x = (s, false)).
  { unfold setup, s. destruct Hd as [->|(-> & -> & -> & ->)]; reflexivity. }
  assert (Hp : proper s) by (unfold proper, s; simpl; repeat split; lia).
  change (sem false t (view s) = Some (o, a')) in H.
  destruct (run_all K G fuel false 0 t s o a' Ha Hp H) as (s' & X & V' & P' & R' & O').
  destruct (method_ok K fuel (prog G false 0 [] t CNil) x arg o s false a' r Es) as (x' & X1 & X2 & X3 & X4 & X5 & X6 & X7 & X8).
  { exists s'. split; [exact X|]. split; [exact V'|]. split; [apply R'|]. split; [exact O'|exact R']. }
  { exact Hr. }
  exists x'. split; [exact (compile_layout G main t Hs)|]. split; [exact X1|]. split; [exact X2|]. split; [exact X3|].
  split; [exact X4|]. split; [exact X5|]. split; [exact X6|]. split; [exact X7|exact X8].
Qed.

(** ** Single constructs *)
Lemma go_quiet {A} (x : act A) (a : ast) w r : quiet x (a_buf a) (a_filt a) (a_w a) w r ->
  go x a = Some (a_set_w w a, Ok r).
Proof. unfold quiet, go. intros ->. reflexivity. Qed.
Lemma ask_quiet {A} (x : act A) (a : ast) w r k : quiet x (a_buf a) (a_filt a) (a_w a) w r ->
  ask x a k = k r (a_set_w w a).
Proof. intros H. unfold ask. rewrite (go_quiet _ _ _ _ H). reflexivity. Qed.

Lemma show_quiet (x : act V) args (a : ast) w1 v w2 t :
  g_useFilters G = true -> (g_alwaysNone G = true -> o_none K v = false) ->
  quiet x (a_buf a) (a_filt a) (a_w a) w1 v ->
  quiet (o_filter K (a_filt a) v args) (a_buf a) (a_filt a) w1 w2 t ->
  show K G x args a = Some (ONormal, emit t (a_set_w w2 a)).
Proof.
  intros Hu Hn H1 H2. unfold show. rewrite (ask_quiet _ _ _ _ _ H1), Hu.
  replace (g_alwaysNone G && o_none K v) with false.
  - rewrite (ask_quiet (o_filter K _ v args) (a_set_w w1 a) w2 t _ H2). reflexivity.
  - destruct (g_alwaysNone G); [rewrite Hn; reflexivity|reflexivity].
Qed.

(** The view after something has been written. *)
Lemma run_written d n t s a' w text : apart t -> proper s -> sem d t (view s) = Some (ONormal, a') ->
  a_w a' = w -> a_out a' = getvalue (ms_trans s) (ms_heap s) ++ text ->
  exists s', exec MNo (prog G d n [] t CNil) s = Some (ONormal, s')
  /\ ms_w s' = w /\ getvalue (ms_trans s) (ms_heap s') = getvalue (ms_trans s) (ms_heap s) ++ text
  /\ restored s s' /\ others_same s s'.
Proof.
  intros Ha Hp H Hw Ho. destruct (run_all K G fuel d n t s ONormal a' Ha Hp H) as (s' & X & V' & P' & R' & O').
  exists s'. split; [exact X|]. subst a'. split; [exact Hw|]. split; [|split; [exact R'|exact O']].
  rewrite <- Ho. unfold view. simpl. destruct R' as (-> & _). reflexivity.
Qed.

Theorem place_run d n e fa raw lc s v t w1 w2 :
  proper s -> g_useFilters G = true -> (g_alwaysNone G = true -> o_none K v = false) ->
  quiet (o_eval K e) (ms_buf s) (ms_filt s) (ms_w s) w1 v ->
  quiet (o_filter K (ms_filt s) v (all_args G fa raw)) (ms_buf s) (ms_filt s) w1 w2 t ->
  exists s', exec MNo (prog G d n [] (TPlace e fa raw lc false TNil) CNil) s = Some (ONormal, s')
  /\ ms_w s' = w2 /\ getvalue (ms_trans s) (ms_heap s') = getvalue (ms_trans s) (ms_heap s) ++ t
  /\ restored s s' /\ others_same s s'.
Proof.
  intros Hp Hu Hn H1 H2. apply (run_written d n _ s (emit t (a_set_w w2 (view s)))); auto.
  - exact Logic.I.
  - rewrite sem_eq. cbv beta match zeta.
    rewrite (show_quiet (o_eval K e) (all_args G fa raw) (view s) w1 v w2 t Hu Hn H1 H2). reflexivity.
Qed.

Theorem capture_run d n sh v id lc b s ab w :
  proper s -> apart b -> ~ In id (ids b) ->
  sem d b (inner true (view s)) = Some (ONormal, ab) ->
  quiet (o_assign K v (a_out ab)) (ms_buf s) (ms_filt s) (a_w ab) w tt ->
  exists s', exec MNo (prog G d n [] (TReg sh (RCapture v) id lc b TNil) CNil) s = Some (ONormal, s')
  /\ ms_w s' = w /\ all_same s s' /\ restored s s'.
Proof.
  intros Hp Ha Hi H1 H2.
  destruct (run_written d n (TReg sh (RCapture v) id lc b TNil) s (a_set_w w (back (view s) ab)) w []) as (s' & X & A1 & A2 & A3 & A4).
  - repeat split; assumption.
  - exact Hp.
  - rewrite sem_eq. cbv beta match zeta. rewrite H1. unfold text_of_body.
    rewrite (ask_quiet (o_assign K v (a_out ab)) (back (view s) ab) w tt _ H2). reflexivity.
  - reflexivity.
  - symmetry. apply app_nil_r.
  - exists s'. split; [exact X|]. split; [exact A1|]. split; [|exact A3]. split; [apply A4|].
    intros i Hl. destruct (Nat.eq_dec i (ms_trans s)) as [->|Hn]; [rewrite A2; apply app_nil_r|apply A4; assumption].
Qed.

Lemma filter_run d n sh f klass id lc b s y :
  proper s -> apart b -> ~ In id (ids b) ->
  sem d (TReg sh (RFilter f klass) id lc b TNil) (view s) = Some (ONormal, a_set_filt (ms_filt s) y) ->
  exists s', exec MNo (prog G d n [] (TReg sh (RFilter f klass) id lc b TNil) CNil) s = Some (ONormal, s')
  /\ view s' = a_set_filt (ms_filt s) y /\ restored s s' /\ others_same s s'.
Proof.
  intros Hp Ha Hi H.
  destruct (run_all K G fuel d n (TReg sh (RFilter f klass) id lc b TNil) s _ _ (conj Hi (conj Ha Logic.I)) Hp H) as (s' & X & V' & P' & R' & O').
  exists s'. auto.
Qed.

Theorem filter_klass_run d n sh f id lc b s x w y :
  proper s -> apart b -> ~ In id (ids b) ->
  quiet (o_klass K f) (ms_buf s) (ms_filt s) (ms_w s) w x ->
  sem d b (a_set_filt x (a_set_w w (view s))) = Some (ONormal, y) ->
  exists s', exec MNo (prog G d n [] (TReg sh (RFilter f true) id lc b TNil) CNil) s = Some (ONormal, s')
  /\ view s' = a_set_filt (ms_filt s) y /\ restored s s' /\ others_same s s'.
Proof.
  intros Hp Ha Hi H1 H2. apply filter_run; auto. rewrite sem_eq. cbv beta match zeta.
  rewrite (ask_quiet (o_klass K f) (view s) w x _ H1), H2. reflexivity.
Qed.
Lemma not_none f : lower f <> L "none" -> str_eqb (lower f) (L "none") = false.
Proof. intros H. destruct (str_eqb_spec (lower f) (L "none")); [contradiction|reflexivity]. Qed.
Theorem filter_known_run d n sh f id lc b s x y :
  proper s -> apart b -> ~ In id (ids b) -> lower f <> L "none" -> aget f (ms_flts s) = Some x ->
  sem d b (a_set_filt x (view s)) = Some (ONormal, y) ->
  exists s', exec MNo (prog G d n [] (TReg sh (RFilter f false) id lc b TNil) CNil) s = Some (ONormal, s')
  /\ view s' = a_set_filt (ms_filt s) y /\ restored s s' /\ others_same s s'.
Proof.
  intros Hp Ha Hi Hf H1 H2. apply filter_run; auto. rewrite sem_eq. cbv beta match zeta. rewrite (not_none f Hf).
  unfold named. change (a_flts (view s)) with (ms_flts s). rewrite H1, H2. reflexivity.
Qed.
Theorem filter_new_run d n sh f id lc b s x w y :
  proper s -> apart b -> ~ In id (ids b) -> lower f <> L "none" -> aget f (ms_flts s) = None ->
  quiet (o_lib K f) (ms_buf s) (ms_filt s) (ms_w s) w x ->
  sem d b (a_set_filt x (a_set_flts (aset f x (ms_flts s)) (a_set_w w (view s)))) = Some (ONormal, y) ->
  exists s', exec MNo (prog G d n [] (TReg sh (RFilter f false) id lc b TNil) CNil) s = Some (ONormal, s')
  /\ view s' = a_set_filt (ms_filt s) y /\ restored s s' /\ others_same s s'.
Proof.
  intros Hp Ha Hi Hf H1 H2 H3. apply filter_run; auto. rewrite sem_eq. cbv beta match zeta. rewrite (not_none f Hf).
  unfold named. change (a_flts (view s)) with (ms_flts s). rewrite H1.
  rewrite (ask_quiet (o_lib K f) (view s) w x _ H2). change (a_flts (a_set_w w (view s))) with (ms_flts s).
  rewrite H3. reflexivity.
Qed.

Theorem call_run d n sh fn args id lc b s ab v w1 t w2 :
  proper s -> apart b -> ~ In id (ids b) ->
  g_useFilters G = true -> (g_alwaysNone G = true -> o_none K v = false) ->
  sem d b (inner true (view s)) = Some (ONormal, ab) ->
  quiet (o_call K fn args (a_out ab)) (ms_buf s) (ms_filt s) (a_w ab) w1 v ->
  quiet (o_filter K (ms_filt s) v []) (ms_buf s) (ms_filt s) w1 w2 t ->
  exists s', exec MNo (prog G d n [] (TReg sh (RCall fn args) id lc b TNil) CNil) s = Some (ONormal, s')
  /\ ms_w s' = w2 /\ getvalue (ms_trans s) (ms_heap s') = getvalue (ms_trans s) (ms_heap s) ++ t
  /\ restored s s' /\ others_same s s'.
Proof.
  intros Hp Ha Hi Hu Hn H1 H2 H3. apply (run_written d n _ s (emit t (a_set_w w2 (back (view s) ab)))); auto.
  - repeat split; assumption.
  - rewrite sem_eq. cbv beta match zeta. rewrite H1. unfold text_of_body.
    rewrite (show_quiet (o_call K fn args (a_out ab)) [] (back (view s) ab) w1 v w2 t Hu Hn H2 H3). reflexivity.
Qed.

Lemma sem_p_texts d ps a l z : parts_text K G fuel d ps a l z -> forall kws k,
  sem_p K G fuel d ps kws a k = k (fold_left (fun kws p => aset (fst p) (snd p) kws) l kws) z.
Proof.
  induction 1 as [a|n b r a y l z Hs Hp IH]; intros kws k; [reflexivity|].
  change (sem_p K G fuel d (PCons n b r) kws a k)
    with (text_of_body (sem d b a) (fun t y => sem_p K G fuel d r (aset n t kws) (inner true y) k)).
  rewrite Hs. unfold text_of_body. rewrite IH. reflexivity.
Qed.
Theorem callkw_run d n fn args id lc a1 b more s ab l z v w1 t w2 :
  proper s -> apart b -> apart_p more -> ~ In id (ids b) -> ~ In id (ids_p more) ->
  g_useFilters G = true -> (g_alwaysNone G = true -> o_none K v = false) ->
  sem d b (inner true (view s)) = Some (ONormal, ab) ->
  parts_text K G fuel d more (inner true (back (view s) ab)) l z ->
  quiet (o_callkw K fn args (fold_left (fun kws p => aset (fst p) (snd p) kws) l [(a1, a_out ab)]))
        (ms_buf s) (ms_filt s) (a_w z) w1 v ->
  quiet (o_filter K (ms_filt s) v []) (ms_buf s) (ms_filt s) w1 w2 t ->
  exists s', exec MNo (prog G d n [] (TCall fn args id lc a1 b more TNil) CNil) s = Some (ONormal, s')
  /\ ms_w s' = w2 /\ getvalue (ms_trans s) (ms_heap s') = getvalue (ms_trans s) (ms_heap s) ++ t
  /\ restored s s' /\ others_same s s'.
Proof.
  intros Hp Ha Hm Hi Hj Hu Hn H1 Ht H2 H3.
  apply (run_written d n _ s (emit t (a_set_w w2 (back (view s) z)))); auto.
  - repeat split; assumption.
  - rewrite sem_eq. cbv beta match zeta. rewrite H1. unfold text_of_body at 1.
    rewrite (sem_p_texts _ _ _ _ _ Ht).
    rewrite (show_quiet _ [] (back (view s) z) w1 v w2 t Hu Hn H2 H3). reflexivity.
Qed.

Lemma stale_quiet ci i (a : ast) new exp tv w1 w2 w3 w4 w5 r1 r3 k :
  let call q w w' r := quiet (o_cache K q) (a_buf a) (a_filt a) w w' r in
  call (QRegion i (ci_repr ci)) (a_w a) w1 r1 ->
  call (QIsNew i) w1 w2 new ->
  call (QItem i (match ci_vary ci with Some v => v | None => StrConst_Model.repr (g_printable G) i end)) w2 w3 r3 ->
  call (QExpired i) w3 w4 exp ->
  test_says K ci (a_buf a) (a_filt a) w4 w5 tv ->
  stale K G ci i a k = k (fst new || fst exp || tv) (a_set_w w5 a).
Proof.
  intros call H1 H2 H3 H4 H5. unfold stale, cached.
  rewrite (ask_quiet _ a _ _ _ H1), (ask_quiet _ (a_set_w w1 a) _ _ _ H2), (ask_quiet _ (a_set_w w2 a) _ _ _ H3),
    (ask_quiet _ (a_set_w w3 a) _ _ _ H4). cbv zeta. unfold test_says in H5.
  destruct (ci_test ci) as [[|c e]|].
  - destruct H5 as [-> ->]. rewrite orb_false_r. reflexivity.
  - rewrite (ask_quiet _ (a_set_w w4 a) _ _ _ H5). reflexivity.
  - destruct H5 as [-> ->]. rewrite orb_false_r. reflexivity.
Qed.

Theorem miss_run d n sh ci id lc b s new exp tv w1 w2 w3 w4 w5 w6 ab w7 r1 r3 r6 r7 :
  let i := rid (RCache ci) id in
  let call q w w' r := quiet (o_cache K q) (ms_buf s) (ms_filt s) w w' r in
  proper s -> apart b -> ~ In i (ids b) ->
  call (QRegion i (ci_repr ci)) (ms_w s) w1 r1 ->
  call (QIsNew i) w1 w2 new ->
  call (QItem i (match ci_vary ci with Some v => v | None => StrConst_Model.repr (g_printable G) i end)) w2 w3 r3 ->
  call (QExpired i) w3 w4 exp ->
  test_says K ci (ms_buf s) (ms_filt s) w4 w5 tv ->
  fst new || fst exp || tv = true ->
  match ci_interval ci with Some m => call (QExpiry i m) w5 w6 r6 | None => w6 = w5 end ->
  sem d b (inner false (a_set_w w6 (view s))) = Some (ONormal, ab) ->
  call (QSet i (a_out ab)) (a_w ab) w7 r7 ->
  exists s', exec MNo (prog G d n [] (TReg sh (RCache ci) id lc b TNil) CNil) s = Some (ONormal, s')
  /\ ms_w s' = w7 /\ getvalue (ms_trans s) (ms_heap s') = getvalue (ms_trans s) (ms_heap s) ++ a_out ab
  /\ restored s s' /\ others_same s s'.
Proof.
  intros i call Hp Ha Hi H1 H2 H3 H4 H5 Hm H6 H7 H8.
  apply (run_written d n _ s (emit (a_out ab) (a_set_w w7 (back (view s) ab)))); auto.
  - repeat split; assumption.
  - rewrite sem_eq. cbv beta match zeta.
    change (match ci_id ci with Some (c :: rest) => c :: rest | _ => id end) with i.
    rewrite (stale_quiet ci i (view s) new exp tv w1 w2 w3 w4 w5 r1 r3 _ H1 H2 H3 H4 H5), Hm.
    assert (Q : match ci_interval ci with
                | Some m => go (o_cache K (QExpiry i m)) (inner false (a_set_w w5 (view s)))
                            = Some (inner false (a_set_w w6 (view s)), Ok r6)
                | None => inner false (a_set_w w5 (view s)) = inner false (a_set_w w6 (view s))
                end).
    { destruct (ci_interval ci) as [m|]; [|subst w6; reflexivity].
      exact (go_quiet _ (inner false (a_set_w w5 (view s))) _ _ H6). }
    assert (X : forall (y : ast), y = inner false (a_set_w w6 (view s)) ->
        text_of_body (sem d b y) (fun t z => cached K (QSet i t) (back (a_set_w w5 (view s)) z)
           (fun _ z => sem d TNil (emit t z))) = Some (ONormal, emit (a_out ab) (a_set_w w7 (back (view s) ab)))).
    { intros y ->. rewrite H7. unfold text_of_body, cached.
      rewrite (ask_quiet (o_cache K (QSet i (a_out ab))) (back (a_set_w w5 (view s)) ab) w7 r7 _ H8). reflexivity. }
    destruct (ci_interval ci) as [m|]; [rewrite Q; apply X; reflexivity|apply X; exact Q].
Qed.

Theorem hit_run d n sh ci id lc b s new exp w1 w2 w3 w4 w5 w6 w7 w8 r1 r3 ref x ref' :
  let i := rid (RCache ci) id in
  let call q w w' r := quiet (o_cache K q) (ms_buf s) (ms_filt s) w w' r in
  proper s -> apart b -> ~ In i (ids b) ->
  call (QRegion i (ci_repr ci)) (ms_w s) w1 r1 ->
  call (QIsNew i) w1 w2 new ->
  call (QItem i (match ci_vary ci with Some v => v | None => StrConst_Model.repr (g_printable G) i end)) w2 w3 r3 ->
  call (QExpired i) w3 w4 exp ->
  test_says K ci (ms_buf s) (ms_filt s) w4 w5 false ->
  fst new || fst exp = false ->
  call (QRefresh i) w5 w6 ref -> fst ref = true ->
  call (QRender i) w6 w7 x ->
  call (QRefresh i) w7 w8 ref' -> fst ref' = true ->
  exists s', exec MNo (prog G d n [] (TReg sh (RCache ci) id lc b TNil) CNil) s = Some (ONormal, s')
  /\ ms_w s' = w8 /\ getvalue (ms_trans s) (ms_heap s') = getvalue (ms_trans s) (ms_heap s) ++ snd x
  /\ restored s s' /\ others_same s s'.
Proof.
  intros i call Hp Ha Hi H1 H2 H3 H4 H5 Hm H6 E6 H7 H8 E8.
  apply (run_written d n _ s (a_set_w w8 (emit (snd x) (a_set_w w7 (view s))))); auto.
  - repeat split; assumption.
  - rewrite sem_eq. cbv beta match zeta.
    change (match ci_id ci with Some (c :: rest) => c :: rest | _ => id end) with i.
    rewrite (stale_quiet ci i (view s) new exp false w1 w2 w3 w4 w5 r1 r3 _ H1 H2 H3 H4 H5), Hm.
    cbv beta match. cbn [orb]. unfold cached at 1.
    rewrite (ask_quiet (o_cache K (QRefresh i)) (a_set_w w5 (view s)) w6 ref _ H6), E6.
    rewrite (go_quiet (o_cache K (QRender i)) (a_set_w w6 (a_set_w w5 (view s))) w7 x H7).
    unfold cached at 1.
    rewrite (ask_quiet (o_cache K (QRefresh i)) (emit (snd x) (a_set_w w7 (a_set_w w6 (a_set_w w5 (view s))))) w8 ref' _ H8), E8.
    reflexivity.
Qed.

(** ** Output only grows *)
Definition gr (a a' : ast) : Prop := exists x, a_out a' = a_out a ++ x.
Lemma gr_eq (a a' : ast) : a_out a' = a_out a -> gr a a'.
Proof. intros H. exists []. rewrite app_nil_r. exact H. Qed.
Lemma gr_trans a b c : gr a b -> gr b c -> gr a c.
Proof. intros [x H] [y J]. exists (x ++ y). rewrite J, H, app_assoc. reflexivity. Qed.
Definition grows (a : ast) (r : option (out E * ast)) : Prop := forall o a', r = Some (o, a') -> gr a a'.
Lemma grows_fin o a a' : gr a a' -> grows a (Some (o, a')).
Proof. intros H o' b Eb. injection Eb as _ <-. exact H. Qed.
Lemma grows_none a : grows a None.
Proof. intros o a' H. discriminate H. Qed.
Lemma grows_pre a b r : gr a b -> grows b r -> grows a r.
Proof. intros H J o a' Er. exact (gr_trans _ _ _ H (J _ _ Er)). Qed.
Lemma gr_emit t (a : ast) : gr a (emit t a).
Proof. exists t. reflexivity. Qed.
Lemma gr_refl a : gr a a.
Proof. apply gr_eq. reflexivity. Qed.
Lemma direct_gr t (a a' : ast) : direct t a = Some a' -> gr a a'.
Proof.
  unfold direct. destruct t; intros H; [injection H as <-; apply gr_refl|].
  destruct (a_top a); [|discriminate H]. assert (E1 : emit (n :: t) a = a') by congruence. subst a'. apply gr_emit.
Qed.
Lemma go_gr {A} (x : act A) (a a' : ast) r : go x a = Some (a', r) -> gr a a'.
Proof.
  unfold go. destruct (x (a_buf a) (a_filt a) (a_w a)) as [[w t] r0]. intros H.
  destruct (direct t (a_set_w w a)) eqn:Ed; [|discriminate H]. injection H as <- <-.
  exact (direct_gr t (a_set_w w a) _ Ed).
Qed.
Lemma ask_grows {A} (x : act A) a k : (forall v a1, gr a a1 -> grows a (k v a1)) -> grows a (ask x a k).
Proof.
  intros H. unfold ask. destruct (go x a) as [[a1 [v|e]]|] eqn:Eg; [| |apply grows_none].
  - apply H. exact (go_gr _ _ _ _ Eg).
  - apply grows_fin. exact (go_gr _ _ _ _ Eg).
Qed.
Lemma ask_at {A} (x : act A) a0 a k : gr a0 a -> (forall v a1, gr a0 a1 -> grows a0 (k v a1)) -> grows a0 (ask x a k).
Proof.
  intros H0 H. unfold ask. destruct (go x a) as [[a1 [v|e]]|] eqn:Eg; [| |apply grows_none].
  - apply H. exact (gr_trans _ _ _ H0 (go_gr _ _ _ _ Eg)).
  - apply grows_fin. exact (gr_trans _ _ _ H0 (go_gr _ _ _ _ Eg)).
Qed.
Lemma doing_grows e a : grows a (doing K e a).
Proof.
  unfold doing. destruct (o_stmt K e (a_buf a) (a_filt a) (a_w a)) as [[w t] o].
  destruct (direct t (a_set_w w a)) eqn:Ed; [|apply grows_none]. apply grows_fin. exact (direct_gr t (a_set_w w a) _ Ed).
Qed.
Lemma then_grows a x k : grows a x -> (forall a1, gr a a1 -> grows a (k a1)) -> grows a (andthen x k).
Proof.
  intros H J. unfold andthen. destruct x as [[[] a1]|]; try exact H. apply J. exact (H _ _ eq_refl).
Qed.
Lemma show_grows x args a : grows a (show K G x args a).
Proof.
  unfold show. apply ask_grows. intros v a1 H1. destruct (g_alwaysNone G && o_none K v); [apply grows_fin; exact H1|].
  apply (grows_pre a a1); [exact H1|]. apply ask_grows. intros t a2 H2. apply grows_fin.
  exact (gr_trans _ _ _ H2 (gr_emit t a2)).
Qed.
Lemma loop_grows {X} (next : X -> ast -> option (ast * res E (option X))) body :
  (forall x a a' r, next x a = Some (a', r) -> gr a a') -> (forall a, grows a (body a)) ->
  forall m x a, grows a (loop m next body x a).
Proof.
  intros Hn Hb. induction m as [|m IH]; intros x a; [apply grows_none|]. cbn [loop].
  destruct (next x a) as [[a1 r]|] eqn:En; [|apply grows_none]. apply Hn in En.
  destruct r as [[x1|]|e]; [|apply grows_fin; exact En|apply grows_fin; exact En].
  apply (grows_pre a a1 _ En). pose proof (Hb a1) as H.
  destruct (body a1) as [[o a2]|]; [|apply grows_none].
  assert (H2 : gr a1 a2) by exact (H _ _ eq_refl).
  destruct o; try (apply grows_fin; exact H2); apply (grows_pre a1 a2 _ H2); apply IH.
Qed.
Lemma back_gr (a b : ast) : gr a (back a b).
Proof. apply gr_eq. reflexivity. Qed.

Lemma body_grows a x k : (forall t b, grows a (k t b)) -> grows a (text_of_body x k).
Proof. intros H. unfold text_of_body. destruct x as [[[] b]|]; try apply grows_none. apply H. Qed.

Theorem all_grow : (forall t d a, grows a (sem d t a)) /\ (forall ms d m a, grows a (sem_m K G fuel d m ms a))
  /\ (forall ps d kws a k a0, (forall l z, grows a0 (k l z)) -> grows a0 (sem_p K G fuel d ps kws a k)).
Proof.
  apply tm_mids_parts.
  - intros d a. apply grows_fin. apply gr_refl.
  - intros s cut r IH d a. rewrite sem_eq. cbv beta match zeta. apply (grows_pre a _ _ (gr_emit (text_of s cut) a)). apply IH.
  - intros s r IH d a. rewrite sem_eq. cbv beta match zeta. apply IH.
  - intros r IH d a. rewrite sem_eq. cbv beta match zeta. apply IH.
  - intros e fa raw lc sil r IH d a. rewrite sem_eq. cbv beta match zeta.
    pose proof (show_grows (o_eval K e) (all_args G fa raw) a) as Hs. apply then_grows.
    + destruct (show K G (o_eval K e) (all_args G fa raw) a) as [[o a1]|]; [|exact Hs].
      destruct o; try exact Hs. destruct (sil && o_notfound K e0); [|exact Hs]. apply grows_fin. exact (Hs _ _ eq_refl).
    + intros a1 H1. apply (grows_pre a a1 _ H1). apply IH.
  - intros k e r IH d a. rewrite sem_eq. cbv beta match zeta. apply then_grows.
    + destruct k; try apply doing_grows; [apply show_grows|apply grows_fin; apply gr_refl].
    + intros a1 H1. apply (grows_pre a a1 _ H1). apply IH.
  - intros g lv op rv r IH d a. rewrite sem_eq. cbv beta match zeta. apply then_grows; [apply doing_grows|].
    intros a1 H1. apply (grows_pre a a1 _ H1). apply IH.
  - intros c x y lc r IH d a. rewrite sem_eq. cbv beta match zeta. apply then_grows.
    + apply ask_grows. intros b a1 H1. apply (grows_pre a a1 _ H1). apply show_grows.
    + intros a1 H1. apply (grows_pre a a1 _ H1). apply IH.
  - intros sh o lc b IHb ms IHm r IH d a. rewrite sem_eq. cbv beta match zeta. apply then_grows.
    + assert (Hl : forall a0 a1, gr a0 a1 -> grows a0 (sem_m K G fuel d MNo ms a1))
        by (intros a0 a1 H1; apply (grows_pre a0 a1 _ H1); apply IHm).
      assert (Hif : forall (t : bool) a1, gr a a1 -> grows a (if t then andthen (sem d b a1) (sem_m K G fuel d (MIf true) ms) else sem_m K G fuel d (MIf false) ms a1)).
      { intros t a1 H1. apply (grows_pre a a1 _ H1). destruct t; [|apply IHm]. apply then_grows; [apply IHb|].
        intros a2 H2. apply (grows_pre a1 a2 _ H2). apply IHm. }
      destruct o.
      * apply ask_grows. exact Hif.
      * apply ask_grows. intros t a1 H1. apply (Hif (negb t) a1 H1).
      * apply ask_grows. intros i a1 H1. apply (grows_pre a a1 _ H1). apply then_grows; [|intros a2 H2; apply Hl; exact H2].
        apply loop_grows; [intros i0 a2 a3 r0 Hg; exact (go_gr _ _ _ _ Hg)|intros a2; apply IHb].
      * apply then_grows; [|intros a2 H2; apply Hl; exact H2]. apply loop_grows; [|intros a2; apply IHb].
        intros u a2 a3 r0 Hg. destruct (go (o_test K e) a2) as [[a4 [t|x]]|] eqn:Eg; [| |discriminate Hg];
          injection Hg as <- <-; exact (go_gr _ _ _ _ Eg).
      * apply ask_grows. intros i a1 H1. apply (grows_pre a a1 _ H1). apply then_grows; [|intros a2 H2; apply Hl; exact H2].
        apply loop_grows; [intros i0 a2 a3 r0 Hg; injection Hg as <- _; apply gr_refl|intros a2; apply IHb].
      * pose proof (IHb d a) as Hb. destruct (sem d b a) as [[x a1]|]; [|apply grows_none].
        apply (grows_pre a a1 _ (Hb _ _ eq_refl)). apply IHm.
    + intros a1 H1. apply (grows_pre a a1 _ H1). apply IH.
  - intros sh o id lc b IHb r IH d a.
    assert (Hr : forall a1, gr a a1 -> grows a (sem d r a1)) by (intros a1 H1; apply (grows_pre a a1 _ H1); apply IH).
    destruct o as [ci|fn args|v|f klass]; rewrite sem_eq; cbv beta match zeta.
    + set (i := match ci_id ci with Some (c :: rest) => c :: rest | _ => id end).
      assert (Hfr : forall a1 x, gr a a1 -> grows a (text_of_body (sem d b x) (fun t y =>
                    cached K (QSet i t) (back a1 y) (fun _ z => sem d r (emit t z))))).
      { intros a1 x H1. apply (grows_pre a a1 _ H1). apply body_grows. intros t y. apply (grows_pre a1 _ _ (back_gr a1 y)).
        unfold cached. apply ask_grows. intros q z Hz. apply (grows_pre (back a1 y) z _ Hz).
        apply (grows_pre z _ _ (gr_emit t z)). apply IH. }
      assert (Hf2 : forall a1, gr a a1 -> grows a
         (match ci_interval ci with
          | Some n => match go (o_cache K (QExpiry i n)) (inner false a1) with
                      | Some (x, Ok _) => text_of_body (sem d b x) (fun t y =>
                          cached K (QSet i t) (back a1 y) (fun _ z => sem d r (emit t z)))
                      | _ => None
                      end
          | None => text_of_body (sem d b (inner false a1)) (fun t y =>
                          cached K (QSet i t) (back a1 y) (fun _ z => sem d r (emit t z)))
          end)).
      { intros a1 H1. destruct (ci_interval ci) as [n|]; [|apply Hfr; exact H1].
        destruct (go (o_cache K (QExpiry i n)) (inner false a1)) as [[x [q|e]]|]; try apply grows_none. apply Hfr; exact H1. }
      assert (Hst : forall k, (forall old a1, gr a a1 -> grows a (k old a1)) -> grows a (stale K G ci i a k)).
      { intros k Hk. unfold stale, cached.
        apply ask_at; [apply gr_refl|]. intros ? a1 H1. apply ask_at; [exact H1|]. intros ? a2 H2.
        apply ask_at; [exact H2|]. intros ? a3 H3. apply ask_at; [exact H3|]. intros ? a4 H4. cbv zeta.
        destruct (ci_test ci) as [[|c e]|]; try (apply Hk; exact H4).
        apply ask_at; [exact H4|]. intros t a5 H5. apply Hk; exact H5. }
      apply Hst. intros old a1 H1. destruct old; [apply Hf2; exact H1|]. unfold cached at 1.
      apply ask_at; [exact H1|]. intros ref a2 H2. destruct (fst ref).
      * destruct (go (o_cache K (QRender i)) a2) as [[a3 [x|e]]|] eqn:Eg; [| |apply grows_none];
          apply go_gr in Eg; pose proof (gr_trans _ _ _ H2 Eg) as H3.
        -- apply ask_at; [exact (gr_trans _ _ _ H3 (gr_emit (snd x) a3))|]. intros ref' a4 H4.
           destruct (fst ref'); [apply Hr; exact H4|apply Hf2; exact H4].
        -- destruct (o_keyerr K e); [apply Hf2; exact H3|apply grows_fin; exact H3].
      * apply ask_at; [exact H2|]. intros ref' a4 H4. destruct (fst ref'); [apply Hr; exact H4|apply Hf2; exact H4].
    + apply body_grows. intros t y. apply then_grows; [exact (show_grows _ [] (back a y))|]. intros a1 H1. apply Hr. exact H1.
    + apply body_grows. intros t y. apply then_grows; [|intros a1 H1; apply Hr; exact H1].
      apply ask_at; [apply back_gr|]. intros u a1 H1. apply grows_fin. exact H1.
    + assert (Hb : forall x, gr a x -> grows a (match sem d b x with
                | Some (ONormal, y) => sem d r (a_set_filt (a_filt a) y) | _ => None end)).
      { intros x Hx. pose proof (IHb d x) as H. destruct (sem d b x) as [[[] y]|]; try apply grows_none.
        apply Hr. exact (gr_trans _ _ _ Hx (H _ _ eq_refl)). }
      destruct klass; [apply ask_at; [apply gr_refl|]; intros x a1 H1; apply Hb; exact H1|].
      destruct (str_eqb (lower f) (L "none")); [apply grows_none|]. unfold named.
      destruct (aget f (a_flts a)) as [x|]; [apply Hb; exact (gr_refl a)|].
      apply ask_at; [apply gr_refl|]. intros x a1 H1. apply Hb. exact H1.
  - intros fn args id lc n b IHb more IHp r IH d a. rewrite sem_eq. cbv beta match zeta.
    apply body_grows. intros t y. apply IHp. intros kws z. apply then_grows; [exact (show_grows _ [] (back a z))|].
    intros a1 H1. apply (grows_pre a a1 _ H1). apply IH.
  - intros sh o name args rem b IHb r IH d a. rewrite sem_eq. cbv beta match zeta. destruct o.
    + destruct (own_method d DDef); [apply IH|apply grows_none].
    + destruct (own_method d DClosure); [apply IH|apply grows_none].
    + apply then_grows.
      * apply ask_at; [apply gr_refl|]. intros t a1 H1. apply grows_fin. exact (gr_trans _ _ _ H1 (gr_emit t a1)).
      * intros a1 H1. apply (grows_pre a a1 _ H1). apply IH.
  - intros d m a. rewrite sem_m_eq. cbv beta match zeta. apply grows_fin. apply gr_refl.
  - intros x lc b IHb r IH d m a. rewrite sem_m_eq. cbv beta match zeta.
    assert (Ht : forall a1, gr a a1 -> forall g, grows a (match sem d b a1 with Some (o, a2) => sem_m K G fuel d (g o) r a2 | None => None end)).
    { intros a1 H1 g. pose proof (IHb d a1) as H. destruct (sem d b a1) as [[o a2]|]; [|apply grows_none].
      apply (grows_pre a a2 _ (gr_trans _ _ _ H1 (H _ _ eq_refl))). apply IH. }
    assert (Hs : forall m' a1, gr a a1 -> grows a (sem_m K G fuel d m' r a1))
      by (intros m' a1 H1; apply (grows_pre a a1 _ H1); apply IH).
    assert (Hth : forall m' a1, gr a a1 -> grows a (andthen (sem d b a1) (sem_m K G fuel d m' r))).
    { intros m' a1 H1. apply (grows_pre a a1 _ H1). apply then_grows; [apply IHb|]. intros a2 H2.
      apply (grows_pre a1 a2 _ H2). apply IH. }
    pose proof (gr_refl a) as H0.
    destruct x as [|e|c|].
    + destruct m as [|[]|o h]; [apply grows_none|apply Hs; exact H0|apply Hth; exact H0|].
      destruct o, h; try (apply Hs; exact H0). exact (Ht a H0 (fun o => MTry o true)).
    + destruct m as [|[]|o h]; [apply grows_none|apply Hs; exact H0| |apply grows_none].
      apply ask_at; [exact H0|]. intros t a1 H1. destruct t; [apply Hth; exact H1|apply Hs; exact H1].
    + destruct m as [|[]|o h]; try apply grows_none.
      destruct o, h; try (apply Hs; exact H0). apply ask_at; [exact H0|]. intros t a1 H1.
      destruct t; [exact (Ht a1 H1 (fun o => MTry o true))|apply Hs; exact H1].
    + destruct m as [|[]|o h]; try apply grows_none.
      pose proof (IHb d a) as H. destruct (sem d b a) as [[[] a2]|]; try apply grows_none; apply Hs; exact (H _ _ eq_refl).
  - intros d kws a k a0 H. apply H.
  - intros n b IHb r IH d kws a k a0 H.
    change (sem_p K G fuel d (PCons n b r) kws a k)
      with (text_of_body (sem d b a) (fun t y => sem_p K G fuel d r (aset n t kws) (inner true y) k)).
    apply body_grows. intros t y. apply IH. exact H.
Qed.
Theorem sem_grows d t a o a' : sem d t a = Some (o, a') -> exists x, a_out a' = a_out a ++ x.
Proof. intros H. exact (proj1 all_grow t d a o a' H). Qed.
End Use.
