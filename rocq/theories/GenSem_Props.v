(** Property theorems C38 (#capture), C39 (#filter), C40 (#call), C66 (what templates do) and
    C67 (cache regions). *)
From Verif Require Import Base PyStr Alist Gen_Model Gen_Spec Gen_Proofs GenLayout_Proofs GenSem_Model GenSem_Spec GenSem_Proofs GenSemUse_Proofs.
Local Open Scope string_scope.
Local Open Scope list_scope.

(** ** A small world for examples *)

(** Variables with texts, among them the contents of caches. *)
Definition world := list (pystr * pystr).
Definition toy_val (e : pystr) (w : world) : res pystr pystr :=
  match aget e w with Some t => Ok t | None => Raise (L "NotFound") end.
Definition says {A} (r : res pystr A) : act (W:=world) (F:=pystr) A := fun _ _ w => (w, [], r).
Definition ckey (i : pystr) : pystr := L "cache:" ++ i.
(** A filter writes its name around the text.  The statement [direct] calls a method that writes
    to self.transaction unless the template is buffering; [raise], [break] and [return] are what
    they are. *)
Definition toy : oracle world pystr pystr pystr nat :=
  mkO (fun e _ _ w => (w, [], toy_val e w))
      (fun e _ _ w => (w, [], Ok (match aget e w with Some (_ :: _) => true | _ => false end)))
      (fun fn _ t => says (Ok (fn ++ L "(" ++ t ++ L ")")))
      (fun fn _ l => says (Ok (fn ++ L "(" ++ flat_map (fun p => fst p ++ L "=" ++ snd p ++ L ";") l ++ L ")")))
      (fun v => str_eqb v (L "None"))
      (fun v => says (Ok v))
      (fun f v _ => says (Ok (f ++ L "<" ++ v ++ L ">")))
      (fun e buf _ w =>
         (w, if str_eqb e (L "direct") && negb buf then L "D" else [],
          if str_eqb e (L "raise") then ORaise (L "Boom")
          else if str_eqb e (L "break") then OBreak
          else if str_eqb e (L "return") then OReturn else ONormal))
      (fun n => says (Ok (L "[" ++ n ++ L "]")))
      (fun e _ _ w => (w, [], match toy_val e w with Ok t => Ok (length t) | Raise x => Raise x end))
      (fun t i _ _ w => match i with
                        | 0%nat => (w, [], Ok None)
                        | S i => (aset t (L "item") w, [], Ok (Some i))
                        end)
      (fun e _ _ w => (w, [], match toy_val e w with Ok t => Ok (length t) | Raise x => Raise x end))
      (fun c e => says (Ok true))
      (fun e => str_eqb e (L "NotFound"))
      (fun e => str_eqb e (L "KeyError"))
      (fun v t _ _ w => (aset v t w, [], Ok tt))
      (fun e => says (Ok e))
      (fun n => says (if str_eqb n (L "Bad") then Raise (L "KeyError") else Ok n))
      (L "Init")
      (fun q _ _ w =>
         (match q with QSet i t => aset (ckey i) t w | _ => w end, [],
          match q with
          | QIsNew i => Ok (negb (ahas (ckey i) w), [])
          | QRefresh i => Ok (ahas (ckey i) w, [])
          | QRender i => match aget (ckey i) w with Some t => Ok (true, t) | None => Raise (L "KeyError") end
          | _ => Ok (false, [])
          end)).
(** A template object that was never called; its variables. *)
Definition toy_obj (w : world) : obj world pystr := mkObj w [[]] false (L "F") false [].
Definition toy_s (w : world) : mst world pystr pystr := fst (setup None (toy_obj w)).
(** One that writes to self.transaction. *)
Definition toy_top (w : world) : mst world pystr pystr :=
  fst (setup None (mkObj w [L "before "] true (L "F") false [])).
Definition ci0 : cinfo := mkCI (L "{}") None None None None.
Definition lc0 : BinNums.N * BinNums.N := (1, 1)%N.
Definition txt (s : string) (r : tm) : tm := TText (L s) false r.
Definition var (s : string) (r : tm) : tm := TPlace (L s) [] (L s) lc0 false r.

(** ** C66 *)

(** C66: executing the code generated for a template does what the template means: the same
    ending, world, output and filters; the output goes where it went before, through the same
    filter, and no other response has changed. *)
Theorem C66_run : forall W V F E I (K : oracle W V F E I) G fuel d n t s o a',
  apart t -> proper s -> sem K G fuel d t (view s) = Some (o, a') ->
  exists s', exec K fuel MNo (prog G d n [] t CNil) s = Some (o, s') /\ view s' = a' /\ proper s'
  /\ restored s s' /\ others_same s s'.
Proof. intros W V F E I K G fuel d n t s o a'. exact (run_all K G fuel d n t s o a'). Qed.
Print Assumptions C66_run.
(** A template with most constructs: loop, test, try, capture in a filter in a call. *)
Definition big_tm : tm :=
  txt "Hi "
 (TBlk false (BFor (L "i") (L "xs")) lc0
   (var "i" (TBlk true (BIf (L "y")) lc0 (txt "yes" TNil) (MCons MElse lc0 (txt "no" TNil) MNil) TNil)) MNil
 (TReg false (RCall (L "fn") []) (L "1") lc0
   (txt "arg "
   (TReg false (RFilter (L "WebSafe") false) (L "2") lc0
     (TReg false (RCapture (L "v")) (L "3") lc0 (txt "captured " (var "i" TNil)) (var "v" TNil)) TNil))
 (TBlk false BTry lc0 (txt "t" (TExpr KSilent (L "raise") (txt "never" TNil)))
    (MCons (MExcept (L "except")) lc0 (var "v" TNil) MNil)
 (TReg false (RCache ci0) (L "4") lc0 (txt "to be kept" TNil) TNil)))).
Example C66_run_ex : apart big_tm /\ proper (toy_s [(L "xs", L "ab")]) /\ sane dflt_set false big_tm = true
  /\ match sem toy dflt_set 9 false big_tm (view (toy_s [(L "xs", L "ab")])) with
     | Some (ONormal, a) => a_out a = L ("Hi F<item>noF<item>noF<fn(arg WebSafe<captured WebSafe<item>>)>"
                                      ++ "tF<captured WebSafe<item>>to be kept")
                            /\ aget (L "v") (a_w a) = Some (L "captured WebSafe<item>")
     | _ => False
     end.
Proof.
  split; [|split; [|split]]; [| |vm_compute; reflexivity|vm_compute; split; reflexivity].
  - cbn. repeat split; intros Hi; repeat (destruct Hi as [Hi|Hi]; [discriminate Hi|]); exact Hi.
  - vm_compute. repeat split. apply le_n.
Qed.

(** C66, a method without the transaction of a caller: it returns exactly the output the
    template means, and no response that existed is changed.  [heap]: the first response is that
    of self.transaction. *)
Theorem C66_returns : forall W V F E I (K : oracle W V F E I) G fuel main t x o a' r,
  sane G false t = true -> apart t -> ob_heap x <> [] -> ob_buf x = true \/ ob_tx x = false ->
  sem K G fuel false t (mkA (ob_w x) [] false (ob_cur x) (ob_buf x) (ob_flts x)) = Some (o, a') ->
  answer true o a' = Some r ->
  exists c x',
    compile G main (events t Done)
      = Ok (map (fun p => (fst p, layout (g_lev G) (snd p))) (meths G false t ++ [((main, []), c)]))
    /\ call_method K fuel c None x = Some (r, x')
    /\ ob_w x' = a_w a' /\ ob_flts x' = a_flts a' /\ ob_tx x' = ob_tx x
    /\ ob_cur x' = ob_cur x /\ ob_buf x' = ob_buf x
    /\ (forall i, (i < length (ob_heap x))%nat -> getvalue i (ob_heap x') = getvalue i (ob_heap x)).
Proof. exact (@method_returns). Qed.
Print Assumptions C66_returns.
Example C66_returns_ex :
  exists a', sem toy dflt_set 9 false big_tm (mkA [(L "xs", L "ab")] [] false (L "F") false []) = Some (ONormal, a')
  /\ match call_method toy 9 (prog dflt_set false 0 [] big_tm CNil) None (toy_obj [(L "xs", L "ab")]) with
     | Some (Ok (Some t), x') => t = a_out a' /\ length t = 99%nat /\ getvalue 0 (ob_heap x') = []
     | _ => False
     end.
Proof. vm_compute. eexists. repeat split; reflexivity. Qed.

(** C66, a method with a transaction, of its caller or of the template object: what the template
    means is appended to that response, no other is changed, and the empty string returned. *)
Theorem C66_writes : forall W V F E I (K : oracle W V F E I) G fuel main t x arg i o a' r,
  sane G false t = true -> apart t -> (i < length (ob_heap x))%nat ->
  arg = Some i \/ (arg = None /\ i = 0%nat /\ ob_buf x = false /\ ob_tx x = true) ->
  sem K G fuel false t (mkA (ob_w x) (getvalue i (ob_heap x)) (Nat.eqb i 0) (ob_cur x) (ob_buf x) (ob_flts x))
    = Some (o, a') ->
  answer false o a' = Some r ->
  exists c x',
    compile G main (events t Done)
      = Ok (map (fun p => (fst p, layout (g_lev G) (snd p))) (meths G false t ++ [((main, []), c)]))
    /\ call_method K fuel c arg x = Some (r, x')
    /\ ob_w x' = a_w a' /\ ob_flts x' = a_flts a' /\ ob_tx x' = ob_tx x
    /\ ob_cur x' = ob_cur x /\ ob_buf x' = ob_buf x
    /\ getvalue i (ob_heap x') = a_out a'
    /\ (forall j, (j < length (ob_heap x))%nat -> j <> i -> getvalue j (ob_heap x') = getvalue j (ob_heap x)).
Proof. exact (@method_writes). Qed.
Print Assumptions C66_writes.
Example C66_writes_ex :
  match call_method toy 9 (prog dflt_set false 0 [] (txt "a" (TExpr KSilent (L "direct") (txt "b" TNil))) CNil)
          None (mkObj [] [L "x"; L "y"] true (L "F") false []) with
  | Some (Ok (Some []), x') => ob_heap x' = [L "xaDb"; L "y"]
  | _ => False
  end.
Proof. vm_compute. reflexivity. Qed.

(** C66: the method of a #block writes the markers, if any, and its body between. *)
Theorem C66_block : forall W V F E I (K : oracle W V F E I) G fuel d t s a' name,
  apart t -> proper s -> sem K G fuel d t (emit (mark_start G name) (view s)) = Some (ONormal, a') ->
  exists s', exec K fuel MNo (meth_code G d DBlock name t) s = Some (ONormal, s')
  /\ view s' = emit (mark_end G name) a' /\ proper s' /\ restored s s' /\ others_same s s'.
Proof. intros W V F E I K G fuel d t s a' name. exact (run_block K G fuel d t s a' name). Qed.
Print Assumptions C66_block.
Definition marked : gset :=
  mkG (fun _ => true) true true true true true 1 2 (L "    ")
      (Some ((L "<!-- START ", L " -->"), (L "<!-- END ", L " -->"))).
Example C66_block_ex :
  match exec toy 9 MNo (meth_code marked false DBlock (L "b") (txt "x" (var "y" TNil))) (toy_s [(L "y", L "1")]) with
  | Some (ONormal, s) => a_out (view s) = L "<!-- START b -->xF<1><!-- END b -->"
  | _ => False
  end.
Proof. vm_compute. reflexivity. Qed.

(** C66: output is only added; what was written stays. *)
Theorem C66_grows : forall W V F E I (K : oracle W V F E I) G fuel d t a o a',
  sem K G fuel d t a = Some (o, a') -> exists x, a_out a' = a_out a ++ x.
Proof. intros W V F E I K G fuel d t a o a'. exact (sem_grows K G fuel d t a o a'). Qed.
Print Assumptions C66_grows.
Example C66_grows_ex : match sem toy dflt_set 9 false big_tm (mkA [(L "xs", L "ab")] (L "old") true (L "F") false []) with
  | Some (ONormal, a) => firstn 6 (a_out a) = L "oldHi " | _ => False end.
Proof. vm_compute. reflexivity. Qed.

(** C66: a placeholder outputs the filtered text of its value, once. *)
Theorem C66_placeholder : forall W V F E I (K : oracle W V F E I) G fuel d n e fa raw lc s v t w1 w2,
  proper s -> g_useFilters G = true -> (g_alwaysNone G = true -> o_none K v = false) ->
  quiet (o_eval K e) (ms_buf s) (ms_filt s) (ms_w s) w1 v ->
  quiet (o_filter K (ms_filt s) v (all_args G fa raw)) (ms_buf s) (ms_filt s) w1 w2 t ->
  exists s', exec K fuel MNo (prog G d n [] (TPlace e fa raw lc false TNil) CNil) s = Some (ONormal, s')
  /\ ms_w s' = w2 /\ getvalue (ms_trans s) (ms_heap s') = getvalue (ms_trans s) (ms_heap s) ++ t
  /\ restored s s' /\ others_same s s'.
Proof. intros W V F E I K G fuel d n e fa raw lc s v t w1 w2. exact (place_run K G fuel d n e fa raw lc s v t w1 w2). Qed.
Print Assumptions C66_placeholder.
Example C66_placeholder_ex :
  match exec toy 9 MNo (prog dflt_set false 0 [] (var "y" TNil) CNil) (toy_top [(L "y", L "1")]) with
  | Some (ONormal, s) => ms_heap s = [L "before F<1>"]
  | _ => False
  end.
Proof. vm_compute. reflexivity. Qed.

(** ** C38 *)

(** C38: a #capture region changes no response, assigns to the variable exactly what its body
    outputs, and leaves the target of the output, the filter and the buffering as before; the
    body may contain further regions of all kinds.  (Partial: bodies that are left by an
    exception, #stop, #return or #break are not covered; see the refutations.) *)
Theorem C38_capture_partial : forall W V F E I (K : oracle W V F E I) G fuel d n sh v id lc b s ab w,
  proper s -> apart b -> ~ In id (ids b) ->
  sem K G fuel d b (inner true (view s)) = Some (ONormal, ab) ->
  quiet (o_assign K v (a_out ab)) (ms_buf s) (ms_filt s) (a_w ab) w tt ->
  exists s', exec K fuel MNo (prog G d n [] (TReg sh (RCapture v) id lc b TNil) CNil) s = Some (ONormal, s')
  /\ ms_w s' = w /\ all_same s s' /\ restored s s'.
Proof. intros W V F E I K G fuel d n sh v id lc b s ab w. exact (capture_run K G fuel d n sh v id lc b s ab w). Qed.
Print Assumptions C38_capture_partial.
Definition cap_tm : tm :=
  txt "a" (TReg false (RCapture (L "u")) (L "2") lc0 (txt "inner" TNil) (TReg true (RCall (L "fn") []) (L "3") lc0 (var "u" TNil) TNil)).
Example C38_capture_partial_ex : apart cap_tm /\ ~ In (L "1") (ids cap_tm) /\ proper (toy_top [])
  /\ match exec toy 9 MNo (prog dflt_set false 0 [] (TReg false (RCapture (L "v")) (L "1") lc0 cap_tm TNil) CNil) (toy_top []) with
     | Some (ONormal, s) => aget (L "v") (ms_w s) = Some (L "aF<fn(F<inner>)>") /\ getvalue 0 (ms_heap s) = L "before "
     | _ => False
     end.
Proof.
  split; [cbn; repeat split; intros Hi; exact Hi|].
  split; [cbn; intros Hi; repeat (destruct Hi as [Hi|Hi]; [discriminate Hi|]); exact Hi|].
  split; [vm_compute; repeat split; apply le_n|]. vm_compute. split; reflexivity.
Qed.

(** C38 fails when the body raises an exception that is caught outside: what follows, up to the
    end of the method, goes into the collector and is lost. *)
Definition cap_raise : tm :=
  txt "a" (TBlk false BTry lc0 (TReg false (RCapture (L "v")) (L "1") lc0 (txt "b" (TExpr KSilent (L "raise") TNil)) TNil)
     (MCons (MExcept (L "except")) lc0 (txt "caught " TNil) MNil) (txt "after" TNil)).
Theorem C38_exception_refuted : exists s',
  exec toy 9 MNo (prog dflt_set false 0 [] cap_raise CNil) (toy_top []) = Some (ONormal, s')
  /\ getvalue 0 (ms_heap s') = L "before a" /\ ms_trans s' <> ms_trans (toy_top []) /\ ms_buf s' = true.
Proof. eexists. split; [vm_compute; reflexivity|]. vm_compute. repeat split. discriminate. Qed.
Print Assumptions C38_exception_refuted.
(** C38 fails for #stop in the body: the method returns the text of the collector, not its own
    output. *)
Theorem C38_stop_refuted : exists x',
  call_method toy 9 (prog dflt_set false 0 [] (txt "page" (TReg false (RCapture (L "v")) (L "1") lc0
     (txt "captured" (TExpr KStop [] TNil)) TNil)) CNil) None (toy_obj []) = Some (Ok (Some (L "captured")), x')
  /\ ob_buf x' = true.
Proof. eexists. split; [vm_compute; reflexivity|reflexivity]. Qed.
Print Assumptions C38_stop_refuted.
(** C38 fails if two nested regions are given the same (random) identifier: the inner one deletes
    the names of the outer one, whose end raises a NameError. *)
Theorem C38_same_id_refuted :
  exec toy 9 MNo (prog dflt_set false 0 [] (TReg false (RCapture (L "v")) (L "1") lc0
     (TReg false (RCapture (L "u")) (L "1") lc0 TNil TNil) TNil) CNil) (toy_top []) = None
  /\ exec toy 9 MNo (prog dflt_set false 0 [] (TReg false (RCapture (L "v")) (L "1") lc0
     (TReg false (RCapture (L "u")) (L "2") lc0 TNil TNil) TNil) CNil) (toy_top []) <> None.
Proof. split; [vm_compute; reflexivity|vm_compute; discriminate]. Qed.
Print Assumptions C38_same_id_refuted.

(** ** C39 *)

(** C39, the class form: the body is executed with the new filter; after the region the filter
    from before is active, in the method and for methods called later.  (Partial, like C38: the
    body ends normally.  In all three forms the region writes what its body writes.) *)
Theorem C39_filter_class_partial : forall W V F E I (K : oracle W V F E I) G fuel d n sh f id lc b s x w y,
  proper s -> apart b -> ~ In id (ids b) ->
  quiet (o_klass K f) (ms_buf s) (ms_filt s) (ms_w s) w x ->
  sem K G fuel d b (a_set_filt x (a_set_w w (view s))) = Some (ONormal, y) ->
  exists s', exec K fuel MNo (prog G d n [] (TReg sh (RFilter f true) id lc b TNil) CNil) s = Some (ONormal, s')
  /\ view s' = a_set_filt (ms_filt s) y /\ restored s s' /\ others_same s s'.
Proof. intros W V F E I K G fuel d n sh f id lc b s x w y. exact (filter_klass_run K G fuel d n sh f id lc b s x w y). Qed.
Print Assumptions C39_filter_class_partial.
Definition filt_tm : tm := var "y" (TReg false (RFilter (L "G") false) (L "2") lc0 (var "y" TNil) (var "y" TNil)).
Example C39_filter_class_partial_ex : apart filt_tm /\ ~ In (L "1") (ids filt_tm)
  /\ match exec toy 9 MNo (prog dflt_set false 0 [] (TReg false (RFilter (L "K") true) (L "1") lc0 filt_tm (var "y" TNil)) CNil)
             (toy_top [(L "y", L "1")]) with
     | Some (ONormal, s) => getvalue 0 (ms_heap s) = L "before K<1>G<1>K<1>F<1>" /\ ms_cur s = L "F"
     | _ => False
     end.
Proof.
  split; [cbn; repeat split; intros Hi; exact Hi|].
  split; [cbn; intros Hi; repeat (destruct Hi as [Hi|Hi]; [discriminate Hi|]); exact Hi|].
  vm_compute. split; reflexivity.
Qed.

(** C39, a named filter that was used before: the same object again. *)
Theorem C39_filter_known_partial : forall W V F E I (K : oracle W V F E I) G fuel d n sh f id lc b s x y,
  proper s -> apart b -> ~ In id (ids b) -> lower f <> L "none" -> aget f (ms_flts s) = Some x ->
  sem K G fuel d b (a_set_filt x (view s)) = Some (ONormal, y) ->
  exists s', exec K fuel MNo (prog G d n [] (TReg sh (RFilter f false) id lc b TNil) CNil) s = Some (ONormal, s')
  /\ view s' = a_set_filt (ms_filt s) y /\ restored s s' /\ others_same s s'.
Proof. intros W V F E I K G fuel d n sh f id lc b s x y. exact (filter_known_run K G fuel d n sh f id lc b s x y). Qed.
Print Assumptions C39_filter_known_partial.
Example C39_filter_known_partial_ex : lower (L "G") <> L "none"
  /\ match exec toy 9 MNo (prog dflt_set false 0 [] (TReg false (RFilter (L "G") false) (L "1") lc0 filt_tm (var "y" TNil)) CNil)
             (ms_set_flts [(L "G", L "old G")] (toy_top [(L "y", L "1")])) with
     | Some (ONormal, s) => getvalue 0 (ms_heap s) = L "before old G<1>old G<1>old G<1>F<1>"
     | _ => False
     end.
Proof. vm_compute. split; [discriminate|reflexivity]. Qed.

(** C39, a named filter that was not used before: it is made, and remembered. *)
Theorem C39_filter_new_partial : forall W V F E I (K : oracle W V F E I) G fuel d n sh f id lc b s x w y,
  proper s -> apart b -> ~ In id (ids b) -> lower f <> L "none" -> aget f (ms_flts s) = None ->
  quiet (o_lib K f) (ms_buf s) (ms_filt s) (ms_w s) w x ->
  sem K G fuel d b (a_set_filt x (a_set_flts (aset f x (ms_flts s)) (a_set_w w (view s)))) = Some (ONormal, y) ->
  exists s', exec K fuel MNo (prog G d n [] (TReg sh (RFilter f false) id lc b TNil) CNil) s = Some (ONormal, s')
  /\ view s' = a_set_filt (ms_filt s) y /\ restored s s' /\ others_same s s'.
Proof. intros W V F E I K G fuel d n sh f id lc b s x w y. exact (filter_new_run K G fuel d n sh f id lc b s x w y). Qed.
Print Assumptions C39_filter_new_partial.
Example C39_filter_new_partial_ex : lower (L "G") <> L "none"
  /\ match exec toy 9 MNo (prog dflt_set false 0 [] (TReg false (RFilter (L "H") false) (L "1") lc0 filt_tm (var "y" TNil)) CNil)
             (toy_top [(L "y", L "1")]) with
     | Some (ONormal, s) => getvalue 0 (ms_heap s) = L "before H<1>G<1>H<1>F<1>"
         /\ aget (L "G") (ms_flts s) = Some (L "G") /\ aget (L "H") (ms_flts s) = Some (L "H")
     | _ => False
     end.
Proof. vm_compute. split; [discriminate|]. repeat split. Qed.

(** C39 fails for [#filter None] as far as called methods are concerned: the method uses the
    initial filter, but the attribute methods look at keeps the filter from before. *)
Theorem C39_none_refuted : exists s' m,
  exec toy 9 MNo (CLine (GSaveFilt (L "1")) [] (CLine GFiltInit [] CNil)) (toy_top []) = Some (ONormal, s')
  /\ ms_filt s' = L "Init" /\ ms_cur s' = L "F"
  /\ prog dflt_set false 0 [] (TReg false (RFilter (L "None") false) (L "1") lc0 TNil TNil) CNil
     = CLine (GSaveFilt (L "1")) [] (CLine GFiltInit [] m).
Proof. eexists _, _. split; [vm_compute; reflexivity|]. vm_compute. repeat split. Qed.
Print Assumptions C39_none_refuted.
(** C39 fails when the body raises an exception that is caught outside: the filter of the region
    stays active, also for all later calls of methods of the object. *)
Theorem C39_exception_refuted : exists x' r,
  call_method toy 9 (prog dflt_set false 0 []
    (TBlk false BTry lc0 (TReg false (RFilter (L "G") false) (L "1") lc0 (TExpr KSilent (L "raise") TNil) TNil)
     (MCons (MExcept (L "except")) lc0 (txt "caught " TNil) MNil) (var "y" TNil)) CNil) None (toy_obj [(L "y", L "1")])
  = Some (r, x') /\ r = Ok (Some (L "caught G<1>")) /\ ob_cur x' = L "G".
Proof. eexists _, _. split; [vm_compute; reflexivity|]. vm_compute. split; reflexivity. Qed.
Print Assumptions C39_exception_refuted.

(** ** C40 *)

(** C40: a #call region hands exactly the text of its body to the function and outputs the
    function's result, filtered, once; the target of the output, filter and buffering are as
    before.  (Partial, like C38.) *)
Theorem C40_call_partial : forall W V F E I (K : oracle W V F E I) G fuel d n sh fn args id lc b s ab v w1 t w2,
  proper s -> apart b -> ~ In id (ids b) ->
  g_useFilters G = true -> (g_alwaysNone G = true -> o_none K v = false) ->
  sem K G fuel d b (inner true (view s)) = Some (ONormal, ab) ->
  quiet (o_call K fn args (a_out ab)) (ms_buf s) (ms_filt s) (a_w ab) w1 v ->
  quiet (o_filter K (ms_filt s) v []) (ms_buf s) (ms_filt s) w1 w2 t ->
  exists s', exec K fuel MNo (prog G d n [] (TReg sh (RCall fn args) id lc b TNil) CNil) s = Some (ONormal, s')
  /\ ms_w s' = w2 /\ getvalue (ms_trans s) (ms_heap s') = getvalue (ms_trans s) (ms_heap s) ++ t
  /\ restored s s' /\ others_same s s'.
Proof. intros W V F E I K G fuel d n sh fn args id lc b s ab v w1 t w2. exact (call_run K G fuel d n sh fn args id lc b s ab v w1 t w2). Qed.
Print Assumptions C40_call_partial.
Example C40_call_partial_ex : apart cap_tm /\ ~ In (L "1") (ids cap_tm)
  /\ match exec toy 9 MNo (prog dflt_set false 0 [] (TReg false (RCall (L "up") []) (L "1") lc0 cap_tm TNil) CNil) (toy_top []) with
     | Some (ONormal, s) => getvalue 0 (ms_heap s) = L "before F<up(aF<fn(F<inner>)>)>"
     | _ => False
     end.
Proof.
  split; [cbn; repeat split; intros Hi; exact Hi|].
  split; [cbn; intros Hi; repeat (destruct Hi as [Hi|Hi]; [discriminate Hi|]); exact Hi|].
  vm_compute. reflexivity.
Qed.

(** C40 with #arg parts: every part's text under its name, the last one for a name given twice. *)
Theorem C40_call_args_partial : forall W V F E I (K : oracle W V F E I) G fuel d n fn args id lc a1 b more s ab l z v w1 t w2,
  proper s -> apart b -> apart_p more -> ~ In id (ids b) -> ~ In id (ids_p more) ->
  g_useFilters G = true -> (g_alwaysNone G = true -> o_none K v = false) ->
  sem K G fuel d b (inner true (view s)) = Some (ONormal, ab) ->
  parts_text K G fuel d more (inner true (back (view s) ab)) l z ->
  quiet (o_callkw K fn args (fold_left (fun kws p => aset (fst p) (snd p) kws) l [(a1, a_out ab)]))
        (ms_buf s) (ms_filt s) (a_w z) w1 v ->
  quiet (o_filter K (ms_filt s) v []) (ms_buf s) (ms_filt s) w1 w2 t ->
  exists s', exec K fuel MNo (prog G d n [] (TCall fn args id lc a1 b more TNil) CNil) s = Some (ONormal, s')
  /\ ms_w s' = w2 /\ getvalue (ms_trans s) (ms_heap s') = getvalue (ms_trans s) (ms_heap s) ++ t
  /\ restored s s' /\ others_same s s'.
Proof.
  intros W V F E I K G fuel d n fn args id lc a1 b more s ab l z v w1 t w2.
  exact (callkw_run K G fuel d n fn args id lc a1 b more s ab l z v w1 t w2).
Qed.
Print Assumptions C40_call_args_partial.
Example C40_call_args_partial_ex :
  match exec toy 9 MNo (prog dflt_set false 0 [] (TCall (L "fn") [] (L "1") lc0 (L "p") (txt "one" TNil)
           (PCons (L "q") cap_tm (PCons (L "p") (txt "two" TNil) PNil)) TNil) CNil) (toy_top []) with
  | Some (ONormal, s) => getvalue 0 (ms_heap s) = L "before F<fn(p=two;q=aF<fn(F<inner>)>;)>"
  | _ => False
  end.
Proof. vm_compute. reflexivity. Qed.

(** C40 fails when the body raises an exception that is caught outside: the output stays
    redirected and the template object is buffering for good. *)
Theorem C40_exception_refuted : exists x' r,
  call_method toy 9 (prog dflt_set false 0 []
    (txt "a" (TBlk false BTry lc0 (TReg false (RCall (L "fn") []) (L "1") lc0 (TExpr KSilent (L "raise") TNil) TNil)
     (MCons (MExcept (L "except")) lc0 (txt "caught " TNil) MNil) (txt "after" TNil))) CNil) None (toy_obj [])
  = Some (r, x') /\ r = Ok (Some (L "caught after")) /\ ob_buf x' = true.
Proof. eexists _, _. split; [vm_compute; reflexivity|]. vm_compute. split; reflexivity. Qed.
Print Assumptions C40_exception_refuted.

(** ** C67 *)

(** C67: when the region is new or its item has expired or the test says so, the body is executed
    once, its text is stored in the cache and written to the output.  (Partial: the calls on the
    cache raise no exception and the body ends normally.) *)
Theorem C67_miss_partial : forall W V F E I (K : oracle W V F E I) G fuel d n sh ci id lc b s new exp tv w1 w2 w3 w4 w5 w6 ab w7 r1 r3 r6 r7,
  let i := rid (RCache ci) id in
  let call q w w' r := quiet (o_cache K q) (ms_buf s) (ms_filt s) w w' r in
  proper s -> apart b -> ~ In i (ids b) ->
  call (QRegion i (ci_repr ci)) (ms_w s) w1 r1 ->
  call (QIsNew i) w1 w2 new ->
  call (QItem i (match ci_vary ci with Some v => v | None => StrConst_Model.repr (g_printable G) i end)) w2 w3 r3 ->
  call (QExpired i) w3 w4 exp ->
  test_says K ci (ms_buf s) (ms_filt s) w4 w5 tv ->
  fst new || fst exp || tv = true ->
  match ci_interval ci with Some m => call (QExpiry i m) w5 w6 r6 | None => w6 = w5 end ->
  sem K G fuel d b (inner false (a_set_w w6 (view s))) = Some (ONormal, ab) ->
  call (QSet i (a_out ab)) (a_w ab) w7 r7 ->
  exists s', exec K fuel MNo (prog G d n [] (TReg sh (RCache ci) id lc b TNil) CNil) s = Some (ONormal, s')
  /\ ms_w s' = w7 /\ getvalue (ms_trans s) (ms_heap s') = getvalue (ms_trans s) (ms_heap s) ++ a_out ab
  /\ restored s s' /\ others_same s s'.
Proof.
  intros W V F E I K G fuel d n sh ci id lc b s new exp tv w1 w2 w3 w4 w5 w6 ab w7 r1 r3 r6 r7.
  exact (miss_run K G fuel d n sh ci id lc b s new exp tv w1 w2 w3 w4 w5 w6 ab w7 r1 r3 r6 r7).
Qed.
Print Assumptions C67_miss_partial.
Example C67_miss_partial_ex :
  match exec toy 9 MNo (prog dflt_set false 0 [] (TReg false (RCache (mkCI [] (Some (L "9")) (Some (L "y")) (Some (L "id")) None)) (L "1") lc0
           (var "y" cap_tm) TNil) CNil) (toy_top [(L "y", L "1"); (L "cache:id", L "older")]) with
  | Some (ONormal, s) => getvalue 0 (ms_heap s) = L "before F<1>aF<fn(F<inner>)>"
      /\ aget (L "cache:id") (ms_w s) = Some (L "F<1>aF<fn(F<inner>)>")
  | _ => False
  end.
Proof. vm_compute. split; reflexivity. Qed.

(** C67: when the cached text is to be used, exactly that is written and the body is not
    executed. *)
Theorem C67_hit : forall W V F E I (K : oracle W V F E I) G fuel d n sh ci id lc b s new exp w1 w2 w3 w4 w5 w6 w7 w8 r1 r3 ref x ref',
  let i := rid (RCache ci) id in
  let call q w w' r := quiet (o_cache K q) (ms_buf s) (ms_filt s) w w' r in
  proper s -> apart b -> ~ In i (ids b) ->
  call (QRegion i (ci_repr ci)) (ms_w s) w1 r1 ->
  call (QIsNew i) w1 w2 new ->
  call (QItem i (match ci_vary ci with Some v => v | None => StrConst_Model.repr (g_printable G) i end)) w2 w3 r3 ->
  call (QExpired i) w3 w4 exp ->
  test_says K ci (ms_buf s) (ms_filt s) w4 w5 false ->
  fst new || fst exp = false ->
  call (QRefresh i) w5 w6 ref -> fst ref = true ->
  call (QRender i) w6 w7 x ->
  call (QRefresh i) w7 w8 ref' -> fst ref' = true ->
  exists s', exec K fuel MNo (prog G d n [] (TReg sh (RCache ci) id lc b TNil) CNil) s = Some (ONormal, s')
  /\ ms_w s' = w8 /\ getvalue (ms_trans s) (ms_heap s') = getvalue (ms_trans s) (ms_heap s) ++ snd x
  /\ restored s s' /\ others_same s s'.
Proof.
  intros W V F E I K G fuel d n sh ci id lc b s new exp w1 w2 w3 w4 w5 w6 w7 w8 r1 r3 ref x ref'.
  exact (hit_run K G fuel d n sh ci id lc b s new exp w1 w2 w3 w4 w5 w6 w7 w8 r1 r3 ref x ref').
Qed.
Print Assumptions C67_hit.
Example C67_hit_ex :
  match exec toy 9 MNo (prog dflt_set false 0 [] (TReg false (RCache (mkCI [] (Some (L "9")) (Some (L "y")) (Some (L "id")) None)) (L "1") lc0
           (TExpr KSilent (L "raise") TNil) TNil) CNil) (toy_top [(L "cache:id", L "older")]) with
  | Some (ONormal, s) => getvalue 0 (ms_heap s) = L "before older"
  | _ => False
  end.
Proof. vm_compute. reflexivity. Qed.

(** C67 fails for output of methods the body calls: a cache region does not set the buffering
    flag (a #capture or #call does), so such output goes to the response at once and is not
    cached; a later hit lacks it. *)
Theorem C67_direct_refuted : exists s1 s2,
  let c := prog dflt_set false 0 [] (TReg false (RCache ci0) (L "1") lc0 (txt "x" (TExpr KSilent (L "direct") TNil)) TNil) CNil in
  exec toy 9 MNo c (toy_top []) = Some (ONormal, s1) /\ exec toy 9 MNo c s1 = Some (ONormal, s2)
  /\ getvalue 0 (ms_heap s1) = L "before Dx" /\ getvalue 0 (ms_heap s2) = L "before Dxx".
Proof. eexists _, _. split; [vm_compute; reflexivity|]. split; [vm_compute; reflexivity|]. vm_compute. split; reflexivity. Qed.
Print Assumptions C67_direct_refuted.
(** C67 fails when the refresh time is reset between the two questions (another thread refreshing
    the cache): the region is output twice. *)
Definition reset : oracle world pystr pystr pystr nat :=
  mkO (o_eval toy) (o_test toy) (o_call toy) (o_callkw toy) (o_none toy) (o_str toy) (o_filter toy) (o_stmt toy)
      (o_block toy) (o_iter toy) (o_next toy) (o_count toy) (o_catch toy) (o_notfound toy) (o_keyerr toy)
      (o_assign toy) (o_klass toy) (o_lib toy) (o_init toy)
      (fun q => match q with
                | QRender i => fun b f w => let '(w, d, r) := o_cache toy q b f w in (adel (ckey i) w, d, r)
                | _ => o_cache toy q
                end).
Theorem C67_twice_refuted : exists s1,
  exec reset 9 MNo (prog dflt_set false 0 [] (TReg false (RCache ci0) (L "1") lc0 (txt "x" TNil) TNil) CNil)
     (toy_top [(L "cache:1", L "x")]) = Some (ONormal, s1)
  /\ getvalue 0 (ms_heap s1) = L "before xx".
Proof. eexists. split; vm_compute; reflexivity. Qed.
Print Assumptions C67_twice_refuted.
(** C67 fails for nested regions with the same identifier, which the user may give: the inner
    region deletes the names of the outer one (NameError). *)
Theorem C67_same_id_refuted :
  let ci := mkCI [] None None (Some (L "side")) None in
  exec toy 9 MNo (prog dflt_set false 0 [] (TReg false (RCache ci) (L "1") lc0
     (txt "a" (TReg false (RCache ci) (L "2") lc0 (txt "b" TNil) TNil)) TNil) CNil) (toy_top []) = None.
Proof. vm_compute. reflexivity. Qed.
Print Assumptions C67_same_id_refuted.
