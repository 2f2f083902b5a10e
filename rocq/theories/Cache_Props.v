(** C14-C17: the memory cache store, cached regions and refreshCache. *)
From Verif Require Import Base PyStr Alist Cache_Model Cache_Spec Cache_Proofs.
Local Open Scope Z_scope.

(** A digest, prefixes and intervals used in the examples. *)
Definition ex_md5 (s : pystr) : pystr := firstn 4 (s ++ [0; 0; 0; 0]%N).
Definition ex_prefix (t : N) : pystr := str_of_N t.
Definition ex_interval (t : N) (r : pystr) : option Z := if str_eqb r (L "a") then Some 10 else None.

Example ex_md5_ok : md5_ok ex_md5 [L "x"; L "y"; L "x"; []].
Proof.
  split; intros a b Ha Hb; simpl in Ha, Hb;
    repeat (destruct Ha as [Ha|Ha]; [subst a|]); try contradiction;
    repeat (destruct Hb as [Hb|Hb]; [subst b|]); try contradiction; vm_compute; congruence.
Qed.
Example ex_prefix_ok : prefix_ok ex_prefix.
Proof.
  split; [intros t H; apply str_of_N_digits in H; lia|intros t u; apply str_of_N_inj].
Qed.
Example ex_interval_ok : pos_intervals ex_interval.
Proof. intros t r i. unfold ex_interval. destruct (str_eqb r (L "a")); intros E; inversion E; lia. Qed.

(** ** C14.  Full statement: [st_run] refines [spec_run] for every history.  It is false (below).
    Missing here: [replace], and [add]/[delete] on keys whose expiry time has passed. *)
Theorem C14_store_refines_map_partial : forall ops t0 rs d,
  monotone_from t0 (map fst ops) -> no_replace ops -> never_tests_expired ops ->
  st_run [] ops = (rs, d) -> exists m, spec_run smap_empty ops rs m.
Proof. exact store_refines. Qed.
Print Assumptions C14_store_refines_map_partial.
Definition ex_sops : list (Z * sop) :=
  [(1, SAdd (L "k") (L "v") 5); (2, SAdd (L "k") (L "w") 0); (3, SGet (L "k")); (6, SGet (L "k"));
   (7, SSet (L "j") (L "u") 0); (8, SDelete (L "j")); (9, SDelete (L "j"))].
Example C14_store_refines_map_partial_ex :
  monotone_from 1 (map fst ex_sops) /\ no_replace ex_sops /\ never_tests_expired ex_sops /\
  fst (st_run [] ex_sops) = [SDone; SExn StoreError; SVal (L "v"); SExn KeyError; SDone; SDone; SExn KeyError].
Proof.
  split; [simpl; lia|]. split; [intros now k v t H; simpl in H; intuition congruence|].
  split; [|vm_compute; reflexivity].
  intros a now op b k now' op' e E T I S. unfold ex_sops in E.
  assert (Q : In (now', op') ex_sops) by (unfold ex_sops; rewrite E; apply in_or_app; auto).
  assert (Q2 : In (now, op) ex_sops) by (unfold ex_sops; rewrite E; apply in_or_app; right; left; reflexivity).
  unfold ex_sops in Q, Q2. simpl in Q, Q2. unfold expired.
  repeat (destruct Q as [Q|Q]; [inversion Q; subst now' op'; simpl in S; try contradiction;
    destruct S as [<- <-];
    repeat (destruct Q2 as [Q2|Q2]; [inversion Q2; subst now op; simpl in T; try contradiction; try discriminate; try lia|]);
    contradiction|]); contradiction.
Qed.

(** Reading, for every history of calls of any kind. *)
Theorem C14_get_returns_last_write : forall ops t0 now rs d k,
  monotone_from t0 (map fst ops ++ [now]) -> st_run [] ops = (rs, d) ->
  let m := last_write (rev (combine (map snd ops) rs)) in
  (forall v, fst (st_step d now (SGet k)) = SVal v <-> live m now k v) /\
  (fst (st_step d now (SGet k)) = SExn KeyError <-> ~ present m now k).
Proof. exact store_get. Qed.
Print Assumptions C14_get_returns_last_write.
Example C14_get_returns_last_write_ex :
  monotone_from 1 (map fst [(1, SReplace (L "k") (L "v") 5); (2, SReplace (L "k") (L "w") 9)] ++ [4]) /\
  fst (st_step (snd (st_run [] [(1, SReplace (L "k") (L "v") 5); (2, SReplace (L "k") (L "w") 9)])) 4
         (SGet (L "k"))) = SVal (L "v").
Proof. split; [simpl; lia|vm_compute; reflexivity]. Qed.

Theorem C14_replace_refuted : exists ops rs d, monotone_from 0 (map fst ops) /\
  st_run [] ops = (rs, d) /\ ~ exists m, spec_run smap_empty ops rs m.
Proof.
  exists [(1, SReplace (L "k") (L "v") 0)], [SDone], [(L "k", (L "v", 0))].
  split; [simpl; lia|]. split; [vm_compute; reflexivity|].
  intros [m H]. inversion H as [|? ? ? ? ? ? ? ? S ?]; subst. inversion S as [| | |? ? ? ? P| | | | | |]; subst.
  destruct P as [v [e [P _]]]. discriminate.
Qed.
Print Assumptions C14_replace_refuted.

(** [replace] of a present key raises, contrary to the contract. *)
Theorem C14_replace_present_refuted : exists ops rs d, monotone_from 0 (map fst ops) /\
  st_run [] ops = (rs, d) /\ ~ exists m, spec_run smap_empty ops rs m.
Proof.
  exists [(1, SSet (L "k") (L "v") 0); (2, SReplace (L "k") (L "w") 0)], [SDone; SExn StoreError],
    [(L "k", (L "v", 0))].
  split; [simpl; lia|]. split; [vm_compute; reflexivity|].
  intros [m H]. inversion H as [|? ? ? ? ? ? ? ? S1 H1]; subst. inversion S1 as [? ? ? ? U| | | | | | | | |]; subst.
  inversion H1 as [|? ? ? ? ? ? ? ? S2 H2]; subst. inversion S2 as [| | | |? ? ? ? P| | | | |]; subst.
  apply P. exists (L "v"), 0. split; [apply U|]. intros [X _]. apply X. reflexivity.
Qed.
Print Assumptions C14_replace_present_refuted.

(** [add] of a key whose entry expired raises as long as nobody has read the key. *)
Theorem C14_add_expired_refuted : exists ops rs d, monotone_from 0 (map fst ops) /\ no_replace ops /\
  st_run [] ops = (rs, d) /\ ~ exists m, spec_run smap_empty ops rs m.
Proof.
  exists [(1, SSet (L "k") (L "v") 2); (3, SAdd (L "k") (L "w") 0)], [SDone; SExn StoreError],
    [(L "k", (L "v", 2))].
  split; [simpl; lia|]. split; [intros now k v t H; simpl in H; intuition congruence|].
  split; [vm_compute; reflexivity|].
  intros [m H]. inversion H as [|? ? ? ? ? ? ? ? S1 H1]; subst. inversion S1 as [? ? ? ? U| | | | | | | | |]; subst.
  inversion H1 as [|? ? ? ? ? ? ? ? S2 H2]; subst. inversion S2 as [| |? ? ? ? P| | | | | | |]; subst.
  destruct P as [v [e [P Q]]]. rewrite (proj1 U) in P. inversion P; subst. apply Q. split; lia.
Qed.
Print Assumptions C14_add_expired_refuted.

(** ** C15 *)
Theorem C15_serve_or_execute : forall md5 prefix interval ops tid rid vid test body t1 t2 t3 t4 oc,
  fst (render md5 prefix interval (snd (crun md5 prefix interval ops)) tid rid vid test body t1 t2 t3 t4) = oc ->
  (exists o, oc = Served o /\ test = false) \/ (exists o, oc = Executed o /\ body = Some o) \/
  (exists e, oc = Failed e /\ (body = None \/ is_ascii vid = false)).
Proof. exact top_outcomes. Qed.
Print Assumptions C15_serve_or_execute.
Definition ex_ops : list cop :=
  [ORender 1 (L "a") (L "x") false (Some (L "one")) 1 1 1 2;
   ORender 1 (L "a") (L "y") false (Some (L "two")) 3 3 3 3;
   ORender 1 (L "a") (L "x") false (Some (L "three")) 4 4 4 4].
Example C15_serve_or_execute_ex :
  fst (render ex_md5 ex_prefix ex_interval (snd (crun ex_md5 ex_prefix ex_interval ex_ops))
         1 (L "a") (L "x") false (Some (L "new")) 11 11 12 13) = Served (L "one").
Proof. vm_compute. reflexivity. Qed.

Theorem C15_never_stale : forall md5 prefix interval ops tid rid vid test body t1 t2 t3 t4 o,
  md5_ok md5 (vid :: ids ops) -> prefix_ok prefix -> pos_intervals interval ->
  monotone_from 1 (flat_map readings ops) ->
  fst (render md5 prefix interval (snd (crun md5 prefix interval ops)) tid rid vid test body t1 t2 t3 t4)
    = Served o ->
  exists s, last_exec (fst (crun md5 prefix interval ops)) tid rid vid = Some (o, s) /\
    fresh (interval tid rid) s t2.
Proof. exact top_sound. Qed.
Print Assumptions C15_never_stale.
Example C15_never_stale_ex :
  md5_ok ex_md5 (L "x" :: ids ex_ops) /\ prefix_ok ex_prefix /\ pos_intervals ex_interval /\
  monotone_from 1 (flat_map readings ex_ops) /\
  fst (render ex_md5 ex_prefix ex_interval (snd (crun ex_md5 ex_prefix ex_interval ex_ops))
         1 (L "a") (L "x") false (Some (L "new")) 11 11 12 13) = Served (L "one") /\
  fst (render ex_md5 ex_prefix ex_interval (snd (crun ex_md5 ex_prefix ex_interval ex_ops))
         1 (L "a") (L "x") false (Some (L "new")) 12 12 12 13) = Executed (L "new").
Proof.
  split; [|split; [exact ex_prefix_ok|split; [exact ex_interval_ok|]]].
  - destruct ex_md5_ok as [A B].
    assert (Q : incl (L "x" :: ids ex_ops) [L "x"; L "y"; L "x"; []])
      by (intros z; simpl; tauto).
    split; intros; [apply A|apply B]; auto.
  - split; [simpl; lia|]. split; vm_compute; reflexivity.
Qed.

(** The converse.  [last_sure] also forgets an execution at a refresh that raised. *)
Theorem C15_served_while_fresh : forall md5 prefix interval ops tid rid vid body t1 t2 t3 t4 o s,
  md5_ok md5 (vid :: ids ops) -> prefix_ok prefix -> pos_intervals interval ->
  monotone_from 1 (flat_map readings ops ++ [t1; t2]) ->
  last_sure (fst (crun md5 prefix interval ops)) tid rid vid = Some (o, s) ->
  fresh (interval tid rid) s t2 ->
  fst (render md5 prefix interval (snd (crun md5 prefix interval ops)) tid rid vid false body t1 t2 t3 t4)
    = Served o.
Proof. exact top_live. Qed.
Print Assumptions C15_served_while_fresh.
Example C15_served_while_fresh_ex :
  monotone_from 1 (flat_map readings ex_ops ++ [11; 11]) /\
  last_sure (fst (crun ex_md5 ex_prefix ex_interval ex_ops)) 1 (L "a") (L "x") = Some (L "one", 1) /\
  fresh (ex_interval 1 (L "a")) 1 11.
Proof. split; [simpl; lia|]. split; [vm_compute; reflexivity|]. vm_compute. congruence. Qed.

(** ** C16 *)
Theorem C16_keys_distinct : forall md5 prefix l t r v t' r' v',
  md5_ok md5 l -> prefix_ok prefix -> In v l -> In v' l ->
  item_key prefix t r (md5 v) = item_key prefix t' r' (md5 v') -> t = t' /\ r = r' /\ v = v'.
Proof. exact (fun md5 prefix => key_inj md5 prefix (fun _ _ => None)). Qed.
Print Assumptions C16_keys_distinct.
Example C16_keys_distinct_ex : md5_ok ex_md5 [L "x"; L "y"; L "x"; []] /\ prefix_ok ex_prefix /\
  item_key ex_prefix 12 (L "a:b") (ex_md5 (L "x")) <> item_key ex_prefix 12 (L "a") (ex_md5 (L "x")).
Proof. split; [exact ex_md5_ok|]. split; [exact ex_prefix_ok|]. vm_compute. congruence. Qed.

(** Whatever is served was produced by this template, this region and this item, in every history
    of all templates that share the store. *)
Theorem C16_items_isolated : forall md5 prefix interval ops tid rid vid test body t1 t2 t3 t4 o,
  md5_ok md5 (vid :: ids ops) -> prefix_ok prefix ->
  fst (render md5 prefix interval (snd (crun md5 prefix interval ops)) tid rid vid test body t1 t2 t3 t4)
    = Served o ->
  exists s, last_exec (fst (crun md5 prefix interval ops)) tid rid vid = Some (o, s).
Proof. exact top_own. Qed.
Print Assumptions C16_items_isolated.
Definition ex_two : list cop :=
  [ORender 1 (L "a") (L "x") false (Some (L "one")) 1 1 1 2;
   ORender 2 (L "a") (L "x") false (Some (L "two")) 3 3 3 3].
Example C16_items_isolated_ex :
  fst (render ex_md5 ex_prefix ex_interval (snd (crun ex_md5 ex_prefix ex_interval ex_two))
         1 (L "a") (L "x") false None 11 11 12 13) = Served (L "one") /\
  fst (render ex_md5 ex_prefix ex_interval (snd (crun ex_md5 ex_prefix ex_interval ex_two))
         2 (L "a") (L "x") false None 11 11 12 13) = Served (L "two").
Proof. split; vm_compute; reflexivity. Qed.

(** With custom prefixes (Cheetah/Template.py:1382) that contain a colon, two templates can share an entry:
    distinct prefixes are not enough. *)
Theorem C16_colon_prefix_refuted : exists md5 prefix interval ops tid rid vid o,
  md5_ok md5 (vid :: ids ops) /\ (forall t u, prefix t = prefix u -> t = u) /\
  fst (render md5 prefix interval (snd (crun md5 prefix interval ops)) tid rid vid false None 9 9 9 9) = Served o /\
  forall s, last_exec (fst (crun md5 prefix interval ops)) tid rid vid <> Some (o, s).
Proof.
  exists ex_md5, (fun t => if (t =? 1)%N then L "a:b" else if (t =? 2)%N then L "a" else str_of_N t),
    (fun _ _ => None),
    [ORender 1 (L "c") (L "x") false (Some (L "one")) 1 1 1 2;
     ORender 2 (L "b:c") (L "x") false (Some (L "two")) 3 3 3 3], 1%N, (L "c"), (L "x"), (L "two").
  split; [|split; [|split; [vm_compute; reflexivity|intros s; vm_compute; congruence]]].
  - split; intros a b Ha Hb; simpl in Ha, Hb;
    repeat (destruct Ha as [Ha|Ha]; [subst a|]); try contradiction;
    repeat (destruct Hb as [Hb|Hb]; [subst b|]); try contradiction; vm_compute; congruence.
  - assert (D : forall t c, In c (str_of_N t) -> (48 <= c <= 57)%N) by apply str_of_N_digits.
    intros t u.
    destruct (N.eqb_spec t 1), (N.eqb_spec u 1), (N.eqb_spec t 2), (N.eqb_spec u 2); subst; try congruence;
      try discriminate; intros E; try (apply str_of_N_inj; exact E).
    + specialize (D u 97%N). rewrite <- E in D. specialize (D (or_introl eq_refl)). lia.
    + specialize (D t 97%N). rewrite E in D. specialize (D (or_introl eq_refl)). lia.
    + specialize (D u 97%N). rewrite <- E in D. specialize (D (or_introl eq_refl)). lia.
    + specialize (D t 97%N). rewrite E in D. specialize (D (or_introl eq_refl)). lia.
Qed.
Print Assumptions C16_colon_prefix_refuted.

(** Different varyBy values with the same [str] share one entry. *)
Theorem C16_varyby_values_refuted : exists md5 prefix interval (a b : vval) o,
  a <> b /\ prefix_ok prefix /\ md5_ok md5 [vval_str a; vval_str b] /\
  fst (render md5 prefix interval
         (snd (crun md5 prefix interval [ORender 1 (L "r") (vval_str a) false (Some o) 1 1 1 1]))
         1 (L "r") (vval_str b) false None 2 2 2 2) = Served o.
Proof.
  exists ex_md5, ex_prefix, ex_interval, (VInt 1), (VStr (L "1")), (L "one").
  split; [discriminate|]. split; [exact ex_prefix_ok|]. split; [|vm_compute; reflexivity].
  split; intros a b Ha Hb; simpl in Ha, Hb;
    repeat (destruct Ha as [Ha|Ha]; [subst a|]); try contradiction;
    repeat (destruct Hb as [Hb|Hb]; [subst b|]); try contradiction; vm_compute; congruence.
Qed.
Print Assumptions C16_varyby_values_refuted.

(** ** C17 *)
Theorem C17_refreshed_is_not_served : forall md5 prefix interval ops tid r0 v0 rid vid test body t1 t2 t3 t4 o,
  md5_ok md5 (vid :: v0 :: ids ops) -> prefix_ok prefix ->
  fst (refresh md5 prefix (snd (crun md5 prefix interval ops)) tid r0 v0) = None ->
  affects r0 v0 rid vid = true ->
  fst (render md5 prefix interval (snd (refresh md5 prefix (snd (crun md5 prefix interval ops)) tid r0 v0))
         tid rid vid test body t1 t2 t3 t4) <> Served o.
Proof. exact top_refreshed. Qed.
Print Assumptions C17_refreshed_is_not_served.
Example C17_refreshed_is_not_served_ex :
  let w := snd (crun ex_md5 ex_prefix ex_interval ex_ops) in
  fst (refresh ex_md5 ex_prefix w 1 (L "a") (L "x")) = None /\
  affects (L "a") (L "x") (L "a") (L "x") = true /\
  fst (render ex_md5 ex_prefix ex_interval (snd (refresh ex_md5 ex_prefix w 1 (L "a") (L "x")))
         1 (L "a") (L "x") false (Some (L "new")) 5 5 5 5) = Executed (L "new").
Proof. repeat split; vm_compute; reflexivity. Qed.

(** Items not concerned by a refresh keep being served: [C15_served_while_fresh] with [last_sure],
    which only forgets items a refresh concerns.  Spelled out: *)
Theorem C17_unaffected_still_served : forall md5 prefix interval ops tid r0 v0 tid' rid vid body t1 t2 t3 t4 o s,
  md5_ok md5 (vid :: ids (ops ++ [ORefresh tid r0 v0])) -> prefix_ok prefix -> pos_intervals interval ->
  monotone_from 1 (flat_map readings ops ++ [t1; t2]) ->
  (tid' <> tid \/ affects r0 v0 rid vid = false) ->
  last_sure (fst (crun md5 prefix interval ops)) tid' rid vid = Some (o, s) ->
  fresh (interval tid' rid) s t2 ->
  fst (render md5 prefix interval (snd (crun md5 prefix interval (ops ++ [ORefresh tid r0 v0])))
         tid' rid vid false body t1 t2 t3 t4) = Served o.
Proof. exact top_unaffected. Qed.
Print Assumptions C17_unaffected_still_served.
Example C17_unaffected_still_served_ex :
  affects (L "a") (L "x") (L "a") (L "y") = false /\
  last_sure (fst (crun ex_md5 ex_prefix ex_interval ex_ops)) 1 (L "a") (L "y") = Some (L "two", 3) /\
  monotone_from 1 (flat_map readings ex_ops ++ [11; 11]) /\
  fst (render ex_md5 ex_prefix ex_interval
         (snd (crun ex_md5 ex_prefix ex_interval (ex_ops ++ [ORefresh 1 (L "a") (L "x")])))
         1 (L "a") (L "y") false None 11 11 12 13) = Served (L "two").
Proof. repeat split; try (simpl; lia); vm_compute; reflexivity. Qed.

(** Full statement: [refresh] never raises.  Proved for histories without failed renderings and
    without single-item refreshes; missing: the histories of the two refutations below. *)
Theorem C17_refresh_never_raises_partial : forall md5 prefix interval ops,
  md5_ok md5 (ids ops) -> prefix_ok prefix -> Forall region_wide ops ->
  (forall tid rid vid, ~ In (EvFail tid rid vid) (fst (crun md5 prefix interval ops))) ->
  forall tid rid vid, ~ In (EvRefresh tid rid vid false) (fst (crun md5 prefix interval ops)).
Proof. exact top_refresh_ok. Qed.
Print Assumptions C17_refresh_never_raises_partial.
Definition ex_rops := ex_ops ++ [ORefresh 1 (L "a") []; ORefresh 1 [] []; ORender 1 (L "a") (L "x") false (Some []) 5 5 5 5; ORefresh 1 [] []].
Example C17_refresh_never_raises_partial_ex : Forall region_wide ex_rops /\
  fst (crun ex_md5 ex_prefix ex_interval ex_rops) =
  [EvRefresh 1 [] [] true; EvExec 1 (L "a") (L "x") [] 5; EvRefresh 1 [] [] true; EvRefresh 1 (L "a") [] true;
   EvServe 1 (L "a") (L "x") (L "one"); EvExec 1 (L "a") (L "y") (L "two") 3; EvExec 1 (L "a") (L "x") (L "one") 1].
Proof. split; [repeat constructor|vm_compute; reflexivity]. Qed.

(** An item never rendered. *)
Theorem C17_unknown_item_refuted : exists md5 prefix interval ops,
  md5_ok md5 (ids ops) /\ prefix_ok prefix /\
  (forall tid rid vid, ~ In (EvFail tid rid vid) (fst (crun md5 prefix interval ops))) /\
  In (EvRefresh 1 (L "a") (L "y") false) (fst (crun md5 prefix interval ops)).
Proof.
  exists ex_md5, ex_prefix, ex_interval,
    [ORender 1 (L "a") (L "x") false (Some (L "one")) 1 1 1 2; ORefresh 1 (L "a") (L "y")].
  split; [|split; [exact ex_prefix_ok|split; [|vm_compute; auto]]].
  - split; intros a b Ha Hb; simpl in Ha, Hb;
    repeat (destruct Ha as [Ha|Ha]; [subst a|]); try contradiction;
    repeat (destruct Hb as [Hb|Hb]; [subst b|]); try contradiction; vm_compute; congruence.
  - intros t r v. vm_compute. intuition discriminate.
Qed.
Print Assumptions C17_unknown_item_refuted.

(** Refreshing one item and then the whole template raises, and leaves the rest cached. *)
Theorem C17_refresh_after_item_refuted : exists md5 prefix interval ops o,
  md5_ok md5 (ids ops) /\ prefix_ok prefix /\
  (forall tid rid vid, ~ In (EvFail tid rid vid) (fst (crun md5 prefix interval ops))) /\
  In (EvRefresh 1 [] [] false) (fst (crun md5 prefix interval ops)) /\
  fst (render md5 prefix interval (snd (crun md5 prefix interval ops)) 1 (L "b") (L "x") false None 4 4 4 4)
    = Served o.
Proof.
  exists ex_md5, ex_prefix, ex_interval,
    [ORender 1 (L "a") (L "x") false (Some (L "one")) 1 1 1 2;
     ORender 1 (L "b") (L "x") false (Some (L "two")) 2 2 2 2;
     ORefresh 1 (L "a") (L "x"); ORefresh 1 [] []], (L "two").
  split; [|split; [exact ex_prefix_ok|split; [|split; [vm_compute; auto|vm_compute; reflexivity]]]].
  - split; intros a b Ha Hb; simpl in Ha, Hb;
    repeat (destruct Ha as [Ha|Ha]; [subst a|]); try contradiction;
    repeat (destruct Hb as [Hb|Hb]; [subst b|]); try contradiction; vm_compute; congruence.
  - intros t r v. vm_compute. intuition discriminate.
Qed.
Print Assumptions C17_refresh_after_item_refuted.
