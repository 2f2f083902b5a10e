(** Proofs about the code generator: the layout of the generated code. *)
From Verif Require Import Base PyStr Alist Gen_Model Gen_Spec.
From Verif Require Lex_Model.

(** ** Operations of the method compiler as additions to the body *)

Definition out (X : list chunk) (m : mcomp) : mcomp := set_pend [] (set_body (m_body m ++ X) m).
Definition ptext (m : mcomp) : pystr := concat (rev (m_pend m)).
Definition wr (n : nat) (p : pystr) : list chunk := layout n (flush p CNil).
Definition ch (n : nat) (l : line) : chunk := mkC n (Ln l) [].

Lemma layout_flush n p k : layout n (flush p k) = wr n p ++ layout n k.
Proof. unfold wr, flush. destruct p; reflexivity. Qed.

Lemma layout_lines n l k : layout n (lines l k) = map (ch n) l ++ layout n k.
Proof. induction l as [|x l IH]; simpl; [reflexivity|]. rewrite IH. reflexivity. Qed.

Lemma out_out X Y m : out X (out Y m) = out (Y ++ X) m.
Proof. unfold out, set_pend, set_body; simpl. rewrite app_assoc. reflexivity. Qed.

Lemma commit_out m : commit m = out (wr (m_lev m) (ptext m)) m.
Proof.
  destruct m as [nm lv pe bo ca cl cp fi re]. unfold commit, out, ptext, wr, set_pend, set_body.
  cbn [m_head m_lev m_pend m_body m_cache m_call m_capt m_filt m_rep].
  destruct pe as [|x pe].
  - simpl. rewrite app_nil_r. reflexivity.
  - destruct (concat (rev (x :: pe))); simpl.
    + rewrite app_nil_r. reflexivity.
    + reflexivity.
Qed.

Lemma ptext_out X m : ptext (out X m) = [].
Proof. reflexivity. Qed.
Lemma lev_out X m : m_lev (out X m) = m_lev m.
Proof. reflexivity. Qed.
Lemma wr_nil n : wr n [] = [].
Proof. reflexivity. Qed.

Lemma add_gl_out g m :
  add_gl g m = out (wr (m_lev m) (ptext m) ++ [mkC (m_lev m) g []]) m.
Proof.
  unfold add_gl. rewrite commit_out. unfold out, set_body, set_pend; simpl.
  rewrite <- app_assoc. reflexivity.
Qed.
Lemma add_gl_out' g X m : add_gl g (out X m) = out (X ++ [mkC (m_lev m) g []]) m.
Proof. rewrite add_gl_out, out_out. reflexivity. Qed.
Lemma add_out' l X m : add l (out X m) = out (X ++ [ch (m_lev m) l]) m.
Proof. apply add_gl_out'. Qed.

Lemma adds_out' l : forall X m,
  fold_left (fun m l => add l m) l (out X m) = out (X ++ map (ch (m_lev m)) l) m.
Proof.
  induction l as [|x l IH]; intros X m; simpl.
  - rewrite app_nil_r. reflexivity.
  - rewrite add_out', IH, <- app_assoc. reflexivity.
Qed.
Lemma adds_out l m : l <> [] ->
  fold_left (fun m l => add l m) l m = out (wr (m_lev m) (ptext m) ++ map (ch (m_lev m)) l) m.
Proof.
  destruct l as [|x l]; [congruence|]. intros _. cbn [fold_left map].
  unfold add at 2. rewrite add_gl_out, adds_out', <- app_assoc. reflexivity.
Qed.

Lemma note_out s X l g n m :
  append_note s (out (X ++ [mkC l g n]) m) = out (X ++ [mkC l g (n ++ s)]) m.
Proof.
  unfold append_note, out at 1. simpl. rewrite app_assoc, rev_app_distr. simpl.
  rewrite rev_involutive. unfold out, set_body, set_pend; simpl. rewrite <- app_assoc.
  reflexivity.
Qed.

Lemma set_lev_out n X m : set_lev n (out X m) = out X (set_lev n m).
Proof. reflexivity. Qed.
Lemma set_lev_same m : set_lev (m_lev m) m = m.
Proof. destruct m; reflexivity. Qed.
Lemma set_lev_twice a b m : set_lev a (set_lev b m) = set_lev a m.
Proof. reflexivity. Qed.

(** What a header with its note adds. *)
Definition hd_chunks (n : nat) (p : pystr) (h : head) (note : pystr) : list chunk :=
  wr n p ++ [mkC n (Hd h) note].

Lemma add_indenting_out h lc m :
  add_indenting h lc m =
  out (hd_chunks (m_lev m) (ptext m) h (match lc with Some p => gen_from p | None => [] end))
      (set_lev (S (m_lev m)) m).
Proof.
  unfold add_indenting, hd_chunks. rewrite add_gl_out. destruct lc as [p|]; simpl.
  - rewrite note_out. unfold indent. rewrite set_lev_out. reflexivity.
  - unfold indent. rewrite set_lev_out. reflexivity.
Qed.

Lemma add_suite_out h l m : l <> [] ->
  add_suite h l m =
  Ok (out (wr (m_lev m) (ptext m) ++ mkC (m_lev m) (Hd h) [] :: map (ch (S (m_lev m))) l) m).
Proof.
  intros Hl. unfold add_suite. rewrite add_gl_out. unfold indent. rewrite set_lev_out.
  rewrite adds_out'. unfold dedent. rewrite lev_out. cbn [m_lev set_lev].
  rewrite set_lev_out, set_lev_twice. change (m_lev (out _ m)) with (m_lev m).
  rewrite set_lev_same, <- app_assoc. reflexivity.
Qed.
Lemma add_suite_out' h l X m :
  add_suite h l (out X m) =
  Ok (out (X ++ mkC (m_lev m) (Hd h) [] :: map (ch (S (m_lev m))) l) m).
Proof.
  unfold add_suite. rewrite add_gl_out'. unfold indent. rewrite set_lev_out.
  rewrite adds_out'. unfold dedent. rewrite lev_out. cbn [m_lev set_lev].
  rewrite set_lev_out, set_lev_twice. change (m_lev (out _ m)) with (m_lev m).
  rewrite set_lev_same, <- app_assoc. reflexivity.
Qed.

Lemma mem_char_existsb (c : N) s : mem_char c s = existsb (fun x => (x =? c)%N) s.
Proof.
  induction s as [|x s IH]; simpl; [reflexivity|]. rewrite IH. rewrite N.eqb_sym. reflexivity.
Qed.

Lemma existsb_or {A} (f g : A -> bool) l :
  existsb (fun x => f x || g x) l = existsb f l || existsb g l.
Proof.
  induction l as [|x l IH]; simpl; [reflexivity|]. rewrite IH.
  destruct (f x), (g x), (existsb f l); reflexivity.
Qed.

Lemma show_lc_at lc : show_lc lc = at_lc lc.
Proof. reflexivity. Qed.

(** Evaluating, filtering and writing. *)
Lemma add_filtered_out G x fa raw lc X m :
  add_filtered G x fa raw lc (out X m)
  = out (X ++ layout (m_lev m) (show_code G x fa raw lc [] CNil)) m.
Proof.
  unfold add_filtered, show_code, all_args. destruct (g_alwaysNone G).
  - destruct raw as [|c r].
    + rewrite add_out'. cbn [one_line]. destruct (g_useFilters G);
        rewrite add_out', <- app_assoc; reflexivity.
    + unfold one_line. rewrite existsb_or, negb_orb.
      rewrite !mem_char_existsb.
      set (b := negb (existsb (fun x0 => (x0 =? 10)%N) (c :: r))
                && negb (existsb (fun x0 => (x0 =? 13)%N) (c :: r))).
      clearbody b. destruct b.
      * rewrite add_out'. destruct lc as [p|].
        -- unfold ch. rewrite note_out. destruct (g_useFilters G);
             rewrite add_out', <- app_assoc; reflexivity.
        -- destruct (g_useFilters G); rewrite add_out', <- app_assoc; reflexivity.
      * rewrite add_out'. destruct (g_useFilters G);
          rewrite add_out', <- app_assoc; reflexivity.
  - destruct (g_useFilters G); rewrite add_out'; reflexivity.
Qed.

Lemma layout_show G x fa raw lc tail n k :
  layout n (show_code G x fa raw lc tail k) = layout n (show_code G x fa raw lc tail CNil) ++ layout n k.
Proof. unfold show_code. destruct (g_alwaysNone G); reflexivity. Qed.

(** The same with text pending. *)
Lemma add_filtered_pend G x fa raw lc m :
  add_filtered G x fa raw lc m
  = out (wr (m_lev m) (ptext m) ++ layout (m_lev m) (show_code G x fa raw lc [] CNil)) m.
Proof.
  assert (E : add_filtered G x fa raw lc m = add_filtered G x fa raw lc (commit m)).
  { assert (A : forall l, add l m = add l (commit m)).
    { intros l. unfold add. rewrite commit_out, add_gl_out', add_gl_out. reflexivity. }
    unfold add_filtered. rewrite !A.
    destruct (g_alwaysNone G), raw, (g_useFilters G); try reflexivity;
      rewrite ?A; reflexivity. }
  rewrite E, commit_out, add_filtered_out. reflexivity.
Qed.

(** The last chunk of a filtered expression, to which the row/column remark goes. *)
Lemma show_note G x fa raw lc tail X m :
  append_note tail (out (X ++ layout (m_lev m) (show_code G x fa raw lc [] CNil)) m)
  = out (X ++ layout (m_lev m) (show_code G x fa raw lc tail CNil)) m.
Proof.
  unfold show_code. destruct (g_alwaysNone G); cbn [layout].
    change (X ++ ?a :: ?b :: []) with (X ++ [a] ++ [b]).
    rewrite (app_assoc X), note_out. rewrite <- app_assoc. reflexivity.
  - rewrite note_out. reflexivity.
Qed.

(** ** Cutting the last line *)
From Verif Require Reader_Model Reader_Spec LexLines_Proofs.

Lemma last_break_app a b : last_break (a ++ b) = last_break a || last_break b.
Proof. induction a as [|c a IH]; simpl; [reflexivity|]. rewrite IH, orb_assoc. reflexivity. Qed.

Lemma last_break_plain w : Reader_Spec.plain w -> last_break w = false.
Proof.
  intros [A B]. induction w as [|c w IH]; [reflexivity|]. cbn [last_break].
  rewrite IH; [|intros K; apply A; right; exact K|intros K; apply B; right; exact K].
  destruct (c =? 10)%N eqn:E; [exfalso; apply A; left; apply N.eqb_eq; exact E|].
  destruct (c =? 13)%N eqn:E2; [exfalso; apply B; left; apply N.eqb_eq; exact E2|]. reflexivity.
Qed.

Lemma cut_line_split a w : Reader_Spec.after_break a -> Reader_Spec.plain w ->
  cut_line (a ++ w) = a.
Proof.
  intros [->|(x & c & -> & Hc)] W.
  - destruct w as [|c w]; [reflexivity|]. cbn [app cut_line]. rewrite last_break_plain by exact W.
    reflexivity.
  - assert (B : last_break ([c] ++ w) = true).
    { cbn. destruct Hc as [-> | ->]; reflexivity. }
    rewrite <- app_assoc.
    induction x as [|y x IH].
    + cbn [app cut_line] in *. rewrite B. f_equal. destruct w as [|d w]; [reflexivity|].
      cbn [cut_line]. rewrite last_break_plain by exact W. reflexivity.
    + cbn [app]. cbn [cut_line].
      assert (E : last_break (y :: x ++ [c] ++ w) = true).
      { change (y :: x ++ [c] ++ w) with ((y :: x) ++ ([c] ++ w)).
        rewrite last_break_app, B, orb_true_r. reflexivity. }
      cbn [app] in E. cbn [app] in IH |- *. rewrite E, IH. reflexivity.
Qed.

Lemma split_exists s : exists a w, s = a ++ w /\ Reader_Spec.after_break a /\ Reader_Spec.plain w.
Proof.
  induction s as [|c s IH] using rev_ind.
  - exists [], []. split; [reflexivity|]. split; [left; reflexivity|split; intros []].
  - destruct (N.eq_dec c 10) as [->|N1]; [|destruct (N.eq_dec c 13) as [->|N2]].
    + exists (s ++ [10%N]), []. rewrite app_nil_r. split; [reflexivity|].
      split; [right; exists s, 10%N; auto|split; intros []].
    + exists (s ++ [13%N]), []. rewrite app_nil_r. split; [reflexivity|].
      split; [right; exists s, 13%N; auto|split; intros []].
    + destruct IH as (a & w & -> & A & [W1 W2]). exists a, (w ++ [c]).
      split; [symmetry; apply app_assoc|]. split; [exact A|].
      split; intros K; apply in_app_or in K; destruct K as [K|[K|[]]]; auto.
Qed.

Lemma handle_ws_cut s p :
  Lex_Model.pend (Lex_Model.handle_ws (Lex_Model.mkB (s :: p) [])) = cut_line s :: p.
Proof.
  destruct (split_exists s) as (a & w & -> & A & W).
  rewrite (cut_line_split a w A W). unfold Lex_Model.handle_ws. cbn [Lex_Model.pend Lex_Model.done].
  rewrite (LexLines_Proofs.findBOL_end a w A W).
  unfold Reader_Model.slen. rewrite app_length, Nat2Z.id.
  destruct (Z.of_nat (length a) <? Z.of_nat (length a + length w))%Z eqn:E.
  - cbn [Lex_Model.pend]. rewrite firstn_app, Nat.sub_diag, firstn_all, app_nil_r. reflexivity.
  - cbn [Lex_Model.pend]. destruct w; [rewrite app_nil_r; reflexivity|]. cbn [length] in E. lia.
Qed.

Lemma concat_rev_cons (s : pystr) p : concat (rev (s :: p)) = concat (rev p) ++ s.
Proof. cbn [rev]. rewrite concat_app. cbn [concat]. rewrite app_nil_r. reflexivity. Qed.

(** ** Regions *)

Lemma start_call_out fn args id lc m :
  start_call fn args id lc m =
  out (wr (m_lev m) (ptext m) ++ layout (m_lev m) (region_start dflt_set (RCall fn args) id lc CNil CNil))
      (set_call (mkCall id fn args lc None :: m_call m) m).
Proof.
  unfold start_call. rewrite adds_out by discriminate. unfold region_start.
  rewrite layout_lines. cbn [layout]. rewrite app_nil_r. reflexivity.
Qed.

Lemma start_capture_out v id lc m :
  start_capture v id lc m =
  out (wr (m_lev m) (ptext m) ++ layout (m_lev m) (region_start dflt_set (RCapture v) id lc CNil CNil))
      (set_capt ((id, v) :: m_capt m) m).
Proof.
  unfold start_capture. rewrite adds_out by discriminate. unfold region_start.
  rewrite layout_lines. cbn [layout]. rewrite app_nil_r. reflexivity.
Qed.

Lemma set_filter_out f kl id m :
  set_filter f kl id m =
  Ok (out (wr (m_lev m) (ptext m) ++ layout (m_lev m) (region_start dflt_set (RFilter f kl) id (0,0)%N CNil CNil))
      (set_filt (id :: m_filt m) m)).
Proof.
  unfold set_filter, region_start. cbv zeta. unfold add.
  rewrite (add_gl_out (Ln (GSaveFilt id))), !add_gl_out'.
  destruct kl.
  - rewrite <- app_assoc. reflexivity.
  - destruct (str_eqb (lower f) (L "none")).
    + rewrite <- app_assoc. reflexivity.
    + rewrite add_suite_out'. unfold bind. rewrite add_suite_out'.
      repeat rewrite <- app_assoc. reflexivity.
Qed.

Definition cid (ci : cinfo) (id : pystr) : pystr :=
  match ci_id ci with Some (c :: r) => c :: r | _ => id end.

Lemma app_cons_assoc {A} (a : list A) x b : a ++ x :: b = (a ++ [x]) ++ b.
Proof. rewrite <- app_assoc. reflexivity. Qed.

Lemma start_cache_out G ci id lc m : exists X,
  start_cache G ci id lc m =
  Ok (out (wr (m_lev m) (ptext m) ++ X)
       (set_lev (S (m_lev m)) (set_cache (cid ci id :: m_cache m) m)))
  /\ forall b k, layout (m_lev m) (region_start G (RCache ci) id lc b k)
       = X ++ layout (S (m_lev m)) b ++ layout (m_lev m) k.
Proof.
  unfold start_cache. change (cache_id ci id) with (cid ci id). set (i := cid ci id).
  cbv zeta. unfold add. rewrite (add_gl_out (Ln GBlank)).
  cbn [m_lev set_cache m_pend]. change (ptext (set_cache _ m)) with (ptext m).
  rewrite !add_gl_out'. rewrite add_suite_out'. unfold bind at 1.
  rewrite add_gl_out', add_suite_out'. unfold bind at 1.
  cbn [m_lev set_cache].
  assert (T : forall Y, exists Z, 
    (match ci_test ci with
     | Some (c :: r) => add_suite (HIf false (c :: r)) [GRecache i true]
                          (out Y (set_cache (i :: m_cache m) m))
     | _ => Ok (out Y (set_cache (i :: m_cache m) m))
     end) = Ok (out (Y ++ Z) (set_cache (i :: m_cache m) m))
    /\ forall k, layout (m_lev m) ((fun k => match ci_test ci with
                 | Some (c :: r) => CPart (HIf false (c :: r)) [] (CLine (GRecache i true) [] CNil) k
                 | _ => k end) k) = Z ++ layout (m_lev m) k).
  { intros Y. destruct (ci_test ci) as [[|c r]|].
    - exists []. rewrite app_nil_r. split; reflexivity.
    - exists [mkC (m_lev m) (Hd (HIf false (c :: r))) []; ch (S (m_lev m)) (GRecache i true)].
      rewrite add_suite_out'. split; reflexivity.
    - exists []. rewrite app_nil_r. split; reflexivity. }
  match goal with |- exists X, bind (match ci_test ci with _ => _ end) _ = _ /\ _ => idtac end.
  match goal with |- context [out ?Y (set_cache (i :: m_cache m) m)] => destruct (T Y) as (Z & TZ & TK) end.
  rewrite TZ. unfold bind at 1. clear T TZ.
  rewrite add_gl_out'. unfold indent at 1. rewrite set_lev_out.
  rewrite add_suite_out'. unfold bind at 1. rewrite add_suite_out'. unfold bind at 1.
  rewrite add_suite_out'. unfold bind at 1. unfold dedent. rewrite lev_out. cbn [m_lev set_lev].
  unfold bind at 1. rewrite set_lev_out, set_lev_twice.
  rewrite add_gl_out'. unfold indent. rewrite set_lev_out. cbn [m_lev set_lev set_cache].
  unfold add. rewrite !add_gl_out'. cbn [m_lev set_lev set_cache].
  change (m_lev (out ?x (set_cache _ m))) with (m_lev m).
  exists (map (ch (m_lev m)) [GBlank;
             GComment (L "## START CACHE REGION: ID=" ++ i ++ L ". " ++ at_lc lc
                       ++ L " in the source.");
             GRecache i false; GRegion i (ci_repr ci)]
    ++ [mkC (m_lev m) (Hd (HIsNew i)) []; ch (S (m_lev m)) (GRecache i true);
        ch (m_lev m) (GItem i (match ci_vary ci with
                       | Some v => v | None => StrConst_Model.repr (g_printable G) i end));
        mkC (m_lev m) (Hd (HExpired i)) []; ch (S (m_lev m)) (GRecache i true)]
    ++ Z
    ++ [mkC (m_lev m) (Hd (HFresh i)) []; mkC (S (m_lev m)) (Hd HTry) [];
        ch (S (S (m_lev m))) (GRender i); mkC (S (m_lev m)) (Hd HKeyErr) [];
        ch (S (S (m_lev m))) (GRecache i true); mkC (S (m_lev m)) (Hd HElse) [];
        ch (S (S (m_lev m))) GWriteOut; ch (S (S (m_lev m))) GDelOut;
        mkC (m_lev m) (Hd (HStale i)) []]
    ++ map (ch (S (m_lev m))) ([GSaveTrans i; GCollect TgCache i; GWriteTo TgCache i]
                 ++ match ci_interval ci with Some n => [GExpiry i n] | None => [] end)).
  split.
  - destruct (ci_interval ci); rewrite ?add_gl_out'; cbn [m_lev set_lev set_cache map app];
      repeat rewrite <- app_assoc; cbn [app]; reflexivity.
  - intros b k. unfold region_start. fold (cid ci id). fold i. cbv zeta.
    rewrite layout_lines. cbn [layout]. rewrite TK. cbn [layout app].
    rewrite !layout_lines. cbn [map app layout].
    repeat (rewrite <- app_assoc; cbn [app]). reflexivity.
Qed.

(** ** #set global *)
Lemma find_ch_none c s : forall i, ~ In c s -> find_ch c s i = (-1)%Z.
Proof.
  induction s as [|x s IH]; intros i H; [reflexivity|]. cbn [find_ch].
  destruct (N.eqb_spec x c) as [Ex|Ex]; [contradiction H; left; exact Ex|]. apply IH. intros Hi. apply H. right. exact Hi.
Qed.
Lemma find_ch_app c s t : forall i, ~ In c s -> find_ch c (s ++ t) i = find_ch c t (i + Z.of_nat (length s)).
Proof.
  induction s as [|x s IH]; intros i H; cbn [app length]; [f_equal; lia|]. cbn [find_ch].
  destruct (N.eqb_spec x c) as [Ex|Ex]; [contradiction H; left; exact Ex|].
  rewrite IH by (intros Hi; apply H; right; exact Hi). f_equal. lia.
Qed.
Lemma find_ch_ge c s : forall i, (find_ch c s i = -1 \/ i <= find_ch c s i)%Z.
Proof.
  induction s as [|x s IH]; intros i; cbn [find_ch]; [left; reflexivity|].
  destruct (x =? c)%N; [right; lia|]. destruct (IH (i + 1)%Z); [left; assumption|right; lia].
Qed.
Lemma set_split_ok prim sec : prim <> [] -> ~ In 46%N prim -> ~ In 91%N prim ->
  (sec = [] -> set_split (prim ++ sec) = -1)%Z
  /\ (forall c r, sec = c :: r -> c = 46%N \/ c = 91%N -> set_split (prim ++ sec) = Z.of_nat (length prim)).
Proof.
  intros Hp H1 H2. assert (Hl : (0 < Z.of_nat (length prim))%Z) by (destruct prim; [contradiction Hp; reflexivity|cbn [length]; lia]).
  unfold set_split. rewrite !find_ch_app by assumption. split.
  - intros ->. reflexivity.
  - intros c r -> Hc. cbn [find_ch]. remember (0 + Z.of_nat (length prim))%Z as n eqn:En.
    pose proof (find_ch_ge 91 r (n + 1)%Z) as G1. pose proof (find_ch_ge 46 r (n + 1)%Z) as G2.
    destruct Hc as [-> | ->]; cbn [N.eqb Pos.eqb].
    + destruct (0 <? n)%Z eqn:E1; [|lia]. cbn [andb].
      destruct (find_ch 91 r (n + 1) =? -1)%Z eqn:E2; [lia|].
      destruct (n <? Z.max (find_ch 91 r (n + 1)) 0)%Z eqn:E3; lia.
    + destruct (n =? -1)%Z eqn:E2; [lia|]. rewrite andb_false_r.
      destruct ((0 <? find_ch 46 r (n + 1)) && (find_ch 46 r (n + 1) <? Z.max n 0))%Z eqn:E3; lia.
Qed.
Lemma set_global_ok prim sec op rv : prim <> [] ->
  ~ In 46%N prim -> ~ In 91%N prim ->
  sec = [] \/ (exists c r, sec = c :: r /\ (c = 46%N \/ c = 91%N)) ->
  set_global_text (prim ++ sec) op rv
  = L "self._CHEETAH__globalSetVars[" ++ [34%N] ++ prim ++ [34%N] ++ L "]" ++ sec ++ L " " ++ op ++ L " " ++ strip rv.
Proof.
  intros Hp H1 H2 Hs. destruct (set_split_ok prim sec Hp H1 H2) as [A B]. unfold set_global_text.
  destruct Hs as [->|(c & r & -> & Hc)].
  - rewrite (A eq_refl). cbn [Z.ltb]. rewrite app_nil_r. reflexivity.
  - rewrite (B c r eq_refl Hc). cbv zeta.
    assert (Hl : (0 <? Z.of_nat (length prim))%Z = true) by (destruct prim; [contradiction Hp; reflexivity|cbn [length]; lia]).
    rewrite Hl, Nat2Z.id, firstn_app, skipn_app, firstn_all, skipn_all, Nat.sub_diag. cbn [firstn skipn app].
    rewrite app_nil_r. reflexivity.
Qed.
