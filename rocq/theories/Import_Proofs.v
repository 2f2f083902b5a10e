(** Proofs for imports and #extends. *)
From Verif Require Import Base PyStr Import_Model Import_Spec.
Local Open Scope N_scope.

Lemma streq_refl : forall s, str_eqb s s = true.
Proof. intros s. destruct (str_eqb_spec s s); congruence. Qed.

(** ** Words *)

Lemma split_ws_gap : forall g cur t, gap g -> g <> [] ->
  split_ws_aux cur (g ++ t) = match cur with [] => split_ws_aux [] t | _ => rev cur :: split_ws_aux [] t end.
Proof.
  induction g as [|c g IH]; intros cur t H Hn; [congruence|]. cbn [app split_ws_aux].
  rewrite (H c (or_introl eq_refl)).
  assert (HE : split_ws_aux [] (g ++ t) = split_ws_aux [] t).
  { destruct g as [|d g]; [reflexivity|]. apply (IH [] t); [intros x Hx; apply H; right; exact Hx|discriminate]. }
  rewrite HE. destruct cur; reflexivity.
Qed.

Lemma split_ws_word : forall w cur t, (forall c, In c w -> is_space c = false) ->
  split_ws_aux cur (w ++ t) = split_ws_aux (rev w ++ cur) t.
Proof.
  induction w as [|c w IH]; intros cur t H; [reflexivity|]. cbn [app split_ws_aux].
  rewrite (H c (or_introl eq_refl)). rewrite IH by (intros d Hd; apply H; right; exact Hd).
  cbn [rev]. rewrite <- app_assoc. reflexivity.
Qed.

Lemma split_ws_lead : forall g t, gap g -> split_ws_aux [] (g ++ t) = split_ws_aux [] t.
Proof. intros [|c g] t H; [reflexivity|]. rewrite split_ws_gap by (auto; discriminate). reflexivity. Qed.

Lemma split_ws_trail : forall cur g, gap g -> cur <> [] -> split_ws_aux cur g = [rev cur].
Proof.
  intros cur [|c g] H Hn.
  - cbn [split_ws_aux]. destruct cur; [congruence|reflexivity].
  - rewrite <- (app_nil_r (c :: g)). rewrite split_ws_gap by (auto; discriminate).
    destruct cur; [congruence|reflexivity].
Qed.

Lemma rev_ne : forall (w : pystr) cur, w <> [] -> rev w ++ cur <> [].
Proof. intros w cur H E. apply app_eq_nil in E as [E _]. apply H. rewrite <- (rev_involutive w), E. reflexivity. Qed.

(** The words of an item end with its name. *)
Lemma item_words : forall it, item_ok it -> exists ws, split_ws (item_text it) = ws ++ [item_name it].
Proof.
  intros [l p al t] (H1 & (Hp & H2) & H3 & H4). unfold split_ws, item_text, item_name.
  cbn [it_lead it_path it_alias it_trail] in *. rewrite split_ws_lead by exact H1.
  rewrite split_ws_word by (intros c Hc; apply H2; exact Hc). rewrite app_nil_r.
  destruct al as [[[a b] n]|].
  - destruct H4 as ((Ha & Hna) & (Hb & Hnb) & (Hn & H5)).
    rewrite <- !app_assoc. rewrite split_ws_gap by assumption.
    assert (Hr : rev p <> []) by (intros E; apply Hp; rewrite <- (rev_involutive p), E; reflexivity).
    destruct (rev p) as [|x xs] eqn:Er; [congruence|]. rewrite <- Er, rev_involutive.
    rewrite split_ws_word by (intros c [<-|[<-|[]]]; reflexivity).
    rewrite split_ws_gap by assumption. rewrite app_nil_r.
    change (rev (L "as")) with [115; 97]. cbv iota.
    rewrite split_ws_word by (intros c Hc; apply H5; exact Hc). rewrite app_nil_r.
    rewrite split_ws_trail; [|exact H3|intros E; apply Hn; rewrite <- (rev_involutive n), E; reflexivity].
    rewrite rev_involutive. exists [p; rev [115; 97]]. reflexivity.
  - cbn [app]. rewrite split_ws_trail; [|exact H3|intros E; apply Hp; rewrite <- (rev_involutive p), E; reflexivity].
    rewrite rev_involutive. exists []. reflexivity.
Qed.

(** Text in front of white space does not change the words behind it. *)
Lemma split_ws_front : forall y cur c t, is_space c = true ->
  exists ws, split_ws_aux cur (y ++ c :: t) = ws ++ split_ws_aux [] (c :: t).
Proof.
  induction y as [|x y IH]; intros cur c t H.
  - cbn [app split_ws_aux]. rewrite H. destruct cur; [exists []|eexists [_]]; reflexivity.
  - cbn [app split_ws_aux]. destruct (is_space x).
    + destruct (IH [] c t H) as (ws & E). cbn [split_ws_aux] in E. rewrite H in E.
      destruct cur; rewrite E; [exists ws|exists (rev (n :: cur) :: ws)]; cbn [split_ws_aux]; rewrite ?H; reflexivity.
    + destruct (IH (x :: cur) c t H) as (ws & E). exists ws. exact E.
Qed.

Lemma item_words_front : forall y it, item_ok it -> it_lead it <> [] ->
  exists ws, split_ws (y ++ item_text it) = ws ++ [item_name it].
Proof.
  intros y it H Hl. destruct (item_words it H) as (ws & E). unfold split_ws in *.
  destruct H as (Hg & _). unfold item_text in *. destruct (it_lead it) as [|c l]; [congruence|].
  cbn [app] in *. destruct (split_ws_front y [] c (l ++ it_path it ++ match it_alias it with Some (a, b, n) => a ++ L "as" ++ b ++ n | None => [] end ++ it_trail it) (Hg c (or_introl eq_refl))) as (ws' & E').
  rewrite E', E. exists (ws' ++ ws). rewrite <- app_assoc. reflexivity.
Qed.

(** Words of the items in turn. *)
Lemma space_not_comma : forall c, is_space c = true -> c <> 44.
Proof. intros c H E. subst c. discriminate H. Qed.

Lemma item_no_comma : forall it, item_ok it -> ~ In 44 (item_text it).
Proof.
  intros [l p al t] (H1 & (_ & H2) & H3 & H4) H. unfold item_text in H. cbn [it_lead it_path it_alias it_trail] in *.
  apply in_app_iff in H as [H|H]; [exact (space_not_comma _ (H1 _ H) eq_refl)|].
  apply in_app_iff in H as [H|H]; [destruct (H2 _ H) as [_ Hx]; congruence|].
  apply in_app_iff in H as [H|H]; [|exact (space_not_comma _ (H3 _ H) eq_refl)].
  destruct al as [[[a b] n]|]; [|contradiction].
  destruct H4 as ((Ha & _) & (Hb & _) & (_ & H5)).
  apply in_app_iff in H as [H|H]; [exact (space_not_comma _ (Ha _ H) eq_refl)|].
  apply in_app_iff in H as [H|H]; [cbn in H; destruct H as [H|[H|[]]]; discriminate H|].
  apply in_app_iff in H as [H|H]; [exact (space_not_comma _ (Hb _ H) eq_refl)|].
  destruct (H5 _ H) as [_ Hx]; congruence.
Qed.

Lemma last_words_items : forall items, (forall it, In it items -> item_ok it) ->
  last_words (map item_text items) = Ok (map item_name items).
Proof.
  induction items as [|it items IH]; intros H; [reflexivity|]. cbn [map last_words].
  destruct (item_words it (H it (or_introl eq_refl))) as (ws & E). rewrite E, rev_app_distr. cbn [rev app].
  rewrite IH by (intros x Hx; apply H; right; exact Hx). reflexivity.
Qed.

Lemma words_of_rest : forall y items, ~ In 44 y -> items_ok items ->
  last_words (split_char 44 (y ++ items_text items)) = Ok (map item_name items).
Proof.
  intros y items Hy [Hl H]. destruct items as [|it items]; [contradiction|].
  destruct (item_words_front y it (H it (or_introl eq_refl)) Hl) as (ws & E).
  assert (ES : split_char 44 (y ++ items_text (it :: items)) = (y ++ item_text it) :: map item_text items).
  { rewrite <- (split_join 44 ((y ++ item_text it) :: map item_text items)).
    - f_equal. unfold items_text. cbn [map]. destruct (map item_text items) as [|v vs]; [reflexivity|].
      change (join [44] ((y ++ item_text it) :: v :: vs)) with ((y ++ item_text it) ++ 44 :: join [44] (v :: vs)).
      change (join (L ",") (item_text it :: v :: vs)) with (item_text it ++ 44 :: join [44] (v :: vs)).
      rewrite <- app_assoc. reflexivity.
    - discriminate.
    - intros w [<-|Hw].
      + intros Hc. apply in_app_iff in Hc as [Hc|Hc]; [contradiction|]. exact (item_no_comma it (H it (or_introl eq_refl)) Hc).
      + apply in_map_iff in Hw as (x & <- & Hx). apply item_no_comma. apply H. right; exact Hx. }
  rewrite ES. cbn [last_words map]. rewrite E, rev_app_distr. cbn [rev app].
  rewrite last_words_items by (intros x Hx; apply H; right; exact Hx). reflexivity.
Qed.

(** ** The first occurrence of [import] *)

Lemma starts_with_app : forall p t, starts_with p (p ++ t) = true.
Proof. induction p as [|c p IH]; intros t; [destruct t; reflexivity|]. cbn [app starts_with]. rewrite N.eqb_refl. apply IH. Qed.

Lemma behind_first_le : forall p pre t, exists y, behind_first p (pre ++ p ++ t) = Some (y ++ t)
  /\ forall c, In c y -> In c pre \/ In c p.
Proof.
  intros p pre t. induction pre as [|x pre IH].
  - exists []. cbn [app]. split; [|intros c []].
    assert (E : behind_first p (p ++ t) = Some (skipn (length p) (p ++ t))).
    { destruct (p ++ t) eqn:E; cbn [behind_first]; rewrite <- E, starts_with_app; rewrite E; reflexivity. }
    rewrite E, skipn_app, skipn_all, Nat.sub_diag. reflexivity.
  - destruct IH as (y & E & Hy). cbn [app behind_first].
    destruct (starts_with p (x :: pre ++ p ++ t)) eqn:S.
    + exists (skipn (length p) (x :: pre ++ p)). split.
      * f_equal. rewrite app_assoc, app_comm_cons, skipn_app.
        replace (length p - length (x :: pre ++ p))%nat with 0%nat by (cbn [length]; rewrite app_length; lia).
        reflexivity.
      * intros c Hc.
        assert (Hc' : In c (firstn (length p) (x :: pre ++ p) ++ skipn (length p) (x :: pre ++ p)))
          by (apply in_or_app; right; exact Hc).
        rewrite firstn_skipn in Hc'. destruct Hc' as [Hc'|Hc']; [left; left; exact Hc'|].
        apply in_app_iff in Hc' as [Hc'|Hc']; [left; right; exact Hc'|right; exact Hc'].
    + exists y. split; [exact E|]. intros c Hc. apply Hy in Hc as [Hc|Hc]; [left; right; exact Hc|right; exact Hc].
Qed.

(** ** Import statements *)

Lemma gap_no_comma : forall g, gap g -> ~ In 44 g.
Proof. intros g H Hc. exact (space_not_comma _ (H _ Hc) eq_refl). Qed.

Lemma stmt_rest : forall s, stmt_ok s ->
  last_words (split_char 44 (behind (L "import") (stmt_text s)))
  = Ok (map item_name (match s with SImport items | SFrom _ _ _ items => items end)).
Proof.
  intros [items|g1 m g2 items] H; cbn [stmt_ok stmt_text] in *; unfold behind.
  - destruct (behind_first_le (L "import") [] (items_text items)) as (y & E & Hy).
    cbn [app] in E. rewrite E. apply words_of_rest; [|exact H].
    intros Hc. apply Hy in Hc as [[]|Hc]. cbn in Hc. repeat destruct Hc as [Hc|Hc]; try discriminate; exact Hc.
  - destruct H as ((H1 & _) & (_ & H2) & (H3 & _) & H4).
    destruct (behind_first_le (L "import") (L "from" ++ g1 ++ m ++ g2) (items_text items)) as (y & E & Hy).
    rewrite <- !app_assoc in E. rewrite E. apply words_of_rest; [|exact H4].
    intros Hc. apply Hy in Hc as [Hc|Hc];
      [|cbn in Hc; repeat destruct Hc as [Hc|Hc]; try discriminate; exact Hc].
    apply in_app_iff in Hc as [Hc|Hc]; [cbn in Hc; repeat destruct Hc as [Hc|Hc]; try discriminate; exact Hc|].
    apply in_app_iff in Hc as [Hc|Hc]; [exact (gap_no_comma _ H1 Hc)|].
    apply in_app_iff in Hc as [Hc|Hc]; [destruct (H2 _ Hc); congruence|exact (gap_no_comma _ H3 Hc)].
Qed.

Lemma add_names_legacy : forall vs raw st,
  add_names true vs raw st = mkI (i_stmts st) (i_names st ++ vs) (i_body st) (i_base st).
Proof. intros [|v vs] raw [a b c d]; unfold add_names; cbn; [rewrite app_nil_r|]; reflexivity. Qed.

Lemma add_import_legacy : forall s st, stmt_ok s ->
  add_import true (stmt_text s) st
  = Ok (mkI (i_stmts st ++ [stmt_text s]) (i_names st ++ stmt_names s) (i_body st) (i_base st)).
Proof.
  intros s st H. unfold add_import. rewrite (stmt_rest s H), add_names_legacy.
  destruct st as [a b [|x c] d]; reflexivity.
Qed.

Lemma run_imports_legacy : forall ss st, (forall s, In s ss -> stmt_ok s) ->
  run_imports true (map stmt_text ss) st
  = Ok (mkI (i_stmts st ++ map stmt_text ss) (i_names st ++ flat_map stmt_names ss) (i_body st) (i_base st)).
Proof.
  induction ss as [|s ss IH]; intros st H.
  - cbn. rewrite !app_nil_r. destruct st; reflexivity.
  - cbn [map run_imports flat_map]. rewrite add_import_legacy by (apply H; left; reflexivity).
    rewrite IH by (intros x Hx; apply H; right; exact Hx). cbn [i_stmts i_names i_body i_base].
    rewrite <- !app_assoc. reflexivity.
Qed.

(** ** Class paths *)

Lemma part_word : forall s, part s -> word s.
Proof. intros s [H1 H2]. split; [exact H1|]. intros c Hc. destruct (H2 c Hc) as (A & B & _). split; assumption. Qed.

Lemma path_chars : forall p, path_ok p -> word (path_text p).
Proof.
  intros p [Hn H]. unfold path_text. induction p as [|x p IH]; [congruence|]. destruct p as [|y p].
  - apply part_word. apply H. left; reflexivity.
  - assert (Hx := part_word x (H x (or_introl eq_refl))). destruct Hx as [Hx1 Hx2].
    destruct IH as [Hy1 Hy2]; [discriminate|intros z Hz; apply H; right; exact Hz|].
    change (join (L ".") (x :: y :: p)) with (x ++ 46 :: join (L ".") (y :: p)).
    split; [destruct x; discriminate|]. intros c Hc. apply in_app_iff in Hc as [Hc|[<-|Hc]].
    + apply Hx2; exact Hc.
    + split; [reflexivity|discriminate].
    + apply Hy2; exact Hc.
Qed.

Lemma path_split : forall p, path_ok p -> split_char 46 (path_text p) = p.
Proof. intros p [Hn H]. apply split_join; [exact Hn|]. intros w Hw Hc. destruct (H w Hw) as [_ Hx]. destruct (Hx _ Hc) as (_ & _ & E). congruence. Qed.

Lemma strip_word : forall a w b, gap a -> word w -> gap b -> strip (a ++ w ++ b) = w.
Proof.
  assert (HL : forall a t, gap a -> (forall c r, t = c :: r -> is_space c = false) -> lstrip (a ++ t) = t).
  { induction a as [|c a IH]; intros t Ha Ht; [apply lstrip_id; exact Ht|]. cbn [app lstrip].
    rewrite (Ha c (or_introl eq_refl)). apply IH; [intros x Hx; apply Ha; right; exact Hx|exact Ht]. }
  intros a w b Ha [Hn Hw] Hb. unfold strip. rewrite HL; [|exact Ha|].
  - unfold rstrip. rewrite rev_app_distr, HL.
    + apply rev_involutive.
    + intros c Hc. apply Hb. rewrite in_rev. exact Hc.
    + intros c r E. apply Hw. rewrite in_rev, E. left; reflexivity.
  - intros c r E. destruct w as [|x w]; [congruence|]. injection E as <- _. apply Hw. left; reflexivity.
Qed.

Lemma known_iff : forall n ns, known n ns = true <-> In n ns.
Proof.
  intros n ns. unfold known. rewrite existsb_exists. split.
  - intros (x & Hx & E). destruct (str_eqb_spec n x) as [E'|]; [subst; exact Hx|discriminate].
  - intros H. exists n. split; [exact H|apply streq_refl].
Qed.

Lemma join_snoc_dot : forall q c, q <> [] -> path_text (q ++ [c]) = path_text q ++ L "." ++ c.
Proof.
  intros q c. unfold path_text. induction q as [|x q IH]; intros H; [congruence|]. destruct q as [|y q]; [reflexivity|].
  change (join (L ".") ((x :: y :: q) ++ [c])) with (x ++ L "." ++ join (L ".") ((y :: q) ++ [c])).
  rewrite IH by discriminate. change (join (L ".") (x :: y :: q)) with (x ++ L "." ++ join (L ".") (y :: q)).
  rewrite <- !app_assoc. reflexivity.
Qed.

Lemma via_none : forall ns r q, q <> [] ->
  (forall r1 r2, r = r1 ++ r2 -> r2 <> [] -> ~ In (path_text (q ++ r1)) ns) ->
  via ns (path_text q) r = None.
Proof.
  induction r as [|c r IH]; intros q Hq H; [reflexivity|]. cbn [via].
  destruct (known (path_text q) ns) eqn:E.
  - apply known_iff in E. exfalso. apply (H [] (c :: r) eq_refl); [discriminate|]. rewrite app_nil_r. exact E.
  - rewrite <- join_snoc_dot by exact Hq. apply IH; [destruct q; discriminate|].
    intros r1 r2 Er Hr2. rewrite <- app_assoc. apply (H (c :: r1) r2); [rewrite Er; reflexivity|exact Hr2].
Qed.

Lemma plain_from_text : forall m k, stmt_text (plain_from m k) = from_import m k.
Proof.
  intros m k. unfold plain_from, stmt_text, from_import, items_text, item_text.
  cbn [map join it_lead it_path it_alias it_trail app]. rewrite !app_nil_r. reflexivity.
Qed.

Lemma plain_from_ok : forall m k, word m -> word k -> stmt_ok (plain_from m k).
Proof.
  intros m k Hm Hk. assert (G : gap (L " ")) by (intros c [<-|[]]; reflexivity).
  split; [split; [exact G|discriminate]|]. split; [exact Hm|]. split; [split; [exact G|discriminate]|].
  split; [discriminate|]. intros it [<-|[]]. unfold item_ok. cbn [it_lead it_path it_alias it_trail].
  split; [exact G|]. split; [exact Hk|]. split; [intros c []|exact Logic.I].
Qed.

Lemma import_one : forall m k st, word m -> word k ->
  exists st1, match add_import true (from_import m k) st with
              | Raise e => Raise e
              | Ok st1 => Ok (k, add_names true [k] None st1)
              end = Ok (k, st1)
    /\ i_stmts st1 = i_stmts st ++ [stmt_text (plain_from m k)]
    /\ (forall n, In n (i_names st1) <-> In n (i_names st) \/ n = k)
    /\ i_body st1 = i_body st.
Proof.
  intros m k st Hm Hk. rewrite <- plain_from_text, add_import_legacy by (apply plain_from_ok; assumption).
  eexists. split; [reflexivity|]. rewrite add_names_legacy. cbn [i_stmts i_names i_body].
  split; [reflexivity|]. split; [|reflexivity]. intros n. rewrite !in_app_iff. cbn [In].
  unfold stmt_names, plain_from. cbn [map filter item_name it_alias it_path].
  assert (Hk' : k = n <-> n = k) by (split; intros H; symmetry; exact H).
  destruct (negb (str_eqb k (L "*"))); cbn [In]; tauto.
Qed.

Lemma removelast_last_rev : forall (p : list pystr) k m r, rev p = k :: m :: r ->
  last p [] = k /\ removelast p = rev (m :: r) /\ last (removelast p) [] = m.
Proof.
  intros p k m r E. assert (Ep : p = rev (m :: r) ++ [k]) by (rewrite <- (rev_involutive p), E; reflexivity).
  subst p. rewrite last_last, removelast_last. split; [reflexivity|]. split; [reflexivity|].
  cbn [rev]. apply last_last.
Qed.

Lemma add_base_one : forall p st, path_ok p -> ~ through (i_names st) p ->
  exists st1, add_base true (path_text p) st = Ok (class_of p, st1)
    /\ i_stmts st1 = i_stmts st ++ map stmt_text (match p with
         | [k] => if existsb (str_eqb k) (i_names st) then [] else [plain_from k k]
         | _ => [plain_from (module_of p) (class_of p)] end)
    /\ (forall n, In n (i_names st1) <-> In n (i_names st) \/ n = class_of p)
    /\ i_body st1 = i_body st.
Proof.
  intros p st Hp Hth. unfold add_base. rewrite (path_split p Hp). cbv zeta.
  destruct (rev p) as [|k [|m r]] eqn:Er.
  - destruct Hp as [Hn _]. exfalso. apply Hn. rewrite <- (rev_involutive p), Er. reflexivity.
  - assert (Ep : p = [k]) by (rewrite <- (rev_involutive p), Er; reflexivity). subst p.
    cbn [removelast last class_of path_text join]. unfold path_text. cbn [join].
    change (existsb (str_eqb k) (i_names st)) with (known k (i_names st)).
    destruct (known k (i_names st)) eqn:Ek.
    + exists st. split; [reflexivity|]. cbn [map]. rewrite app_nil_r. split; [reflexivity|]. split; [|reflexivity].
      apply known_iff in Ek. intros n. split; [tauto|]. intros [H|H]; [exact H|]. rewrite H. exact Ek.
    + apply (import_one k k st); apply part_word; apply Hp; left; reflexivity.
  - destruct (removelast_last_rev p k m r Er) as (E1 & E2 & E3). rewrite E3, E1.
    assert (EC : class_of p = k) by exact E1. rewrite EC.
    assert (Hk : word k) by (apply part_word; apply Hp; rewrite in_rev, Er; left; reflexivity).
    assert (Epp : p = removelast p ++ [k]) by (rewrite E2, <- (rev_involutive p), Er; reflexivity).
    destruct (removelast p) as [|c0 mids] eqn:Ei; [symmetry in E2; apply app_eq_nil in E2 as [_ E2]; discriminate E2|].
    assert (EV : via (i_names st) c0 mids = None).
    { apply (via_none (i_names st) mids [c0]); [discriminate|]. intros r1 r2 Em Hr2 Hin. apply Hth.
      exists (c0 :: r1), (r2 ++ [k]). split; [rewrite Epp, Em; cbn [app]; rewrite <- app_assoc; reflexivity|].
      split; [discriminate|]. split; [destruct r2; [congruence|cbn [length app]; rewrite app_length; cbn; lia]|exact Hin]. }
    rewrite EV. assert (EM : module_of p = if str_eqb k m then path_text (c0 :: mids) else path_text p).
    { unfold module_of. rewrite Er, E2. reflexivity. }
    assert (HF : forall (A : Type) (f : pystr -> A) (d : A), match p with [] => d | [k0] => f k0 | _ :: _ :: _ => d end = d).
    { intros A f d. rewrite Epp. destruct mids; reflexivity. }
    rewrite (HF _ (fun k0 => if existsb (str_eqb k0) (i_names st) then [] else [plain_from k0 k0])). rewrite EM.
    change (join (L ".") (c0 :: mids)) with (path_text (c0 :: mids)). change (join (L ".") p) with (path_text p).
    destruct (str_eqb k m).
    + apply import_one; [|exact Hk]. apply path_chars. split; [discriminate|]. intros x Hx. apply Hp. rewrite Epp.
      apply in_or_app. left; exact Hx.
    + apply import_one; [|exact Hk]. apply path_chars. exact Hp.
Qed.

Lemma existsb_names : forall k ns1 ns2, (forall n, In n ns1 <-> In n ns2) ->
  existsb (str_eqb k) ns1 = existsb (str_eqb k) ns2.
Proof.
  intros k ns1 ns2 H. apply eq_true_iff_eq. change (known k ns1 = true <-> known k ns2 = true).
  rewrite !known_iff. apply H.
Qed.

Lemma wanted_names : forall ps ns1 ns2, (forall n, In n ns1 <-> In n ns2) -> wanted ns1 ps = wanted ns2 ps.
Proof.
  induction ps as [|p ps IH]; intros ns1 ns2 H; [reflexivity|]. cbn [wanted].
  assert (HA : forall k, forall n, In n (ns1 ++ [k]) <-> In n (ns2 ++ [k])) by (intros k n; rewrite !in_app_iff, H; reflexivity).
  destruct p as [|k [|k2 p]].
  - rewrite (IH _ _ (HA (class_of []))). reflexivity.
  - rewrite (existsb_names k ns1 ns2 H). rewrite (IH _ _ H), (IH _ _ (HA k)). reflexivity.
  - rewrite (IH _ _ (HA (class_of (k :: k2 :: p)))). reflexivity.
Qed.

Lemma through_more : forall ns1 ns2 p, (forall n, In n ns1 -> In n ns2) -> through ns1 p -> through ns2 p.
Proof. intros ns1 ns2 p H (q & r & A & B & C & D). exists q, r. split; [exact A|]. split; [exact B|]. split; [exact C|apply H; exact D]. Qed.

Lemma snoc_names : forall (ns ns1 : list pystr) k, (forall n, In n ns1 <-> In n ns \/ n = k) ->
  forall n, In n ns1 <-> In n (ns ++ [k]).
Proof.
  intros ns ns1 k H n. rewrite H, in_app_iff. cbn [In].
  assert (Hk' : k = n <-> n = k) by (split; intros E; symmetry; exact E). tauto.
Qed.

Lemma add_bases_all : forall bs st, (forall b, In b bs -> base_ok b) ->
  (forall b, In b bs -> ~ through (i_names st ++ map class_of (map base_path bs)) (base_path b)) ->
  exists st1, add_bases true (map base_text bs) st = Ok (map class_of (map base_path bs), st1)
    /\ i_stmts st1 = i_stmts st ++ map stmt_text (wanted (i_names st) (map base_path bs))
    /\ (forall n, In n (i_names st1) <-> In n (i_names st) \/ In n (map class_of (map base_path bs)))
    /\ i_body st1 = i_body st.
Proof.
  induction bs as [|b bs IH]; intros st Hok Hth.
  - exists st. cbn. rewrite app_nil_r. split; [reflexivity|]. split; [reflexivity|]. split; [tauto|reflexivity].
  - cbn [map add_bases]. destruct (Hok b (or_introl eq_refl)) as (Ha & Hp & Hb).
    unfold base_text at 1. rewrite strip_word; [|exact Ha|apply path_chars; exact Hp|exact Hb].
    destruct (add_base_one (base_path b) st Hp) as (st1 & E & Es & En & Eb).
    { intros H. apply (Hth b (or_introl eq_refl)). revert H. apply through_more. intros n Hn. apply in_or_app. left; exact Hn. }
    destruct (IH st1) as (st2 & E2 & Es2 & En2 & Eb2).
    { intros x Hx. apply Hok. right; exact Hx. }
    { intros x Hx H. apply (Hth x (or_intror Hx)). revert H. apply through_more. intros n Hn.
      cbn [map]. apply in_app_iff in Hn as [Hn|Hn]; apply in_or_app.
      - apply En in Hn as [Hn|Hn]; [left; exact Hn|right; left; symmetry; exact Hn].
      - right; right; exact Hn. }
    exists st2. rewrite E, E2. split; [reflexivity|]. split; [|split].
    + rewrite Es2, Es, <- app_assoc. f_equal. rewrite <- map_app. f_equal. cbn [wanted].
      destruct (base_path b) as [|k [|k2 p]] eqn:Ep.
      * destruct Hp as [Hn _]. congruence.
      * cbn [class_of last] in En. destruct (existsb (str_eqb k) (i_names st)) eqn:Ek.
        -- cbn [app]. apply wanted_names. intros n. rewrite En. split; [|tauto]. intros [H|H]; [exact H|].
           subst n. apply known_iff. exact Ek.
        -- cbn [app]. f_equal. apply wanted_names. apply snoc_names; exact En.
      * cbn [app]. f_equal. apply wanted_names. apply snoc_names; exact En.
    + intros n. rewrite En2, En. cbn [map In].
      assert (Hk' : class_of (base_path b) = n <-> n = class_of (base_path b)) by (split; intros H; symmetry; exact H). tauto.
    + rewrite Eb2, Eb. reflexivity.
Qed.

Lemma base_no_comma : forall b, base_ok b -> ~ In 44 (base_text b).
Proof.
  intros b (Ha & Hp & Hb) H. unfold base_text in H. apply in_app_iff in H as [H|H]; [exact (gap_no_comma _ Ha H)|].
  apply in_app_iff in H as [H|H]; [|exact (gap_no_comma _ Hb H)].
  destruct (path_chars _ Hp) as [_ Hx]. destruct (Hx _ H) as [_ E]. congruence.
Qed.

Lemma set_base_all : forall bs st, bs <> [] -> (forall b, In b bs -> base_ok b) ->
  (forall b, In b bs -> ~ through (i_names st ++ map class_of (map base_path bs)) (base_path b)) ->
  bases_text bs <> L "object" -> ~ In (bases_text bs) (i_names st) ->
  exists st1, set_base true true (bases_text bs) st = Ok st1
    /\ i_base st1 = join (L ", ") (map class_of (map base_path bs))
    /\ i_stmts st1 = i_stmts st ++ map stmt_text (wanted (i_names st) (map base_path bs))
    /\ (forall n, In n (i_names st1) <-> In n (i_names st) \/ In n (map class_of (map base_path bs)))
    /\ i_body st1 = i_body st.
Proof.
  intros bs st Hn Hok Hth Ho Hk. unfold set_base.
  assert (E1 : str_eqb (bases_text bs) (L "object") = false) by (destruct (str_eqb_spec (bases_text bs) (L "object")); congruence).
  assert (E2 : known (bases_text bs) (i_names st) = false).
  { destruct (known (bases_text bs) (i_names st)) eqn:E; [|reflexivity]. apply known_iff in E. contradiction. }
  rewrite E1, E2. cbn [negb orb].
  assert (E3 : split_char 44 (bases_text bs) = map base_text bs).
  { apply (split_join 44 (map base_text bs)); [destruct bs; [congruence|discriminate]|].
    intros w Hw. apply in_map_iff in Hw as (b & <- & Hb). apply base_no_comma, Hok. exact Hb. }
  rewrite E3. destruct (add_bases_all bs st Hok Hth) as (st1 & E & Es & En & Eb). rewrite E.
  eexists. split; [reflexivity|]. cbn [put_base i_base i_stmts i_names i_body]. repeat (split; [reflexivity || assumption|]). exact Eb.
Qed.

(** Every class written is known or bound by a statement that is added. *)
Lemma wanted_binds : forall ps ns p, (forall q, In q ps -> path_ok q) -> In p ps -> class_of p <> L "*" ->
  In (class_of p) ns \/ exists s, In s (wanted ns ps) /\ stmt_names s = [class_of p].
Proof.
  induction ps as [|q ps IH]; intros ns p Hok Hp Hs; [contradiction|].
  assert (HN : forall m k, k <> L "*" -> stmt_names (plain_from m k) = [k]).
  { intros m k Hk. unfold stmt_names, plain_from. cbn [map filter item_name it_alias it_path].
    destruct (str_eqb_spec k (L "*")); [congruence|reflexivity]. }
  assert (HI : In p ps -> forall ns', In (class_of p) ns' \/ (exists s, In s (wanted ns' ps) /\ stmt_names s = [class_of p])).
  { intros H ns'. apply IH; [intros x Hx; apply Hok; right; exact Hx|exact H|exact Hs]. }
  cbn [wanted]. destruct Hp as [Eq|Hp].
  - subst q. destruct p as [|k [|k2 p]].
    + destruct (Hok [] (or_introl eq_refl)) as [Hn _]. congruence.
    + cbn [class_of last] in *. destruct (existsb (str_eqb k) ns) eqn:E.
      * left. apply known_iff. exact E.
      * right. eexists. split; [left; reflexivity|]. apply HN. exact Hs.
    + right. eexists. split; [left; reflexivity|]. apply HN. exact Hs.
  - assert (HS : forall k m, In (class_of p) (ns ++ [k]) \/ (exists s, In s (wanted (ns ++ [k]) ps) /\ stmt_names s = [class_of p]) ->
      In (class_of p) ns \/ exists s, In s (plain_from m k :: wanted (ns ++ [k]) ps) /\ stmt_names s = [class_of p]).
    { intros k m [H|(s & H1 & H2)].
      - apply in_app_iff in H as [H|[H|[]]]; [left; exact H|]. right. exists (plain_from m k). split; [left; reflexivity|].
        rewrite HN; congruence.
      - right. exists s. split; [right; exact H1|exact H2]. }
    destruct q as [|k [|k2 q]]; [apply HS, HI, Hp| |apply HS, HI, Hp].
    destruct (existsb (str_eqb k) ns); [apply HI; exact Hp|apply HS, HI, Hp].
Qed.

Lemma set_base_known : forall legacy auto n st, In n (i_names st) \/ n = L "object" \/ auto = false ->
  set_base legacy auto n st = Ok (mkI (i_stmts st) (i_names st) (i_body st) n).
Proof.
  intros legacy auto n st H. unfold set_base.
  assert (E : (negb auto || str_eqb n (L "object") || known n (i_names st))%bool = true).
  { destruct H as [H|[H|H]].
    - apply known_iff in H. rewrite H. apply Bool.orb_true_r.
    - subst n. rewrite streq_refl, Bool.orb_true_r. reflexivity.
    - subst auto. reflexivity. }
  rewrite E. reflexivity.
Qed.
