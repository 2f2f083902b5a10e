(** Proofs for C99. *)
From Verif Require Import Base Skel_Model Skel_Spec.

Lemma no_in : forall (c d : N) s, ~ In c (d :: s) -> N.eqb d c = false /\ ~ In c s.
Proof. intros c d s H. split; [apply N.eqb_neq; intro; apply H; left; congruence|intro; apply H; right; assumption]. Qed.

Lemma read_name : forall n acc r, is_name n -> read (InName acc) (n ++ r) = read (InName (rev n ++ acc)) r.
Proof.
  induction n as [|c n IH]; intros acc r H; [reflexivity|]. cbn [app read].
  assert (Hc := H c (or_introl eq_refl)).
  assert (Eb : N.eqb c BLANK = false) by (apply N.eqb_neq; intros ->; apply Hc; cbn; auto).
  assert (Eg : N.eqb c GT = false) by (apply N.eqb_neq; intros ->; apply Hc; cbn; auto).
  rewrite Eb, Eg, IH by (intros x Hx; apply H; right; exact Hx).
  cbn [rev]. rewrite <- app_assoc. reflexivity.
Qed.
Lemma read_att : forall a n atts acc r, is_name a -> read (InAtt n atts acc) (a ++ r) = read (InAtt n atts (rev a ++ acc)) r.
Proof.
  induction a as [|c a IH]; intros n atts acc r H; [reflexivity|]. cbn [app read].
  assert (Hc := H c (or_introl eq_refl)).
  assert (Eb : N.eqb c EQUALS = false) by (apply N.eqb_neq; intros ->; apply Hc; cbn; auto).
  assert (Eg : N.eqb c SLASH = false) by (apply N.eqb_neq; intros ->; apply Hc; cbn; auto).
  rewrite Eb, Eg, IH by (intros x Hx; apply H; right; exact Hx).
  cbn [rev]. rewrite <- app_assoc. reflexivity.
Qed.
Lemma read_value : forall v n atts a acc r, is_value v ->
  read (InValue n atts a acc) (v ++ QUOTE :: r) = read (Behind n ((rev a, rev acc ++ v) :: atts)) r.
Proof.
  induction v as [|c v IH]; intros n atts a acc r H; cbn [app read].
  - rewrite N.eqb_refl, app_nil_r. reflexivity.
  - destruct (no_in _ _ _ H) as [E H']. rewrite E, IH by exact H'. cbn [rev]. rewrite <- app_assoc. reflexivity.
Qed.

(** One attribute, from the blank before it. *)
Definition att (n v : pystr) : pystr := BLANK :: n ++ EQUALS :: QUOTE :: v ++ [QUOTE].
Lemma read_one : forall a v n atts r, is_name a -> is_value v ->
  read (Behind n atts) (att a v ++ r) = read (Behind n ((a, v) :: atts)) r.
Proof.
  intros a v n atts r Ha Hv. unfold att. cbn [app read]. rewrite N.eqb_refl. rewrite <- app_assoc, read_att by exact Ha.
  cbn [app read]. rewrite !N.eqb_refl, <- app_assoc. cbn [app]. rewrite read_value by exact Hv.
  rewrite app_nil_r, rev_involutive. reflexivity.
Qed.
Lemma read_first : forall a v n r, is_name n -> is_name a -> is_value v ->
  read (InName []) (n ++ att a v ++ r) = read (Behind (rev n) [(a, v)]) r.
Proof.
  intros a v n r Hn Ha Hv. rewrite read_name by exact Hn. rewrite app_nil_r. rewrite <- (read_one a v (rev n) [] r Ha Hv). unfold att. reflexivity.
Qed.
Definition atts_text (l : list (pystr * pystr)) : pystr := concat (map (fun p => att (fst p) (snd p)) l).
Lemma read_atts : forall l n atts r, atts_ok l -> read (Behind n atts) (atts_text l ++ r) = read (Behind n (rev l ++ atts)) r.
Proof.
  induction l as [|[a v] l IH]; intros n atts r H; [reflexivity|]. unfold atts_text. cbn [map concat fst snd].
  rewrite <- app_assoc. destruct (H a v (or_introl eq_refl)) as [Ha Hv]. rewrite read_one by assumption.
  fold (atts_text l). rewrite IH by (intros x y K; apply H; right; exact K). cbn [rev]. rewrite <- app_assoc. reflexivity.
Qed.
Lemma read_all : forall n l r, is_name n -> atts_ok l -> l <> [] ->
  read (InName []) (n ++ atts_text l ++ r) = read (Behind (rev n) (rev l)) r.
Proof.
  intros n [|[a v] l] r Hn H K; [congruence|]. unfold atts_text. cbn [map concat fst snd]. rewrite <- app_assoc.
  destruct (H a v (or_introl eq_refl)) as [Ha Hv]. rewrite read_first by assumption. fold (atts_text l).
  rewrite read_atts by (intros x y J; apply H; right; exact J). reflexivity.
Qed.

(** A whole tag, open or with a slash. *)
Definition open_text (t : tag) : pystr := LT :: t_name t ++ atts_text (t_atts t) ++ [GT].
Definition slash_text (t : tag) : pystr := LT :: t_name t ++ atts_text (t_atts t) ++ [BLANK; SLASH; GT].
Definition tag_ok (t : tag) : Prop := is_name (t_name t) /\ atts_ok (t_atts t).
Lemma read_open : forall t r, tag_ok t -> read Outside (open_text t ++ r) = match read Outside r with Some l => Some (t :: l) | None => None end.
Proof.
  intros [n l] r [Hn Hl]. unfold open_text. cbn [t_name t_atts app read] in *. rewrite N.eqb_refl, <- !app_assoc.
  destruct l as [|p l].
  - cbn [atts_text map concat app]. rewrite read_name by exact Hn. cbn [app read].
    change (N.eqb GT BLANK) with false. rewrite N.eqb_refl. unfold more. rewrite app_nil_r, rev_involutive. reflexivity.
  - rewrite read_all; [|exact Hn|exact Hl|discriminate]. cbn [app read]. change (N.eqb GT BLANK) with false. rewrite N.eqb_refl.
    unfold more. rewrite !rev_involutive. reflexivity.
Qed.
Lemma read_slash : forall t r, tag_ok t -> read Outside (slash_text t ++ r) = match read Outside r with Some l => Some (t :: l) | None => None end.
Proof.
  intros [n l] r [Hn Hl]. unfold slash_text. cbn [t_name t_atts app read] in *. rewrite N.eqb_refl, <- !app_assoc.
  destruct l as [|p l].
  - cbn [atts_text map concat app]. rewrite read_name by exact Hn. cbn [app read].
    rewrite N.eqb_refl. change (N.eqb SLASH EQUALS) with false. rewrite !N.eqb_refl. unfold more. rewrite app_nil_r, rev_involutive. reflexivity.
  - rewrite read_all; [|exact Hn|exact Hl|discriminate]. cbn [app read]. rewrite N.eqb_refl. change (N.eqb SLASH EQUALS) with false. rewrite !N.eqb_refl.
    unfold more. rewrite !rev_involutive. reflexivity.
Qed.
Lemma read_lines : forall l r, Forall tag_ok l ->
  read Outside (concat (map (fun t => slash_text t ++ [EOL]) l) ++ r) = match read Outside r with Some q => Some (l ++ q) | None => None end.
Proof.
  induction l as [|t l IH]; intros r H.
  - cbn. destruct (read Outside r); reflexivity.
  - inversion H as [|? ? Ht Hl]; subst. cbn [map concat]. rewrite <- !app_assoc, read_slash by exact Ht.
    cbn [app read]. change (N.eqb EOL LT) with false. rewrite N.eqb_refl, IH by exact Hl. destruct (read Outside r); reflexivity.
Qed.
Lemma tags_lines : forall l, Forall tag_ok l -> tags_of (concat (map (fun t => slash_text t ++ [EOL]) l)) = Some l.
Proof. intros l H. unfold tags_of. rewrite <- (app_nil_r (concat _)), read_lines by exact H. cbn. rewrite app_nil_r. reflexivity. Qed.

(** [low]. *)
Lemma low_small : forall s, low s = map small s.
Proof. reflexivity. Qed.
Lemma small_name : forall s, is_name s -> is_name (map small s).
Proof.
  intros s H c Hc K. apply in_map_iff in Hc as (d & <- & Hd). apply (H d Hd). unfold small in K.
  destruct (N.leb 65 d && N.leb d 90)%bool eqn:E; [|exact K]. exfalso.
  apply andb_prop in E as [E1 E2]. unfold BLANK, GT, EQUALS, SLASH in K. cbn [In] in K. lia.
Qed.

Lemma form_is : forall n l, form_tag n l = open_text (mkT (map small n) (map (fun p => (map small (fst p), snd p)) l)).
Proof.
  intros n l. unfold form_tag, open_text. cbn [t_name t_atts]. rewrite !low_small. change (L "<") with [LT]. rewrite <- !app_assoc. cbn [app]. f_equal. f_equal.
  f_equal. unfold atts_text. rewrite map_map. f_equal. apply map_ext. intros [a v]. cbn [fst snd].
  unfold att. rewrite low_small. change (L " ") with [BLANK]. change (L "=""") with [EQUALS; QUOTE]. change (L """") with [QUOTE].
  cbn [app]. reflexivity.
Qed.
Lemma form_read : forall n l, is_name n -> atts_ok l ->
  tags_of (form_tag n l) = Some [mkT (map small n) (map (fun p => (map small (fst p), snd p)) l)].
Proof.
  intros n l Hn Hl. unfold tags_of. rewrite form_is, <- (app_nil_r (open_text _)), read_open; [reflexivity|].
  split; cbn [t_name t_atts]; [apply small_name; exact Hn|]. intros a v H. apply in_map_iff in H as ([x y] & E & H). inversion E; subst.
  destruct (Hl _ _ H) as [A B]. split; [apply small_name; exact A|exact B].
Qed.

(** The names that are written out. *)
Lemma plain_name : forall s, forallb (fun c => negb (existsb (N.eqb c) [BLANK; GT; EQUALS; SLASH])) s = true -> is_name s.
Proof.
  intros s H c Hc K. rewrite forallb_forall in H. specialize (H c Hc). apply negb_true_iff in H.
  assert (existsb (N.eqb c) [BLANK; GT; EQUALS; SLASH] = true) by (apply existsb_exists; exists c; split; [exact K|apply N.eqb_refl]). congruence.
Qed.
Lemma plain_value : forall s, existsb (N.eqb QUOTE) s = false -> is_value s.
Proof. intros s H K. assert (existsb (N.eqb QUOTE) s = true) by (apply existsb_exists; exists QUOTE; split; [exact K|apply N.eqb_refl]). congruence. Qed.

Definition meta_tag (kind : pystr) (p : pystr * pystr) : tag := mkT (L "meta") [(kind, fst p); (L "content", snd p)].
Ltac same_text := unfold slash_text, atts_text, att; cbn [t_name t_atts map concat fst snd];
  repeat (rewrite <- ?app_assoc; cbn [app]); rewrite ?app_nil_r;
  repeat match goal with |- context [L ?s] => let v := eval vm_compute in (L s) in change (L s) with v end;
  unfold LT, GT, BLANK, EQUALS, QUOTE, SLASH, EOL; repeat (rewrite <- ?app_assoc; cbn [app]); try reflexivity.
Lemma meta_is : forall k p, meta_line k p = slash_text (meta_tag k p) ++ [EOL].
Proof. intros k [a b]. unfold meta_line, meta_tag. same_text. Qed.
Lemma meta_ok : forall k p, is_name k -> is_value (fst p) -> is_value (snd p) -> tag_ok (meta_tag k p).
Proof.
  intros k p Hk Ha Hb. split; cbn [t_name t_atts meta_tag]; [apply plain_name; reflexivity|]. intros a v [E|[E|[]]]; inversion E; subst; split; auto.
  apply plain_name; reflexivity.
Qed.
Definition part (k : pystr) (d : list (pystr * sdict)) : sdict := match lookup k d with Some e => e | None => [] end.
Lemma lookup_in : forall A (d : list (pystr * A)) k v, lookup k d = Some v -> In (k, v) d.
Proof.
  induction d as [|[j w] d IH]; cbn; intros k v H; [discriminate|]. destruct (str_eqb j k) eqn:E; [|right; apply IH; exact H].
  apply str_eqb_eq in E. inversion H; subst. left. reflexivity.
Qed.
Lemma meta_read : forall d, values_ok (part (L "HTTP-EQUIV") d) -> values_ok (part (L "NAME") d) ->
  tags_of (meta_tags d) = Some (map (meta_tag (L "http-equiv")) (part (L "HTTP-EQUIV") d) ++ map (meta_tag (L "name")) (part (L "NAME") d)).
Proof.
  intros d H1 H2.
  assert (E : meta_tags d = concat (map (fun t => slash_text t ++ [EOL])
    (map (meta_tag (L "http-equiv")) (part (L "HTTP-EQUIV") d) ++ map (meta_tag (L "name")) (part (L "NAME") d)))).
  { unfold meta_tags, part. rewrite map_app, concat_app, !map_map.
    f_equal; [destruct (lookup (L "HTTP-EQUIV") d)|destruct (lookup (L "NAME") d)]; try reflexivity; f_equal; apply map_ext; intro; apply meta_is. }
  rewrite E. apply tags_lines. apply Forall_app. split; apply Forall_forall; intros t Ht; apply in_map_iff in Ht as ([a v] & <- & Hp).
  - destruct (H1 _ _ Hp). apply meta_ok; auto. apply plain_name; reflexivity.
  - destruct (H2 _ _ Hp). apply meta_ok; auto. apply plain_name; reflexivity.
Qed.

(** The links. *)
Definition link_tag (src : pystr) : tag := mkT (L "link") [(L "rel", L "stylesheet"); (L "type", L "text/css"); (L "href", src)].
Lemma links_is : forall libs, css_links libs = concat (map (fun t => slash_text t ++ [EOL]) (map link_tag (map snd libs))).
Proof.
  intro libs. unfold css_links.
  assert (G : forall acc, fold_left (fun acc '(_, src) => acc ++ L "<link rel=""stylesheet"" type=""text/css"" href=""" ++ src ++ L """ />" ++ [10%N]) libs acc
     = acc ++ concat (map (fun t => slash_text t ++ [EOL]) (map link_tag (map snd libs)))).
  { induction libs as [|[k s] libs IH]; intro acc; cbn [fold_left map concat snd]; [rewrite app_nil_r; reflexivity|].
    rewrite IH. rewrite <- app_assoc. f_equal. rewrite !app_assoc. f_equal. unfold link_tag. same_text. }
  apply (G []).
Qed.
Lemma links_read : forall libs, (forall s, In s (map snd libs) -> is_value s) -> tags_of (css_links libs) = Some (map link_tag (map snd libs)).
Proof.
  intros libs H. rewrite links_is. apply tags_lines. apply Forall_forall. intros t Ht. apply in_map_iff in Ht as (s & <- & Hs).
  split; cbn [t_name t_atts link_tag]; [apply plain_name; reflexivity|]. intros a v [E|[E|[E|[]]]]; inversion E; subst;
    (split; [apply plain_name; reflexivity|]); try (apply plain_value; reflexivity). apply H. exact Hs.
Qed.

(** The rules. *)
Lemma code_is : forall atts acc, fold_left (fun acc '(k, v) => acc ++ k ++ L ": " ++ v ++ L "; ") atts acc =
  acc ++ concat (map (fun p => (fst p ++ L ": " ++ snd p) ++ L "; ") atts).
Proof.
  induction atts as [|[k v] atts IH]; intro acc; cbn [fold_left map concat fst snd]; [rewrite app_nil_r; reflexivity|].
  rewrite IH. rewrite <- !app_assoc. reflexivity.
Qed.
Lemma cut_join : forall l, cut2 (concat (map (fun x => x ++ L "; ") l)) = joined (L "; ") l.
Proof.
  assert (G : forall x l, concat (map (fun x => x ++ L "; ") (x :: l)) = joined (L "; ") (x :: l) ++ L "; ").
  { intros x l. revert x. induction l as [|y l IH]; intro x; [cbn; rewrite app_nil_r; reflexivity|].
    change (concat (map (fun x => x ++ L "; ") (x :: y :: l))) with ((x ++ L "; ") ++ concat (map (fun x => x ++ L "; ") (y :: l))).
    rewrite IH. change (joined (L "; ") (x :: y :: l)) with (x ++ L "; " ++ joined (L "; ") (y :: l)). rewrite <- !app_assoc. reflexivity. }
  intros [|x l]; [reflexivity|]. rewrite G. unfold cut2. rewrite app_length. change (length (L "; ")) with 2%nat.
  replace (length (joined (L "; ") (x :: l)) + 2 - 2)%nat with (length (joined (L "; ") (x :: l)) + 0)%nat by lia.
  rewrite firstn_app_2. cbn [firstn]. apply app_nil_r.
Qed.
Lemma rule_is : forall i atts, css_rule i atts = [EOL] ++ rule i atts.
Proof.
  intros i atts. unfold css_rule, rule, declared. rewrite code_is. cbn [app].
  rewrite <- (map_map (fun p => fst p ++ L ": " ++ snd p) (fun x => x ++ L "; ")), cut_join. reflexivity.
Qed.
Lemma loop_is : forall sheets order acc, (forall i, In i order -> lookup i sheets <> None) ->
  css_loop sheets order acc = acc ++ concat (map (fun i => [EOL] ++ rule i (part i sheets)) order).
Proof.
  induction order as [|i order IH]; intros acc H; cbn [css_loop map concat]; [rewrite app_nil_r; reflexivity|].
  assert (Hi := H i (or_introl eq_refl)). unfold part at 1. destruct (lookup i sheets) as [a|] eqn:E; [|congruence].
  rewrite IH by (intros j Hj; apply H; right; exact Hj). rewrite rule_is, <- !app_assoc. reflexivity.
Qed.

(** The scripts. *)
Definition script_tag (v src : pystr) : tag := mkT (L "script") [(L "language", L "JavaScript" ++ v); (L "type", L "text/javascript"); (L "src", src)].
(** What a value stands for: a source without a version, or a version and a source; more is ignored. *)
Definition stands_for (d : details) (v src : pystr) : Prop := (d = DStr src /\ v = []) \/ exists r, d = DSeq (v :: src :: r).
Lemma lib_is : forall d v src, stands_for d v src -> js_lib d = Ok (slash_text (script_tag v src) ++ [EOL]).
Proof. intros d v src [[-> ->]|[r ->]]; unfold js_lib, item, as_seq, script_tag; cbn [nth_error]; f_equal; same_text. Qed.
Lemma libs_is : forall libs l, Forall2 (fun p q => stands_for (snd p) (fst q) (snd q)) libs l ->
  js_loop js_lib libs = Ok (concat (map (fun t => slash_text t ++ [EOL]) (map (fun q => script_tag (fst q) (snd q)) l))).
Proof.
  induction 1 as [|[k d] [v src] libs l H _ IH]; [reflexivity|]. cbn [js_loop map concat fst snd] in *. rewrite (lib_is _ _ _ H), IH. reflexivity.
Qed.
Lemma libs_read : forall libs l, Forall2 (fun p q => stands_for (snd p) (fst q) (snd q)) libs l -> values_ok l ->
  exists s, javascript_tags [] libs = Ok s /\ tags_of s = Some (map (fun q => script_tag (fst q) (snd q)) l).
Proof.
  intros libs l H V. unfold javascript_tags. cbn [js_loop]. rewrite (libs_is _ _ H). eexists. split; [reflexivity|]. cbn [app]. apply tags_lines.
  apply Forall_forall. intros t Ht. apply in_map_iff in Ht as ([v src] & <- & Hq). destruct (V _ _ Hq) as [Hv Hs]. cbn [fst snd].
  split; cbn [t_name t_atts script_tag]; [apply plain_name; reflexivity|].
  intros a w [E|[E|[E|[]]]]; inversion E; subst; (split; [apply plain_name; reflexivity|]); try (apply plain_value; reflexivity); auto.
  intro K. unfold is_value in Hv. change (In QUOTE (L "JavaScript" ++ v)) in K. apply in_app_or in K as [K|K]; [|exact (Hv K)]. revert K. apply plain_value. reflexivity.
Qed.
(** The code of a script with a version or without has no effect. *)
Lemma tag_blind : forall v c1 c2, js_tag (DSeq [v; c1]) = js_tag (DSeq [v; c2]) /\ js_tag (DStr c1) = js_tag (DStr c2).
Proof. intros. split; reflexivity. Qed.

(** Images. *)
Definition img_atts (src alt border : pystr) (width height : option pystr) : list (pystr * pystr) :=
  [(L "src", src)] ++ (match width with Some w => [(L "width", w)] | None => [] end) ++
  (match height with Some h => [(L "height", h)] | None => [] end) ++ [(L "alt", alt); (L "border", border)].
Lemma spacer_read : forall w h, is_value w -> is_value h -> tags_of (spacer w h) =
  Some [mkT (L "img") [(L "src", L "spacer.gif"); (L "width", w); (L "height", h); (L "alt", [])]].
Proof.
  intros w h Hw Hh. set (t := mkT _ _). assert (E : spacer w h = slash_text t ++ []) by (unfold spacer, t; same_text).
  unfold tags_of. rewrite E, read_slash; [reflexivity|]. split; cbn [t_name t_atts t]; [apply plain_name; reflexivity|].
  intros a v [K|[K|[K|[K|[]]]]]; inversion K; subst; (split; [apply plain_name; reflexivity|]); auto; apply plain_value; reflexivity.
Qed.
Lemma img_given : forall w f src alt wd ht border, w_attr w (L "normalizePath") = Some f -> wd <> [] -> ht <> [] ->
  is_value (f src) -> is_value alt -> is_value wd -> is_value ht -> is_value border ->
  exists s, img_tag w src alt (Some wd) (Some ht) border = Ok s /\ tags_of s = Some [mkT (L "img") (img_atts (f src) alt border (Some wd) (Some ht))].
Proof.
  intros w f src alt wd ht border Hf Nw Nh V1 V2 V3 V4 V5. unfold img_tag. rewrite Hf.
  destruct wd as [|c wd]; [congruence|]. destruct ht as [|d ht]; [congruence|]. cbn [given andb text_of]. eexists. split; [reflexivity|].
  set (t := mkT _ _). set (W := c :: wd) in *. set (H := d :: ht) in *.
  match goal with |- tags_of ?x = _ => assert (E : x = slash_text t ++ []) by (subst t; unfold img_atts; cbn [app]; same_text) end.
  unfold tags_of. rewrite E, read_slash; [reflexivity|]. split; cbn [t_name t_atts t]; [apply plain_name; reflexivity|].
  intros a v [K|[K|[K|[K|[K|[]]]]]]; inversion K; subst; (split; [apply plain_name; reflexivity|]); auto.
Qed.

(** The dicts, with each key once. *)
Lemma lookup_once : forall A (d : list (pystr * A)) k v, NoDup (map fst d) -> In (k, v) d -> lookup k d = Some v.
Proof.
  induction d as [|[j w] d IH]; intros k v N H; [destruct H|]. cbn [map fst] in N. inversion N as [|? ? N1 N2]; subst. cbn [lookup].
  destruct H as [H|H].
  - inversion H; subst. rewrite (proj2 (str_eqb_eq k k) eq_refl). reflexivity.
  - destruct (str_eqb j k) eqn:E; [|apply IH; assumption]. apply str_eqb_eq in E. subst. exfalso. apply N1. apply in_map_iff. exists (k, v). auto.
Qed.
Lemma lookup_not : forall A (d : list (pystr * A)) k, ~ In k (map fst d) -> lookup k d = None.
Proof.
  intros A d k H. destruct (lookup k d) as [v|] eqn:E; [|reflexivity]. exfalso. apply H. apply lookup_in in E. apply in_map_iff. exists (k, v). auto.
Qed.
Lemma part_is : forall k d e, NoDup (map fst d) -> entry k d e -> part k d = e.
Proof. intros k d e N [H|[H ->]]; unfold part, sdict; [rewrite (lookup_once _ _ _ _ N H)|rewrite (lookup_not _ _ _ H)]; reflexivity. Qed.
Lemma sheet_is : forall libs sheets order f, NoDup (map fst sheets) -> order <> [] -> (forall i, In i order -> In (i, f i) sheets) ->
  stylesheet_tags libs sheets order =
  css_links libs ++ (L "<style type=""text/css""><!--" ++ [EOL]) ++ concat (map (fun i => [EOL] ++ rule i (f i)) order) ++ [EOL] ++ L "//--></style>" ++ [EOL].
Proof.
  intros libs sheets order f N K H. unfold stylesheet_tags. destruct order as [|i order]; [congruence|].
  rewrite loop_is by (intros j Hj; rewrite (lookup_once _ _ _ _ N (H j Hj)); discriminate).
  rewrite <- !app_assoc. do 4 f_equal. f_equal. apply map_ext_in. intros j Hj. unfold part. rewrite (lookup_once _ _ _ _ N (H j Hj)). reflexivity.
Qed.

(** Images in general. *)
Definition img_text (src alt border : pystr) (width height : option pystr) : pystr :=
  slash_text (mkT (L "img") ([(L "src", src)] ++ shown (L "width") width ++ shown (L "height") height ++ [(L "alt", alt); (L "border", border)])).
Lemma shown_value : forall n o a v, In (a, v) (shown n o) -> a = n /\ o = Some v.
Proof. intros n [[|c r]|] a v H; cbn in H; try contradiction. destruct H as [H|[]]. inversion H; subst. auto. Qed.
Lemma img_text_read : forall src alt border width height, is_value src -> is_value alt -> is_value border ->
  (forall v, width = Some v -> is_value v) -> (forall v, height = Some v -> is_value v) ->
  tags_of (img_text src alt border width height) =
  Some [mkT (L "img") ([(L "src", src)] ++ shown (L "width") width ++ shown (L "height") height ++ [(L "alt", alt); (L "border", border)])].
Proof.
  intros src alt border width height H1 H2 H3 H4 H5. unfold tags_of, img_text. rewrite <- (app_nil_r (slash_text _)), read_slash; [reflexivity|].
  split; cbn [t_name t_atts]; [apply plain_name; reflexivity|]. intros a v K.
  apply in_app_or in K as [K|K]; [destruct K as [K|[]]; inversion K; subst; split; [apply plain_name; reflexivity|assumption]|].
  apply in_app_or in K as [K|K]; [apply shown_value in K as [-> K]; split; [apply plain_name; reflexivity|apply H4; exact K]|].
  apply in_app_or in K as [K|K]; [apply shown_value in K as [-> K]; split; [apply plain_name; reflexivity|apply H5; exact K]|].
  destruct K as [K|[K|[]]]; inversion K; subst; (split; [apply plain_name; reflexivity|assumption]).
Qed.
(** The sizes in the end. *)
Definition sizes (m : option (pystr * pystr)) (wd ht : option pystr) : option pystr * option pystr :=
  if given wd && given ht then (wd, ht)
  else match m with
       | None => (wd, ht)
       | Some (a, b) => (if given wd then wd else Some a, if given ht then ht else Some b)
       end.
Lemma img_is : forall w f src alt wd ht border, w_attr w (L "normalizePath") = Some f ->
  img_tag w src alt wd ht border = Ok (let '(x, y) := sizes (measure w (f src)) wd ht in img_text (f src) alt border x y).
Proof.
  intros w f src alt wd ht border H. unfold img_tag. rewrite H. fold (sizes (measure w (f src)) wd ht).
  destruct (sizes (measure w (f src)) wd ht) as [x y]. f_equal. unfold img_text.
  destruct x as [[|c x]|], y as [[|d y]|]; cbn [given andb text_of shown app]; same_text.
Qed.
Lemma split_no : forall s, ~ In COMMA s -> split_comma s = [s].
Proof.
  induction s as [|c s IH]; intro H; [reflexivity|]. destruct (no_in _ _ _ H) as [E H']. cbn [split_comma]. unfold COMMA in E. rewrite E, IH by exact H'. reflexivity.
Qed.
Lemma split_two : forall a b, ~ In COMMA a -> ~ In COMMA b -> split_comma (a ++ COMMA :: b) = [a; b].
Proof.
  induction a as [|c a IH]; intros b Ha Hb; cbn [app split_comma].
  - change (N.eqb COMMA 44) with true. cbv iota. rewrite split_no by exact Hb. reflexivity.
  - destruct (no_in _ _ _ Ha) as [E H']. unfold COMMA in E. rewrite E, IH by assumption. reflexivity.
Qed.
Definition finds (w : world) (path a b : pystr) : Prop :=
  w_pil w path = Some (a, b) \/
  (w_pil w path = None /\ w_popen w (L "identify -format ""%w,%h"" " ++ path) = a ++ COMMA :: b /\ ~ In COMMA a /\ ~ In COMMA b).
Lemma finds_is : forall w path a b, finds w path a b -> measure w path = Some (a, b).
Proof.
  intros w path a b [H|(H & P & Ha & Hb)]; unfold measure; rewrite H; [reflexivity|]. unfold identify. rewrite P, split_two by assumption. reflexivity.
Qed.
Lemma img_found : forall w f src alt wd ht border a b, w_attr w (L "normalizePath") = Some f -> finds w (f src) a b -> a <> [] -> b <> [] ->
  is_value (f src) -> is_value alt -> is_value (or_else wd a) -> is_value (or_else ht b) -> is_value border ->
  exists s, img_tag w src alt wd ht border = Ok s /\
    tags_of s = Some [mkT (L "img") [(L "src", f src); (L "width", or_else wd a); (L "height", or_else ht b); (L "alt", alt); (L "border", border)]].
Proof.
  intros w f src alt wd ht border a b Hf M Na Nb V1 V2 V3 V4 V5. rewrite (img_is _ _ _ _ _ _ _ Hf), (finds_is _ _ _ _ M).
  assert (E : sizes (Some (a, b)) wd ht = (Some (or_else wd a), Some (or_else ht b))).
  { unfold sizes. destruct wd as [[|c x]|], ht as [[|d y]|]; reflexivity. }
  rewrite E. eexists. split; [reflexivity|]. rewrite img_text_read; auto.
  - destruct wd as [[|c x]|], ht as [[|d y]|], a as [|e a], b as [|g b]; try congruence; reflexivity.
  - intros v K; inversion K; subst; assumption.
  - intros v K; inversion K; subst; assumption.
Qed.
Lemma img_alone : forall w f src alt wd ht border, w_attr w (L "normalizePath") = Some f -> w_pil w (f src) = None ->
  ~ In COMMA (w_popen w (L "identify -format ""%w,%h"" " ++ f src)) ->
  is_value (f src) -> is_value alt -> (forall v, wd = Some v -> is_value v) -> (forall v, ht = Some v -> is_value v) -> is_value border ->
  exists s, img_tag w src alt wd ht border = Ok s /\
    tags_of s = Some [mkT (L "img") ([(L "src", f src)] ++ shown (L "width") wd ++ shown (L "height") ht ++ [(L "alt", alt); (L "border", border)])].
Proof.
  intros w f src alt wd ht border Hf Hp Hc V1 V2 V3 V4 V5. rewrite (img_is _ _ _ _ _ _ _ Hf).
  assert (E : sizes (measure w (f src)) wd ht = (wd, ht)).
  { unfold measure. rewrite Hp. unfold identify. rewrite split_no by exact Hc. unfold sizes. destruct (given wd && given ht)%bool; reflexivity. }
  rewrite E. eexists. split; [reflexivity|]. apply img_text_read; auto.
Qed.
