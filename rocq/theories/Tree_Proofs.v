(** Proofs about directory creation and site hierarchies. *)
From Verif Require Import Tree_Model Tree_Spec.

(** ** Places *)
Lemma names_eqb_spec : forall a b, reflect (a = b) (names_eqb a b).
Proof.
  induction a as [|x a IH]; intros [|y b]; cbn [names_eqb]; try (constructor; congruence).
  destruct (str_eqb_spec x y) as [E|E]; cbn [andb].
  - destruct (IH b) as [E2|E2]; constructor; congruence.
  - constructor; congruence.
Qed.

Lemma place_eqb_spec : forall a b, reflect (a = b) (place_eqb a b).
Proof.
  intros [a1 a2] [b1 b2]. unfold place_eqb. cbn [fst snd].
  destruct (Bool.eqb_spec a1 b1) as [E|E]; cbn [andb].
  - destruct (names_eqb_spec a2 b2) as [E2|E2]; constructor; congruence.
  - constructor; congruence.
Qed.

Lemma fget_cons : forall f y n x, snd y <> [] ->
  fget ((y, n) :: f) x = if place_eqb x y then Some n else fget f x.
Proof.
  intros f y n [b names] Hy. unfold fget. cbn [snd].
  destruct names as [|a names].
  - destruct (place_eqb_spec (b, []) y) as [E|E]; [subst y; cbn in Hy; congruence|reflexivity].
  - reflexivity.
Qed.

(** ** Path strings *)
Definition names (p : pystr) : list pystr := snd (resolve p).
Definition nonempty (s : pystr) : bool := match s with [] => false | _ => true end.

Lemma split_char_app_gen : forall c a b, split_char c (a ++ c :: b) = split_char c a ++ split_char c b.
Proof.
  intros c a b. induction a as [|x a IH].
  - exact (split_char_app c [] b (fun H => H)).
  - cbn [app split_char]. rewrite IH.
    destruct (N.eqb_spec x c); [reflexivity|].
    destruct (split_char c a) as [|w ws] eqn:E; [exfalso; exact (split_char_nonnil c a E)|].
    reflexivity.
Qed.

Lemma names_app : forall a b, names (a ++ 47%N :: b) = names a ++ names b.
Proof.
  intros a b. unfold names, resolve. cbn [snd]. rewrite split_char_app_gen, filter_app. reflexivity.
Qed.

Lemma names_word : forall s, ~ In 47%N s -> names s = if nonempty s then [s] else [].
Proof.
  intros s H. unfold names, resolve. cbn [snd]. rewrite split_char_word by exact H.
  destruct s; reflexivity.
Qed.

Lemma rstrip_slash_form : forall h, exists k, h = rstrip_slash h ++ repeat 47%N k.
Proof.
  induction h as [|c h [k IH]]; [exists 0; reflexivity|]. cbn [rstrip_slash].
  destruct (rstrip_slash h) as [|x r] eqn:E.
  - cbn in IH. destruct (N.eqb_spec c 47) as [->|Hn].
    + exists (S k). cbn. f_equal. exact IH.
    + exists k. cbn. f_equal. exact IH.
  - exists k. cbn [app]. f_equal. exact IH.
Qed.

Lemma names_repeat : forall k s, names (s ++ repeat 47%N k) = names s.
Proof.
  induction k as [|k IH]; intro s; cbn [repeat].
  - rewrite app_nil_r. reflexivity.
  - rewrite names_app. change (repeat 47%N k) with ([] ++ repeat 47%N k). rewrite IH.
    change (names []) with (@nil pystr). apply app_nil_r.
Qed.

Lemma split_last_slash_none : forall s, split_last_slash s = None -> ~ In 47%N s.
Proof.
  induction s as [|c s IH]; intros H; [intros []|]. cbn [split_last_slash] in H.
  destruct (split_last_slash s) as [[a b]|]; [discriminate|].
  destruct (N.eqb_spec c 47) as [E|E]; [discriminate|].
  intros [F|F]; [congruence|]. exact (IH eq_refl F).
Qed.

Lemma split_last_slash_some : forall s a b, split_last_slash s = Some (a, b) ->
  exists a', a = a' ++ [47%N] /\ s = a ++ b /\ ~ In 47%N b.
Proof.
  induction s as [|c s IH]; intros a b H; [discriminate|]. cbn [split_last_slash] in H.
  destruct (split_last_slash s) as [[a0 b0]|] eqn:E.
  - injection H as <- <-. destruct (IH a0 b0 eq_refl) as (a' & -> & -> & Hb).
    exists (c :: a'). split; [reflexivity|]. split; [reflexivity|exact Hb].
  - destruct (N.eqb_spec c 47) as [->|]; [|discriminate]. injection H as <- <-.
    exists []. split; [reflexivity|]. split; [reflexivity|]. exact (split_last_slash_none s E).
Qed.

(** What [path_split] gives. *)
Lemma path_split_spec : forall p dir fil, path_split p = (dir, fil) ->
  (dir = [] /\ fil = p /\ ~ In 47%N p)
  \/ (dir <> [] /\ fst (resolve dir) = fst (resolve p)
      /\ names p = names dir ++ (if nonempty fil then [fil] else [])
      /\ ~ In 47%N fil
      /\ (length dir < length p \/ names dir = [])).
Proof.
  intros p dir fil H. unfold path_split in H.
  destruct (split_last_slash p) as [[head tail]|] eqn:E.
  - right. destruct (split_last_slash_some p head tail E) as (a' & Eh & Ep & Hb).
    injection H as H1 H2. subst fil.
    assert (Nh : names head = names a') by (subst head; rewrite names_app; apply app_nil_r).
    assert (Np : names p = names head ++ (if nonempty tail then [tail] else [])).
    { rewrite Nh, Ep, Eh, <- app_assoc. cbn [app]. rewrite names_app.
      rewrite (names_word tail Hb). reflexivity. }
    destruct (rstrip_slash_form head) as [k Ek].
    destruct (rstrip_slash head) as [|x r] eqn:Er.
    + subst dir. split; [subst head; destruct a'; discriminate|].
      split; [rewrite Ep; subst head; destruct a'; reflexivity|].
      split; [exact Np|]. split; [exact Hb|]. right.
      rewrite Ek. apply (names_repeat k []).
    + assert (Nd : names dir = names head) by (rewrite Ek, names_repeat, H1; reflexivity).
      split; [rewrite <- H1; discriminate|].
      split; [rewrite Ep, Ek, <- H1; reflexivity|].
      split; [rewrite Nd; exact Np|]. split; [exact Hb|]. left.
      rewrite Ep, Ek. rewrite <- H1. rewrite !app_length.
      destruct k as [|k]; [|rewrite repeat_length; lia].
      exfalso. cbn [repeat] in Ek. rewrite app_nil_r in Ek. rewrite Eh in Ek, Er.
      (* a head that ends in a slash is not its own stripped form *)
      assert (L : forall s, rstrip_slash (s ++ [47%N]) = rstrip_slash s).
      { clear. induction s as [|c s IH]; [reflexivity|]. cbn [app rstrip_slash]. rewrite IH. reflexivity. }
      rewrite L in Er. assert (length (rstrip_slash a') <= length a').
      { clear. induction a' as [|c a' IH]; [reflexivity|]. cbn [rstrip_slash length].
        destruct (rstrip_slash a') as [|]; [destruct (c =? 47)%N; cbn; lia|cbn [length] in *; lia]. }
      rewrite Er in H. rewrite <- Ek in H. rewrite app_length in H. cbn in H. lia.
  - left. injection H as <- <-. split; [reflexivity|]. split; [reflexivity|].
    exact (split_last_slash_none p E).
Qed.

Lemma resolve_join : forall p name, p <> [] -> ~ In 47%N name -> nonempty name = true ->
  resolve (path_join p name) = child (resolve p) name.
Proof.
  intros p name Hp Hn Hne. unfold path_join, child.
  destruct (rev p) as [|c r] eqn:E.
  - exfalso. apply Hp. rewrite <- (rev_involutive p), E. reflexivity.
  - assert (Ep : p = rev r ++ [c]) by (rewrite <- (rev_involutive p), E; reflexivity).
    assert (Nn : names name = [name]) by (rewrite names_word by exact Hn; rewrite Hne; reflexivity).
    destruct (N.eqb_spec c 47) as [->|Hc].
    + rewrite Ep at 1. rewrite <- app_assoc. cbn [app].
      rewrite (surjective_pairing (resolve (rev r ++ 47%N :: name))). f_equal.
      * rewrite Ep. unfold resolve. cbn [fst]. destruct (rev r); reflexivity.
      * change (snd (resolve (rev r ++ 47%N :: name))) with (names (rev r ++ 47%N :: name)).
        rewrite names_app, Nn. f_equal. change (snd (resolve p)) with (names p).
        rewrite Ep, names_app. symmetry. apply app_nil_r.
    + rewrite (surjective_pairing (resolve (p ++ 47%N :: name))). f_equal.
      * unfold resolve. cbn [fst]. destruct p; [congruence|reflexivity].
      * change (snd (resolve (p ++ 47%N :: name))) with (names (p ++ 47%N :: name)).
        rewrite names_app, Nn. reflexivity.
Qed.

(** ** One level *)
Lemma parent_child : forall x n, parent (child x n) = x.
Proof. intros [b l] n. unfold parent, child. cbn [fst snd]. rewrite removelast_last. reflexivity. Qed.

Lemma child_names : forall x n, snd (child x n) <> [].
Proof. intros x n F. cbn in F. destruct (snd x); discriminate. Qed.

Lemma child_ne : forall x n, child x n <> x.
Proof.
  intros [b l] n F. unfold child in F. cbn [fst snd] in F. injection F as F.
  apply (f_equal (@length pystr)) in F. rewrite app_length in F. cbn in F. lia.
Qed.

Lemma make_one : forall f p, tree_shaped f -> p <> [] -> fget f (resolve p) = None ->
  fget f (parent (resolve p)) = Some Dir ->
  exists f1 f2, mkdir f p = Ok f1 /\ touch f1 (path_join p init) = Ok f2
    /\ tree_shaped f2
    /\ forall x, fget f2 x = if place_eqb x (child (resolve p) init) then Some (File [])
                             else if place_eqb x (resolve p) then Some Dir else fget f x.
Proof.
  intros f p Ht Hp Hn Hpar.
  assert (Hq : snd (resolve p) <> []).
  { intro F. unfold fget in Hn. rewrite F in Hn. discriminate. }
  exists ((resolve p, Dir) :: f), ((child (resolve p) init, File []) :: (resolve p, Dir) :: f).
  assert (J : resolve (path_join p init) = child (resolve p) init).
  { apply resolve_join; [exact Hp| |reflexivity].
    intro F. vm_compute in F. repeat (destruct F as [F|F]; [discriminate|]). exact F. }
  assert (G : forall x, fget ((child (resolve p) init, File []) :: (resolve p, Dir) :: f) x
     = if place_eqb x (child (resolve p) init) then Some (File [])
       else if place_eqb x (resolve p) then Some Dir else fget f x).
  { intro x. rewrite fget_cons by apply child_names. rewrite fget_cons by exact Hq. reflexivity. }
  split; [|split; [|split; [|exact G]]].
  - unfold mkdir. destruct p as [|c p]; [congruence|]. rewrite Hn, Hpar. reflexivity.
  - unfold touch. rewrite J, parent_child. rewrite !fget_cons by exact Hq.
    destruct (place_eqb_spec (resolve p) (resolve p)) as [_|F]; [|congruence].
    destruct (place_eqb_spec (child (resolve p) init) (resolve p)) as [F|_];
      [exfalso; exact (child_ne _ _ F)|].
    destruct (fget f (child (resolve p) init)) as [n|] eqn:E; [|reflexivity].
    exfalso. pose proof (Ht _ _ E (child_names _ _)) as F. rewrite parent_child in F. congruence.
  - intros x n Hx Hne. rewrite G in Hx.
    destruct (place_eqb_spec x (child (resolve p) init)) as [->|Hx1].
    + rewrite parent_child, G.
      destruct (place_eqb_spec (resolve p) (child (resolve p) init)) as [F|_];
        [exfalso; exact (child_ne _ _ (eq_sym F))|].
      destruct (place_eqb_spec (resolve p) (resolve p)); [reflexivity|congruence].
    + assert (P : fget f (parent x) = Some Dir).
      { destruct (place_eqb_spec x (resolve p)) as [->|_]; [exact Hpar|exact (Ht x n Hx Hne)]. }
      rewrite G. destruct (place_eqb_spec (parent x) (child (resolve p) init)) as [F|_].
      * exfalso. rewrite F in P.
        pose proof (Ht _ _ P (child_names _ _)) as Q. rewrite parent_child in Q. congruence.
      * destruct (place_eqb_spec (parent x) (resolve p)); [reflexivity|exact P].
Qed.

(** ** The whole function *)
(** What the call leaves behind. *)
Definition made (f f' : fs) (q : place) : Prop :=
  (forall x n, fget f x = Some n -> fget f' x = Some n)
  /\ (forall x n, fget f x = None ->
        (fget f' x = Some n <->
         (n = Dir /\ on_the_way x q)
         \/ (n = File [] /\ exists y, on_the_way y q /\ fget f y = None /\ x = child y init))).

Lemma on_the_way_refl : forall q, on_the_way q q.
Proof. intro q. split; [reflexivity|]. exists []. rewrite app_nil_r. reflexivity. Qed.

Lemma list_snoc_cases : forall {A} (r : list A), r = [] \/ exists r' z, r = r' ++ [z].
Proof.
  intros A r. destruct r as [|a r]; [left; reflexivity|].
  right. destruct (@exists_last A (a :: r)) as (r' & z & E); [discriminate|]. exists r', z. exact E.
Qed.

Lemma way_snoc : forall x b l n, on_the_way x (b, l ++ [n]) ->
  on_the_way x (b, l) \/ x = (b, l ++ [n]).
Proof.
  intros [bx lx] b l n [H1 [r H2]]. cbn [fst snd] in *. subst bx.
  destruct (list_snoc_cases r) as [->|(r' & z & ->)].
  - right. rewrite app_nil_r in H2. congruence.
  - left. rewrite app_assoc in H2. apply app_inj_tail in H2 as [H2 _].
    split; [reflexivity|]. exists r'. exact H2.
Qed.

Lemma way_snoc_in : forall x b l n, on_the_way x (b, l) -> on_the_way x (b, l ++ [n]).
Proof.
  intros x b l n [H1 [r H2]]. cbn [fst snd] in *. split; [exact H1|]. exists (r ++ [n]).
  cbn [snd]. rewrite H2, app_assoc. reflexivity.
Qed.

Lemma way_In : forall y b l n, on_the_way (child y n) (b, l) -> In n l.
Proof.
  intros y b l n [_ [r H]]. cbn [fst snd child] in H. rewrite H. rewrite !in_app_iff. left. right.
  left. reflexivity.
Qed.

(** Existing things on the way of an existing place exist. *)
Lemma shaped_way : forall f, tree_shaped f -> forall l b n, fget f (b, l) = Some n ->
  forall x, on_the_way x (b, l) -> x = (b, l) \/ fget f x = Some Dir.
Proof.
  intros f Ht l. induction l as [|z l IH] using rev_ind; intros b n H x Hx.
  - left. destruct x as [bx lx]. destruct Hx as [H1 [r H2]]. cbn [fst snd] in *.
    symmetry in H2. apply app_eq_nil in H2 as [-> _]. congruence.
  - destruct (way_snoc _ _ _ _ Hx) as [Hx2|Hx2]; [|left; exact Hx2]. right.
    assert (P : fget f (b, l) = Some Dir).
    { pose proof (Ht _ _ H) as P. unfold parent in P. cbn [fst snd] in P.
      rewrite removelast_last in P. apply P. intro F. destruct l; discriminate. }
    destruct (IH b Dir P x Hx2) as [->|E]; assumption.
Qed.

Lemma made_same : forall f q n, tree_shaped f -> fget f q = Some n -> made f f q.
Proof.
  intros f [b l] n Ht H. split; [auto|]. intros x m Hx. split; [congruence|].
  intros [[_ Hw]|[_ (y & Hw & Hy & _)]]; exfalso.
  - destruct (shaped_way f Ht l b n H x Hw) as [->|E]; congruence.
  - destruct (shaped_way f Ht l b n H y Hw) as [->|E]; congruence.
Qed.

(** Making [(b, l ++ [z])] after [(b, l)] is there. *)
Lemma made_step : forall f f1 f2 b l z, tree_shaped f -> made f f1 (b, l) ->
  ~ In init (l ++ [z]) ->
  fget f1 (b, l ++ [z]) = None ->
  (forall x, fget f2 x = if place_eqb x (child (b, l ++ [z]) init) then Some (File [])
                         else if place_eqb x (b, l ++ [z]) then Some Dir else fget f1 x) ->
  made f f2 (b, l ++ [z]).
Proof.
  intros f f1 f2 b l z Ht [K W] Hi Hnone G.
  set (q := (b, l ++ [z])) in *.
  assert (Qnone : fget f q = None).
  { destruct (fget f q) as [n|] eqn:E; [|reflexivity]. rewrite (K _ _ E) in Hnone. discriminate. }
  assert (Cnone : fget f (child q init) = None).
  { destruct (fget f (child q init)) as [n|] eqn:E; [|reflexivity].
    pose proof (Ht _ _ E (child_names _ _)) as F. rewrite parent_child in F. congruence. }
  split.
  - intros x n Hx. rewrite G.
    destruct (place_eqb_spec x (child q init)) as [->|_]; [congruence|].
    destruct (place_eqb_spec x q) as [->|_]; [congruence|]. exact (K _ _ Hx).
  - intros x n Hx. rewrite G.
    destruct (place_eqb_spec x (child q init)) as [->|Hx1].
    { split.
      - intro F. injection F as <-. right. split; [reflexivity|]. exists q.
        split; [apply on_the_way_refl|]. split; [exact Qnone|reflexivity].
      - intros [[_ Hw]|[-> _]]; [|reflexivity]. exfalso. apply way_In in Hw. exact (Hi Hw). }
    destruct (place_eqb_spec x q) as [->|Hx2].
    { split.
      - intro F. injection F as <-. left. split; [reflexivity|apply on_the_way_refl].
      - intros [[-> _]|[-> (y & Hy & _ & E)]]; [reflexivity|]. exfalso. apply Hi.
        unfold q, child in E. injection E as _ E. rewrite E. apply in_app_iff. right. left. reflexivity. }
    rewrite (W x n Hx). split.
    + intros [[-> Hw]|[-> (y & Hw & Hy & E)]].
      * left. split; [reflexivity|]. apply way_snoc_in. exact Hw.
      * right. split; [reflexivity|]. exists y. split; [apply way_snoc_in; exact Hw|]. split; assumption.
    + intros [[-> Hw]|[-> (y & Hw & Hy & E)]].
      * left. split; [reflexivity|]. destruct (way_snoc _ _ _ _ Hw) as [H|H]; [exact H|].
        exfalso. apply Hx2. exact H.
      * right. split; [reflexivity|]. exists y. split; [|split; assumption].
        destruct (way_snoc _ _ _ _ Hw) as [H|H]; [exact H|]. exfalso. apply Hx1. subst y. exact E.
Qed.

Lemma exists_path_true : forall f p, exists_path f p = true -> exists n, fget f (resolve p) = Some n.
Proof.
  intros f [|c p] H; [discriminate|]. unfold exists_path in H.
  destruct (fget f (resolve (c :: p))) as [n|]; [exists n; reflexivity|discriminate].
Qed.

Lemma exists_path_false : forall f p, p <> [] -> exists_path f p = false -> fget f (resolve p) = None.
Proof.
  intros f [|c p] Hp H; [congruence|]. unfold exists_path in H.
  destruct (fget f (resolve (c :: p))) as [n|]; [discriminate|reflexivity].
Qed.

Lemma made_way : forall f f1 q, made f f1 q -> forall x, on_the_way x q -> exists n, fget f1 x = Some n.
Proof.
  intros f f1 q [K W] x Hx. destruct (fget f x) as [n|] eqn:E.
  - exists n. exact (K _ _ E).
  - exists Dir. apply (W x Dir E). left. split; [reflexivity|exact Hx].
Qed.

Lemma made_clear : forall f f1 q, made f f1 q -> way_clear f q -> ~ In init (snd q) -> way_clear f1 q.
Proof.
  intros f f1 [b l] [K W] C Hi x n Hx Hn. destruct (fget f x) as [m|] eqn:E.
  - rewrite (K _ _ E) in Hn. injection Hn as <-. exact (C _ _ Hx E).
  - apply (W x n E) in Hn. destruct Hn as [[-> _]|[_ (y & _ & _ & ->)]]; [reflexivity|].
    exfalso. apply Hi. exact (way_In _ _ _ _ Hx).
Qed.

Lemma mkdirs_spec : forall fuel f p, length p < fuel -> p <> [] -> tree_shaped f ->
  way_clear f (resolve p) -> ~ In init (names p) ->
  exists f', mkdirs fuel f p = Some (Ok f') /\ tree_shaped f' /\ made f f' (resolve p).
Proof.
  induction fuel as [|fuel IH]; intros f p Hl Hp Ht Hc Hi; [lia|].
  cbn [mkdirs]. destruct (path_split p) as [dir fil] eqn:Es.
  destruct (path_split_spec p dir fil Es) as [(-> & -> & Hs)|(Hd & Hb & Hn & Hf & Hlen)].
  - (* no slash *)
    assert (Ep : resolve p = (false, [p])).
    { rewrite (surjective_pairing (resolve p)). f_equal.
      - destruct p as [|c p]; [congruence|]. cbn. destruct (N.eqb_spec c 47); [|reflexivity].
        exfalso. apply Hs. left. congruence.
      - change (snd (resolve p)) with (names p). rewrite names_word by exact Hs.
        destruct p; [congruence|reflexivity]. }
    destruct (exists_path f p) eqn:Ex.
    + destruct (exists_path_true _ _ Ex) as [n E]. exists f. split; [reflexivity|].
      split; [exact Ht|]. exact (made_same f _ n Ht E).
    + pose proof (exists_path_false _ _ Hp Ex) as E.
      destruct (make_one f p Ht Hp E) as (f1 & f2 & E1 & E2 & Ht2 & G); [rewrite Ep; reflexivity|].
      rewrite E1. fold init. rewrite E2. exists f2. split; [reflexivity|]. split; [exact Ht2|].
      rewrite Ep in *. apply (made_step f f f2 false [] p Ht); try assumption.
      * apply (made_same f (false, []) Dir Ht). reflexivity.
      * unfold names in Hi. rewrite Ep in Hi. exact Hi.
  - assert (First : exists f1, (match dir with
                               | [] => Some (Ok f)
                               | _ => if exists_path f dir then Some (Ok f) else mkdirs fuel f dir
                               end) = Some (Ok f1) /\ tree_shaped f1 /\ made f f1 (resolve dir)).
    { destruct dir as [|c dir]; [congruence|]. set (d := c :: dir) in *.
      destruct (exists_path f d) eqn:Ex.
      - destruct (exists_path_true _ _ Ex) as [n E]. exists f. split; [reflexivity|].
        split; [exact Ht|]. exact (made_same f _ n Ht E).
      - pose proof (exists_path_false _ _ Hd Ex) as E.
        assert (length d < length p).
        { destruct Hlen as [H|H]; [exact H|]. exfalso. unfold names in H. unfold fget in E.
          rewrite H in E. discriminate. }
        apply IH; try assumption; [lia| |].
        + intros x n Hx. apply Hc. destruct Hx as [H1 [r H2]]. split; [congruence|].
          exists (r ++ (if nonempty fil then [fil] else [])).
          change (snd (resolve p)) with (names p). rewrite Hn. unfold names at 1. rewrite H2.
          rewrite app_assoc. reflexivity.
        + intro F. apply Hi. rewrite Hn. apply in_app_iff. left. exact F. }
    destruct First as (f1 & -> & Ht1 & M1).
    assert (Rd : resolve dir = (fst (resolve p), names dir))
      by (rewrite (surjective_pairing (resolve dir)), Hb; reflexivity).
    assert (Rp : resolve p = (fst (resolve p), names dir ++ (if nonempty fil then [fil] else [])))
      by (rewrite (surjective_pairing (resolve p)) at 1; f_equal; exact Hn).
    destruct (nonempty fil) eqn:Ef.
    + (* a name after the last slash *)
      rewrite Rd in M1.
      destruct (exists_path f1 p) eqn:Ex.
      * destruct (exists_path_true _ _ Ex) as [n E]. exists f1. split; [reflexivity|].
        split; [exact Ht1|].
        (* it was there before *)
        assert (E0 : exists m, fget f (resolve p) = Some m).
        { destruct (fget f (resolve p)) as [m|] eqn:E0; [exists m; reflexivity|]. exfalso.
          destruct M1 as [K W]. apply (W _ _ E0) in E. destruct E as [[_ Hw]|[_ (y & Hy & _ & E)]].
          - destruct Hw as [_ [r Hr]]. cbn [snd] in Hr.
            change (snd (resolve p)) with (names p) in Hr. rewrite Hn in Hr.
            apply (f_equal (@length pystr)) in Hr. rewrite !app_length in Hr. cbn in Hr. lia.
          - apply Hi. unfold names. rewrite E. unfold child. cbn [snd]. apply in_app_iff. right.
            left. reflexivity. }
        destruct E0 as [m E0].
        assert (Par : fget f (resolve dir) = Some Dir).
        { rewrite Rd. pose proof (Ht _ _ E0) as P. rewrite Rp in P. unfold parent in P.
          cbn [fst snd] in P. rewrite removelast_last in P. apply P.
          intro F. destruct (names dir); discriminate. }
        destruct M1 as [K W]. split; [exact K|]. intros x n0 Hx. rewrite (W x n0 Hx).
        destruct (made_same f _ m Ht E0) as [_ W0].
        destruct (made_same f _ Dir Ht Par) as [_ W1]. rewrite Rd in W1.
        rewrite <- (W0 x n0 Hx), <- (W1 x n0 Hx). reflexivity.
      * pose proof (exists_path_false _ _ Hp Ex) as E.
        destruct (make_one f1 p Ht1 Hp E) as (g1 & g2 & E1 & E2 & Ht2 & G).
        { rewrite Rp. unfold parent. cbn [fst snd]. rewrite removelast_last.
          destruct (made_way _ _ _ M1 (fst (resolve p), names dir) (on_the_way_refl _)) as [m Em].
          rewrite Em. f_equal. refine (made_clear _ _ _ M1 _ _ _ _ (on_the_way_refl _) Em).
          - intros x n Hx. apply Hc. rewrite Rp. apply way_snoc_in. exact Hx.
          - cbn [snd]. intro F. apply Hi. rewrite Hn. apply in_app_iff. left. exact F. }
        rewrite E1. fold init. rewrite E2. exists g2. split; [reflexivity|]. split; [exact Ht2|].
        rewrite Rp in *. apply (made_step f f1 g2 _ (names dir) fil Ht M1); try assumption.
        rewrite <- Hn. exact Hi.
    + (* trailing slash *)
      rewrite app_nil_r in Rp. rewrite <- Rd in Rp.
      assert (Ex : exists_path f1 p = true).
      { destruct (made_way _ _ _ M1 (resolve dir) (on_the_way_refl _)) as [m Em].
        unfold exists_path. destruct p as [|c p]; [congruence|]. rewrite Rp, Em. reflexivity. }
      rewrite Ex. exists f1. split; [reflexivity|]. split; [exact Ht1|]. rewrite Rp. exact M1.
Qed.

Lemma mkdirs_makes : forall f p, p <> [] -> tree_shaped f -> way_clear f (resolve p) ->
  ~ In init (names p) ->
  exists f', mkdirs (S (length p)) f p = Some (Ok f')
    /\ (forall x, on_the_way x (resolve p) -> fget f' x = Some Dir)
    /\ (forall x, on_the_way x (resolve p) -> fget f x = None ->
          fget f' (child x init) = Some (File []))
    /\ (forall x n, fget f x = Some n -> fget f' x = Some n)
    /\ (forall x n, fget f x = None -> fget f' x = Some n ->
          on_the_way x (resolve p)
          \/ exists y, x = child y init /\ on_the_way y (resolve p) /\ fget f y = None).
Proof.
  intros f p Hp Ht Hc Hi.
  destruct (mkdirs_spec (S (length p)) f p (Nat.lt_succ_diag_r _) Hp Ht Hc Hi) as (f' & E & _ & M).
  exists f'. split; [exact E|]. destruct M as [K W]. split; [|split; [|split]].
  - intros x Hx. destruct (fget f x) as [n|] eqn:Ex.
    + rewrite (Hc x n Hx Ex) in Ex. exact (K _ _ Ex).
    + apply (W x Dir Ex). left. split; [reflexivity|exact Hx].
  - intros x Hx Hn.
    assert (Cn : fget f (child x init) = None).
    { destruct (fget f (child x init)) as [n|] eqn:Ec; [|reflexivity].
      pose proof (Ht _ _ Ec (child_names _ _)) as P. rewrite parent_child in P. congruence. }
    apply (W _ _ Cn). right. split; [reflexivity|]. exists x. split; [exact Hx|]. split; [exact Hn|reflexivity].
  - exact K.
  - intros x n Hn Hx. apply (W x n Hn) in Hx. destruct Hx as [[_ H]|[_ (y & H1 & H2 & H3)]].
    + left. exact H.
    + right. exists y. split; [exact H3|]. split; assumption.
Qed.

(** ** List helpers *)
Lemma remove_first_count : forall x l y,
  count_occ (list_eq_dec N.eq_dec) (remove_first x l) y
  = count_occ (list_eq_dec N.eq_dec) l y - (if list_eq_dec N.eq_dec x y then 1 else 0).
Proof.
  intros x l y. induction l as [|z l IH]; [reflexivity|]. cbn [remove_first].
  destruct (str_eqb_spec x z) as [E|E].
  - subst z. cbn [count_occ]. destruct (list_eq_dec N.eq_dec x y); lia.
  - cbn [count_occ]. rewrite IH.
    destruct (list_eq_dec N.eq_dec z y); destruct (list_eq_dec N.eq_dec x y); try lia. congruence.
Qed.

Lemma removeFromList_count : forall els l y,
  count_occ (list_eq_dec N.eq_dec) (removeFromList l els) y
  = count_occ (list_eq_dec N.eq_dec) l y - count_occ (list_eq_dec N.eq_dec) els y.
Proof.
  unfold removeFromList. induction els as [|x els IH]; intros l y; cbn [fold_left count_occ]; [lia|].
  rewrite IH, remove_first_count. destruct (list_eq_dec N.eq_dec x y); lia.
Qed.

Lemma checkKeywords_none : forall dic legal, checkKeywords dic legal = None <-> incl dic legal.
Proof.
  induction dic as [|k dic IH]; intro legal; cbn [checkKeywords].
  - split; [intros _ x []|reflexivity].
  - destruct (existsb (str_eqb k) legal) eqn:E.
    + rewrite IH. apply existsb_exists in E as (y & Hy & Ey). apply str_eqb_eq in Ey. subst y.
      split; intros H x; [intros [<-|Hx]; [exact Hy|exact (H x Hx)]|intro Hx; apply H; right; exact Hx].
    + split; [discriminate|]. intro H. exfalso.
      assert (Hk : In k legal) by (apply H; left; reflexivity).
      assert (existsb (str_eqb k) legal = true)
        by (apply existsb_exists; exists k; split; [exact Hk|apply str_eqb_refl]). congruence.
Qed.

(** ** Hierarchies *)
Section Site.
Variable url : pystr.

Lemma item_ind' : forall (P : item -> Prop), (forall p, P (Leaf p)) ->
  (forall p cs, Forall P cs -> P (Node p cs)) -> forall x, P x.
Proof.
  intros P HL HN. fix IH 1. intros [p|p cs]; [apply HL|]. apply HN.
  induction cs as [|c cs IHc]; constructor; [apply IH|exact IHc].
Qed.

Lemma inContents_spec : forall x, inContents url x = true <-> occurs url x.
Proof.
  induction x as [p|p cs IH] using item_ind'.
  - cbn [inContents]. split.
    + intro H. apply str_eqb_eq in H. exists [p], (Leaf p). split; [constructor|]. symmetry; exact H.
    + intros (l & y & Hr & Hy). inversion Hr; subst. apply str_eqb_eq. reflexivity.
  - cbn [inContents]. rewrite orb_true_iff, existsb_exists. rewrite Forall_forall in IH. split.
    + intros [H|(c & Hc & H)].
      * apply str_eqb_eq in H. exists [p], (Node p cs).
        split; [apply (rooted_here (Node p cs))|symmetry; exact H].
      * apply (IH c Hc) in H as (l & y & Hr & Hy). exists (p :: l), y.
        split; [exact (rooted_child p cs c l y Hc Hr)|exact Hy].
    + intros (l & y & Hr & Hy). inversion Hr as [|? ? c l' ? Hc Hr']; subst.
      * left. apply str_eqb_eq. reflexivity.
      * right. exists c. split; [exact Hc|]. apply (IH c Hc). exists l', y. split; [exact Hr'|reflexivity].
Qed.

Lemma crumb_path_spec : forall x, occurs url x ->
  exists y, rooted x (crumb_path url x) y /\ fst (label y) = url.
Proof.
  induction x as [p|p cs IH] using item_ind'; intros H.
  - destruct H as (l & y & Hr & Hy). inversion Hr; subst. exists (Leaf p).
    split; [apply (rooted_here (Leaf p))|reflexivity].
  - cbn [crumb_path].
    set (go := fix go (l : list item) : list page :=
           match l with [] => [] | c :: r => if inContents url c then crumb_path url c else go r end).
    assert (G : forall l, incl l cs ->
      (exists c, In c l /\ occurs url c /\ go l = crumb_path url c)
      \/ (go l = [] /\ forall c, In c l -> ~ occurs url c)).
    { induction l as [|c l IHl]; intro Hl.
      - right. split; [reflexivity|]. intros c [].
      - cbn [go]. destruct (inContents url c) eqn:E.
        + left. exists c. split; [left; reflexivity|]. split; [apply inContents_spec; exact E|reflexivity].
        + destruct (IHl (fun z Hz => Hl z (or_intror Hz))) as [(d & Hd & Ho & Eg)|[Eg Hno]].
          * left. exists d. split; [right; exact Hd|]. split; assumption.
          * right. split; [exact Eg|]. intros d [<-|Hd]; [|exact (Hno d Hd)].
            intro F. apply inContents_spec in F. congruence. }
    destruct (G cs (fun z Hz => Hz)) as [(c & Hc & Ho & Eg)|[Eg Hno]]; rewrite Eg.
    + rewrite Forall_forall in IH. destruct (IH c Hc Ho) as (y & Hr & Hy). exists y.
      split; [exact (rooted_child p cs c _ y Hc Hr)|exact Hy].
    + exists (Node p cs). split; [apply (rooted_here (Node p cs))|].
      destruct H as (l & y & Hr & Hy). inversion Hr as [|? ? c l' ? Hc Hr']; subst; [reflexivity|].
      exfalso. apply (Hno c Hc). exists l', y. split; [exact Hr'|reflexivity].
Qed.

Lemma crumb_path_absent : forall x, ~ occurs url x -> crumb_path url x = [label x].
Proof.
  intros [p|p cs] H; [reflexivity|]. cbn [crumb_path label]. f_equal.
  assert (G : forall c, In c cs -> inContents url c = false).
  { intros c Hc. destruct (inContents url c) eqn:E; [|reflexivity]. exfalso. apply H.
    apply inContents_spec in E as (l & y & Hr & Hy). exists (p :: l), y.
    split; [exact (rooted_child p cs c l y Hc Hr)|exact Hy]. }
  clear H. induction cs as [|c cs IH]; [reflexivity|].
  rewrite (G c (or_introl eq_refl)). apply IH. intros d Hd. apply G. right. exact Hd.
Qed.

Definition shown (r : page * nat * list item) : bool := forallb (inContents url) (snd r).

Lemma filter_none : forall {A} (f : A -> bool) l, (forall x, In x l -> f x = false) -> filter f l = [].
Proof.
  intros A f l H. induction l as [|x l IH]; [reflexivity|]. cbn [filter].
  rewrite (H x (or_introl eq_refl)). apply IH. intros y Hy. apply H. right. exact Hy.
Qed.

Lemma filter_flat_map : forall {A B} (f : B -> bool) (g : A -> list B) l,
  filter f (flat_map g l) = flat_map (fun x => filter f (g x)) l.
Proof.
  intros A B f g l. induction l as [|x l IH]; [reflexivity|]. cbn [flat_map].
  rewrite filter_app, IH. reflexivity.
Qed.

Lemma map_flat_map : forall {A B C} (f : B -> C) (g : A -> list B) l,
  map f (flat_map g l) = flat_map (fun x => map f (g x)) l.
Proof.
  intros A B C f g l. induction l as [|x l IH]; [reflexivity|]. cbn [flat_map].
  rewrite map_app, IH. reflexivity.
Qed.

Lemma flat_map_ext_in : forall {A B} (f g : A -> list B) l,
  (forall x, In x l -> f x = g x) -> flat_map f l = flat_map g l.
Proof.
  intros A B f g l H. induction l as [|x l IH]; [reflexivity|]. cbn [flat_map].
  rewrite (H x (or_introl eq_refl)). f_equal. apply IH. intros y Hy. apply H. right. exact Hy.
Qed.

Lemma listing_above : forall x d above r, In r (listing d above x) -> exists e, snd r = e ++ above.
Proof.
  induction x as [p|p cs IH] using item_ind'; intros d above r Hr.
  - destruct Hr as [<-|[]]. exists []. reflexivity.
  - cbn [listing] in Hr. destruct Hr as [<-|Hr]; [exists []; reflexivity|].
    apply in_flat_map in Hr as (c & Hc & Hr). rewrite Forall_forall in IH.
    destruct (IH c Hc _ _ _ Hr) as [e E]. exists (e ++ [Node p cs]). rewrite <- app_assoc. exact E.
Qed.

Lemma menu_rows_listing : forall x d above, forallb (inContents url) above = true ->
  menu_rows url d x = map fst (filter shown (listing d above x)).
Proof.
  induction x as [p|p cs IH] using item_ind'; intros d above Ha.
  - cbn [menu_rows listing filter]. unfold shown. cbn [snd]. rewrite Ha. reflexivity.
  - cbn [menu_rows listing filter]. unfold shown at 1. cbn [snd]. rewrite Ha. cbn [map fst]. f_equal.
    rewrite Forall_forall in IH.
    destruct (inContents url (Node p cs)) eqn:E.
    + rewrite filter_flat_map, map_flat_map. apply flat_map_ext_in. intros c Hc.
      apply (IH c Hc). cbn [forallb]. rewrite E, Ha. reflexivity.
    + rewrite filter_none; [reflexivity|]. intros r Hr. apply in_flat_map in Hr as (c & Hc & Hr).
      destruct (listing_above c _ _ _ Hr) as [e Ee]. unfold shown. rewrite Ee, forallb_app.
      cbn [forallb]. rewrite E. apply andb_false_r.
Qed.

Lemma menu_listing : forall cs,
  flat_map (menu_rows url 0) cs = map fst (filter shown (flat_map (listing 0 []) cs)).
Proof.
  intro cs. rewrite filter_flat_map, map_flat_map. apply flat_map_ext_in. intros c _.
  apply menu_rows_listing. reflexivity.
Qed.

Lemma shown_spec : forall r, shown r = true <-> forall a, In a (snd r) -> occurs url a.
Proof.
  intro r. unfold shown. rewrite forallb_forall.
  split; intros H a Ha; apply inContents_spec, H; exact Ha.
Qed.
End Site.
