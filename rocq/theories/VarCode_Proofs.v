(** The code generated for placeholder names means what the name means. *)
From Verif Require Import Base PyStr Lex_Model Expr_Model Expr_Spec Expr_Proofs NameMapper_Model NameMapper_Spec NameMapper_Proofs VarCode_Spec.

(** ** From the source to segments and chunks *)

Definition names (ids : list pystr) : list seg := map (fun i => (i, [])) ids.

Inductive chunked : list seg -> list chunk -> Prop :=
| ck_nil : chunked [] []
| ck_names i ids segs cs : Forall ident (i :: ids) -> chunked segs cs ->
    chunked (names (i :: ids) ++ segs) ((join (L ".") (i :: ids), true, []) :: cs)
| ck_last i t segs cs : ident i -> t <> [] -> chunked segs cs ->
    chunked ((i, t) :: segs) ((i, negb (called t), t) :: cs).

Lemma ident_no_dot : forall s, ident s -> ~ In 46%N s.
Proof.
  intros s [_ H] I. rewrite forallb_forall in H. apply H in I. discriminate I.
Qed.

Lemma cut_last_none : forall s, ~ In 46%N s -> cut_last s = None.
Proof.
  induction s as [|c s IH]; intro H; [reflexivity|]. cbn. rewrite IH by (intro; apply H; right; assumption).
  destruct (N.eqb_spec c 46) as [->|]; [exfalso; apply H; left; reflexivity|reflexivity].
Qed.

Lemma cut_last_app : forall a b, ~ In 46%N b -> cut_last (a ++ 46%N :: b) = Some (a, b).
Proof.
  induction a as [|c a IH]; intros b H; cbn; [rewrite (cut_last_none b H); reflexivity|].
  rewrite (IH b H). reflexivity.
Qed.

Lemma join_snoc : forall (ids : list pystr) i x, join (L ".") (i :: ids ++ [x]) = join (L ".") (i :: ids) ++ 46%N :: x.
Proof.
  induction ids as [|j ids IH]; intros i x; [reflexivity|].
  change (join (L ".") (i :: (j :: ids) ++ [x])) with (i ++ L "." ++ join (L ".") (j :: ids ++ [x])).
  rewrite IH. change (join (L ".") (i :: j :: ids)) with (i ++ L "." ++ join (L ".") (j :: ids)).
  rewrite <- !app_assoc. reflexivity.
Qed.

Lemma add_chunks_chunked : forall ids x t segs cs, Forall ident (ids ++ [x]) -> chunked segs cs ->
  chunked (names ids ++ (x, t) :: segs) (add_chunks (join (L ".") (ids ++ [x])) t ++ cs).
Proof.
  intros ids x t segs cs F C. assert (IX : ident x).
  { rewrite Forall_forall in F. apply F, in_app_iff. right. left. reflexivity. }
  destruct t as [|c t].
  - cbn [add_chunks app]. match goal with |- chunked ?a _ => replace a with (names (ids ++ [x]) ++ segs)
      by (unfold names; rewrite map_app, <- app_assoc; reflexivity) end.
    destruct (ids ++ [x]) as [|i l] eqn:E; [destruct ids; discriminate|]. apply ck_names; assumption.
  - unfold add_chunks. destruct ids as [|i ids].
    + cbn [app join]. change (join (L ".") [x]) with x. rewrite (cut_last_none x (ident_no_dot x IX)).
      apply (ck_last x (c :: t)); [exact IX|discriminate|exact C].
    + cbn [app]. rewrite join_snoc, (cut_last_app _ _ (ident_no_dot x IX)).
      assert (II : ident i) by (inversion F; assumption).
      destruct i as [|d i]; [destruct II; discriminate|].
      assert (E : join (L ".") ((d :: i) :: ids) <> []) by (destruct ids; discriminate).
      match goal with |- context [match ?j with [] => _ | _ :: _ => _ end] =>
        assert (EJ : j <> []) by exact E; destruct j as [|q p] eqn:EQ; [congruence|] end.
      cbn [app]. rewrite <- EQ.
      apply (ck_names (d :: i) ids ((x, c :: t) :: segs)).
      * change ((d :: i) :: ids ++ [x]) with (((d :: i) :: ids) ++ [x]) in F. apply Forall_app in F as [F _]. exact F.
      * apply (ck_last x (c :: t)); [exact IX|discriminate|exact C].
Qed.

Lemma dotted_step : forall r b,
  dotted b r =
  let k := ident_len r in
  match skipn k r with
  | c :: r2 => if (c =? 46)%N && at_ident r2
               then let '(w, p) := dotted (c :: rev (firstn k r) ++ b) r2 in (firstn k r ++ c :: w, p)
               else (firstn k r, (rev (firstn k r) ++ b, c :: r2))
  | [] => (firstn k r, (rev (firstn k r) ++ b, []))
  end.
Proof.
  induction r as [|c r IH]; intro b; [reflexivity|].
  cbn [dotted ident_len]. destruct (namechar c) eqn:NC.
  - cbn [orb]. rewrite IH. cbn [skipn firstn rev]. cbv zeta.
    destruct (skipn (ident_len r) r) as [|d r2]; [rewrite <- app_assoc; reflexivity|].
    destruct ((d =? 46)%N && at_ident r2); rewrite <- app_assoc; [|reflexivity]. cbn [app].
    destruct (dotted (d :: rev (firstn (ident_len r) r) ++ c :: b) r2) as [w p]. reflexivity.
  - cbn [skipn firstn rev app orb]. destruct ((c =? 46)%N && at_ident r); [|reflexivity].
    destruct (dotted (c :: b) r). reflexivity.
Qed.

Lemma ident_here : forall r, at_ident r = true -> ident (firstn (ident_len r) r).
Proof.
  intros r H. split.
  - destruct r as [|c r]; [discriminate|]. cbn in *. unfold namechar. rewrite H. cbn. exact H.
  - clear H. induction r as [|c r IH]; [reflexivity|]. cbn. destruct (namechar c) eqn:E; [|reflexivity].
    cbn. rewrite E. exact IH.
Qed.

Lemma ident_end : forall r c r2, skipn (ident_len r) r = c :: r2 -> namechar c = false.
Proof.
  induction r as [|d r IH]; intros c r2 H; [discriminate|]. cbn in H. destruct (namechar d) eqn:E.
  - cbn in H. eapply IH. exact H.
  - cbn in H. injection H as -> _. exact E.
Qed.

(** Reading from a name or from the dot before it. *)
Lemma dotted_reads : forall X um m r b dn b1 r1, length r <= m -> at_ident r = true -> dotted b r = (dn, (b1, r1)) ->
  exists ids x, dn = join (L ".") (ids ++ [x]) /\ Forall ident (ids ++ [x]) /\
  forall t b2 r2 segs b' r', trailer X um b1 r1 t b2 r2 -> reads X um b2 r2 segs b' r' ->
    reads X um b r (names ids ++ (x, t) :: segs) b' r' /\
    (forall b0, b = 46%N :: b0 -> reads X um b0 (46%N :: r) (names ids ++ (x, t) :: segs) b' r').
Proof.
  intros X um. induction m as [|m IH]; intros r b dn b1 r1 LE AI D.
  { destruct r; [discriminate|cbn in LE; lia]. }
  rewrite dotted_step in D. cbv zeta in D.
  pose proof (ident_here r AI) as ID. pose proof (ident_end r) as IE.
  pose proof (firstn_skipn (ident_len r) r) as FS.
  assert (K : 1 <= ident_len r).
  { destruct r as [|c r]; [discriminate|]. cbn in *. unfold namechar. rewrite AI. cbn. lia. }
  remember (firstn (ident_len r) r) as id eqn:EID.
  destruct (skipn (ident_len r) r) as [|c r2] eqn:SK.
  - injection D as <- <- <-. exists [], (id). split; [reflexivity|].
    split; [constructor; [exact ID|constructor]|].
    intros t b2 r2 segs b' r' TR RD. rewrite <- FS. split.
    + apply rd_name with (b2 := b2) (r2 := r2); auto; try discriminate.
    + intros b0 ->. apply rd_dot with (b2 := b2) (r2 := r2); auto; try discriminate.
  - destruct ((c =? 46)%N && at_ident r2) eqn:DOT.
    + apply andb_true_iff in DOT as [DC AI2]. apply N.eqb_eq in DC. subst c.
      destruct (dotted (46%N :: rev (id) ++ b) r2) as [w [b3 r3]] eqn:D2. injection D as <- <- <-.
      assert (L2 : length r2 <= m).
      { apply (f_equal (@length N)) in FS. rewrite app_length, EID, firstn_length in FS. cbn in FS. lia. }
      destruct (IH _ _ _ _ _ L2 AI2 D2) as (ids & x & E & F & G).
      exists (id :: ids), x. split; [|split].
      * rewrite E. destruct ids; reflexivity.
      * constructor; assumption.
      * intros t b2 r4 segs b' r' TR RD. destruct (G _ _ _ _ _ _ TR RD) as [_ G2].
        specialize (G2 _ eq_refl). rewrite <- FS. cbn [names map app]. split.
        { apply rd_name with (b2 := rev (id) ++ b) (r2 := 46%N :: r2); auto.
          apply tr_none; reflexivity. }
        { intros b0 ->. apply rd_dot with (b2 := rev (id) ++ 46%N :: b0) (r2 := 46%N :: r2); auto.
          apply tr_none; reflexivity. }
    + injection D as <- <- <-. exists [], (id). split; [reflexivity|].
      split; [constructor; [exact ID|constructor]|].
      intros t b2 r4 segs b' r' TR RD. rewrite <- FS. split.
      * apply rd_name with (b2 := b2) (r2 := r4); auto.
      * intros b0 ->. apply rd_dot with (b2 := b2) (r2 := r4); auto.
Qed.

Lemma bnd_ok : forall A B (x : out A) (f : A -> pystr -> pystr -> out B) v b' r', bnd x f = ok v b' r' ->
  exists a b r, x = ok a b r /\ f a b r = ok v b' r'.
Proof. intros A B [[[a [b r]]|e]|] f v b' r' H; try discriminate. exists a, b, r. split; [reflexivity|exact H]. Qed.

Lemma chunks_segs : forall X um n b r cs b' r', chunks X n um b r = ok cs b' r' ->
  exists segs, reads X um b r segs b' r' /\ chunked segs cs.
Proof.
  intros X um. induction n as [|n IH]; intros b r cs b' r' H; [discriminate|].
  change (chunks X (S n)) with (chunks_step (expr X n) (callargs X n) (chunks X n)) in H.
  unfold chunks_step in H. cbv zeta in H.
  assert (NAME : forall b r, at_ident r = true ->
      (let '(dn, (b, r)) := dotted b r in
       match r with
       | [] => bnd (chunks X n um b r) (fun cs b r => ok (add_chunks dn [] ++ cs) b r)
       | c :: _ =>
           if (c =? 40)%N
           then bnd (callargs X n um [] b r) (fun rest b r => bnd (chunks X n um b r) (fun cs b r => ok (add_chunks dn rest ++ cs) b r))
           else if (c =? 91)%N
           then bnd (expr X n um true [] [] b r) (fun rest b r => bnd (chunks X n um b r) (fun cs b r => ok (add_chunks dn rest ++ cs) b r))
           else bnd (chunks X n um b r) (fun cs b r => ok (add_chunks dn [] ++ cs) b r)
       end) = ok cs b' r' ->
      exists segs, (reads X um b r segs b' r' /\ (forall b0, b = 46%N :: b0 -> reads X um b0 (46%N :: r) segs b' r'))
        /\ chunked segs cs).
  { clear b r H. intros b r AI H. destruct (dotted b r) as [dn [b1 r1]] eqn:D.
    destruct (dotted_reads X um (length r) r b dn b1 r1 (le_n _) AI D) as (ids & x & E & F & G).
    assert (MORE : forall t b2 r2, trailer X um b1 r1 t b2 r2 ->
      bnd (chunks X n um b2 r2) (fun cs b r => ok (add_chunks dn t ++ cs) b r) = ok cs b' r' ->
      exists segs, (reads X um b r segs b' r' /\ (forall b0, b = 46%N :: b0 -> reads X um b0 (46%N :: r) segs b' r'))
        /\ chunked segs cs).
    { intros t b2 r2 TR H2. apply bnd_ok in H2 as (cs2 & b3 & r3 & H2 & H3).
      destruct (IH _ _ _ _ _ H2) as (segs & RD & CK). injection H3 as <- <- <-.
      exists (names ids ++ (x, t) :: segs). split; [eapply G; eassumption|].
      rewrite E. apply add_chunks_chunked; assumption. }
    destruct r1 as [|c r1]; [eapply MORE; [apply tr_none; reflexivity|exact H]|].
    destruct (c =? 40)%N eqn:C40.
    { apply bnd_ok in H as (t & b2 & r2 & H1 & H2). eapply MORE; [|exact H2]. eapply tr_call; [exact C40|exact H1]. }
    destruct (c =? 91)%N eqn:C91.
    { apply bnd_ok in H as (t & b2 & r2 & H1 & H2). eapply MORE; [|exact H2]. eapply tr_sub; [exact C91|exact H1]. }
    eapply MORE; [apply tr_none; assumption|exact H]. }
  destruct r as [|c r].
  { injection H as <- <- <-. exists []. split; [apply rd_end; [reflexivity|discriminate]|constructor]. }
  destruct (identchar c) eqn:IC.
  { destruct (NAME b (c :: r) IC H) as (segs & [RD _] & CK). eauto. }
  destruct ((c =? 46)%N && at_ident r) eqn:DOT.
  { apply andb_true_iff in DOT as [DC AI]. apply N.eqb_eq in DC. subst c.
    destruct (NAME (46%N :: b) r AI H) as (segs & [_ RD] & CK). exists segs. split; [apply RD; reflexivity|exact CK]. }
  injection H as <- <- <-. exists []. split; [|constructor]. apply rd_end; [exact IC|].
  intros r1 E. injection E as -> ->. cbn in DOT. exact DOT.
Qed.

(** ** Plain code *)

Lemma concat_names : forall ids i,
  concat (map (fun p => L "." ++ fst p ++ snd p) (names (i :: ids))) = L "." ++ join (L ".") (i :: ids).
Proof.
  induction ids as [|j ids IH]; intro i; [cbn; rewrite !app_nil_r; reflexivity|].
  change (join (L ".") (i :: j :: ids)) with (i ++ L "." ++ join (L ".") (j :: ids)). rewrite <- IH.
  cbn. rewrite app_nil_r. reflexivity.
Qed.

Lemma plain_more_eq : forall segs cs code, chunked segs cs ->
  plain_more code cs = code ++ concat (map (fun p => L "." ++ fst p ++ snd p) segs).
Proof.
  intros segs cs code C. revert code. induction C as [|i ids segs cs F C IH|i t segs cs II NE C IH]; intro code.
  - symmetry. apply app_nil_r.
  - cbn [plain_more]. rewrite IH, map_app, concat_app, concat_names, app_nil_r. rewrite <- !app_assoc. reflexivity.
  - cbn [plain_more map concat fst snd]. rewrite IH. rewrite <- !app_assoc. reflexivity.
Qed.

Lemma plain_text_eq : forall p segs, plain_text (p :: segs) = fst p ++ snd p ++ concat (map (fun p => L "." ++ fst p ++ snd p) segs).
Proof.
  intros p segs. revert p. induction segs as [|q segs IH]; intro p.
  - cbn. rewrite app_nil_r. reflexivity.
  - change (plain_text (p :: q :: segs)) with ((fst p ++ snd p) ++ L "." ++ plain_text (q :: segs)).
    rewrite IH. cbn [map concat]. rewrite <- !app_assoc. reflexivity.
Qed.

Lemma gen_plain_text : forall segs cs, chunked segs cs -> segs <> [] -> gen_plain cs = Some (plain_text segs).
Proof.
  intros segs cs C NE. destruct C as [|i ids segs cs F C|i t segs cs II NT C]; [congruence| |].
  - cbn [gen_plain]. rewrite (plain_more_eq _ _ _ C). f_equal.
    change (names (i :: ids) ++ segs) with ((i, []) :: (names ids ++ segs)). rewrite plain_text_eq.
    cbn [fst snd]. rewrite map_app, concat_app, app_nil_r. cbn [app]. rewrite app_assoc. f_equal.
    destruct ids as [|j ids]; [symmetry; apply app_nil_r|]. rewrite concat_names. reflexivity.
  - cbn [gen_plain]. rewrite (plain_more_eq _ _ _ C), plain_text_eq. cbn [fst snd]. rewrite <- app_assoc. reflexivity.
Qed.

(** ** Name mapper code *)

Definition tree_chunk (auto : bool) (k : vcode) (c : chunk) : vcode :=
  match c with (nm, ac, rest) => KTrail (KVfn k nm (auto && ac)) rest end.

Definition tree (X : lang) (cs : list chunk) : option vcode :=
  match cs with
  | [] => None
  | (nm, ac, rest) :: cs =>
      let f := x_autocall X && ac in
      Some (fold_left (tree_chunk (x_autocall X)) cs
        (KTrail (if negb (x_searchlist X) then
                   match cut_dot nm with Some (x, y) => KVfn (KVar x) y f | None => KVar nm end
                 else if x_frames X then KFrames nm f else KSearch nm f) rest))
  end.

Lemma mapper_more_show : forall X cs k, mapper_more X (show k) cs = show (fold_left (tree_chunk (x_autocall X)) cs k).
Proof.
  intros X. induction cs as [|[[nm ac] rest] cs IH]; intro k; [reflexivity|]. cbn [mapper_more fold_left].
  rewrite <- IH. f_equal. unfold vfn_code. cbn [tree_chunk show]. rewrite <- !app_assoc. reflexivity.
Qed.

Lemma gen_mapper_show : forall X cs, gen_mapper X cs = option_map show (tree X cs).
Proof.
  intros X [|[[nm ac] rest] cs]; [reflexivity|]. unfold gen_mapper, tree. cbv zeta. cbn [option_map]. f_equal.
  rewrite <- mapper_more_show. f_equal.
  destruct (negb (x_searchlist X)); [|destruct (x_frames X)].
  - destruct (cut_dot nm) as [[x y]|]; [|reflexivity]. unfold vfn_code. cbn [show]. rewrite <- !app_assoc. reflexivity.
  - cbn [show]. rewrite <- !app_assoc. reflexivity.
  - cbn [show]. rewrite <- !app_assoc. reflexivity.
Qed.

Section Meaning.
Context {obj St : Type}.
Variable Y : psys obj St.
Hypothesis YI : introspectable Y.
Hypothesis YM : modern Y.
Variable trail : St -> obj -> pystr -> res nexn obj * St.
Variable pyvar : St -> pystr -> res nexn obj * St.
Variable auto : bool.

Lemma walk_split : forall ac s o k r x, walk Y ac s o (k :: r) x <->
  (exists e s', walk Y ac s o [k] (Raise e, s') /\ x = (Raise e, s')) \/
  (exists v s', walk Y ac s o [k] (Ok v, s') /\ walk Y ac s' v r x).
Proof.
  intros ac s o k r x. split.
  - intro H. inversion H; subst.
    + left. eexists _, _. split; [apply walk_miss; eassumption|reflexivity].
    + left. eexists _, _. split; [eapply walk_fail; eassumption|reflexivity].
    + right. eexists _, _. split; [eapply walk_step; [eassumption|eassumption|apply walk_nil]|eassumption].
  - intros [(e & s' & H & ->)|(v & s' & H & W)].
    + inversion H; subst; [apply walk_miss; assumption|eapply walk_fail; eassumption|].
      match goal with W : walk _ _ _ _ [] _ |- _ => inversion W end.
    + inversion H; subst. match goal with W : walk _ _ _ _ [] _ |- _ => inversion W; subst end.
      eapply walk_step; eassumption.
Qed.

Notation fol := (follow Y trail auto).

Lemma follow_names : forall ids s o segs x, fol s o (names ids ++ segs) x <->
  (exists e s', walk Y auto s o ids (Raise e, s') /\ x = (Raise e, s')) \/
  (exists v s', walk Y auto s o ids (Ok v, s') /\ fol s' v segs x).
Proof.
  induction ids as [|i ids IH]; intros s o segs x.
  - cbn. split.
    + intro H. right. exists o, s. split; [apply walk_nil|exact H].
    + intros [(e & s' & H & _)|(v & s' & H & F)]; inversion H; subst. exact F.
  - cbn [names map app]. fold (names ids). split.
    + intro H. inversion H; subst; try congruence.
      * cbn in *. rewrite andb_true_r in *. left. eexists _, _. split; [|reflexivity].
        apply walk_split. left. eexists _, _. split; [eassumption|reflexivity].
      * match goal with F : fol _ _ (names ids ++ segs) _ |- _ => apply IH in F as [(e & s' & F & E)|(v2 & s' & F & E)] end.
        { left. exists e, s'. split; [|exact E]. apply walk_split. right. eexists _, _. split; eassumption. }
        { right. exists v2, s'. split; [|exact E]. apply walk_split. right. eexists _, _. split; eassumption. }
    + intros [(e & s' & H & ->)|(v & s' & H & F)]; apply walk_split in H as [(e2 & s2 & H & E)|(v2 & s2 & H & W)].
      * injection E as -> ->. apply fo_lookup. cbn. rewrite andb_true_r. exact H.
      * eapply fo_plain; [exact H|]. apply IH. left. eauto.
      * discriminate E.
      * eapply fo_plain; [exact H|]. apply IH. right. eauto.
Qed.

(** Running the chunks from a value on. *)
Fixpoint run (s : St) (o : obj) (cs : list chunk) : res nexn obj * St :=
  match cs with
  | [] => (Ok o, s)
  | (nm, ac, rest) :: cs =>
      match valueForName Y s o nm (auto && ac) with
      | (Ok v, s1) => match rest with
                      | [] => run s1 v cs
                      | _ => match trail s1 v rest with (Ok v2, s2) => run s2 v2 cs | (Raise e, s2) => (Raise e, s2) end
                      end
      | (Raise e, s1) => (Raise e, s1)
      end
  end.

Lemma run_follow : forall segs cs, chunked segs cs -> forall s o x, run s o cs = x <-> fol s o segs x.
Proof.
  intros segs cs C. induction C as [|i ids segs cs F C IH|i t segs cs II NT C IH]; intros s o x.
  - cbn. split; [intros <-; apply fo_nil|]. intro H. inversion H. reflexivity.
  - rewrite follow_names. cbn [run]. rewrite andb_true_r.
    assert (V : forall x, valueForName Y s o (join (L ".") (i :: ids)) auto = x <-> walk Y auto s o (i :: ids) x).
    { intro y. apply vfn_join; auto; [discriminate|]. intros c I. rewrite Forall_forall in F. apply ident_no_dot, F, I. }
    destruct (valueForName Y s o (join (L ".") (i :: ids)) auto) as [[v|e] s1] eqn:E.
    + pose proof (proj1 (V _) eq_refl) as W. split.
      * intro H. right. exists v, s1. split; [exact W|]. apply IH. exact H.
      * intros [(e & s' & H & _)|(v2 & s' & H & G)]; apply V in H; [discriminate|]. injection H as <- <-. apply IH. exact G.
    + pose proof (proj1 (V _) eq_refl) as W. split.
      * intros <-. left. eauto.
      * intros [(e2 & s' & H & ->)|(v2 & s' & H & G)]; apply V in H; congruence.
  - cbn [run].
    assert (V : forall x, valueForName Y s o i (auto && negb (called t)) = x <-> walk Y (auto && negb (called t)) s o [i] x).
    { intro y. change i with (join (L ".") [i]) at 1. apply vfn_join; auto; [discriminate|].
      intros c [<-|[]]. apply ident_no_dot, II. }
    destruct (valueForName Y s o i (auto && negb (called t))) as [[v|e] s1] eqn:E; pose proof (proj1 (V _) eq_refl) as W.
    + assert (M : match t with [] => run s1 v cs | _ :: _ => match trail s1 v t with (Ok v2, s2) => run s2 v2 cs | (Raise e, s2) => (Raise e, s2) end end
        = match trail s1 v t with (Ok v2, s2) => run s2 v2 cs | (Raise e, s2) => (Raise e, s2) end).
      { destruct t; [congruence|reflexivity]. }
      rewrite M. clear M. destruct (trail s1 v t) as [[v2|e] s2] eqn:TR; split.
      * intro H. eapply fo_step; [exact W|exact NT|exact TR|]. apply IH. exact H.
      * intro H. inversion H; subst; try congruence;
          match goal with Q : walk Y _ s o [i] _ |- _ => apply V in Q; try discriminate Q; injection Q as <- <- end;
          match goal with Q : trail s1 v t = _ |- _ => rewrite TR in Q; try discriminate Q; injection Q as <- <- end.
        apply IH. assumption.
      * intros <-. eapply fo_trail; eassumption.
      * intro H. inversion H; subst; try congruence;
          match goal with Q : walk Y _ s o [i] _ |- _ => apply V in Q; try discriminate Q; injection Q as <- <- end; congruence.
    + split.
      * intros <-. apply fo_lookup. exact W.
      * intro H. inversion H; subst; try congruence;
          match goal with Q : walk Y _ s o [i] _ |- _ => apply V in Q; congruence end.
Qed.

Variable locals globals builtins : obj.
Variable sl : list obj.
Notation ev := (eval Y trail pyvar locals globals builtins sl).
Notation nss := ([locals] ++ sl ++ [globals; builtins]).

Lemma eval_fold : forall cs k s, ev s (fold_left (tree_chunk auto) cs k) =
  match ev s k with (Ok o, s1) => run s1 o cs | (Raise e, s1) => (Raise e, s1) end.
Proof.
  induction cs as [|[[nm ac] rest] cs IH]; intros k s; [cbn; destruct (ev s k) as [[|] ]; reflexivity|].
  cbn [fold_left run]. rewrite IH. cbn [tree_chunk eval].
  destruct rest as [|c rest]; cbn [eval].
  - destruct (ev s k) as [[o|e] s1]; [|reflexivity]. destruct (valueForName Y s1 o nm (auto && ac)) as [[|] ]; reflexivity.
  - destruct (ev s k) as [[o|e] s1]; [|reflexivity].
    destruct (valueForName Y s1 o nm (auto && ac)) as [[v|e] s2]; [|reflexivity].
    destruct (trail s2 v (c :: rest)) as [[|] ]; reflexivity.
Qed.

(** The first chunk: its name starts with the first identifier. *)
Lemma chunked_first : forall i t segs cs, chunked ((i, t) :: segs) cs ->
  exists ids ac cs', (forall c, In c (i :: ids) -> ~ In 46%N c) /\ cs = (join (L ".") (i :: ids), ac, t) :: cs' \/
  exists ids ac cs', (forall c, In c (i :: ids) -> ~ In 46%N c) /\ t = [] /\ cs = (join (L ".") (i :: ids), ac, []) :: cs'.
Proof.
  intros i t segs cs C. inversion C as [|j ids segs' cs' F C' E|j u segs' cs' II NT C' E]; subst.
  - exists ids, true, cs'. left. split; [|reflexivity]. intros c I. rewrite Forall_forall in F. apply ident_no_dot, F, I.
  - exists [], (negb (called t)), cs'. left. split; [|reflexivity]. intros c [<-|[]]. apply ident_no_dot, II.
Qed.

Definition run_start (s : St) (ns : list obj) (nm : pystr) (ac : bool) (rest : pystr) (cs : list chunk) : res nexn obj * St :=
  match searchLoop Y s ns (hd [] (chunks_of nm)) nm (auto && ac) with
  | (Ok v, s1) => match rest with
                  | [] => run s1 v cs
                  | _ => match trail s1 v rest with (Ok v2, s2) => run s2 v2 cs | (Raise e, s2) => (Raise e, s2) end
                  end
  | (Raise e, s1) => (Raise e, s1)
  end.

Lemma searchLoop_error : forall pre n post s i nm ac e, Forall (fun n => lacks Y s n i) pre ->
  ~ in_mapping Y s n i -> getattr Y s n i = Raise e -> e <> AttributeError ->
  searchLoop Y s (pre ++ n :: post) i nm ac = (Raise e, s).
Proof.
  intros pre n post s i nm ac e F N1 N2 N3. induction pre as [|p pre IH].
  - cbn. unfold hasKey. destruct (ismap Y n && contains Y s n i)%bool eqn:MM.
    { exfalso. apply N1. apply andb_true_iff in MM. exact MM. }
    unfold hasattr. rewrite N2. destruct e; congruence.
  - inversion F as [|? ? Q F']; subst. cbn [app searchLoop]. apply (hasKey_false Y) in Q. rewrite Q. auto.
Qed.

Lemma run_start_meaning : forall i t segs nm ac rest cs ns s x, chunked ((i, t) :: segs) ((nm, ac, rest) :: cs) ->
  (run_start s ns nm ac rest cs = x <-> meaning Y trail auto ns s ((i, t) :: segs) x).
Proof.
  intros i t segs nm ac rest cs ns s x C.
  assert (HD : hd [] (chunks_of nm) = i).
  { destruct (chunked_first _ _ _ _ C) as (ids & a & cs' & [[F E]|(ids2 & a2 & cs2 & F & _ & E)]);
      injection E as -> _ _ _; apply chunks_hd; exact F. }
  unfold run_start. rewrite HD. clear HD.
  assert (FOUND : forall pre n post, ns = pre ++ n :: post -> Forall (fun n => lacks Y s n i) pre -> has Y s n i ->
    match searchLoop Y s ns i nm (auto && ac) with
    | (Ok v, s1) => match rest with
                    | [] => run s1 v cs
                    | _ => match trail s1 v rest with (Ok v2, s2) => run s2 v2 cs | (Raise e, s2) => (Raise e, s2) end
                    end
    | (Raise e, s1) => (Raise e, s1)
    end = run s n ((nm, ac, rest) :: cs)).
  { intros pre n post -> F H. rewrite (searchLoop_split Y) by assumption. reflexivity. }
  split.
  - intro H. destruct (searchLoop_cases Y ns s i nm (auto && ac)) as [F|(pre & n & post & E & F & [HS|(e & N1 & N2 & N3 & N4)])].
    + rewrite (searchLoop_none Y) in H by exact F. subst x. apply me_none. exact F.
    + rewrite (FOUND pre n post E F HS) in H. eapply me_found; [exact E|exact F|exact HS|].
      apply (run_follow _ _ C). exact H.
    + rewrite N4 in H. subst x. eapply me_error; eassumption.
  - intro M. inversion M; subst.
    + erewrite FOUND; [|reflexivity|eassumption|eassumption]. apply (run_follow _ _ C). assumption.
    + rewrite (searchLoop_none Y) by assumption. reflexivity.
    + erewrite searchLoop_error by eassumption. reflexivity.
Qed.

Lemma cut_dot_none : forall s, ~ In 46%N s -> cut_dot s = None.
Proof.
  induction s as [|c s IH]; intro H; [reflexivity|]. cbn. destruct (N.eqb_spec c 46) as [->|]; [exfalso; apply H; left; reflexivity|].
  rewrite IH by (intro; apply H; right; assumption). reflexivity.
Qed.

Lemma cut_dot_app : forall a b, ~ In 46%N a -> cut_dot (a ++ 46%N :: b) = Some (a, b).
Proof.
  induction a as [|c a IH]; intros b H; [reflexivity|]. cbn. destruct (N.eqb_spec c 46) as [->|]; [exfalso; apply H; left; reflexivity|].
  rewrite (IH b) by (intro; apply H; right; assumption). reflexivity.
Qed.

Lemma tree_meaning : forall X segs cs k, x_autocall X = auto -> chunked segs cs -> tree X cs = Some k ->
  forall s x, ev s k = x <->
    if x_searchlist X then meaning Y trail auto nss s segs x else meaning_local Y trail pyvar auto s segs x.
Proof.
  intros X segs cs k XA C TK s x. destruct segs as [|[i t] segs]; [inversion C; subst; discriminate TK|].
  destruct cs as [|[[nm ac] rest] cs]; [inversion C|]. cbn [tree] in TK. rewrite XA in TK.
  injection TK as <-. rewrite eval_fold.
  destruct (x_searchlist X); cbn [negb].
  - rewrite <- (run_start_meaning i t segs nm ac rest cs nss s x C). unfold run_start.
    assert (EV : forall k0, ev s k0 = searchLoop Y s nss (hd [] (chunks_of nm)) nm (auto && ac) ->
      match ev s (KTrail k0 rest) with (Ok o, s1) => run s1 o cs | (Raise e, s1) => (Raise e, s1) end =
      match searchLoop Y s nss (hd [] (chunks_of nm)) nm (auto && ac) with
      | (Ok v, s1) => match rest with
                      | [] => run s1 v cs
                      | _ => match trail s1 v rest with (Ok v2, s2) => run s2 v2 cs | (Raise e, s2) => (Raise e, s2) end
                      end
      | (Raise e, s1) => (Raise e, s1)
      end).
    { intros k0 E0. destruct rest as [|c rest]; cbn [eval]; rewrite E0; destruct (searchLoop _ _ _ _ _ _) as [[v|e] s1];
        try reflexivity; destruct (trail s1 v (c :: rest)) as [[|] ]; reflexivity. }
    destruct (x_frames X); (rewrite EV by reflexivity; reflexivity).
  - inversion C as [|j ids segs' cs' F C' E|j u segs' cs' II NT C' E]; subst.
    + assert (ND : ~ In 46%N i) by (inversion F; apply ident_no_dot; assumption).
      destruct ids as [|j ids].
      * change (join (L ".") [i]) with i. rewrite (cut_dot_none i ND). cbn [eval names map app].
        destruct (pyvar s i) as [[v|e] s1] eqn:PV; split.
        { intro H. eapply ml_plain; [exact PV|]. apply (run_follow _ _ C'). exact H. }
        { intro H. inversion H; subst; try congruence. match goal with Q : pyvar s i = _ |- _ => rewrite PV in Q; injection Q as <- <- end.
          apply (run_follow _ _ C'). assumption. }
        { intros <-. eapply ml_var. exact PV. }
        { intro H. inversion H; subst; congruence. }
      * change (join (L ".") (i :: j :: ids)) with (i ++ 46%N :: join (L ".") (j :: ids)).
        rewrite (cut_dot_app i _ ND). cbn [eval names map app].
        assert (C2 : chunked (names (j :: ids) ++ segs') ((join (L ".") (j :: ids), true, []) :: cs)).
        { apply ck_names; [inversion F; assumption|exact C']. }
        destruct (pyvar s i) as [[v|e] s1] eqn:PV; split.
        { intro H. eapply ml_plain; [exact PV|]. apply (run_follow _ _ C2). cbn [run].
          destruct (valueForName Y s1 v (join (L ".") (j :: ids)) (auto && true)) as [[|] ]; exact H. }
        { intro H. inversion H; subst; try congruence. match goal with Q : pyvar s i = _ |- _ => rewrite PV in Q; injection Q as <- <- end.
          match goal with Q : follow _ _ _ _ _ _ _ |- _ => apply (run_follow _ _ C2) in Q; rewrite <- Q end. cbn [run].
          destruct (valueForName Y s1 v (join (L ".") (j :: ids)) (auto && true)) as [[|] ]; reflexivity. }
        { intros <-. eapply ml_var. exact PV. }
        { intro H. inversion H; subst; congruence. }
    + rewrite (cut_dot_none nm (ident_no_dot nm II)).
      assert (ET : ev s (KTrail (KVar nm) rest) = match pyvar s nm with (Ok o, s1) => trail s1 o rest | (Raise e, s1) => (Raise e, s1) end).
      { destruct rest; [congruence|reflexivity]. }
      rewrite ET. destruct (pyvar s nm) as [[v|e] s1] eqn:PV.
      * destruct (trail s1 v rest) as [[v2|e] s2] eqn:TR; split.
        { intro H. eapply ml_step; [exact PV|exact NT|exact TR|]. apply (run_follow _ _ C'). exact H. }
        { intro H. inversion H; subst; try congruence.
          match goal with Q : pyvar s nm = _ |- _ => rewrite PV in Q; injection Q as <- <- end.
          match goal with Q : trail s1 v rest = _ |- _ => rewrite TR in Q; injection Q as <- <- end.
          apply (run_follow _ _ C'). assumption. }
        { intros <-. eapply ml_trail; eassumption. }
        { intro H. inversion H; subst; congruence. }
      * split; [intros <-; eapply ml_var; exact PV|]. intro H. inversion H; subst; congruence.
Qed.

End Meaning.

(** The code of a name read from the source. *)
Lemma name_code : forall X n b r cs b' r', chunks X n true b r = ok cs b' r' -> cs <> [] ->
  exists segs k, reads X true b r segs b' r' /\ gen_var X true false cs = Some (show k) /\
  forall obj St (Y : psys obj St) trail pyvar locals globals builtins sl, introspectable Y -> modern Y ->
  forall s x, eval Y trail pyvar locals globals builtins sl s k = x <->
    if x_searchlist X then meaning Y trail (x_autocall X) ([locals] ++ sl ++ [globals; builtins]) s segs x
    else meaning_local Y trail pyvar (x_autocall X) s segs x.
Proof.
  intros X n b r cs b' r' H NE. destruct (chunks_segs X true n b r cs b' r' H) as (segs & RD & CK).
  destruct (tree X cs) as [k|] eqn:TK.
  2:{ destruct cs as [|[[nm ac] rest] cs]; [congruence|discriminate TK]. }
  exists segs, k. split; [exact RD|]. split.
  - cbn. rewrite gen_mapper_show, TK. reflexivity.
  - intros. eapply tree_meaning; auto; eassumption.
Qed.

Lemma name_plain : forall X n um plain b r cs b' r', chunks X n um b r = ok cs b' r' -> cs <> [] -> um && negb plain = false ->
  exists segs, reads X um b r segs b' r' /\ gen_var X um plain cs = Some (plain_text segs).
Proof.
  intros X n um plain b r cs b' r' H NE UP. destruct (chunks_segs X um n b r cs b' r' H) as (segs & RD & CK).
  exists segs. split; [exact RD|]. unfold gen_var. rewrite UP. apply gen_plain_text; [exact CK|].
  intro E. subst segs. inversion CK; subst; congruence.
Qed.

(** ** Short placeholders *)

Lemma dotted_stop : forall r b dn b1 r1, dotted b r = (dn, (b1, r1)) ->
  at_ident r1 = false /\ (forall c r2, r1 = c :: r2 -> (c =? 46)%N && at_ident r2 = false).
Proof.
  induction r as [|c r IH]; intros b dn b1 r1 H; cbn in H; [injection H as _ _ <-; split; [reflexivity|discriminate]|].
  destruct (namechar c || ((c =? 46)%N && at_ident r)) eqn:E.
  - destruct (dotted (c :: b) r) as [w [b2 r2]] eqn:D. injection H as <- <- <-. eapply IH. exact D.
  - injection H as _ _ <-. apply orb_false_iff in E as [E1 E2]. split.
    + cbn. unfold namechar in E1. apply orb_false_iff in E1 as [E1 _]. exact E1.
    + intros d r2 Q. injection Q as <- <-. exact E2.
Qed.

Lemma chunks_bare : forall X n um b r dn b1 r1, at_ident r = true -> dotted b r = (dn, (b1, r1)) ->
  at_char 40 r1 = false -> at_char 91 r1 = false -> chunks X (S (S n)) um b r = ok [(dn, true, [])] b1 r1.
Proof.
  intros X n um b r dn b1 r1 AI D N1 N2.
  change (chunks X (S (S n))) with (chunks_step (expr X (S n)) (callargs X (S n)) (chunks X (S n))).
  unfold chunks_step. cbv zeta. destruct r as [|c r]; [discriminate|]. cbn in AI. rewrite AI, D.
  destruct (dotted_stop _ _ _ _ _ D) as [ST1 ST2].
  assert (E : chunks X (S n) um b1 r1 = ok [] b1 r1).
  { change (chunks X (S n)) with (chunks_step (expr X n) (callargs X n) (chunks X n)). unfold chunks_step. cbv zeta.
    destruct r1 as [|d r1]; [reflexivity|]. cbn in ST1. rewrite ST1, (ST2 d r1 eq_refl). reflexivity. }
  destruct r1 as [|d r1]; [rewrite E; reflexivity|]. cbn in N1, N2. rewrite N1, N2, E. reflexivity.
Qed.

Lemma short_bare : forall X n cache b r dn b1 r1, t_var (x_T X) = [36%N] -> x_searchlist X = true -> x_frames X = true ->
  m_vartok (x_T X) b (36%N :: r) = true -> at_ident r = true -> dotted (36%N :: b) r = (dn, (b1, r1)) ->
  at_char 40 r1 = false -> at_char 91 r1 = false ->
  placeholder X (S (S (S n))) true cache b (36%N :: r) =
    ok (L "VFFSL(SL," ++ [34%N] ++ dn ++ [34%N] ++ L "," ++ show_bool (x_autocall X) ++ L ")", None) b1 r1.
Proof.
  intros X n cache b r dn b1 r1 TV XS XF MV AI D N1 N2.
  change (placeholder X (S (S (S n)))) with (placeholder_step X (expr X (S (S n))) (callargs X (S (S n))) (chunks X (S (S n)))).
  unfold placeholder_step. rewrite MV, TV. cbn [go length].
  destruct r as [|c r]; [discriminate|]. cbn in AI.
  assert (N33 : (c =? 33)%N = false) by (unfold identchar in AI; destruct (c =? 33)%N eqn:Q; [lia|reflexivity]).
  assert (N42 : (c =? 42)%N = false) by (unfold identchar in AI; destruct (c =? 42)%N eqn:Q; [lia|reflexivity]).
  assert (OP : opener c = false) by (unfold identchar, opener in *; lia).
  unfold skip_silent. rewrite N33. cbv beta iota.
  assert (SC : skip_cache (36%N :: b) (c :: r) = (36%N :: b, c :: r)).
  { unfold skip_cache, after_cache. rewrite N42, Nat.sub_diag. reflexivity. }
  assert (CA : forall (A : Type) (k : pystr -> pystr -> A),
    (let '(b1, r1) := if cache then skip_cache (36%N :: b) (c :: r) else (36%N :: b, c :: r) in k b1 r1) = k (36%N :: b) (c :: r)).
  { intros A k. rewrite SC. destruct cache; reflexivity. }
  rewrite CA. clear CA. rewrite OP, AI. rewrite (chunks_bare X n true (36%N :: b) (c :: r) dn b1 r1 AI D N1 N2).
  cbn [bnd ok]. unfold gen_var, gen_mapper. cbn [andb negb]. rewrite XS, XF. cbn [negb mapper_more].
  rewrite andb_true_r, app_nil_r. reflexivity.
Qed.

(** The longest dotted name. *)
Lemma dotted_longest : forall r b dn b1 r1, dotted b r = (dn, (b1, r1)) -> r = dn ++ r1.
Proof.
  induction r as [|c r IH]; intros b dn b1 r1 H; cbn in H; [injection H as <- _ <-; reflexivity|].
  destruct (namechar c || ((c =? 46)%N && at_ident r)).
  - destruct (dotted (c :: b) r) as [w [b2 r2]] eqn:D. injection H as <- <- <-. cbn. f_equal. eapply IH. exact D.
  - injection H as <- _ <-. reflexivity.
Qed.

Lemma dotted_exists : forall r b, exists dn b1 r1, dotted b r = (dn, (b1, r1)).
Proof. intros r b. destruct (dotted b r) as [dn [b1 r1]]. eauto. Qed.

(** A dotted name in a row of identifiers, ended by something that does not continue it. *)
Lemma dotted_ids : forall ids b r1, ids <> [] -> Forall ident ids ->
  (forall c r, r1 = c :: r -> namechar c = false /\ ((c =? 46)%N && at_ident r = false)) ->
  dotted b (join (L ".") ids ++ r1) = (join (L ".") ids, (rev (join (L ".") ids) ++ b, r1)).
Proof.
  assert (W : forall i b q, forallb namechar i = true ->
    dotted b (i ++ q) = let '(w, p) := dotted (rev i ++ b) q in (i ++ w, p)).
  { induction i as [|c i IH]; intros b q F; [cbn; destruct (dotted b q); reflexivity|].
    cbn in F. apply andb_true_iff in F as [F1 F2]. cbn [app dotted]. rewrite F1. cbn [orb]. rewrite (IH _ _ F2).
    cbn [rev]. rewrite <- app_assoc. cbn [app]. destruct (dotted (rev i ++ c :: b) q). reflexivity. }
  induction ids as [|i ids IH]; intros b r1 NE F ST; [congruence|]. inversion F as [|? ? [I1 I2] F']; subst.
  destruct ids as [|j ids].
  - cbn [join]. rewrite W by exact I2.
    assert (E : dotted (rev i ++ b) r1 = ([], (rev i ++ b, r1))).
    { destruct r1 as [|c r1]; [reflexivity|]. destruct (ST c r1 eq_refl) as [S1 S2]. cbn. rewrite S1, S2. reflexivity. }
    rewrite E, app_nil_r. reflexivity.
  - change (join (L ".") (i :: j :: ids)) with (i ++ 46%N :: join (L ".") (j :: ids)).
    rewrite <- app_assoc, W by exact I2. cbn [app dotted].
    assert (AI : at_ident (join (L ".") (j :: ids) ++ r1) = true).
    { inversion F' as [|? ? [J1 J2] _]; subst. destruct j as [|d j]; [discriminate|]. destruct ids; exact J1. }
    change (namechar 46) with false. change (46 =? 46)%N with true. cbn [orb andb]. rewrite AI.
    rewrite (IH (46%N :: rev i ++ b) r1 ltac:(discriminate) F' ST).
    rewrite rev_app_distr. cbn [rev]. rewrite <- !app_assoc. reflexivity.
Qed.

Lemma short_name : forall X n cache b ids r1, t_var (x_T X) = [36%N] -> x_searchlist X = true -> x_frames X = true ->
  m_vartok (x_T X) b (36%N :: join (L ".") ids ++ r1) = true -> ids <> [] -> Forall ident ids ->
  (forall c r, r1 = c :: r -> namechar c = false /\ ((c =? 46)%N && at_ident r = false)) ->
  at_char 40 r1 = false -> at_char 91 r1 = false ->
  placeholder X (S (S (S n))) true cache b (36%N :: join (L ".") ids ++ r1) =
    ok (L "VFFSL(SL," ++ [34%N] ++ join (L ".") ids ++ [34%N] ++ L "," ++ show_bool (x_autocall X) ++ L ")", None)
       (rev (join (L ".") ids) ++ 36%N :: b) r1.
Proof.
  intros X n cache b ids r1 TV XS XF MV NE F ST N1 N2.
  apply short_bare; auto; [|apply dotted_ids; assumption].
  destruct ids as [|i ids]; [congruence|]. inversion F as [|? ? [I1 _] _]; subst. destruct i as [|d i]; [discriminate|].
  destruct ids; exact I1.
Qed.
