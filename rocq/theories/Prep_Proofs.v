(** Proofs about the preparation of a source (Prep_Model.v). *)
From Verif Require Import Base PyStr Names_Model Names_Proofs StrConst_Model StrConst_Proofs PyLiteral_Spec.
From Verif Require Import Prep_Model Prep_Spec.
Local Open Scope nat_scope.
Local Open Scope list_scope.

Definition spaces (s : pystr) : Prop := Forall (fun c => is_space c = true) s.

(** ** The matcher *)
Lemma rstar_sound : forall k p s m x, rstar k p m s = Some x ->
  exists a b y, s = a ++ b /\ Forall (fun c => p c = true) a /\ k b = Some y /\ x = length a :: y.
Proof.
  intros k p. induction s as [|c r IH]; intros m x H; cbn [rstar] in H.
  - destruct (k []) as [y|] eqn:E; [|discriminate]. injection H as <-. exists [], [], y. auto.
  - assert (Q : match k (c :: r) with Some x => Some (0 :: x) | None => None end = Some x ->
      exists a b y, c :: r = a ++ b /\ Forall (fun c => p c = true) a /\ k b = Some y /\ x = length a :: y).
    { intros Q. destruct (k (c :: r)) as [y|] eqn:E; [|discriminate]. injection Q as <-. exists [], (c :: r), y. auto. }
    destruct (p c && _) eqn:P; [|auto].
    apply andb_true_iff in P. destruct P as [P _].
    destruct (rstar k p (option_map pred m) r) as [[|n z]|] eqn:E; [auto| |auto].
    injection H as <-. apply IH in E. destruct E as (a & b & y & -> & F & K & X). injection X as -> ->.
    exists (c :: a), b, y. cbn. auto.
Qed.

Lemma starts_with_split : forall w s, starts_with w s = true -> s = w ++ skipn (length w) s.
Proof.
  induction w as [|x w IH]; intros [|y s] H; try discriminate; auto. cbn in H. apply andb_true_iff in H.
  destruct H as [E H]. apply N.eqb_eq in E. subst y. cbn. f_equal. auto.
Qed.

Lemma starts_with_refl : forall w s, starts_with w (w ++ s) = true.
Proof. induction w as [|x w IH]; intros s; auto. cbn. rewrite N.eqb_refl. apply IH. Qed.

Section P.
Variable uword : N -> bool.
Notation dir_rx := (dir_rx uword).
Notation dir_at := (dir_at uword).

Lemma dir_rx_sound : forall w s x, rmatch (dir_rx w) s = Some x ->
  exists a b t, s = a ++ 35%N :: b ++ w ++ t /\ spaces a /\ spaces b.
Proof.
  intros w s x H. unfold Prep_Model.dir_rx in H. cbn [rmatch] in H. apply rstar_sound in H.
  destruct H as (a & s1 & y & -> & Fa & H & _).
  destruct (starts_with (L "#") s1) eqn:E; [|discriminate]. apply starts_with_split in E.
  destruct (rstar _ is_space (Some 5) _) as [z|] eqn:K; [|discriminate]. apply rstar_sound in K.
  destruct K as (b & s2 & y2 & E2 & Fb & K & _).
  change (length (L "#")) with 1 in *. rewrite E2 in E. clear H.
  destruct (starts_with w s2) eqn:W; [|discriminate]. apply starts_with_split in W.
  exists a, b, (skipn (length w) s2). rewrite E. change (L "#") with [35%N]. cbn [app]. rewrite <- W. auto.
Qed.

Lemma dir_at_sound : forall w bol s x, dir_at w bol s = Some x ->
  exists a b t, s = a ++ 35%N :: b ++ w ++ t /\ spaces a /\ spaces b.
Proof.
  intros w bol s x H. unfold Prep_Model.dir_at in H.
  assert (Q : forall z, rmatch (REol :: dir_rx w) s = Some z ->
    exists a b t, s = a ++ 35%N :: b ++ w ++ t /\ spaces a /\ spaces b).
  { intros z Q. cbn [rmatch] in Q. destruct s as [|c r]; [discriminate|].
    destruct (starts_with [13; 10]%N (c :: r)) eqn:E.
    - destruct (rmatch (dir_rx w) (skipn 2 (c :: r))) as [y|] eqn:K.
      + apply dir_rx_sound in K. destruct K as (a & b & t & K & A & B). apply starts_with_split in E.
        exists ([13; 10]%N ++ a), b, t. change (length [13; 10]%N) with 2 in E. rewrite E, K. split; [reflexivity|].
        split; [|exact B]. apply Forall_app. split; [|exact A]. constructor; [reflexivity|]. constructor; [reflexivity|constructor].
      + cbn [option_map] in Q. destruct (((c =? 13) || (c =? 10))%N) eqn:C; [|discriminate].
        destruct (rmatch (dir_rx w) r) as [y|] eqn:K2; [|discriminate]. apply dir_rx_sound in K2.
        destruct K2 as (a & b & t & -> & A & B). exists (c :: a), b, t. split; [reflexivity|]. split; [|exact B].
        constructor; [|exact A]. unfold is_space. lia.
    - destruct (((c =? 13) || (c =? 10))%N) eqn:C; [|discriminate].
      destruct (rmatch (dir_rx w) r) as [y|] eqn:K2; [|discriminate]. apply dir_rx_sound in K2.
      destruct K2 as (a & b & t & -> & A & B). exists (c :: a), b, t. split; [reflexivity|]. split; [|exact B].
      constructor; [|exact A]. unfold is_space. lia. }
  destruct (if bol then rmatch (dir_rx w) s else None) as [y|] eqn:E.
  - destruct bol; [|discriminate]. apply dir_rx_sound in E. exact E.
  - destruct (rmatch (REol :: dir_rx w) s) as [z|] eqn:K; [|discriminate]. apply (Q _ eq_refl).
Qed.

Lemma dir_at_none : forall w bol s, ~ within w s -> dir_at w bol s = None.
Proof.
  intros w bol s H. destruct (dir_at w bol s) as [x|] eqn:E; auto. apply dir_at_sound in E.
  destruct E as (a & b & t & -> & _). exfalso. apply H. exists (a ++ 35%N :: b), t.
  rewrite <- app_assoc. reflexivity.
Qed.

Lemma within_tl : forall w c s, within w s -> within w (c :: s).
Proof. intros w c s (a & b & ->). exists (c :: a), b. reflexivity. Qed.

Lemma dir_search_none : forall w s bol, ~ within w s -> dir_search uword w bol s = None.
Proof.
  intros w. induction s as [|c r IH]; intros bol H; cbn [dir_search]; rewrite dir_at_none by exact H; auto.
  apply IH. intros K. apply H. apply within_tl, K.
Qed.

Lemma dir_sub_id : forall w s bol, ~ within w s -> dir_sub uword w 0 bol s = s.
Proof.
  intros w. induction s as [|c r IH]; intros bol H; cbn [dir_sub]; auto. rewrite dir_at_none by exact H.
  f_equal. apply IH. intros K. apply H. apply within_tl, K.
Qed.

Lemma has_text_within : forall w s, has_text w s = true <-> within w s.
Proof.
  intros w. induction s as [|c r IH]; cbn [has_text].
  - rewrite orb_false_r. split.
    + intros H. apply starts_with_split in H. exists [], (skipn (length w) []). exact H.
    + intros (a & b & E). destruct a; [|discriminate]. cbn in E. rewrite E. apply starts_with_refl.
  - rewrite orb_true_iff, IH. split.
    + intros [H|H]; [|apply within_tl, H]. apply starts_with_split in H. exists [], (skipn (length w) (c :: r)). exact H.
    + intros (a & b & E). destruct a as [|x a]; cbn in E.
      * left. rewrite E. apply starts_with_refl.
      * right. injection E as -> ->. exists a, b. reflexivity.
Qed.

Lemma has_text_not : forall w s, ~ within w s -> has_text w s = false.
Proof. intros w s H. destruct (has_text w s) eqn:E; auto. apply has_text_within in E. contradiction. Qed.

(** ** No match begins before the line of the directive *)
Lemma first_nonspace : forall a b c d x y, spaces a -> spaces b -> is_space x = false -> is_space y = false ->
  a ++ x :: c = b ++ y :: d -> a = b /\ x = y /\ c = d.
Proof.
  induction a as [|u a IH]; intros [|v b] c d x y A B X Y E; cbn in E.
  - injection E as -> ->. auto.
  - injection E as E1 E2. inversion B. congruence.
  - injection E as E1 E2. inversion A. congruence.
  - injection E as E1 E. inversion A; inversion B; subst. destruct (IH b c d x y) as (-> & -> & ->); auto.
Qed.

Lemma split_space : forall p, (exists a x c, p = a ++ x :: c /\ spaces a /\ is_space x = false) \/ spaces p.
Proof.
  induction p as [|y p IH]; [right; constructor|]. destruct (is_space y) eqn:E.
  - destruct IH as [(a & x & c & -> & A & X)|IH]; [left|right; constructor; auto].
    exists (y :: a), x, c. split; [reflexivity|]. split; [constructor; auto|exact X].
  - left. exists [], y, p. split; [reflexivity|]. split; [constructor|exact E].
Qed.

Lemma prefix_of_app : forall w d x e, ~ In x w -> starts_with w (d ++ x :: e) = true -> starts_with w d = true.
Proof.
  induction w as [|c w IH]; intros d x e N H; auto. destruct d as [|y d]; cbn in H.
  - apply andb_true_iff in H. destruct H as [H _]. apply N.eqb_eq in H. subst. exfalso. apply N. left. reflexivity.
  - apply andb_true_iff in H. destruct H as [H K]. cbn. rewrite H. cbn. apply IH with (x := x) (e := e); auto.
    intros I. apply N. right. exact I.
Qed.

Lemma dir_at_early : forall w0 w bol p t, ~ In 10%N (w0 :: w) -> w0 <> 35%N -> is_space w0 = false ->
  (exists q c, p = q ++ [c] /\ is_space c = false) -> ~ within (w0 :: w) p ->
  dir_at (w0 :: w) bol (p ++ 10%N :: 35%N :: t) = None.
Proof.
  intros w0 w bol p t NL0 H35 HS (q & c & P & C) NW.
  destruct (dir_at (w0 :: w) bol (p ++ 10%N :: 35%N :: t)) as [x|] eqn:E; auto. exfalso.
  apply dir_at_sound in E. destruct E as (a & b & u & E & A & B).
  destruct (split_space p) as [(a' & y & d & Ep & A' & Y)|SP].
  2:{ unfold spaces in SP. rewrite P in SP. apply Forall_app in SP. destruct SP as [_ SP]. inversion SP. congruence. }
  rewrite Ep in E. rewrite <- app_assoc in E. cbn [app] in E.
  apply first_nonspace in E; auto. destruct E as (-> & -> & E).
  destruct (split_space d) as [(b' & z & d' & Ed & B' & Z)|SD].
  - rewrite Ed in E. rewrite <- app_assoc in E. cbn [app] in E. apply first_nonspace in E; auto.
    destruct E as (-> & -> & E). apply NW.
    assert (S : starts_with (w0 :: w) ((w0 :: d') ++ 10%N :: 35%N :: t) = true).
    { cbn [app]. rewrite E. apply (starts_with_refl (w0 :: w)). }
    apply prefix_of_app in S; [|exact NL0]. apply starts_with_split in S.
    rewrite Ep, Ed, S. exists (a ++ 35%N :: b), (skipn (length (w0 :: w)) (w0 :: d')). rewrite <- app_assoc. reflexivity.
  - destruct d as [|y d].
    + cbn [app] in E. change (10%N :: 35%N :: t) with ([10%N] ++ 35%N :: t) in E. apply first_nonspace in E; auto.
      * destruct E as (_ & E & _). congruence.
      * constructor; [reflexivity|constructor].
    + destruct (exists_last (l := y :: d)) as (d' & z & Z); [discriminate|].
      rewrite Z in Ep. rewrite P in Ep.
      change (a ++ 35%N :: d' ++ [z]) with (a ++ (35%N :: d') ++ [z]) in Ep. rewrite app_assoc in Ep.
      apply app_inj_tail in Ep. destruct Ep as [_ ->]. unfold spaces in SD. rewrite Z in SD.
      apply Forall_app in SD. destruct SD as [_ SD]. inversion SD. congruence.
Qed.

(** ** The directive is found *)
Lemma rstar_greedy : forall k p a b x, Forall (fun c => p c = true) a ->
  match b with [] => True | c :: _ => p c = false end -> k b = Some x -> rstar k p None (a ++ b) = Some (length a :: x).
Proof.
  intros k p. induction a as [|c a IH]; intros b x A B K.
  - cbn [app length]. destruct b as [|c b]; cbn [rstar]; rewrite K; auto. rewrite B. reflexivity.
  - inversion A as [|? ? P A']; subst. cbn [app rstar length]. rewrite P. cbn [andb option_map].
    rewrite (IH b x A' B K). reflexivity.
Qed.

Lemma rstar_back : forall k p a c b x, Forall (fun c => p c = true) a -> p c = true ->
  match b with [] => True | c :: _ => p c = false end -> k b = None -> k (c :: b) = Some x ->
  rstar k p None (a ++ c :: b) = Some (length a :: x).
Proof.
  intros k p. induction a as [|d a IH]; intros c b x A C B K1 K2.
  - cbn [app length rstar]. rewrite C. cbn [andb option_map]. rewrite K2.
    assert (E : rstar k p None b = None).
    { destruct b as [|e b]; cbn [rstar]; rewrite K1; auto. rewrite B. reflexivity. }
    rewrite E. reflexivity.
  - inversion A as [|? ? P A']; subst. cbn [app rstar length]. rewrite P. cbn [andb option_map].
    rewrite (IH c b x A' C B K1 K2). reflexivity.
Qed.

Lemma rstar_none : forall k p m b x, match b with [] => True | c :: _ => p c = false end -> k b = Some x ->
  rstar k p m b = Some (0 :: x).
Proof. intros k p m [|c b] x B K; cbn [rstar]; rewrite K; auto. rewrite B. reflexivity. Qed.

Definition word_ok (w : pystr) : Prop :=
  ~ In 10%N w /\ match w with [] => False | c :: _ => is_space c = false /\ c <> 35%N end.

Lemma name_encchar : forall c, name_char c -> encchar uword c = true /\ colon_space c = false /\ is_space c = false.
Proof.
  intros c H. unfold name_char in H. split; [|split].
  - unfold encchar. destruct (uword c); lia.
  - unfold colon_space, is_space. lia.
  - unfold is_space. lia.
Qed.

Lemma rmatch_dir : forall w sep name trail rest, word_ok w -> dir_parts sep name trail -> no_space_first rest ->
  rmatch (dir_rx w) (dir_line w sep name trail ++ rest)
  = Some [0; 1; 0; length w; length sep; length name; length trail; 1].
Proof.
  intros w sep name trail rest [WN W] (S0 & S1 & (N0 & N1) & T) R. unfold dir_line, Prep_Model.dir_rx.
  rewrite <- !app_assoc. change (L "#") with [35%N]. cbn [app].
  cbn [rmatch]. apply rstar_none; [reflexivity|]. change (L "#") with [35%N].
  cbn [starts_with skipn length]. rewrite N.eqb_refl. cbn [andb].
  destruct w as [|w0 w]; [contradiction|]. destruct W as [W0 W1].
  rewrite (rstar_none _ _ _ _ [length (w0 :: w); length sep; length name; length trail; 1]); [reflexivity|exact W0|].
  rewrite starts_with_refl. rewrite skipn_app, skipn_all, Nat.sub_diag, skipn_O. rewrite app_nil_l.
  rewrite (rstar_greedy _ _ sep _ [length name; length trail; 1]); [reflexivity| | |].
  - eapply Forall_impl; [|exact S1]. intros c [->|[->| ->]]; reflexivity.
  - destruct name as [|n0 name]; [congruence|]. cbn [app]. inversion N1; subst.
    apply name_encchar; auto.
  - apply rstar_greedy.
    + eapply Forall_impl; [|exact N1]. intros c H. apply name_encchar, H.
    + destruct trail as [|t0 trail]; cbn [app]; [reflexivity|]. inversion T as [|? ? [->|[->| ->]]]; reflexivity.
    + apply rstar_back.
      * eapply Forall_impl; [|exact T]. intros c [->|[->| ->]]; reflexivity.
      * reflexivity.
      * destruct rest as [|r0 rest]; auto.
      * destruct rest as [|r0 rest]; auto. cbn in R.
        assert (E : (13 =? r0)%N = false) by (unfold is_space in R; lia). cbn [starts_with]. rewrite E. cbn [andb].
        replace (((r0 =? 13) || (r0 =? 10))%N) with false; [reflexivity|]. unfold is_space in R. lia.
      * reflexivity.
Qed.

Lemma firstn_name : forall (a name b : pystr) n, length a = n -> firstn (length name) (skipn n (a ++ name ++ b)) = name.
Proof.
  intros a name b n <-. rewrite skipn_app, skipn_all, Nat.sub_diag, skipn_O. cbn [app].
  rewrite firstn_app, firstn_all, Nat.sub_diag, firstn_O, app_nil_r. reflexivity.
Qed.

Lemma dir_line_length : forall w sep name trail,
  length (dir_line w sep name trail) = 2 + length w + length sep + length name + length trail.
Proof. intros. unfold dir_line. rewrite !app_length. change (length (L "#")) with 1. cbn [length]. lia. Qed.

Lemma dir_at_bol : forall w sep name trail rest, word_ok w -> dir_parts sep name trail -> no_space_first rest ->
  dir_at w true (dir_line w sep name trail ++ rest) = Some (length (dir_line w sep name trail), name).
Proof.
  intros w sep name trail rest W D R. unfold Prep_Model.dir_at. rewrite rmatch_dir by assumption.
  f_equal. f_equal.
  - rewrite dir_line_length. cbn [list_sum fold_right]. lia.
  - unfold dir_line. rewrite <- !app_assoc. rewrite (app_assoc (L "#")), (app_assoc (L "#" ++ w)).
    apply firstn_name. rewrite !app_length. change (length (L "#")) with 1. lia.
Qed.

Lemma dir_at_eol : forall w sep name trail rest, word_ok w -> dir_parts sep name trail -> no_space_first rest ->
  dir_at w false (10%N :: dir_line w sep name trail ++ rest) = Some (S (length (dir_line w sep name trail)), name).
Proof.
  intros w sep name trail rest W D R. unfold Prep_Model.dir_at. cbn [rmatch].
  change (starts_with [13; 10]%N (10%N :: dir_line w sep name trail ++ rest)) with false.
  change (((10 =? 13) || (10 =? 10))%N) with true. cbv iota.
  rewrite rmatch_dir by assumption. cbn [option_map]. f_equal. f_equal.
  - rewrite dir_line_length. cbn [list_sum fold_right]. lia.
  - unfold dir_line. rewrite <- !app_assoc.
    change (10%N :: L "#" ++ w ++ sep ++ name ++ trail ++ [10%N] ++ rest)
      with ([10%N] ++ L "#" ++ w ++ sep ++ name ++ trail ++ [10%N] ++ rest).
    rewrite (app_assoc [10%N]), (app_assoc ([10%N] ++ L "#")), (app_assoc (([10%N] ++ L "#") ++ w)).
    apply firstn_name. rewrite !app_length. change (length (L "#")) with 1. cbn [length]. lia.
Qed.

(** ** Through the text before it *)
Lemma within_app_r : forall w a b, within w b -> within w (a ++ b).
Proof. intros w a b (x & y & ->). exists (a ++ x), y. rewrite <- app_assoc. reflexivity. Qed.

Lemma search_through : forall w sep name trail rest, word_ok w -> dir_parts sep name trail -> no_space_first rest ->
  forall p c bol, is_space c = false -> ~ within w (p ++ [c]) ->
  dir_search uword w bol ((p ++ [c]) ++ 10%N :: dir_line w sep name trail ++ rest) = Some name.
Proof.
  intros w sep name trail rest W D R.
  assert (Q : forall p c bol, is_space c = false -> ~ within w (p ++ [c]) ->
    dir_at w bol ((p ++ [c]) ++ 10%N :: dir_line w sep name trail ++ rest) = None).
  { intros p c bol C H. destruct W as [WN W]. destruct w as [|w0 w]; [contradiction|].
    unfold dir_line. rewrite <- !app_assoc. change (L "#") with [35%N].
    rewrite (app_assoc p). apply dir_at_early; auto; try tauto. exists p, c. auto. }
  induction p as [|d p IH]; intros c bol C H.
  - specialize (Q [] c bol C H). cbn [app] in Q |- *. cbn [dir_search]. rewrite Q.
    replace (c =? 10)%N with false by (unfold is_space in C; lia).
    rewrite dir_at_eol by assumption. reflexivity.
  - pose proof (Q (d :: p) c bol C H) as Q1. cbn [app] in Q1 |- *. cbn [dir_search]. rewrite Q1.
    apply IH; auto. intros K. apply H. cbn [app]. apply within_tl, K.
Qed.

Lemma dir_found : forall w sep name trail pre rest, word_ok w -> dir_parts sep name trail -> no_space_first rest ->
  before w pre -> dir_search uword w true (pre ++ dir_line w sep name trail ++ rest) = Some name.
Proof.
  intros w sep name trail pre rest W D R [->|(p & c & -> & C & H)].
  - cbn [app]. pose proof (dir_at_bol w sep name trail rest W D R) as E.
    unfold dir_line in *. change (L "#") with [35%N] in *. cbn [app] in E |- *. cbn [dir_search]. rewrite E. reflexivity.
  - replace ((p ++ [c; 10%N]) ++ dir_line w sep name trail ++ rest)
      with ((p ++ [c]) ++ 10%N :: dir_line w sep name trail ++ rest) by (rewrite <- !app_assoc; reflexivity).
    apply search_through; auto.
Qed.

Lemma sub_skip : forall w l rest bol, exists bol', dir_sub uword w (length l) bol (l ++ rest) = dir_sub uword w 0 bol' rest.
Proof.
  intros w. induction l as [|c l IH]; intros rest bol; cbn [app length dir_sub].
  - exists bol. reflexivity.
  - apply IH.
Qed.

Lemma sub_first : forall w sep name trail rest, word_ok w -> dir_parts sep name trail -> no_space_first rest ->
  ~ within w rest -> dir_sub uword w 0 true (dir_line w sep name trail ++ rest) = rest.
Proof.
  intros w sep name trail rest W D R H. pose proof (dir_at_bol w sep name trail rest W D R) as E.
  destruct (dir_line w sep name trail) as [|c l] eqn:Q; [discriminate Q|].
  cbn [app] in E |- *. cbn [dir_sub]. rewrite E. cbn [length]. rewrite Nat.sub_1_r. cbn [pred].
  destruct (sub_skip w l rest (c =? 10)%N) as [bol' ->]. apply dir_sub_id, H.
Qed.

Lemma sub_through : forall w sep name trail rest, word_ok w -> dir_parts sep name trail -> no_space_first rest ->
  ~ within w rest -> forall p c bol, is_space c = false -> ~ within w (p ++ [c]) ->
  dir_sub uword w 0 bol ((p ++ [c]) ++ 10%N :: dir_line w sep name trail ++ rest) = (p ++ [c]) ++ rest.
Proof.
  intros w sep name trail rest W D R HR.
  assert (Q : forall p c bol, is_space c = false -> ~ within w (p ++ [c]) ->
    dir_at w bol ((p ++ [c]) ++ 10%N :: dir_line w sep name trail ++ rest) = None).
  { intros p c bol C H. destruct W as [WN W]. destruct w as [|w0 w]; [contradiction|].
    unfold dir_line. rewrite <- !app_assoc. change (L "#") with [35%N].
    rewrite (app_assoc p). apply dir_at_early; auto; try tauto. exists p, c. auto. }
  induction p as [|d p IH]; intros c bol C H.
  - specialize (Q [] c bol C H). cbn [app] in Q |- *. cbn [dir_sub]. rewrite Q. f_equal.
    replace (c =? 10)%N with false by (unfold is_space in C; lia).
    rewrite dir_at_eol by assumption. rewrite Nat.sub_1_r. cbn [pred].
    destruct (sub_skip w (dir_line w sep name trail) rest (10 =? 10)%N) as [bol' ->]. apply dir_sub_id, HR.
  - pose proof (Q (d :: p) c bol C H) as Q1. cbn [app] in Q1 |- *. cbn [dir_sub]. rewrite Q1. f_equal.
    apply IH; auto. intros K. apply H. cbn [app]. apply within_tl, K.
Qed.
End P.
