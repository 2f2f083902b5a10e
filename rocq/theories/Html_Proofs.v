From Verif Require Import Base PyStr Html_Model Html_Spec.

(** ** Replacing an entity in a text made of tokens *)
Lemma replace_tokens : forall p r (e e' : N -> pystr) s,
  (forall c rest, replace_aux 0 p r (e c ++ rest) = e' c ++ replace_aux 0 p r rest) ->
  replace_str p r (concat (map e s)) = concat (map e' s).
Proof.
  intros p r e e' s H. unfold replace_str. induction s as [|c s IH]; [reflexivity|].
  cbn [map concat]. rewrite H, IH. reflexivity.
Qed.

(** the encoding of one character, with the listed entities already decoded *)
Definition enc_tok (amp lt gt quot : bool) (c : N) : pystr :=
  (if (c =? 38)%N then if amp then L "&amp;" else [c]
   else if (c =? 60)%N then if lt then L "&lt;" else [c]
   else if (c =? 62)%N then if gt then L "&gt;" else [c]
   else if (c =? 34)%N then if quot then L "&quot;" else [c]
   else [c]).

Ltac case_tok c :=
  unfold enc_tok;
  destruct (N.eqb_spec c 38) as [->|?]; [|destruct (N.eqb_spec c 60) as [->|?];
   [|destruct (N.eqb_spec c 62) as [->|?]; [|destruct (N.eqb_spec c 34) as [->|?]]]].

Lemma htmlEncode_tok : forall s, htmlEncode s = concat (map (enc_tok true true true true) s).
Proof.
  intros s. unfold htmlEncode, htmlEncode_with, htmlCodes.
  cbn [fold_left fst snd]. change (L "&") with [38%N]. change (L "<") with [60%N].
  change (L ">") with [62%N]. change [QUOT] with [34%N]. rewrite !replace_str_char.
  rewrite (replace_char_map 38), !replace_char_concat_map. f_equal. apply map_ext.
  intros c. case_tok c; try reflexivity.
  cbn [replace_char app]. rewrite (proj2 (N.eqb_neq c 60)) by assumption.
  cbn [replace_char app]. rewrite (proj2 (N.eqb_neq c 62)) by assumption.
  cbn [replace_char app]. rewrite (proj2 (N.eqb_neq c 34)) by assumption. reflexivity.
Qed.

Lemma rep_other : forall p r c rest, c <> 38%N ->
  replace_aux 0 (38%N :: p) r (c :: rest) = c :: replace_aux 0 (38%N :: p) r rest.
Proof.
  intros p r c rest H. cbn [replace_aux starts_with].
  rewrite (proj2 (N.eqb_neq 38 c)) by congruence. reflexivity.
Qed.

Lemma html_roundtrip : forall s, htmlDecode (htmlEncode s) = s.
Proof.
  intros s. rewrite htmlEncode_tok. unfold htmlDecode, htmlDecode_with, htmlCodesReversed, htmlCodes.
  cbn [rev app fold_left fst snd].
  rewrite (replace_tokens _ _ _ (enc_tok true true true false)).
  2:{ intros c rest. case_tok c; try reflexivity; apply (rep_other (L "quot;")); assumption. }
  rewrite (replace_tokens _ _ _ (enc_tok true true false false)).
  2:{ intros c rest. case_tok c; try reflexivity; apply (rep_other (L "gt;")); assumption. }
  rewrite (replace_tokens _ _ _ (enc_tok true false false false)).
  2:{ intros c rest. case_tok c; try reflexivity; apply (rep_other (L "lt;")); assumption. }
  rewrite (replace_tokens _ _ _ (enc_tok false false false false)).
  2:{ intros c rest. case_tok c; try reflexivity; apply (rep_other (L "amp;")); assumption. }
  induction s as [|c s IH]; [reflexivity|]. cbn [map concat]. rewrite IH.
  case_tok c; reflexivity.
Qed.

(** ** Ampersands of a text made of tokens *)
Definition good_tok (ents : list pystr) (t : pystr) : Prop :=
  (exists c, t = [c] /\ c <> 38%N) \/
  (exists t', t = 38%N :: t' /\ ~ In 38%N t' /\ In t ents).

Lemma app_cons_split : forall (t u a b : pystr) x, t ++ u = a ++ x :: b ->
  (exists k, a = t ++ k /\ u = k ++ x :: b) \/ (exists k, t = a ++ x :: k /\ b = k ++ u).
Proof.
  induction t as [|y t IH]; intros u a b x H; simpl in H.
  - left. exists a; auto.
  - destruct a as [|z a]; simpl in H; inversion H; subst.
    + right. exists t; auto.
    + destruct (IH _ _ _ _ H2) as [[k [-> ->]]|[k [-> ->]]]; [left|right]; exists k; auto.
Qed.

Lemma ampersands_tokens : forall ents (f : N -> pystr) s,
  (forall c, In c s -> good_tok ents (f c)) -> ampersands_start ents (concat (map f s)).
Proof.
  intros ents f s. induction s as [|c s IH]; intros H a b E; cbn [map concat] in E.
  - destruct a; discriminate.
  - destruct (app_cons_split _ _ _ _ _ E) as [[k [-> E2]]|[k [Et ->]]].
    + eapply IH; [intros; apply H; right; assumption|exact E2].
    + destruct (H c (or_introl eq_refl)) as [[d [Ed Hd]]|[t' [Ed [Hn Hin]]]].
      * rewrite Et in Ed. destruct a as [|? [|? ?]]; inversion Ed; congruence.
      * rewrite Et in Ed. destruct a as [|z a]; inversion Ed; subst.
        -- exists (f c), (concat (map f s)). split; [assumption|]. rewrite Et. reflexivity.
        -- exfalso. apply Hn. apply in_or_app. right; left; reflexivity.
Qed.

Definition html_entities : list pystr := [L "&amp;"; L "&lt;"; L "&gt;"; L "&quot;"].

Lemma htmlEncode_ampersands : forall s, ampersands_start html_entities (htmlEncode s).
Proof.
  intros s. rewrite htmlEncode_tok. apply ampersands_tokens. intros c _.
  case_tok c; [right|right|right|right|left; exists c; auto];
    eexists; split; [reflexivity| |reflexivity| |reflexivity| |reflexivity|]; (split;
      [rewrite <- mem_char_In; vm_compute; congruence|unfold html_entities; cbn; auto]).
Qed.

Lemma concat_map_In : forall (f : N -> pystr) x s,
  In x (concat (map f s)) <-> exists c, In c s /\ In x (f c).
Proof.
  intros f x s. rewrite in_concat. split.
  - intros [l [Hl Hx]]. apply in_map_iff in Hl as [c [<- Hc]]. eauto.
  - intros [c [Hc Hx]]. exists (f c). split; [apply in_map|]; assumption.
Qed.

Lemma htmlEncode_no_raw : forall s c, In c (htmlEncode s) -> c <> 60%N /\ c <> 62%N /\ c <> 34%N.
Proof.
  intros s x. rewrite htmlEncode_tok, concat_map_In. intros [c [_ H]]. revert H.
  case_tok c; intro H; try (cbn in H; repeat destruct H as [<-|H]; try contradiction; repeat split; congruence).
Qed.

Lemma htmlEncode_inj : forall s t, htmlEncode s = htmlEncode t -> s = t.
Proof.
  intros s t H. rewrite <- (html_roundtrip s), <- (html_roundtrip t), H. reflexivity.
Qed.

(** ** WebSafe *)

(** the text written for one character when the extra characters [also] are plain *)
Definition ws_tok (also : pystr) (c : N) : pystr :=
  if (c =? 38)%N then L "&amp;" else if (c =? 60)%N then L "&lt;"
  else if (c =? 62)%N then L "&gt;"
  else if mem_char c also then also_entity c else [c].

(** characters that occur inside entities *)
Definition entity_char (c : N) : bool :=
  mem_char c (L "&#;0123456789") || mem_char c (L "ampltgnbsquo").

Definition plain_also (also : pystr) : Prop := forall c, In c also -> entity_char c = false.

Lemma also_entity_chars : forall k c, In c (also_entity k) -> entity_char c = true.
Proof.
  intros k c H. unfold also_entity, webSafeEntities in H.
  destruct (k =? 32)%N; [|destruct (k =? 34)%N].
  - cbn in H. repeat destruct H as [<-|H]; try contradiction; reflexivity.
  - cbn in H. repeat destruct H as [<-|H]; try contradiction; reflexivity.
  - apply in_app_or in H as [H|H]; [|apply in_app_or in H as [H|H]].
    + cbn in H. repeat destruct H as [<-|H]; try contradiction; reflexivity.
    + apply str_of_N_digits in H.
      assert (E : (c = 48 \/ c = 49 \/ c = 50 \/ c = 51 \/ c = 52 \/ c = 53 \/ c = 54 \/ c = 55
                   \/ c = 56 \/ c = 57)%N) by lia.
      repeat destruct E as [->|E]; try reflexivity. subst; reflexivity.
    + cbn in H. repeat destruct H as [<-|H]; try contradiction; reflexivity.
Qed.

Lemma ws_tok_nil : forall s,
  replace_char GT (L "&gt;") (replace_char LT (L "&lt;") (replace_char AMP (L "&amp;") s))
  = concat (map (ws_tok []) s).
Proof.
  intros s. rewrite (replace_char_map AMP), !replace_char_concat_map. f_equal. apply map_ext.
  intros c. unfold ws_tok, AMP, LT, GT.
  destruct (N.eqb_spec c 38) as [->|]; [reflexivity|].
  destruct (N.eqb_spec c 60) as [->|]; [reflexivity|].
  destruct (N.eqb_spec c 62) as [->|]; [reflexivity|].
  cbn [replace_char app]. rewrite (proj2 (N.eqb_neq c 60)) by assumption.
  cbn [replace_char app]. rewrite (proj2 (N.eqb_neq c 62)) by assumption. reflexivity.
Qed.

Lemma websafe_tok_gen : forall also done s,
  plain_also also ->
  fold_left (fun s k => replace_char k (also_entity k) s) also (concat (map (ws_tok done) s))
  = concat (map (ws_tok (done ++ also)) s).
Proof.
  induction also as [|k also IH]; intros done s H; [rewrite app_nil_r; reflexivity|].
  cbn [fold_left]. rewrite replace_char_concat_map.
  rewrite (map_ext _ (ws_tok (done ++ [k]))).
  - rewrite IH, <- app_assoc; [reflexivity|]. intros c Hc. apply H. right; assumption.
  - assert (Hk : entity_char k = false) by (apply H; left; reflexivity).
    intros c. unfold ws_tok.
    destruct (N.eqb_spec c 38) as [->|N1].
    { apply replace_char_notin. intro Hin. cbn in Hin.
      repeat destruct Hin as [<-|Hin]; try contradiction; discriminate Hk. }
    destruct (N.eqb_spec c 60) as [->|N2].
    { apply replace_char_notin. intro Hin. cbn in Hin.
      repeat destruct Hin as [<-|Hin]; try contradiction; discriminate Hk. }
    destruct (N.eqb_spec c 62) as [->|N3].
    { apply replace_char_notin. intro Hin. cbn in Hin.
      repeat destruct Hin as [<-|Hin]; try contradiction; discriminate Hk. }
    destruct (mem_char c done) eqn:E.
    + assert (mem_char c (done ++ [k]) = true) as ->
        by (apply mem_char_In, in_or_app; left; apply mem_char_In; assumption).
      apply replace_char_notin. intro Hin. apply also_entity_chars in Hin. congruence.
    + cbn [replace_char]. destruct (N.eqb_spec c k) as [->|Nk].
      * assert (mem_char k (done ++ [k]) = true) as ->
          by (apply mem_char_In, in_or_app; right; left; reflexivity).
        apply app_nil_r.
      * assert (mem_char c (done ++ [k]) = false) as ->; [|reflexivity].
        apply mem_char_false. apply mem_char_false in E. rewrite in_app_iff.
        intros [?|[?|[]]]; congruence.
Qed.

Lemma websafe_tok : forall v also, plain_also also ->
  websafe_filter v also = concat (map (ws_tok also) (base_filter v)).
Proof.
  intros v also H. unfold websafe_filter. rewrite ws_tok_nil.
  rewrite websafe_tok_gen by assumption. reflexivity.
Qed.

Lemma plain_nil : plain_also [].
Proof. intros c []. Qed.

Definition websafe_entities (also : pystr) : list pystr :=
  [L "&amp;"; L "&lt;"; L "&gt;"] ++ map also_entity also.

Lemma digits_not_amp : forall n, ~ In 38%N (str_of_N n).
Proof. intros n H. apply str_of_N_digits in H. lia. Qed.

Lemma also_entity_shape : forall k, exists t, also_entity k = 38%N :: t /\ ~ In 38%N t.
Proof.
  intros k. unfold also_entity, webSafeEntities.
  destruct (k =? 32)%N; [|destruct (k =? 34)%N].
  - eexists; split; [reflexivity|]. rewrite <- mem_char_In. vm_compute. congruence.
  - eexists; split; [reflexivity|]. rewrite <- mem_char_In. vm_compute. congruence.
  - exists (35%N :: str_of_N k ++ L ";"). split; [reflexivity|].
    intros [H|H]; [discriminate|]. apply in_app_or in H as [H|H].
    + revert H. apply digits_not_amp.
    + cbn in H. destruct H as [H|[]]; discriminate.
Qed.

Lemma websafe_ampersands : forall v also, plain_also also ->
  ampersands_start (websafe_entities also) (websafe_filter v also).
Proof.
  intros v also H. rewrite websafe_tok by assumption. apply ampersands_tokens. intros c _.
  unfold ws_tok.
  destruct (N.eqb_spec c 38) as [->|N1]; [|destruct (N.eqb_spec c 60) as [->|N2];
   [|destruct (N.eqb_spec c 62) as [->|N3]; [|destruct (mem_char c also) eqn:E]]].
  1-3: right; eexists; split; [reflexivity|]; split;
      [rewrite <- mem_char_In; vm_compute; congruence|unfold websafe_entities; cbn; auto].
  - right. destruct (also_entity_shape c) as [t [Ht Hn]]. exists t. split; [assumption|].
    split; [assumption|]. unfold websafe_entities. apply in_or_app. right. apply in_map.
    apply mem_char_In. assumption.
  - left. exists c. auto.
Qed.

Lemma websafe_chars : forall v also c, plain_also also -> In c (websafe_filter v also) ->
  c <> 60%N /\ c <> 62%N /\ ~ In c also.
Proof.
  intros v also x Hp. rewrite websafe_tok by assumption. rewrite concat_map_In.
  intros [c [_ H]]. unfold ws_tok in H.
  assert (Hent : entity_char x = true -> x <> 60%N /\ x <> 62%N /\ ~ In x also).
  { intros He. repeat split; try (intro; subst; discriminate He).
    intro Hx. specialize (Hp _ Hx). congruence. }
  destruct (c =? 38)%N eqn:N1; [|destruct (c =? 60)%N eqn:N2;
   [|destruct (c =? 62)%N eqn:N3; [|destruct (mem_char c also) eqn:E]]].
  1-3: apply Hent; cbn in H; repeat destruct H as [<-|H]; try contradiction; reflexivity.
  - apply Hent. eapply also_entity_chars; eauto.
  - destruct H as [<-|[]]. apply N.eqb_neq in N2, N3. repeat split; try assumption.
    apply mem_char_false. assumption.
Qed.

(** Unique decoding: tokens form a prefix code. *)
Definition prefix_free (f : N -> pystr) : Prop :=
  forall c d r u, f c ++ r = f d ++ u -> c = d.

Lemma prefix_free_inj : forall f, prefix_free f -> (forall c, f c <> []) ->
  forall s t, concat (map f s) = concat (map f t) -> s = t.
Proof.
  intros f Hpf Hne. induction s as [|c s IH]; destruct t as [|d t]; cbn [map concat]; intros E.
  - reflexivity.
  - destruct (f d) eqn:F; [exfalso; eapply Hne; eauto|discriminate].
  - destruct (f c) eqn:F; [exfalso; eapply Hne; eauto|discriminate].
  - pose proof (Hpf _ _ _ _ E) as ->. apply app_inv_head in E. f_equal. auto.
Qed.

Lemma digits_semi : forall a b r u,
  (forall c, In c a -> (48 <= c <= 57)%N) -> (forall c, In c b -> (48 <= c <= 57)%N) ->
  a ++ 59%N :: r = b ++ 59%N :: u -> a = b.
Proof.
  induction a as [|x a IH]; destruct b as [|y b]; simpl; intros r u Ha Hb E.
  - reflexivity.
  - inversion E; subst. specialize (Hb 59%N (or_introl eq_refl)). lia.
  - inversion E; subst. specialize (Ha 59%N (or_introl eq_refl)). lia.
  - inversion E; subst. f_equal. eapply IH; eauto.
Qed.

Lemma ws_tok_prefix_free : forall also, prefix_free (ws_tok also).
Proof.
  intros also c d r u E. unfold ws_tok in E.
  (* five shapes of tokens; literal entities first *)
  assert (Hae : forall k, exists t, also_entity k = 38%N :: t) by
    (intros k; destruct (also_entity_shape k) as [t [Ht _]]; eauto).
  assert (Hd : forall k t, (forall a v, str_of_N k ++ 59%N :: v = a :: t -> (48 <= a <= 57)%N)).
  { intros k t a v Ev. destruct (str_of_N k) as [|z zs] eqn:Ez.
    - exfalso. eapply str_of_N_nonempty; eauto.
    - inversion Ev; subst. apply (str_of_N_digits k). rewrite Ez. left; reflexivity. }
  assert (Hxx : forall k m v w, mem_char k also = true ->
     also_entity k ++ v = also_entity m ++ w -> k = m).
  { intros k m v w _ EE. unfold also_entity, webSafeEntities in EE.
    destruct (N.eqb_spec k 32) as [->|K1]; [|destruct (N.eqb_spec k 34) as [->|K2]];
    (destruct (N.eqb_spec m 32) as [->|M1]; [|destruct (N.eqb_spec m 34) as [->|M2]]);
    try reflexivity; try (cbn in EE; discriminate EE).
    repeat rewrite <- app_assoc in EE. cbn in EE. inversion EE as [E2].
    apply digits_semi in E2; try (intros; eapply str_of_N_digits; eassumption).
    apply str_of_N_inj. assumption. }
  assert (Hlit : forall k lit v w, In lit [L "&amp;"; L "&lt;"; L "&gt;"] ->
     also_entity k ++ v = lit ++ w -> False).
  { intros k lit v w Hin EE. unfold also_entity, webSafeEntities in EE.
    destruct (k =? 32)%N; [|destruct (k =? 34)%N]; cbn in Hin;
    destruct Hin as [<-|[<-|[<-|[]]]]; cbn in EE; discriminate EE. }
  destruct (N.eqb_spec c 38) as [->|N1]; [|destruct (N.eqb_spec c 60) as [->|N2];
   [|destruct (N.eqb_spec c 62) as [->|N3]; [|destruct (mem_char c also) eqn:Ec]]];
  (destruct (N.eqb_spec d 38) as [->|M1]; [|destruct (N.eqb_spec d 60) as [->|M2];
   [|destruct (N.eqb_spec d 62) as [->|M3]; [|destruct (mem_char d also) eqn:Ed]]]);
  try reflexivity;
  try (cbn in E; discriminate E);
  try (exfalso; eapply Hlit; [|exact E]; cbn; auto; fail);
  try (exfalso; symmetry in E; eapply Hlit; [|exact E]; cbn; auto; fail);
  try (eapply Hxx; eassumption);
  try (cbn in E; inversion E; congruence).
  - destruct (Hae c) as [t Ht]. rewrite Ht in E. cbn in E. inversion E; congruence.
  - destruct (Hae d) as [t Ht]. rewrite Ht in E. cbn in E. inversion E; congruence.
Qed.

Lemma websafe_inj : forall v w also, plain_also also ->
  websafe_filter v also = websafe_filter w also -> base_filter v = base_filter w.
Proof.
  intros v w also H E. rewrite !websafe_tok in E by assumption.
  eapply prefix_free_inj; [apply ws_tok_prefix_free| |exact E].
  intros c F. unfold ws_tok in F.
  destruct (c =? 38)%N; [discriminate|]. destruct (c =? 60)%N; [discriminate|].
  destruct (c =? 62)%N; [discriminate|]. destruct (mem_char c also); [|discriminate].
  destruct (also_entity_shape c) as [t [Ht _]]. congruence.
Qed.

(** ** MaxLen *)
Lemma firstn_prefix : forall n (s : pystr), exists r, s = firstn n s ++ r.
Proof. intros n s. exists (skipn n s). symmetry. apply firstn_skipn. Qed.

Lemma maxlen_prefix : forall v m, exists r, base_filter v = maxlen_filter v m ++ r.
Proof.
  intros v [n|]; unfold maxlen_filter.
  - destruct (_ >? n)%Z; [|exists []; symmetry; apply app_nil_r].
    unfold slice_upto. destruct (0 <=? n)%Z; apply firstn_prefix.
  - exists []; symmetry; apply app_nil_r.
Qed.

Lemma maxlen_length : forall v n, (0 <= n)%Z ->
  Z.of_nat (length (maxlen_filter v (Some n))) = Z.min n (Z.of_nat (length (base_filter v))).
Proof.
  intros v n Hn. unfold maxlen_filter. destruct (Z.gtb_spec (Z.of_nat (length (base_filter v))) n).
  - unfold slice_upto. assert ((0 <=? n)%Z = true) as -> by (apply Z.leb_le; assumption).
    rewrite firstn_length. lia.
  - lia.
Qed.

Lemma maxlen_negative : forall v n, (n < 0)%Z ->
  Z.of_nat (length (maxlen_filter v (Some n))) = Z.max 0 (Z.of_nat (length (base_filter v)) + n).
Proof.
  intros v n Hn. unfold maxlen_filter. destruct (Z.gtb_spec (Z.of_nat (length (base_filter v))) n); [|lia].
  unfold slice_upto. assert ((0 <=? n)%Z = false) as -> by (apply Z.leb_gt; assumption).
  rewrite firstn_length. lia.
Qed.

(** ** Strip *)
Lemma cut_newline_None : forall s, cut_newline s = None -> ~ In 10%N s.
Proof.
  induction s as [|c s IH]; simpl; intros H; [tauto|].
  destruct (N.eqb_spec c 10); [discriminate|].
  destruct (cut_newline s) as [[a b]|]; [discriminate|]. intros [?|?]; [congruence|]. apply IH; auto.
Qed.

Lemma cut_newline_Some : forall s a b, cut_newline s = Some (a, b) ->
  s = a ++ 10%N :: b /\ ~ In 10%N a.
Proof.
  induction s as [|c s IH]; simpl; intros a b H; [discriminate|].
  destruct (N.eqb_spec c 10) as [->|].
  - inversion H; subst. split; [reflexivity|tauto].
  - destruct (cut_newline s) as [[a' b']|]; [|discriminate]. inversion H; subst.
    destruct (IH _ _ eq_refl) as [-> Hn]. split; [reflexivity|].
    intros [?|?]; [congruence|tauto].
Qed.

Lemma strip_trimmed : forall s, trimmed s (strip s).
Proof.
  intros s. split; [|split].
  - destruct (strip_decomp s) as [a [b [E [Ha Hb]]]]. exists a, b. split; [assumption|].
    rewrite Forall_forall in Ha, Hb. split; assumption.
  - intros c r H. eapply strip_head; eauto.
  - intros c r H. eapply strip_last; eauto.
Qed.

Lemma strip_loop_spec : forall fuel result s, length s < fuel ->
  exists ls ts out, strip_loop fuel result s = Some (result ++ out)
    /\ lines_of s ls /\ Forall2 trimmed ls ts /\ lines_of out ts /\ map strip ls = ts.
Proof.
  induction fuel as [|fuel IH]; intros result s H; [lia|]. cbn [strip_loop].
  destruct (cut_newline s) as [[line rest]|] eqn:E.
  - apply cut_newline_Some in E as [-> Hn]. rewrite app_length in H. simpl in H.
    destruct (IH (result ++ strip line ++ [10%N]) rest) as [ls [ts [out [E1 [E2 [E3 [E4 E5]]]]]]]; [lia|].
    exists (line :: ls), (strip line :: ts), (strip line ++ 10%N :: out).
    rewrite E1. repeat split.
    + rewrite <- !app_assoc. reflexivity.
    + constructor; assumption.
    + constructor; [apply strip_trimmed|assumption].
    + constructor; [|assumption]. intro Hi. apply Hn. apply strip_In. assumption.
    + simpl. congruence.
  - apply cut_newline_None in E. exists [s], [strip s], (strip s). repeat split.
    + constructor; assumption.
    + constructor; [apply strip_trimmed|constructor].
    + constructor. intro Hi. apply E. apply strip_In. assumption.
Qed.

(** C13, first half: the output's lines are the input's lines, each trimmed. *)
Lemma strip_filter_lines : forall v, exists out ls ts,
  strip_filter v = Some out /\ lines_of (base_filter v) ls /\ Forall2 trimmed ls ts /\ lines_of out ts.
Proof.
  intros v. unfold strip_filter.
  destruct (strip_loop_spec (S (length (base_filter v))) [] (base_filter v)) as
    [ls [ts [out [E [H1 [H2 [H3 _]]]]]]]; [lia|].
  exists out, ls, ts. auto.
Qed.

Lemma lines_of_fun : forall s l1, lines_of s l1 -> forall l2, lines_of s l2 -> l1 = l2.
Proof.
  assert (Hcut : forall (l l' s s' : pystr), ~ In 10%N l -> ~ In 10%N l' ->
     l ++ 10%N :: s = l' ++ 10%N :: s' -> l = l' /\ s = s').
  { induction l as [|x l IH]; destruct l' as [|y l']; simpl; intros s s' H1 H2 E; inversion E; subst; auto;
    try (exfalso; tauto). destruct (IH l' s s') as [-> ->]; auto; tauto. }
  induction 1 as [s Hs|l s ls Hl H IH]; intros l2 H2.
  - inversion H2; subst; [reflexivity|]. exfalso. apply Hs. apply in_or_app. right; left; reflexivity.
  - inversion H2; subst.
    + exfalso. apply H0. apply in_or_app. right; left; reflexivity.
    + destruct (Hcut _ _ _ _ H1 Hl H0) as [-> ->]. f_equal. auto.
Qed.

Lemma lines_of_inj : forall ls s, lines_of s ls -> forall t, lines_of t ls -> s = t.
Proof.
  induction ls as [|l ls IH]; intros s H t H'; [inversion H|].
  inversion H; subst; inversion H'; subst; try reflexivity;
    try (match goal with X : lines_of _ [] |- _ => inversion X end).
  f_equal. f_equal. eapply IH; eauto.
Qed.

Lemma strip_filter_idem : forall v out,
  strip_filter v = Some out -> strip_filter (FStr out) = Some out.
Proof.
  intros v out H. unfold strip_filter in *.
  destruct (strip_loop_spec (S (length (base_filter v))) [] (base_filter v)) as
    [ls [ts [o [E [H1 [H2 [H3 H3']]]]]]]; [lia|].
  rewrite E in H. inversion H; subst o. clear H E.
  cbn [base_filter]. simpl in H3.
  destruct (strip_loop_spec (S (length out)) [] out) as [ls' [ts' [o' [E' [H1' [H2' [H4' H5']]]]]]]; [lia|].
  rewrite E'. simpl. f_equal.
  pose proof (lines_of_fun _ _ H3 _ H1') as <-.
  assert (H : ts' = ts).
  { rewrite <- H5', <- H3', map_map. apply map_ext. intros; apply strip_idem. }
  rewrite H in H4'. exact (lines_of_inj _ _ H4' _ H3).
Qed.

(** ** StripSqueeze *)
Lemma split_ws_aux_words : forall s cur,
  (forall c, In c cur -> is_space c = false) ->
  (cur = [] -> words_of s (split_ws_aux cur s)) /\
  (cur <> [] -> words_of (rev cur ++ s) (split_ws_aux cur s)).
Proof.
  induction s as [|c s IH]; intros cur Hc; cbn [split_ws_aux].
  - split; intros Hn.
    + subst. constructor. intros x [].
    + rewrite app_nil_r. destruct cur as [|x cur]; [congruence|].
      apply (words_one []); [intros y []|]. split.
      * intro E. apply (f_equal (@length N)) in E. rewrite rev_length in E. discriminate.
      * intros y Hy. apply in_rev in Hy. auto.
  - destruct (is_space c) eqn:E.
    + destruct (IH [] (fun x H => match H with end)) as [IH1 _]. specialize (IH1 eq_refl).
      split; intros Hn.
      * subst. inversion IH1; subst.
        -- constructor. intros x [<-|Hx]; auto.
        -- apply (words_one (c :: a)); auto. intros x [<-|Hx]; auto.
        -- change (c :: a ++ w ++ c0 :: r) with ((c :: a) ++ w ++ c0 :: r).
           constructor; auto. intros x [<-|Hx]; auto.
      * destruct cur as [|x cur]; [congruence|].
        apply (words_cons []); auto.
        -- intros y [].
        -- split.
           ++ intro E2. apply (f_equal (@length N)) in E2. rewrite rev_length in E2. discriminate.
           ++ intros y Hy. apply in_rev in Hy. auto.
    + assert (Hc' : forall x, In x (c :: cur) -> is_space x = false)
        by (intros x [<-|Hx]; auto).
      destruct (IH (c :: cur) Hc') as [_ IH2].
      specialize (IH2 ltac:(discriminate)). simpl in IH2. rewrite <- app_assoc in IH2.
      split; intros Hn; [subst; exact IH2|exact IH2].
Qed.

Lemma split_ws_words : forall s, words_of s (split_ws s).
Proof.
  intros s. unfold split_ws. apply (proj1 (split_ws_aux_words s [] (fun c H => match H with end))).
  reflexivity.
Qed.

Lemma words_of_are_words : forall s ws, words_of s ws -> Forall is_word ws.
Proof. induction 1; auto. Qed.

Lemma words_of_fun : forall s ws, words_of s ws -> forall ws', words_of s ws' -> ws = ws'.
Proof.
  assert (B : forall a w r a' w' r',
    blank a -> is_word w -> (r = [] \/ exists c t, r = c :: t /\ is_space c = true) ->
    blank a' -> is_word w' -> (r' = [] \/ exists c t, r' = c :: t /\ is_space c = true) ->
    a ++ w ++ r = a' ++ w' ++ r' -> w = w' /\ r = r').
  { assert (BW : forall w r w' r',
      (forall c, In c w -> is_space c = false) -> (r = [] \/ exists c t, r = c :: t /\ is_space c = true) ->
      (forall c, In c w' -> is_space c = false) -> (r' = [] \/ exists c t, r' = c :: t /\ is_space c = true) ->
      w ++ r = w' ++ r' -> w = w' /\ r = r').
    { induction w as [|x w IH]; destruct w' as [|y w']; simpl; intros r' Hw Hr Hw' Hr' E; auto.
      - subst r. exfalso. destruct Hr as [?|[c [t [Ec Es]]]]; [discriminate|]. inversion Ec; subst.
        rewrite (Hw' c (or_introl eq_refl)) in Es. discriminate.
      - subst r'. exfalso. destruct Hr' as [?|[c [t [Ec Es]]]]; [discriminate|]. inversion Ec; subst.
        rewrite (Hw c (or_introl eq_refl)) in Es. discriminate.
      - inversion E; subst. destruct (IH r w' r') as [-> ->]; auto. }
    induction a as [|x a IH]; destruct a' as [|y a']; simpl; intros w' r' Ha [Hw Hw2] Hr Ha' [Hw' Hw2'] Hr' E.
    - apply BW; auto.
    - exfalso. destruct w as [|z w]; [congruence|]. inversion E; subst.
      specialize (Ha' y (or_introl eq_refl)). rewrite (Hw2 y (or_introl eq_refl)) in Ha'. discriminate.
    - exfalso. destruct w' as [|z w']; [congruence|]. inversion E; subst.
      specialize (Ha z (or_introl eq_refl)). rewrite (Hw2' z (or_introl eq_refl)) in Ha. discriminate.
    - inversion E; subst. eapply (IH w r a' w' r'); try assumption; try (split; assumption).
      + intros c Hc. apply Ha. right; assumption.
      + intros c Hc. apply Ha'. right; assumption. }
  assert (NB : forall a w r, is_word w -> blank (a ++ w ++ r) -> False).
  { intros a w r [Hw Hw2] Hb. destruct w as [|z w]; [congruence|].
    specialize (Hb z). rewrite (Hw2 z (or_introl eq_refl)) in Hb.
    discriminate Hb. apply in_or_app. right. left. reflexivity. }
  induction 1 as [s Hs|a w Ha Hw|a w c r ws Ha Hw Hc Hr IH]; intros ws' H'.
  - inversion H'; subst; auto; exfalso.
    + eapply (NB a w []); [assumption|]. rewrite app_nil_r. assumption.
    + eapply NB; eassumption.
  - inversion H'; subst.
    + exfalso. eapply (NB a w []); [assumption|]. rewrite app_nil_r. assumption.
    + destruct (B a w [] a0 w0 []) as [-> _]; auto. rewrite !app_nil_r. congruence.
    + destruct (B a w [] a0 w0 (c :: r)) as [_ E]; auto; [right; eauto|rewrite app_nil_r; congruence|discriminate].
  - inversion H'; subst.
    + exfalso. eapply NB; eassumption.
    + destruct (B a w (c :: r) a0 w0 []) as [_ E]; auto; [right; eauto|rewrite app_nil_r; congruence|discriminate].
    + destruct (B a w (c :: r) a0 w0 (c0 :: r0)) as [-> E]; eauto.
      inversion E; subst. f_equal. auto.
Qed.

Lemma join_words : forall ws, Forall is_word ws -> words_of (join [32%N] ws) ws.
Proof.
  induction ws as [|w ws IH]; intros H; [constructor; intros c []|].
  inversion H; subst. destruct ws as [|w2 ws].
  - apply (words_one []); [intros c []|assumption].
  - change (join [32%N] (w :: w2 :: ws)) with ([] ++ w ++ 32%N :: join [32%N] (w2 :: ws)).
    constructor; auto. intros c [].
Qed.

Lemma stripsqueeze_words : forall v ws,
  words_of (base_filter v) ws -> words_of (stripsqueeze_filter v) ws.
Proof.
  intros v ws H. unfold stripsqueeze_filter.
  pose proof (words_of_fun _ _ H _ (split_ws_words _)) as ->.
  apply join_words. eapply words_of_are_words. apply split_ws_words.
Qed.

(** every blank is one space between two words *)
Lemma join_space_isolated : forall ws, Forall is_word ws -> forall a c b,
  join [32%N] ws = a ++ c :: b -> is_space c = true ->
  c = 32%N /\ (exists a' x, a = a' ++ [x] /\ is_space x = false)
           /\ (exists y b', b = y :: b' /\ is_space y = false).
Proof.
  induction ws as [|w ws IH]; intros H a c b E Hs.
  - destruct a; discriminate.
  - inversion H as [|? ? [Hw Hw2] Hws]; subst. destruct ws as [|w2 ws].
    + simpl in E. rewrite (Hw2 c) in Hs; [discriminate|]. subst w. apply in_or_app. right; left; reflexivity.
    + change (join [32%N] (w :: w2 :: ws)) with (w ++ 32%N :: join [32%N] (w2 :: ws)) in E.
      destruct (app_cons_split _ _ _ _ _ E) as [[k [-> E2]]|[k [Ew ->]]].
      * destruct k as [|z k]; simpl in E2; inversion E2; subst.
        -- split; [reflexivity|]. split.
           ++ destruct (exists_last Hw) as [w' [x Hx]]. exists w', x. split; [rewrite app_nil_r; assumption|].
              apply Hw2. rewrite Hx. apply in_or_app. right; left; reflexivity.
           ++ inversion Hws as [|? ? [Hv Hv2] _]; subst. destruct w2 as [|y w2]; [congruence|].
              exists y. destruct ws; eexists; (split; [reflexivity|]); apply Hv2; left; reflexivity.
        -- destruct (IH Hws k c b H2 Hs) as [-> [[a' [x [-> Hx]]] Hb]].
           split; [reflexivity|]. split; [|assumption].
           exists (w ++ 32%N :: a'), x. split; [|assumption]. rewrite <- app_assoc. reflexivity.
      * rewrite (Hw2 c) in Hs; [discriminate|]. rewrite Ew. apply in_or_app. right; left; reflexivity.
Qed.

Lemma stripsqueeze_blanks : forall v a c b,
  stripsqueeze_filter v = a ++ c :: b -> is_space c = true ->
  c = 32%N /\ (exists a' x, a = a' ++ [x] /\ is_space x = false)
           /\ (exists y b', b = y :: b' /\ is_space y = false).
Proof.
  intros v. unfold stripsqueeze_filter. apply join_space_isolated.
  eapply words_of_are_words. apply split_ws_words.
Qed.

Lemma stripsqueeze_idem : forall v,
  stripsqueeze_filter (FStr (stripsqueeze_filter v)) = stripsqueeze_filter v.
Proof.
  intros v. unfold stripsqueeze_filter at 1 3. cbn [base_filter]. f_equal.
  eapply words_of_fun; [apply split_ws_words|]. apply stripsqueeze_words. apply split_ws_words.
Qed.

Lemma lstrip_blank_app : forall a s, blank a -> lstrip (a ++ s) = lstrip s.
Proof.
  induction a as [|c a IH]; intros s H; [reflexivity|]. simpl.
  rewrite (H c (or_introl eq_refl)). apply IH. intros x Hx. apply H. right; assumption.
Qed.

Lemma trimmed_strip : forall s t, trimmed s t -> t = strip s.
Proof.
  intros s t [[a [b [-> [Ha Hb]]]] [Hh Hl]]. unfold strip. rewrite lstrip_blank_app by assumption.
  assert (Hb' : blank (rev b)) by (intros c Hc; apply Hb; apply in_rev; assumption).
  destruct t as [|c t].
  - simpl. assert (lstrip b = []) as ->.
    { rewrite <- (app_nil_r b), lstrip_blank_app by assumption. reflexivity. }
    reflexivity.
  - rewrite (lstrip_id ((c :: t) ++ b)) by (intros x r E; inversion E; subst; eapply Hh; eauto).
    unfold rstrip. rewrite rev_app_distr, lstrip_blank_app by assumption.
    rewrite lstrip_id; [symmetry; apply rev_involutive|].
    intros x r E. apply (Hl x (rev r)). apply (f_equal (@rev N)) in E.
    rewrite rev_involutive in E. simpl in E. assumption.
Qed.

Lemma trimmed_fun : forall s t u, trimmed s t -> trimmed s u -> t = u.
Proof. intros s t u Ht Hu. apply trimmed_strip in Ht, Hu. congruence. Qed.
