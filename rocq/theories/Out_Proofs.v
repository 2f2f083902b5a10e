(** The module text, its bytes, and how they are read back. *)
From Verif Require Import Base PyStr Prep_Spec Prep_Model Prep_Proofs Lex_Model FrontLex_Proofs Doc_Model Out_Model Out_Spec Codec_Proofs.
From Verif Require Html_Spec Html_Proofs PrepLines_Proofs.
Local Open Scope nat_scope. Local Open Scope list_scope.

(** ** The module *)

Lemma module_start : forall shbang off header p, exists rest,
  module_code shbang off header p = shbang ++ [10%N] ++ [10%N] ++ rest.
Proof.
  intros. unfold module_code, module_def, module_header. eexists. rewrite <- app_assoc. cbn [app]. reflexivity.
Qed.

Lemma split_first : forall a b, ~ In 10%N a -> split_char 10 (a ++ 10%N :: b) = a :: split_char 10 b.
Proof.
  induction a as [|c a IH]; intros b H; cbn [app split_char]; [reflexivity|].
  destruct (N.eqb_spec c 10) as [->|]; [exfalso; apply H; left; reflexivity|].
  rewrite IH; [reflexivity|]. intro I. apply H. right. exact I.
Qed.

Lemma insert_line : forall x a b, ~ In 10%N a ->
  join LF (insert1 x (split_char 10 (a ++ 10%N :: b))) = a ++ [10%N] ++ x ++ [10%N] ++ b.
Proof.
  intros x a b H. rewrite split_first by exact H. unfold insert1. cbn [firstn skipn app].
  pose proof (split_char_join 10%N b) as J. pose proof (split_char_nonnil 10%N b) as NN.
  destruct (split_char 10 b) as [|w ws]; [contradiction|]. unfold LF in *.
  change (join [10%N] (a :: x :: w :: ws)) with (a ++ [10%N] ++ x ++ [10%N] ++ join [10%N] (w :: ws)).
  rewrite J. reflexivity.
Qed.

(** ** Declarations *)

Lemma first_line_app : forall a b, ~ In 10%N a -> first_line (a ++ 10%N :: b) = a /\ behind_line (a ++ 10%N :: b) = b.
Proof.
  induction a as [|c a IH]; intros b H; cbn [app first_line behind_line]; [split; reflexivity|].
  destruct (N.eqb_spec c 10) as [->|]; [exfalso; apply H; left; reflexivity|].
  destruct (IH b) as [I1 I2]; [intro I; apply H; right; exact I|]. rewrite I1, I2. split; reflexivity.
Qed.

Lemma starts_prefix : forall w s, starts_with w s = true -> exists r, s = w ++ r.
Proof.
  induction w as [|c w IH]; intros s H; [exists s; reflexivity|]. destruct s as [|d s]; [discriminate|].
  cbn [starts_with] in H. apply andb_true_iff in H. destruct H as [H1 H2]. apply N.eqb_eq in H1. subst d.
  destruct (IH _ H2) as [r ->]. exists r. reflexivity.
Qed.

Lemma declares_none : forall s, ~ within (L "coding") s -> declares s = None.
Proof.
  induction s as [|c s IH]; intros H; [reflexivity|]. cbn [declares].
  assert (D : declares_here (c :: s) = None).
  { unfold declares_here. destruct (starts_with (L "coding") (c :: s)) eqn:S; [|reflexivity].
    exfalso. apply H. destruct (starts_prefix _ _ S) as [r R]. exists [], r. exact R. }
  rewrite D. apply IH. intros (a & b & E). apply H. exists (c :: a), b. rewrite E. reflexivity.
Qed.

Lemma name_char_in : forall c, name_char c -> in_name c = true /\ space c = false /\ c <> 10%N /\ (c < 128)%N /\ is_space c = false /\ eolchar c = false /\ blank c = false.
Proof.
  unfold name_char, in_name, space, is_space, eolchar, blank. intros c H. repeat split; lia.
Qed.

Lemma name_at_app : forall n x, Forall name_char n -> match x with c :: _ => in_name c = false | [] => True end -> name_at (n ++ x) = n.
Proof.
  induction n as [|c n IH]; intros x H X; cbn [app].
  - destruct x as [|c x]; [reflexivity|]. cbn [name_at]. rewrite X. reflexivity.
  - inversion H as [|? ? Hc Hn]; subst. cbn [name_at]. destruct (name_char_in c Hc) as (-> & _). rewrite (IH x Hn X). reflexivity.
Qed.

Lemma coding_declares : forall e, enc_name e -> line_declares (coding_line e) = Some e.
Proof.
  intros e [NE HE]. unfold line_declares. change (comment (coding_line e)) with true. cbv iota.
  change (declares (coding_line e)) with
    (match declares_here (L "coding: " ++ e ++ L " -*-") with
     | Some n => Some n
     | None => declares (L "oding: " ++ e ++ L " -*-")
     end).
  assert (D : declares_here (L "coding: " ++ e ++ L " -*-") = Some e).
  { change (declares_here (L "coding: " ++ e ++ L " -*-")) with
      (match name_at (after_space (e ++ L " -*-")) with [] => None | n => Some n end).
    destruct e as [|c e]; [contradiction|].
    replace (after_space ((c :: e) ++ L " -*-")) with ((c :: e) ++ L " -*-").
    - rewrite name_at_app; [reflexivity|exact HE|reflexivity].
    - cbn [app after_space]. inversion HE as [|? ? Hc _]; subst. destruct (name_char_in c Hc) as (_ & -> & _). reflexivity. }
  rewrite D. reflexivity.
Qed.

Lemma coding_ascii : forall e, enc_name e -> Forall (fun c => (c < 128)%N) (coding_line e).
Proof.
  intros e [_ HE]. unfold coding_line. apply Forall_app. split; [|apply Forall_app; split].
  - apply Forall_forall. intros c C. revert c C. apply Forall_forall. repeat constructor.
  - apply Forall_forall. intros c C. rewrite Forall_forall in HE. apply name_char_in, HE, C.
  - repeat constructor.
Qed.

Lemma coding_one : forall e, enc_name e -> ~ In 10%N (coding_line e).
Proof.
  intros e [_ HE] I. unfold coding_line in I. rewrite !in_app_iff in I. destruct I as [I|[I|I]].
  - vm_compute in I. repeat (destruct I as [I|I]; [discriminate I|]). exact I.
  - rewrite Forall_forall in HE. destruct (name_char_in _ (HE _ I)) as (_ & _ & X & _). congruence.
  - vm_compute in I. repeat (destruct I as [I|I]; [discriminate I|]). exact I.
Qed.

Lemma script_comment : forall s, script_line s -> comment s = true /\ line_declares s = None /\ ~ In 10%N s.
Proof.
  intros s ((r & ->) & F & W). assert (C : comment (L "#" ++ r) = true) by reflexivity.
  split; [exact C|]. split.
  - unfold line_declares. rewrite C. apply declares_none, W.
  - intro I. rewrite Forall_forall in F. apply F in I. destruct I as [_ I]. congruence.
Qed.

Lemma declared_second : forall s l r, script_line s -> ~ In 10%N l ->
  declared (s ++ [10%N] ++ l ++ [10%N] ++ r) = match line_declares l with Some n => n | None => L "utf-8" end.
Proof.
  intros s l r S NL. destruct (script_comment s S) as (C & D & NI). unfold declared. cbn [app].
  destruct (first_line_app s (l ++ 10%N :: r) NI) as [-> ->]. rewrite D, C. cbn [orb].
  destruct (first_line_app l r NL) as [-> _]. reflexivity.
Qed.

Lemma script_ascii : forall s, script_line s -> Forall (fun c => (c < 128)%N) s.
Proof. intros s (_ & F & _). eapply Forall_impl; [|exact F]. intros a [H _]. exact H. Qed.

Lemma names_b : forall n, forallb in_name n = true -> Forall name_char n.
Proof.
  intros n H. apply Forall_forall. intros c C. rewrite forallb_forall in H. apply H in C.
  unfold in_name in C. unfold name_char. lia.
Qed.
Lemma utf8_name : enc_name (L "utf-8").
Proof. split; [discriminate|]. apply names_b. reflexivity. Qed.

(** ** Reading back *)
Section Codecs.
Variable K : pystr -> option codec.

Lemma returned_other : forall e code, str_eqb e (L "ascii") = false ->
  returned K None (code, e) = encode K e (join LF (insert1 (coding_line e) (split_char 10 code))).
Proof. intros e code H. unfold returned. rewrite H. reflexivity. Qed.

Lemma declared_reads : forall e cd shbang off header p b,
  enc_name e -> e <> L "ascii" -> K e = Some cd -> reads_back cd -> keeps_ascii cd -> script_line shbang ->
  returned K None (module_code shbang off header p, e) = Ok b ->
  exists rest, module_code shbang off header p = shbang ++ [10%N] ++ rest
    /\ python_reads K b = Some (with_declaration e shbang rest).
Proof.
  intros e cd shbang off header p b NE NA KE RB KA SL R.
  destruct (module_start shbang off header p) as [rest M]. exists ([10%N] ++ rest). split; [exact M|].
  rewrite M in R. destruct (script_comment shbang SL) as (_ & _ & NI).
  rewrite returned_other in R by (destruct (str_eqb_spec e (L "ascii")); [contradiction|reflexivity]).
  change (shbang ++ [10%N] ++ [10%N] ++ rest) with (shbang ++ 10%N :: ([10%N] ++ rest)) in R.
  rewrite (insert_line (coding_line e) shbang ([10%N] ++ rest) NI) in R.
  unfold encode in R. rewrite KE in R.
  set (P := shbang ++ [10%N] ++ coding_line e ++ [10%N]).
  assert (EQ : shbang ++ [10%N] ++ coding_line e ++ [10%N] ++ [10%N] ++ rest = P ++ [10%N] ++ rest)
    by (unfold P; rewrite <- !app_assoc; reflexivity).
  rewrite EQ in R.
  assert (PA : Forall (fun c => (c < 128)%N) P).
  { unfold P. apply Forall_app. split; [apply script_ascii, SL|]. apply Forall_app. split; [repeat constructor|].
    apply Forall_app. split; [apply coding_ascii, NE|]. repeat constructor. }
  destruct (cd_enc cd (P ++ [10%N] ++ rest)) as [b'|] eqn:EN; [|discriminate].
  assert (X : b = b') by congruence. subst b'. clear R.
  pose proof (RB _ _ EN) as D. rewrite (KA P ([10%N] ++ rest) PA) in EN.
  destruct (cd_enc cd ([10%N] ++ rest)) as [t|]; [|discriminate]. cbn [option_map] in EN.
  assert (X : b = P ++ t) by congruence. clear EN.
  assert (DE : declared b = e).
  { rewrite X. replace (P ++ t) with (shbang ++ [10%N] ++ coding_line e ++ [10%N] ++ t) by (unfold P; rewrite <- !app_assoc; reflexivity).
    rewrite declared_second by (try exact SL; apply coding_one, NE). rewrite coding_declares by exact NE. reflexivity. }
  unfold python_reads. rewrite DE, KE, D. unfold with_declaration. rewrite <- EQ. unfold coding_line. rewrite <- !app_assoc. reflexivity.
Qed.

Lemma utf8_ascii : forall s, Forall (fun c => (c < 128)%N) s -> utf8_enc s = Some s /\ utf8_dec s = Some s.
Proof.
  intros s H. pose proof (utf8_keeps s [] H) as E. rewrite app_nil_r in E. cbn [utf8 cd_enc option_map utf8_enc] in E.
  rewrite app_nil_r in E. split; [exact E|]. apply utf8_reads_back. exact E.
Qed.

Lemma returned_ascii : K (L "ascii") = Some ascii -> forall code b,
  returned K None (code, L "ascii") = Ok b <-> b = code /\ Forall (fun c => (c < 128)%N) code.
Proof.
  intros KA code b. unfold returned. change (str_eqb (L "ascii") (L "ascii")) with true. cbv iota.
  unfold encode. rewrite KA. cbn [ascii cd_enc]. split.
  - destruct (below 128 code) as [b'|] eqn:B; [|discriminate]. intro H. apply below_inv in B. destruct B as [B F].
    split; [congruence|exact F].
  - intros [-> F]. rewrite (below_all 128 code F). reflexivity.
Qed.

Lemma plain_reads : has_standard K -> forall shbang off header p b, script_line shbang ->
  returned K None (module_code shbang off header p, L "ascii") = Ok b ->
  python_reads K b = Some (module_code shbang off header p).
Proof.
  intros [KA KU] shbang off header p b SL R. apply (returned_ascii KA) in R. destruct R as [-> F].
  unfold python_reads.
  assert (DE : declared (module_code shbang off header p) = L "utf-8").
  { destruct (module_start shbang off header p) as [rest ->].
    change (shbang ++ [10%N] ++ [10%N] ++ rest) with (shbang ++ [10%N] ++ [] ++ [10%N] ++ rest).
    rewrite declared_second by (try exact SL; intros []). reflexivity. }
  rewrite DE, KU. cbn [utf8 cd_dec]. apply utf8_ascii, F.
Qed.

(** ** Writing *)

Lemma file_same : forall loc opt b f,
  (forall e, opt = Some e -> exists cd, K e = Some cd /\ one_form cd) ->
  (opt = None -> loc = L "utf-8" /\ K (L "utf-8") = Some utf8) ->
  to_file K loc opt (OBytes b) = Ok f -> f = b.
Proof.
  intros loc opt b f HO HN H. unfold to_file in H. destruct opt as [e|].
  - destruct (HO e eq_refl) as (cd & KE & ON). unfold decode, encode in H. rewrite KE in H.
    destruct (cd_dec cd b) as [s|] eqn:D; [|discriminate]. cbn [obind] in H. rewrite (ON _ _ D) in H. congruence.
  - destruct (HN eq_refl) as (-> & KU). unfold decode, encode in H. rewrite KU in H. cbn [utf8 cd_dec cd_enc] in H.
    destruct (utf8_dec b) as [s|] eqn:D; [|discriminate]. cbn [obind] in H. pose proof (utf8_one _ _ D) as U. cbn [utf8 cd_enc] in U. rewrite U in H. congruence.
Qed.

Lemma write_reads : forall e cd loc opt shbang off header p f,
  enc_name e -> e <> L "ascii" -> K e = Some cd -> reads_back cd -> keeps_ascii cd -> script_line shbang ->
  (forall o, opt = Some o -> exists od, K o = Some od /\ one_form od) ->
  (opt = None -> loc = L "utf-8" /\ K (L "utf-8") = Some utf8) ->
  write_module K false loc opt (module_code shbang off header p) e = Ok f ->
  exists rest, module_code shbang off header p = shbang ++ [10%N] ++ rest
    /\ python_reads K f = Some (with_declaration e shbang rest).
Proof.
  intros e cd loc opt shbang off header p f NE NA KE RB KA SL HO HN W. unfold write_module in W.
  destruct (returned K None (module_code shbang off header p, e)) as [b|x] eqn:R; [|discriminate].
  cbn [obind] in W. apply (file_same loc opt b f HO HN) in W. subst f.
  exact (declared_reads e cd shbang off header p b NE NA KE RB KA SL R).
Qed.

Lemma utf8_writes : has_standard K -> forall loc opt shbang off header p,
  Forall scalar (module_code shbang off header p) -> script_line shbang ->
  opt = Some (L "utf-8") \/ opt = None /\ loc = L "utf-8" ->
  exists f rest, write_module K false loc opt (module_code shbang off header p) (L "utf-8") = Ok f
    /\ module_code shbang off header p = shbang ++ [10%N] ++ rest
    /\ python_reads K f = Some (with_declaration (L "utf-8") shbang rest).
Proof.
  intros [KA KU] loc opt shbang off header p SC SL HO.
  destruct (module_start shbang off header p) as [rest M].
  destruct (script_comment shbang SL) as (_ & _ & NI).
  assert (R : exists b, returned K None (module_code shbang off header p, L "utf-8") = Ok b /\ exists s, utf8_enc s = Some b).
  { rewrite returned_other by reflexivity. unfold encode. rewrite KU. cbn [utf8 cd_enc]. rewrite M in SC |- *.
    change (shbang ++ [10%N] ++ [10%N] ++ rest) with (shbang ++ 10%N :: ([10%N] ++ rest)).
    rewrite (insert_line _ shbang ([10%N] ++ rest) NI).
    destruct (utf8_total (shbang ++ [10%N] ++ coding_line (L "utf-8") ++ [10%N] ++ [10%N] ++ rest)) as [b B].
    - apply Forall_app in SC. destruct SC as [S1 S2]. apply Forall_app. split; [exact S1|].
      cbn [app] in S2 |- *. inversion S2 as [|? ? S3 S4]; subst. constructor; [exact S3|].
      apply Forall_app. split; [|constructor; [exact S3|exact S4]].
      eapply Forall_impl; [|apply (coding_ascii (L "utf-8") utf8_name)]. intros a A. unfold scalar. cbv beta in A. lia.
    - rewrite B. exists b. split; [reflexivity|eauto]. }
  destruct R as (b & R & s & SB).
  assert (W : write_module K false loc opt (module_code shbang off header p) (L "utf-8") = Ok b).
  { unfold write_module. rewrite R. cbn [obind]. unfold to_file, decode, encode.
    pose proof (utf8_reads_back s b SB) as D. cbn [utf8 cd_dec] in D.
    destruct HO as [->|[-> ->]]; rewrite KU; cbn [utf8 cd_dec cd_enc]; rewrite D; cbn [obind]; rewrite SB; reflexivity. }
  exists b. destruct (declared_reads (L "utf-8") utf8 shbang off header p b utf8_name) as (rest' & M' & RD); try assumption;
    [discriminate|exact utf8_reads_back|exact utf8_keeps|].
  exists rest'. auto.
Qed.

Lemma ascii_writes : has_standard K -> forall loc opt cd shbang off header p,
  Forall (fun c => (c < 128)%N) (module_code shbang off header p) -> script_line shbang ->
  K (match opt with Some e => e | None => loc end) = Some cd -> keeps_ascii cd -> cd_enc cd [] = Some [] -> reads_back cd ->
  write_module K false loc opt (module_code shbang off header p) (L "ascii") = Ok (module_code shbang off header p)
  /\ python_reads K (module_code shbang off header p) = Some (module_code shbang off header p).
Proof.
  intros ST loc opt cd shbang off header p F SL KC KA NIL RB. pose proof ST as [K1 K2].
  assert (R : returned K None (module_code shbang off header p, L "ascii") = Ok (module_code shbang off header p))
    by (apply (returned_ascii K1); auto).
  split; [|exact (plain_reads ST shbang off header p _ SL R)].
  unfold write_module. rewrite R. cbn [obind].
  remember (module_code shbang off header p) as code eqn:C. clear C R.
  pose proof (KA code [] F) as E. rewrite app_nil_r, NIL in E. cbn [option_map] in E. rewrite app_nil_r in E.
  unfold to_file, decode, encode. destruct opt as [e|]; rewrite KC.
  - rewrite (RB _ _ E). cbn [obind]. rewrite E. reflexivity.
  - rewrite K2. cbn [utf8 cd_dec]. rewrite (proj2 (utf8_ascii code F)). cbn [obind]. rewrite E. reflexivity.
Qed.
End Codecs.

(** ** The directive *)

Lemma strip_ends : forall a t b, Html_Spec.blank a -> Html_Spec.blank b -> t <> [] -> Forall name_char t -> strip (a ++ t ++ b) = t.
Proof.
  intros a t b A B NE F. symmetry. apply Html_Proofs.trimmed_strip. split; [exists a, b; auto|].
  rewrite Forall_forall in F. split; intros c r E; apply (name_char_in c), F; rewrite E; [left; reflexivity|apply in_or_app; right; left; reflexivity].
Qed.

Lemma trail_cut : forall trail rest, Forall trail_char trail -> exists t u,
  trail ++ 10%N :: rest = t ++ u /\ no_eol t /\ Html_Spec.blank t /\ (exists c r, u = c :: r /\ eolchar c = true).
Proof.
  induction trail as [|c trail IH]; intros rest F.
  - exists [], (10%N :: rest). split; [reflexivity|]. split; [reflexivity|]. split; [intros c []|]. exists 10%N, rest. auto.
  - inversion F as [|? ? Hc Ht]; subst. destruct Hc as [->|[->| ->]].
    + destruct (IH rest Ht) as (t & u & E & N & B & U). exists (32%N :: t), u. cbn [app]. rewrite E.
      split; [reflexivity|]. split; [exact N|]. split; [|exact U]. intros c [<-|I]; [reflexivity|apply B, I].
    + destruct (IH rest Ht) as (t & u & E & N & B & U). exists (9%N :: t), u. cbn [app]. rewrite E.
      split; [reflexivity|]. split; [exact N|]. split; [|exact U]. intros c [<-|I]; [reflexivity|apply B, I].
    + exists [], (13%N :: trail ++ 10%N :: rest). split; [reflexivity|]. split; [reflexivity|]. split; [intros c []|].
      exists 13%N, (trail ++ 10%N :: rest). auto.
Qed.

Lemma skip_blanks : forall w b r, Forall (fun c => c = 32%N \/ c = 9%N) w -> match r with c :: _ => blank c = false | [] => True end ->
  skip_ws b (w ++ r) = (rev w ++ b, r).
Proof.
  induction w as [|c w IH]; intros b r F R; cbn [app].
  - destruct r as [|c r]; [reflexivity|]. cbn [skip_ws]. rewrite R. reflexivity.
  - inversion F as [|? ? Hc Hw]; subst. cbn [skip_ws].
    replace (blank c) with true by (destruct Hc; subst; reflexivity). rewrite (IH (c :: b) r Hw R).
    cbn [rev]. rewrite <- app_assoc. reflexivity.
Qed.

Lemma encoding_word : dir_word (L "encoding").
Proof. split; [vm_compute; tauto|]. split; [reflexivity|discriminate]. Qed.

Lemma eats_name : forall b sep name trail rest, esc_ok b = true ->
  sep <> [] -> Forall (fun c => c = 32%N \/ c = 9%N) sep -> enc_name name -> Forall trail_char trail ->
  fst (eat_encoding dflt b (dir_line (L "encoding") sep name trail ++ rest)) = name.
Proof.
  intros b sep name trail rest EO NS FS [NN FN] FT. unfold dir_line, eat_encoding. rewrite <- !app_assoc.
  change (L "#" ++ L "encoding" ++ sep ++ name ++ trail ++ [10%N] ++ rest)
    with (35%N :: L "encoding" ++ sep ++ name ++ trail ++ 10%N :: rest).
  rewrite (skip_dir_word (L "encoding") (L "encoding") b _ encoding_word EO (or_intror eq_refl)).
  rewrite skipn_app, skipn_all, Nat.sub_diag. cbn [skipn app].
  destruct (trail_cut trail rest FT) as (t & u & -> & NT & BT & c & r & -> & EC).
  rewrite (skip_blanks sep).
  2: exact FS.
  2: { destruct name as [|d name]; [contradiction|]. inversion FN as [|? ? Hd _]; subst. cbn [app]. apply (name_char_in d Hd). }
  unfold read_eol. assert (NO : no_eol (name ++ t)).
  { unfold no_eol. rewrite forallb_app. apply andb_true_intro. split; [|exact NT].
    apply forallb_forall. intros d D. rewrite Forall_forall in FN. destruct (name_char_in _ (FN _ D)) as (_ & _ & _ & _ & _ & -> & _). reflexivity. }
  rewrite app_assoc. rewrite (eol_off_app (name ++ t) (c :: r) NO), (eol_cons c r EC), Nat.add_0_r.
  destruct (go _ _ _) as [b' r']. cbn [fst]. rewrite firstn_app, firstn_all, Nat.sub_diag. cbn [firstn]. rewrite app_nil_r.
  exact (strip_ends [] name t (fun c H => match H with end) BT NN FN).
Qed.

Lemma encoding_agrees : forall uword b sep name trail pre rest, esc_ok b = true ->
  sep <> [] -> Forall (fun c => c = 32%N \/ c = 9%N) sep -> enc_name name -> Forall trail_char trail ->
  no_space_first rest -> Prep_Spec.before (L "encoding") pre ->
  fst (eat_encoding dflt b (dir_line (L "encoding") sep name trail ++ rest)) = name
  /\ dir_search uword (L "encoding") true (pre ++ dir_line (L "encoding") sep name trail ++ rest) = Some name.
Proof.
  intros uword b sep name trail pre rest EO NS FS EN FT NR BE. split; [apply eats_name; assumption|].
  apply dir_found; try assumption.
  - apply PrepLines_Proofs.enc_ok.
  - split; [exact NS|]. split; [|split; assumption]. eapply Forall_impl; [|exact FS]. intros c H. cbv beta in H. unfold sep_char. destruct H; auto.
Qed.
