(** C88: the module that is written out reads back as the module that was generated. *)
From Verif Require Import Base PyStr Prep_Spec Prep_Model Prep_Proofs Lex_Model FrontLex_Proofs Doc_Model Out_Model Out_Spec Codec_Proofs Out_Proofs.
Local Open Scope nat_scope. Local Open Scope string_scope. Local Open Scope list_scope.

(** A Python with three codecs, a module with the given text in its class, and a first line. *)
Definition std (n : pystr) : option codec :=
  if str_eqb n (L "ascii") then Some ascii else if str_eqb n (L "utf-8") then Some utf8
  else if str_eqb n (L "latin-1") then Some latin1 else None.
Definition some_parts (text : pystr) : parts :=
  mkParts [] (L "import sys") (L "__CHEETAH_src__ = None") (L "__CHEETAH_docstring__ = ''")
    (L "class page(Template):" ++ [10%N] ++ L "    x = '" ++ text ++ L "'") (L "page").
Definition env_python : pystr := L "#!/usr/bin/env python".
Definition module (text : pystr) : pystr := module_code env_python 1 [] (some_parts text).
Definition e_acute : pystr := [233%N].

Lemma std_standard : has_standard std.
Proof. split; reflexivity. Qed.
Lemma all_b : forall (P : N -> Prop) (f : N -> bool) s, (forall c, f c = true -> P c) -> forallb f s = true -> Forall P s.
Proof. intros P f s H F. apply Forall_forall. intros c C. apply H. rewrite forallb_forall in F. apply F, C. Qed.
Lemma not_within : forall w s, (forall n, n <= length s -> starts_with w (skipn n s) = false) -> ~ within w s.
Proof.
  intros w s H (a & b & ->). specialize (H (length a)). rewrite app_length in H.
  rewrite skipn_app, skipn_all, Nat.sub_diag in H. cbn [skipn app] in H.
  assert (X : starts_with w (w ++ b) = true).
  { clear. induction w as [|c w IH]; [reflexivity|]. cbn [app starts_with]. rewrite N.eqb_refl. exact IH. }
  rewrite X in H. discriminate H. lia.
Qed.
Lemma env_script : script_line env_python.
Proof.
  split; [exists (L "!/usr/bin/env python"); reflexivity|]. split.
  - apply (all_b _ (fun c => (c <? 128) && negb (c =? 10))%N); [|reflexivity]. intros c H. lia.
  - apply not_within. intros n Hn. vm_compute in Hn.
    do 22 (destruct n as [|n]; [reflexivity|]). exfalso. lia.
Qed.
Lemma scalar_b : forall s, forallb (fun c => (c <? 55296) || (57343 <? c) && (c <=? 1114111))%N s = true -> Forall scalar s.
Proof. intros s. apply all_b. intros c H. unfold scalar. lia. Qed.
Lemma latin1_name : enc_name (L "latin-1").
Proof. split; [discriminate|]. apply names_b. reflexivity. Qed.

(** The bytes of a module with an encoding, whatever codec that is, are read by Python as the module with the
    line that declares the encoding behind its first line. *)
Theorem C88_declared : forall K e cd shbang off header p b,
  enc_name e -> e <> L "ascii" -> K e = Some cd -> reads_back cd -> keeps_ascii cd -> script_line shbang ->
  returned K None (module_code shbang off header p, e) = Ok b ->
  exists rest, module_code shbang off header p = shbang ++ [10%N] ++ rest
    /\ python_reads K b = Some (with_declaration e shbang rest).
Proof. exact declared_reads. Qed.
Print Assumptions C88_declared.
Example C88_declared_ex : exists b rest, returned std None (module e_acute, L "latin-1") = Ok b
  /\ module e_acute = env_python ++ [10%N] ++ rest /\ python_reads std b = Some (with_declaration (L "latin-1") env_python rest).
Proof.
  destruct (returned std None (module e_acute, L "latin-1")) as [b|x] eqn:R; [|vm_compute in R; discriminate R].
  destruct (C88_declared std (L "latin-1") latin1 env_python 1 [] (some_parts e_acute) b latin1_name) as (rest & M & P);
    [discriminate|reflexivity|apply below_reads_back|apply below_keeps; lia|exact env_script|exact R|].
  exists b, rest. auto.
Qed.

(** Those of a module without one are read as the module. *)
Theorem C88_plain : forall K, has_standard K -> forall shbang off header p b, script_line shbang ->
  returned K None (module_code shbang off header p, L "ascii") = Ok b ->
  python_reads K b = Some (module_code shbang off header p).
Proof. exact plain_reads. Qed.
Print Assumptions C88_plain.
Example C88_plain_ex : exists b, returned std None (module (L "x"), L "ascii") = Ok b /\ python_reads std b = Some (module (L "x")).
Proof.
  destruct (returned std None (module (L "x"), L "ascii")) as [b|x] eqn:R; [|vm_compute in R; discriminate R].
  exists b. split; [reflexivity|]. exact (C88_plain std std_standard env_python 1 [] (some_parts (L "x")) b env_script R).
Qed.

(** They exist if and only if all of the module is ASCII. *)
Theorem C88_plain_iff : forall K, K (L "ascii") = Some ascii -> forall code b,
  returned K None (code, L "ascii") = Ok b <-> b = code /\ Forall (fun c => (c < 128)%N) code.
Proof. exact returned_ascii. Qed.
Print Assumptions C88_plain_iff.
Example C88_plain_iff_ex : returned std None (L "x = 1", L "ascii") = Ok (L "x = 1").
Proof.
  apply (C88_plain_iff std eq_refl). split; [reflexivity|].
  apply (all_b _ (fun c => c <? 128)%N); [intros c H; lia|reflexivity].
Qed.

(** With an encoding on the command line, or where utf-8 is the encoding of files, the file written has the bytes
    returned by the compiler and no others. *)
Theorem C88_written : forall K loc opt b f,
  (forall e, opt = Some e -> exists cd, K e = Some cd /\ one_form cd) ->
  (opt = None -> loc = L "utf-8" /\ K (L "utf-8") = Some utf8) ->
  to_file K loc opt (OBytes b) = Ok f -> f = b.
Proof. exact file_same. Qed.
Print Assumptions C88_written.
Example C88_written_ex : to_file std (L "ascii") (Some (L "utf-8")) (OBytes [195; 169]%N) = Ok [195; 169]%N
  /\ to_file std (L "utf-8") None (OBytes [195; 169]%N) = Ok [195; 169]%N /\ one_form utf8.
Proof. split; [vm_compute; reflexivity|]. split; [vm_compute; reflexivity|exact utf8_one]. Qed.

(** So a module that cheetah compile writes is read as the module generated. *)
Theorem C88_module : forall K e cd loc opt shbang off header p f,
  enc_name e -> e <> L "ascii" -> K e = Some cd -> reads_back cd -> keeps_ascii cd -> script_line shbang ->
  (forall o, opt = Some o -> exists od, K o = Some od /\ one_form od) ->
  (opt = None -> loc = L "utf-8" /\ K (L "utf-8") = Some utf8) ->
  write_module K false loc opt (module_code shbang off header p) e = Ok f ->
  exists rest, module_code shbang off header p = shbang ++ [10%N] ++ rest
    /\ python_reads K f = Some (with_declaration e shbang rest).
Proof. exact write_reads. Qed.
Print Assumptions C88_module.
Example C88_module_ex : exists f rest,
  write_module std false (L "ascii") (Some (L "latin-1")) (module e_acute) (L "latin-1") = Ok f
  /\ module e_acute = env_python ++ [10%N] ++ rest /\ python_reads std f = Some (with_declaration (L "latin-1") env_python rest).
Proof.
  destruct (write_module std false (L "ascii") (Some (L "latin-1")) (module e_acute) (L "latin-1")) as [f|x] eqn:R;
    [|vm_compute in R; discriminate R].
  destruct (C88_module std (L "latin-1") latin1 (L "ascii") (Some (L "latin-1")) env_python 1 [] (some_parts e_acute) f latin1_name)
    as (rest & M & P);
    [discriminate|reflexivity|apply below_reads_back|apply below_keeps; lia|exact env_script| |discriminate|exact R|].
  - intros o E. injection E as <-. exists latin1. split; [reflexivity|apply below_one].
  - exists f, rest. auto.
Qed.

(** With #encoding utf-8 every module is written, given --encoding=utf-8 or files in utf-8, and read back. *)
Theorem C88_utf8 : forall K, has_standard K -> forall loc opt shbang off header p,
  Forall scalar (module_code shbang off header p) -> script_line shbang ->
  opt = Some (L "utf-8") \/ opt = None /\ loc = L "utf-8" ->
  exists f rest, write_module K false loc opt (module_code shbang off header p) (L "utf-8") = Ok f
    /\ module_code shbang off header p = shbang ++ [10%N] ++ rest
    /\ python_reads K f = Some (with_declaration (L "utf-8") shbang rest).
Proof. exact utf8_writes. Qed.
Print Assumptions C88_utf8.
Example C88_utf8_ex : Forall scalar (module [233; 8364; 128512]%N) /\ script_line env_python.
Proof. split; [apply scalar_b; vm_compute; reflexivity|exact env_script]. Qed.

(** A module in ASCII needs no declaration; it is written as it is in every encoding that has ASCII in it. *)
Theorem C88_ascii : forall K, has_standard K -> forall loc opt cd shbang off header p,
  Forall (fun c => (c < 128)%N) (module_code shbang off header p) -> script_line shbang ->
  K (match opt with Some e => e | None => loc end) = Some cd -> keeps_ascii cd -> cd_enc cd [] = Some [] -> reads_back cd ->
  write_module K false loc opt (module_code shbang off header p) (L "ascii") = Ok (module_code shbang off header p)
  /\ python_reads K (module_code shbang off header p) = Some (module_code shbang off header p).
Proof. exact ascii_writes. Qed.
Print Assumptions C88_ascii.
Example C88_ascii_ex : write_module std false (L "latin-1") None (module (L "x")) (L "ascii") = Ok (module (L "x")).
Proof.
  apply (C88_ascii std std_standard (L "latin-1") None latin1);
    [|exact env_script|reflexivity|apply below_keeps; lia|reflexivity|apply below_reads_back].
  apply (all_b _ (fun c => c <? 128)%N); [intros c H; lia|vm_compute; reflexivity].
Qed.

(** The directive gives the module the encoding that the source was prepared with. *)
Theorem C88_directive : forall uword b sep name trail pre rest, esc_ok b = true ->
  sep <> [] -> Forall (fun c => c = 32%N \/ c = 9%N) sep -> enc_name name -> Forall trail_char trail ->
  no_space_first rest -> Prep_Spec.before (L "encoding") pre ->
  fst (eat_encoding dflt b (dir_line (L "encoding") sep name trail ++ rest)) = name
  /\ dir_search uword (L "encoding") true (pre ++ dir_line (L "encoding") sep name trail ++ rest) = Some name.
Proof. exact encoding_agrees. Qed.
Print Assumptions C88_directive.
Example C88_directive_ex : fst (eat_encoding dflt [] (L "#encoding latin-1" ++ [13; 10]%N ++ L "x")) = L "latin-1".
Proof.
  apply (C88_directive (fun _ => false) [] (L " ") (L "latin-1") [13%N] [] (L "x")); try reflexivity; try discriminate.
  - repeat constructor.
  - exact latin1_name.
  - repeat constructor; unfold trail_char; lia.
  - left. reflexivity.
Qed.

(** A module with other characters and no #encoding is not written at all. *)
Theorem C88_undeclared_refuted : exists text, Forall scalar (module text) /\
  forall K stdout loc opt, has_standard K -> write_module K stdout loc opt (module text) (L "ascii") = Raise EEncode.
Proof.
  exists e_acute. split; [apply scalar_b; vm_compute; reflexivity|]. intros K stdout loc opt [KA _].
  unfold write_module, returned. change (str_eqb (L "ascii") (L "ascii")) with true. cbv iota. unfold encode. rewrite KA.
  replace (cd_enc ascii (module e_acute)) with (@None pystr) by (vm_compute; reflexivity). reflexivity.
Qed.
Print Assumptions C88_undeclared_refuted.

(** Without --encoding the bytes are taken to be utf-8, so that a module in latin-1 is not written ... *)
Theorem C88_latin1_refuted : exists text, (exists b, returned std None (module text, L "latin-1") = Ok b)
  /\ write_module std false (L "utf-8") None (module text) (L "latin-1") = Raise EDecode
  /\ write_module std false (L "utf-8") (Some (L "utf-8")) (module text) (L "latin-1") = Raise EDecode.
Proof. exists e_acute. split; [eexists; vm_compute; reflexivity|]. split; vm_compute; reflexivity. Qed.
Print Assumptions C88_latin1_refuted.

(** ... and they are written in the encoding of files, whatever the module declares: Python cannot read the file. *)
Theorem C88_locale_refuted : exists text f, write_module std false (L "latin-1") None (module text) (L "utf-8") = Ok f
  /\ python_reads std f = None.
Proof.
  exists e_acute, (match write_module std false (L "latin-1") None (module e_acute) (L "utf-8") with Ok f => f | Raise _ => [] end).
  split; vm_compute; reflexivity.
Qed.
Print Assumptions C88_locale_refuted.

(** A module that is in the cache already is returned in ASCII, or not at all. *)
Theorem C88_cached_refuted : exists text b, returned std None (module text, L "utf-8") = Ok b
  /\ returned std (Some (module text)) (module text, L "utf-8") = Raise EEncode.
Proof. exists e_acute. eexists. split; vm_compute; reflexivity. Qed.
Print Assumptions C88_cached_refuted.

(** With a colon the directive names one encoding for the source and another, which does not exist, for the module. *)
Theorem C88_colon_refuted : exists line, (forall uword, dir_search uword (L "encoding") true line = Some (L "utf-8"))
  /\ exists e, fst (eat_encoding dflt [] line) = e /\ forall text, returned std None (text, e) = Raise ELookup.
Proof.
  exists (L "#encoding: utf-8" ++ [10%N]). split; [intros; vm_compute; reflexivity|].
  exists (L ": utf-8"). split; [vm_compute; reflexivity|]. intros text. unfold returned, encode. vm_compute. reflexivity.
Qed.
Print Assumptions C88_colon_refuted.

(** Modules are never printed without --encoding. *)
Theorem C88_stdout_refuted : exists text, (exists b, returned std None (module text, L "ascii") = Ok b)
  /\ forall loc, write_module std true loc None (module text) (L "ascii") = Raise EType.
Proof. exists (L "x"). split; [eexists; vm_compute; reflexivity|]. intros loc. vm_compute. reflexivity. Qed.
Print Assumptions C88_stdout_refuted.
