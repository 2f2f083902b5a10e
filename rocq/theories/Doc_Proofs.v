(** Proofs for documentation comments. *)
From Coq Require Import Permutation.
From Verif Require Import Base PyStr StrConst_Model PyLiteral_Spec StrConst_Proofs Names_Model Names_Proofs
  Compile_Model Compile_Proofs Catch_Model Catch_Spec Catch_Proofs Doc_Model Doc_Spec.
Local Open Scope N_scope.

(** ** Which comment goes where *)

Definition dbl (l : pystr) : pystr := replace_str (L "%") (L "%%") l.

Lemma fold_meth : forall ls d, fold_left add_meth_doc ls d
  = mkDocs (d_body d) (d_meth d ++ map dbl ls) (d_class d) (d_module d) (d_header d) (d_vars d).
Proof.
  induction ls as [|l ls IH]; intros d; cbn [fold_left map].
  - rewrite app_nil_r. destruct d; reflexivity.
  - rewrite IH. unfold add_meth_doc. cbn [d_body d_meth d_class d_module d_header d_vars].
    rewrite <- app_assoc. reflexivity.
Qed.

Lemma fold_class : forall ls d, fold_left add_class_doc ls d
  = mkDocs (d_body d) (d_meth d) (d_class d ++ map dbl ls) (d_module d) (d_header d) (d_vars d).
Proof.
  induction ls as [|l ls IH]; intros d; cbn [fold_left map].
  - rewrite app_nil_r. destruct d; reflexivity.
  - rewrite IH. unfold add_class_doc. cbn [d_body d_meth d_class d_module d_header d_vars].
    rewrite <- app_assoc. reflexivity.
Qed.

Lemma fold_module : forall ls d, fold_left add_module_doc ls d
  = mkDocs (d_body d) (d_meth d) (d_class d) (d_module d ++ ls) (d_header d) (d_vars d).
Proof.
  induction ls as [|l ls IH]; intros d; cbn [fold_left].
  - rewrite app_nil_r. destruct d; reflexivity.
  - rewrite IH. unfold add_module_doc. cbn [d_body d_meth d_class d_module d_header d_vars].
    rewrite <- app_assoc. reflexivity.
Qed.

Lemma fold_header : forall ls d, fold_left add_header ls d
  = mkDocs (d_body d) (d_meth d) (d_class d) (d_module d) (d_header d ++ ls) (d_vars d).
Proof.
  induction ls as [|l ls IH]; intros d; cbn [fold_left].
  - rewrite app_nil_r. destruct d; reflexivity.
  - rewrite IH. unfold add_header. cbn [d_body d_meth d_class d_module d_header d_vars].
    rewrite <- app_assoc. reflexivity.
Qed.

Lemma fold_body : forall off ls d, fold_left (add_meth_comment off) ls d
  = mkDocs (d_body d ++ map (app (35 :: repeat 32 off)) ls) (d_meth d) (d_class d) (d_module d) (d_header d) (d_vars d).
Proof.
  intros off. induction ls as [|l ls IH]; intros d; cbn [fold_left map].
  - rewrite app_nil_r. destruct d; reflexivity.
  - rewrite IH. unfold add_meth_comment. cbn [d_body d_meth d_class d_module d_header d_vars].
    rewrite <- app_assoc. reflexivity.
Qed.

Lemma bar_repeat : forall n b, is_bar b (repeat 35 (S n)) = true.
Proof. induction n as [|n IH]; intros b; [reflexivity|]. cbn [repeat is_bar]. apply (IH true). Qed.

Lemma var_match_letters : forall n acc t, (forall c, In c n -> var_char c = true) -> acc ++ n <> [] ->
  var_match acc (n ++ 64 :: t) = Some (rev acc ++ n, t).
Proof.
  induction n as [|c n IH]; intros acc t H Hn.
  - cbn [app var_match]. change (var_char 64) with false. cbv iota. change (64 =? 64) with true. cbv iota.
    rewrite app_nil_r in *. destruct acc; [congruence|]. reflexivity.
  - cbn [app var_match]. rewrite (H c (or_introl eq_refl)).
    rewrite IH; [|intros d Hd; apply H; right; exact Hd|discriminate].
    cbn [rev]. rewrite <- app_assoc. reflexivity.
Qed.

Lemma letters_var : forall n, letters n -> forall c, In c n -> var_char c = true.
Proof.
  intros n [_ H] c Hc. apply H in Hc. unfold var_char. apply andb_true_iff. split; apply N.leb_le; lia.
Qed.

Lemma bar_letters : forall n t, letters n -> is_bar false (n ++ t) = false.
Proof.
  intros [|c n] t [Hn H]; [congruence|]. cbn [app is_bar]. specialize (H c (or_introl eq_refl)).
  destruct (c =? 35) eqn:E; [apply N.eqb_eq in E; lia|]. reflexivity.
Qed.

Lemma doc_comment_written : forall off d c, named [c] ->
  doc_comment off d (written c)
  = mkDocs (d_body d ++ map (app (35 :: repeat 32 off)) (plain_lines [c]))
           (d_meth d ++ map dbl (method_lines [c]))
           (d_class d ++ map dbl (class_lines [c]))
           (d_module d ++ module_lines [c])
           (d_header d ++ header_lines [c])
           (fold_left (fun vs p => set_key (L "__" ++ fst p ++ L "__") (strip (snd p)) vs) (variables [c]) (d_vars d)).
Proof.
  intros off d c HN. unfold plain_lines, method_lines, class_lines, module_lines, header_lines, variables.
  destruct c; cbn [map concat written]; rewrite ?app_nil_r; cbn [map fold_left].
  - unfold doc_comment, add_lines. cbn. rewrite fold_body. rewrite ?app_nil_r. reflexivity.
  - unfold doc_comment. rewrite bar_repeat. rewrite ?app_nil_r. destruct d; reflexivity.
  - specialize (HN name t (or_introl eq_refl)). unfold doc_comment. rewrite bar_letters by exact HN.
    rewrite var_match_letters; [|apply letters_var; exact HN|destruct HN; assumption].
    cbn [rev app]. unfold add_special. cbn [map fst snd]. rewrite ?app_nil_r. reflexivity.
  - unfold doc_comment, add_lines. cbn. rewrite fold_meth. rewrite ?app_nil_r. reflexivity.
  - unfold doc_comment, add_lines. cbn. rewrite fold_meth. rewrite ?app_nil_r. reflexivity.
  - unfold doc_comment, add_lines. cbn. rewrite fold_class. rewrite ?app_nil_r. reflexivity.
  - unfold doc_comment, add_lines. cbn. rewrite fold_module. rewrite ?app_nil_r. reflexivity.
  - unfold doc_comment, add_lines. cbn. rewrite fold_header. rewrite ?app_nil_r. reflexivity.
Qed.

Definition put_vars (vs : list (pystr * pystr)) (acc : list (pystr * pystr)) : list (pystr * pystr) :=
  fold_left (fun vs p => set_key (L "__" ++ fst p ++ L "__") (strip (snd p)) vs) vs acc.

Lemma docs_fold : forall off cs d, named cs ->
  fold_left (doc_comment off) (map written cs) d
  = mkDocs (d_body d ++ map (app (35 :: repeat 32 off)) (plain_lines cs))
           (d_meth d ++ map dbl (method_lines cs))
           (d_class d ++ map dbl (class_lines cs))
           (d_module d ++ module_lines cs)
           (d_header d ++ header_lines cs)
           (put_vars (variables cs) (d_vars d)).
Proof.
  intros off. induction cs as [|c cs IH]; intros d HN.
  - cbn. rewrite ?app_nil_r. destruct d; reflexivity.
  - cbn [map fold_left]. rewrite IH by (intros n t H; apply (HN n t); right; exact H).
    rewrite doc_comment_written by (intros n t [H|[]]; apply (HN n t); left; exact H).
    cbn [d_body d_meth d_class d_module d_header d_vars].
    unfold plain_lines, method_lines, class_lines, module_lines, header_lines, variables, put_vars.
    cbn [map concat]. rewrite ?app_nil_r. rewrite !map_app, !fold_left_app, <- ?app_assoc. reflexivity.
Qed.

Lemma docs_of_page : forall off cs, named cs ->
  let d := doc_comments off (map written cs) in
  d_body d = map (app (35 :: repeat 32 off)) (plain_lines cs)
  /\ d_meth d = map dbl (method_lines cs)
  /\ d_class d = map dbl (class_lines cs)
  /\ d_module d = module_lines cs
  /\ d_header d = header_lines cs
  /\ d_vars d = put_vars (variables cs) [].
Proof.
  intros off cs HN. cbv zeta. unfold doc_comments. rewrite docs_fold by exact HN.
  cbn [no_docs d_body d_meth d_class d_module d_header d_vars app]. repeat split.
Qed.

(** ** Lines between three quotes *)

Lemma quotes3_cons : forall q a b c r,
  quotes3 q (a :: b :: c :: r) = ((a =? q) && (b =? q) && (c =? q)) || quotes3 q (b :: c :: r).
Proof. reflexivity. Qed.

Lemma quotes3_app : forall q a b, q <> 10 -> quotes3 q a = false -> quotes3 q b = false ->
  quotes3 q (a ++ 10 :: b) = false.
Proof.
  intros q a b Hq. assert (E : (10 =? q) = false) by (apply N.eqb_neq; congruence).
  assert (H0 : forall b, quotes3 q b = false -> quotes3 q (10 :: b) = false).
  { intros [|x [|y r]] Hb; try reflexivity. rewrite quotes3_cons, E. exact Hb. }
  induction a as [|x a IH]; intros Ha Hb; [apply H0; exact Hb|].
  assert (Ha' : quotes3 q a = false).
  { destruct a as [|y [|z a]]; try reflexivity. cbn [quotes3] in Ha. apply orb_false_iff in Ha. tauto. }
  specialize (IH Ha' Hb). destruct a as [|y [|z a]].
  - cbn [app] in *. destruct b as [|u r]; [reflexivity|]. rewrite quotes3_cons, E, andb_false_r. exact IH.
  - cbn [app] in *. rewrite quotes3_cons, E, !andb_false_r. exact IH.
  - cbn [app] in *. rewrite quotes3_cons in Ha |- *. apply orb_false_iff in Ha as [Ha _]. rewrite Ha. exact IH.
Qed.

Lemma quotes3_blanks : forall q ind l, (forall c, In c ind -> c <> q) -> quotes3 q l = false ->
  quotes3 q (ind ++ l) = false.
Proof.
  intros q. induction ind as [|c ind IH]; intros l H Hl; [exact Hl|].
  assert (E : (c =? q) = false) by (apply N.eqb_neq; apply H; left; reflexivity).
  assert (IH' : quotes3 q (ind ++ l) = false) by (apply IH; [intros d Hd; apply H; right; exact Hd|exact Hl]).
  cbn [app]. destruct (ind ++ l) as [|x [|y r]]; try reflexivity. rewrite quotes3_cons, E. exact IH'.
Qed.

Lemma quotes3_join : forall q ws, q <> 10 -> (forall w, In w ws -> quotes3 q w = false) ->
  quotes3 q (join [10] ws) = false.
Proof.
  intros q ws Hq. induction ws as [|w ws IH]; intros H; [reflexivity|].
  destruct ws as [|v vs]; [apply H; left; reflexivity|].
  change (join [10] (w :: v :: vs)) with (w ++ 10 :: join [10] (v :: vs)).
  apply quotes3_app; [exact Hq|apply H; left; reflexivity|]. apply IH. intros u Hu. apply H. right; exact Hu.
Qed.

Lemma join_In : forall (s : pystr) ws c, In c (join s ws) -> In c s \/ exists w, In w ws /\ In c w.
Proof.
  intros s ws c. induction ws as [|w ws IH]; intros H; [contradiction|].
  destruct ws as [|v vs].
  - right. exists w. split; [left; reflexivity|exact H].
  - change (join s (w :: v :: vs)) with (w ++ s ++ join s (v :: vs)) in H.
    apply in_app_iff in H as [H|H]; [right; exists w; split; [left; reflexivity|exact H]|].
    apply in_app_iff in H as [H|H]; [left; exact H|].
    destruct (IH H) as [H'|(u & Hu & Hc)]; [left; exact H'|right]. exists u. split; [right; exact Hu|exact Hc].
Qed.

Lemma join_snoc : forall (s : pystr) ws x, ws <> [] -> join s (ws ++ [x]) = join s ws ++ s ++ x.
Proof.
  intros s ws x H. induction ws as [|w ws IH]; [congruence|].
  destruct ws as [|v vs]; [reflexivity|].
  change (join s ((w :: v :: vs) ++ [x])) with (w ++ s ++ join s ((v :: vs) ++ [x])).
  rewrite IH by discriminate. change (join s (w :: v :: vs)) with (w ++ s ++ join s (v :: vs)).
  rewrite <- !app_assoc. reflexivity.
Qed.

Lemma join_indent : forall ind ls, ls <> [] ->
  10 :: ind ++ join (10 :: ind) ls = join [10] ([] :: map (app ind) ls).
Proof.
  intros ind ls H. destruct ls as [|l ls]; [congruence|]. clear H.
  change (join [10] ([] :: map (app ind) (l :: ls))) with (10 :: join [10] (map (app ind) (l :: ls))).
  f_equal. revert l. induction ls as [|v ls IH]; intros l; [reflexivity|].
  change (join (10 :: ind) (l :: v :: ls)) with (l ++ (10 :: ind) ++ join (10 :: ind) (v :: ls)).
  change (join [10] (map (app ind) (l :: v :: ls))) with ((ind ++ l) ++ 10 :: join [10] (map (app ind) (v :: ls))).
  rewrite <- IH. rewrite <- !app_assoc. reflexivity.
Qed.

(** Lines that may stand between three double quotes. *)
Definition line_ok (l : pystr) : Prop :=
  (forall c, In c l -> c <> 92 /\ c <> 13 /\ c <> 0 /\ c <> 10) /\ quotes3 34 l = false.

Lemma last_app_ne : forall (A : Type) (a b : list A) d, b <> [] -> last (a ++ b) d = last b d.
Proof.
  intros A a b d Hb. induction a as [|x a IH]; [reflexivity|].
  cbn [app]. destruct (a ++ b) eqn:E; [destruct a; cbn in E; congruence|]. cbn [last]. exact IH.
Qed.

Lemma last_in : forall (A : Type) (l : list A) d, l <> [] -> In (last l d) l.
Proof.
  intros A l d H. induction l as [|x l IH]; [congruence|]. destruct l as [|y l]; [left; reflexivity|].
  right. apply IH. discriminate.
Qed.

Lemma plain_join : forall ws ind, (forall w, In w ws -> line_ok w) -> ws <> [] -> (forall c, In c ind -> c = 32 \/ c = 9) ->
  plain_in3 34 (join [10] (ws ++ [ind])) /\ split_char 10 (join [10] (ws ++ [ind])) = ws ++ [ind].
Proof.
  intros ws ind H Hn Hi.
  assert (HA : forall w, In w (ws ++ [ind]) -> line_ok w).
  { intros w Hw. apply in_app_iff in Hw as [Hw|[<-|[]]]; [apply H; exact Hw|]. split.
    - intros c Hc. apply Hi in Hc. destruct Hc; subst; lia.
    - rewrite <- (app_nil_r ind). apply quotes3_blanks; [|reflexivity]. intros c Hc. apply Hi in Hc. lia. }
  split; [split; [|split]|].
  - intros c Hc. apply join_In in Hc as [[<-|[]]|(w & Hw & Hc)]; [lia|].
    apply HA in Hw. destruct Hw as [Hw _]. apply Hw in Hc. lia.
  - apply quotes3_join; [discriminate|]. intros w Hw. apply HA in Hw. apply Hw.
  - rewrite join_snoc by exact Hn. rewrite app_assoc.
    destruct ind as [|x ind].
    + rewrite app_nil_r, last_app_ne by discriminate. cbn. discriminate.
    + rewrite last_app_ne by discriminate.
      assert (HL : In (last (x :: ind) 0) (x :: ind)) by (apply last_in; discriminate).
      apply Hi in HL. lia.
  - apply split_join.
    + destruct ws; discriminate.
    + intros w Hw Hc. apply HA in Hw. apply Hw in Hc. lia.
Qed.

Lemma doc_text_line : forall t l, In l (doc_text t) -> forall c, In c l -> In c t /\ is_linebreak c = false.
Proof.
  intros t l Hl c Hc. unfold doc_text in Hl.
  assert (HB : forall s cr cur, (forall c, In c cur -> is_linebreak c = false) ->
    forall l, In l (splitlines_aux cr cur s) -> forall c, In c l -> is_linebreak c = false /\ (In c cur \/ In c s)).
  { clear. induction s as [|x s IH]; intros cr cur H l; cbn [splitlines_aux].
    - destruct cur as [|y cur]; [intros []|]. intros [<-|[]] c Hc. apply in_rev in Hc. split; [apply H; exact Hc|left; exact Hc].
    - assert (HN : forall c : N, In c [] -> is_linebreak c = false) by (intros c []).
      destruct (cr && (x =? 10)%N).
      + intros Hl c Hc. destruct (IH _ _ HN l Hl c Hc) as [Ha [[]|Hb]]. split; [exact Ha|right; right; exact Hb].
      + destruct (is_linebreak x) eqn:E.
        * intros [<-|Hl] c Hc; [apply in_rev in Hc; split; [apply H; exact Hc|left; exact Hc]|].
          destruct (IH _ _ HN l Hl c Hc) as [Ha [[]|Hb]]. split; [exact Ha|right; right; exact Hb].
        * intros Hl c Hc.
          assert (HC : forall c, In c (x :: cur) -> is_linebreak c = false) by (intros d [<-|Hd]; [exact E|exact (H d Hd)]).
          destruct (IH _ _ HC l Hl c Hc) as [Ha [[Hb|Hb]|Hb]]; (split; [exact Ha|]).
          -- right; left; exact Hb.
          -- left; exact Hb.
          -- right; right; exact Hb. }
  destruct (HB (strip t) false [] (fun c (H : In c []) => match H with end) l Hl c Hc) as [Ha [[]|Hb]].
  split; [apply strip_In; exact Hb|exact Ha].
Qed.

(** Three quotes in a line of the text are in the text. *)
Lemma quotes3_has : forall l, quotes3 34 l = true -> has_quotes3 l.
Proof.
  induction l as [|a l IH]; intros H; [discriminate|].
  destruct l as [|b [|c r]]; try discriminate. cbn [quotes3] in H. apply orb_true_iff in H as [H|H].
  - apply andb_true_iff in H as [H Hc]. apply andb_true_iff in H as [Ha Hb].
    apply N.eqb_eq in Ha, Hb, Hc. subst. exists [], r. reflexivity.
  - destruct (IH H) as (x & y & E). exists (a :: x), y. rewrite E. reflexivity.
Qed.

Lemma splitlines_factor : forall s cr cur l, In l (splitlines_aux cr cur s) ->
  (exists a b, s = a ++ l ++ b) \/ (exists x b, l = rev cur ++ x /\ s = x ++ b).
Proof.
  induction s as [|c s IH]; intros cr cur l; cbn [splitlines_aux].
  - destruct cur as [|y cur]; [intros []|]. intros [<-|[]]. right. exists [], []. rewrite app_nil_r. split; reflexivity.
  - destruct (cr && (c =? 10)%N).
    + intros H. left. destruct (IH _ _ _ H) as [(a & b & E)|(x & b & E1 & E2)].
      * exists (c :: a), b. rewrite E. reflexivity.
      * cbn [rev app] in E1. subst x. exists [c], b. rewrite E2. reflexivity.
    + destruct (is_linebreak c).
      * intros [<-|H]; [right; exists [], (c :: s); rewrite app_nil_r; split; reflexivity|].
        left. destruct (IH _ _ _ H) as [(a & b & E)|(x & b & E1 & E2)].
        -- exists (c :: a), b. rewrite E. reflexivity.
        -- cbn [rev app] in E1. subst x. exists [c], b. rewrite E2. reflexivity.
      * intros H. destruct (IH _ _ _ H) as [(a & b & E)|(x & b & E1 & E2)].
        -- left. exists (c :: a), b. rewrite E. reflexivity.
        -- right. exists (c :: x), b. cbn [rev] in E1. rewrite <- app_assoc in E1. cbn [app] in E1.
           split; [exact E1|]. rewrite E2. reflexivity.
Qed.

Lemma doc_text_factor : forall t l, In l (doc_text t) -> exists a b, t = a ++ l ++ b.
Proof.
  intros t l H. unfold doc_text, splitlines in H.
  assert (HF : exists a b, strip t = a ++ l ++ b).
  { destruct (splitlines_factor _ _ _ _ H) as [E|(x & b & E1 & E2)]; [exact E|].
    cbn [rev app] in E1. subst x. exists [], b. exact E2. }
  destruct HF as (a & b & E). destruct (strip_decomp t) as (u & v & Et & _).
  exists (u ++ a), (b ++ v). rewrite Et, E. rewrite <- !app_assoc. reflexivity.
Qed.

Lemma has_quotes3_factor : forall a l b, has_quotes3 l -> has_quotes3 (a ++ l ++ b).
Proof. intros a l b (x & y & ->). exists (a ++ x), (y ++ b). rewrite <- !app_assoc. reflexivity. Qed.

Lemma doc_line_ok : forall t l, literal_text t -> ~ has_quotes3 t -> In l (doc_text t) -> line_ok l.
Proof.
  intros t l HT HQ Hl. split.
  - intros c Hc. destruct (doc_text_line t l Hl c Hc) as [Hi Hb]. destruct (HT c Hi) as [H1 H2].
    repeat split; try assumption; intros E; subst c; discriminate Hb.
  - destruct (quotes3 34 l) eqn:E; [|reflexivity]. exfalso. apply HQ.
    destruct (doc_text_factor t l Hl) as (a & b & Et). rewrite Et. apply has_quotes3_factor. apply quotes3_has. exact E.
Qed.

(** ** The three documentations *)

Lemma indented_of_lines : forall ind ls, blanks ind -> ls <> [] -> (forall l, In l ls -> line_ok l) ->
  indented_doc ind
    (ind ++ [34; 34; 34; 10] ++ ind ++ join (10 :: ind) ls ++ 10 :: ind ++ [34; 34; 34; 10]) ls.
Proof.
  intros ind ls HB Hn HL.
  exists ([34; 34; 34; 10] ++ ind ++ join (10 :: ind) ls ++ 10 :: ind ++ [34; 34; 34; 10]).
  set (ws := [] :: map (app ind) ls).
  assert (HW : forall w, In w ws -> line_ok w).
  { intros w [<-|Hw]; [split; [intros c []|reflexivity]|].
    apply in_map_iff in Hw as (l & <- & Hl). destruct (HL l Hl) as [H1 H2]. split.
    - intros c Hc. apply in_app_iff in Hc as [Hc|Hc]; [apply HB in Hc; destruct Hc; subst; lia|apply H1; exact Hc].
    - apply quotes3_blanks; [|exact H2]. intros c Hc. apply HB in Hc. lia. }
  destruct (plain_join ws ind HW ltac:(discriminate) HB) as [HP HS].
  exists (join [10] (ws ++ [ind])). split; [reflexivity|]. split; [|exact HS].
  assert (EJ : join [10] (ws ++ [ind]) = 10 :: ind ++ join (10 :: ind) ls ++ 10 :: ind).
  { rewrite join_snoc by discriminate. unfold ws. rewrite <- join_indent by exact Hn.
    cbn [app]. rewrite <- app_assoc. reflexivity. }
  pose proof (take_plain3 34 _ [10] (or_intror eq_refl) HP) as HTk.
  etransitivity; [|exact HTk]. f_equal. unfold pystr in *. rewrite EJ. cbn [app]. rewrite <- !app_assoc. cbn [app]. rewrite <- ?app_assoc. reflexivity.
Qed.

Lemma flat_of_lines : forall ls, ls <> [] -> (forall l, In l ls -> line_ok l) ->
  flat_doc ([34; 34; 34] ++ join [10] ls ++ [10; 34; 34; 34; 10]) ls.
Proof.
  intros ls Hn HL. destruct (plain_join ls [] HL Hn ltac:(intros c [])) as [HP HS].
  exists (join [10] (ls ++ [[]])). split; [|exact HS].
  pose proof (take_plain3 34 _ [10] (or_intror eq_refl) HP) as HTk.
  etransitivity; [|exact HTk]. f_equal. unfold pystr in *. rewrite join_snoc by exact Hn. cbn [app].
  rewrite <- !app_assoc. reflexivity.
Qed.

(** Three quotes are gone after the replacement. *)
Lemma rep3_head : forall s o, replace_str [34; 34; 34] [39; 39; 39] s = 34 :: o ->
  exists s', s = 34 :: s' /\ o = replace_str [34; 34; 34] [39; 39; 39] s' /\ starts_with [34; 34; 34] s = false.
Proof.
  intros [|c s] o H; [discriminate|]. unfold replace_str in H. cbn [replace_aux] in H.
  destruct (starts_with [34; 34; 34] (c :: s)) eqn:E; [discriminate H|].
  injection H as -> H. exists s. split; [reflexivity|]. split; [symmetry; exact H|reflexivity].
Qed.

Lemma rep3_tail : forall n s k, (length s <= n)%nat ->
  quotes3 34 (replace_aux k [34; 34; 34] [39; 39; 39] s) = false.
Proof.
  induction n as [|n IH]; intros s k Hs.
  - destruct s; [reflexivity|cbn in Hs; lia].
  - destruct s as [|c s]; [reflexivity|]. cbn [length] in Hs. cbn [replace_aux]. destruct k as [|k]; [|apply IH; lia].
    destruct (starts_with [34; 34; 34] (c :: s)) eqn:E.
    + apply quotes3_blanks; [|apply IH; lia]. intros d [<-|[<-|[<-|[]]]]; discriminate.
    + pose proof (IH s 0%nat ltac:(lia)) as H.
      destruct (replace_aux 0 [34; 34; 34] [39; 39; 39] s) as [|x [|y r]] eqn:ER; try reflexivity.
      rewrite quotes3_cons, H, orb_false_r. apply andb_false_iff.
      destruct (c =? 34) eqn:Ec; [|left; reflexivity]. destruct (x =? 34) eqn:Ex; [|left; reflexivity].
      right. apply N.eqb_neq. intros Ey. subst y. apply N.eqb_eq in Ec, Ex. subst c x.
      destruct (rep3_head s (34 :: r) ER) as (s' & -> & E1 & _). symmetry in E1.
      destruct (rep3_head s' r E1) as (s2 & -> & E2 & _). cbn in E. discriminate E.
Qed.

Lemma rep3_in : forall s k c, In c (replace_aux k [34; 34; 34] [39; 39; 39] s) -> In c s \/ c = 39.
Proof.
  induction s as [|x s IH]; intros k c H; [contradiction|]. cbn [replace_aux] in H. destruct k as [|k].
  - destruct (starts_with _ _).
    + apply in_app_iff in H as [[H|[H|[H|[]]]]|H]; try (right; congruence).
      apply IH in H as [H|H]; [left; right; exact H|right; exact H].
    + destruct H as [H|H]; [left; left; exact H|]. apply IH in H as [H|H]; [left; right; exact H|right; exact H].
  - apply IH in H as [H|H]; [left; right; exact H|right; exact H].
Qed.

Lemma dbl_char : forall l, dbl l = replace_char 37 [37; 37] l.
Proof. intros l. unfold dbl. apply replace_str_char. Qed.

Lemma dbl_in : forall l c, In c (dbl l) -> In c l.
Proof.
  intros l c. rewrite dbl_char. induction l as [|x l IH]; intros H; [exact H|].
  cbn [replace_char] in H. destruct (N.eqb_spec x 37) as [E|E].
  - cbn [app] in H. destruct H as [H|[H|H]]; [left; congruence|left; congruence|right; apply IH; exact H].
  - destruct H as [H|H]; [left; exact H|right; apply IH; exact H].
Qed.

Lemma in_method_lines : forall cs l, In l (method_lines cs) ->
  exists t, (In (CDoc t) cs \/ In (CDocMethod t) cs) /\ In l (doc_text t).
Proof.
  intros cs l H. unfold method_lines in H. apply in_concat in H as (x & Hx & Hl).
  apply in_map_iff in Hx as (c & <- & Hc). destruct c; try contradiction Hl; exists t; tauto.
Qed.
Lemma in_class_lines : forall cs l, In l (class_lines cs) -> exists t, In (CDocClass t) cs /\ In l (doc_text t).
Proof.
  intros cs l H. unfold class_lines in H. apply in_concat in H as (x & Hx & Hl).
  apply in_map_iff in Hx as (c & <- & Hc). destruct c; try contradiction Hl; exists t; tauto.
Qed.
Lemma in_module_lines : forall cs l, In l (module_lines cs) -> exists t, In (CDocModule t) cs /\ In l (doc_text t).
Proof.
  intros cs l H. unfold module_lines in H. apply in_concat in H as (x & Hx & Hl).
  apply in_map_iff in Hx as (c & <- & Hc). destruct c; try contradiction Hl; exists t; tauto.
Qed.
Lemma in_header_lines : forall cs l, In l (header_lines cs) -> exists t, In (CHeader t) cs /\ In l (doc_text t).
Proof.
  intros cs l H. unfold header_lines in H. apply in_concat in H as (x & Hx & Hl).
  apply in_map_iff in Hx as (c & <- & Hc). destruct c; try contradiction Hl; exists t; tauto.
Qed.

(** The documentation of the method: quotes and percent signs as the compiler changes them. *)
Lemma method_doc_any : forall off cs ind, named cs -> blanks ind -> method_lines cs <> [] ->
  (forall t, In (CDoc t) cs \/ In (CDocMethod t) cs -> literal_text t) ->
  indented_doc ind (meth_doc ind (d_meth (doc_comments off (map written cs))))
    (map (fun l => replace_str [34; 34; 34] [39; 39; 39] (replace_char 37 [37; 37] l)) (method_lines cs)).
Proof.
  intros off cs ind HN HB Hn HT.
  destruct (docs_of_page off cs HN) as (_ & Em & _). rewrite Em.
  unfold meth_doc. set (ls := map dbl (method_lines cs)).
  assert (Els : ls <> []) by (unfold ls; destruct (method_lines cs); [congruence|discriminate]).
  assert (E : map (fun l => replace_str [34; 34; 34] [39; 39; 39] (replace_char 37 [37; 37] l)) (method_lines cs)
              = map (replace_str [34; 34; 34] [39; 39; 39]) ls).
  { unfold ls. rewrite map_map. apply map_ext. intros l. rewrite dbl_char. reflexivity. }
  rewrite E. destruct ls as [|l0 ls0] eqn:Els'; [congruence|]. rewrite <- Els' in *.
  apply indented_of_lines; [exact HB|rewrite Els'; discriminate|].
  intros l Hl. apply in_map_iff in Hl as (l1 & <- & Hl1). unfold ls in Hl1.
  apply in_map_iff in Hl1 as (l2 & <- & Hl2). apply in_method_lines in Hl2 as (t & Ht & Hl2). split.
  - intros c Hc. apply rep3_in in Hc as [Hc|Hc]; [|subst; lia]. apply dbl_in in Hc.
    destruct (doc_text_line t l2 Hl2 c Hc) as [Hi Hb]. destruct (HT t Ht c Hi) as [H1 H2].
    repeat split; try assumption; intros E'; subst c; discriminate Hb.
  - apply (rep3_tail (length (dbl l2))). lia.
Qed.

Lemma rep3_none : forall l, quotes3 34 l = false -> replace_str [34; 34; 34] [39; 39; 39] l = l.
Proof.
  unfold replace_str. induction l as [|c l IH]; intros H; [reflexivity|]. cbn [replace_aux].
  assert (H' : quotes3 34 l = false).
  { destruct l as [|x [|y r]]; try reflexivity. rewrite quotes3_cons in H. apply orb_false_iff in H. tauto. }
  destruct (starts_with [34; 34; 34] (c :: l)) eqn:E; [|rewrite IH by exact H'; reflexivity].
  exfalso. destruct l as [|x [|y r]]; cbn [starts_with] in E.
  - rewrite andb_false_r in E. discriminate E.
  - rewrite !andb_false_r in E. discriminate E.
  - rewrite quotes3_cons in H. apply orb_false_iff in H as [H _].
    apply andb_true_iff in E as [E1 E]. apply andb_true_iff in E as [E2 E]. apply andb_true_iff in E as [E3 _].
    apply N.eqb_eq in E1, E2, E3. subst. discriminate H.
Qed.

(** The same when there is nothing to change. *)
Lemma method_doc_exact : forall off cs ind, named cs -> blanks ind -> method_lines cs <> [] ->
  (forall t, In (CDoc t) cs \/ In (CDocMethod t) cs -> literal_text t /\ ~ has_quotes3 t /\ ~ In 37 t) ->
  indented_doc ind (meth_doc ind (d_meth (doc_comments off (map written cs)))) (method_lines cs).
Proof.
  intros off cs ind HN HB Hn HT.
  pose proof (method_doc_any off cs ind HN HB Hn (fun t Ht => proj1 (HT t Ht))) as H.
  replace (map (fun l => replace_str [34; 34; 34] [39; 39; 39] (replace_char 37 [37; 37] l)) (method_lines cs))
    with (method_lines cs) in H; [exact H|].
  rewrite <- (map_id (method_lines cs)) at 1. apply map_ext_in. intros l Hl.
  apply in_method_lines in Hl as (t & Ht & Hl). destruct (HT t Ht) as (H1 & H2 & H3).
  rewrite replace_char_notin.
  - symmetry. apply rep3_none. apply (doc_line_ok t l H1 H2 Hl).
  - intros Hc. apply H3. apply (doc_text_line t l Hl). exact Hc.
Qed.

(** The formatting of the documentation of a class. *)
Lemma pct_skip : forall ind s k, (k <= length s)%nat -> pct ind k s = pct ind 0 (skipn k s).
Proof.
  intros ind. induction s as [|c s IH]; intros k H; [destruct k; [reflexivity|cbn in H; lia]|].
  destruct k as [|k]; [reflexivity|]. cbn [pct skipn length] in *. apply IH. lia.
Qed.

Lemma pct_ind : forall ind t, pct ind 0 (L "%(ind)s" ++ t) = option_map (app ind) (pct ind 0 t).
Proof. intros ind t. destruct t; reflexivity. Qed.

Lemma pct_dbl : forall ind l t, pct ind 0 (dbl l ++ t) = option_map (app l) (pct ind 0 t).
Proof.
  intros ind l t. rewrite dbl_char. induction l as [|c l IH]; cbn [replace_char app].
  - destruct (pct ind 0 t); reflexivity.
  - destruct (N.eqb_spec c 37) as [E|E].
    + subst c. cbn [app pct]. change (37 =? 37) with true. cbv iota.
      change (starts_with (L "%") (37 :: replace_char 37 [37; 37] l ++ t)) with true. cbv iota.
      rewrite IH. destruct (pct ind 0 t); reflexivity.
    + apply N.eqb_neq in E. cbn [app pct]. rewrite E, IH. destruct (pct ind 0 t); reflexivity.
Qed.

Lemma pct_char : forall ind c t, c <> 37 -> pct ind 0 (c :: t) = option_map (cons c) (pct ind 0 t).
Proof. intros ind c t H. cbn [pct]. apply N.eqb_neq in H. rewrite H. reflexivity. Qed.

Lemma pct_join : forall ind ls t, ls <> [] ->
  pct ind 0 (join (10 :: L "%(ind)s") (map dbl ls) ++ t) = option_map (app (join (10 :: ind) ls)) (pct ind 0 t).
Proof.
  intros ind ls t H. induction ls as [|l ls IH]; [congruence|]. destruct ls as [|v vs].
  - cbn [map join]. apply pct_dbl.
  - change (join (10 :: L "%(ind)s") (map dbl (l :: v :: vs)))
      with (dbl l ++ (10 :: L "%(ind)s") ++ join (10 :: L "%(ind)s") (map dbl (v :: vs))).
    change (join (10 :: ind) (l :: v :: vs)) with (l ++ (10 :: ind) ++ join (10 :: ind) (v :: vs)).
    rewrite <- !app_assoc, pct_dbl. rewrite <- app_comm_cons, pct_char by discriminate.
    rewrite pct_ind, IH by discriminate.
    destruct (pct ind 0 t); cbn [option_map]; [|reflexivity]. f_equal. rewrite <- !app_assoc. cbn [app]. rewrite <- ?app_assoc. reflexivity.
Qed.

Lemma class_doc_text : forall ind ls, ls <> [] ->
  class_doc ind (map dbl ls)
  = Some (ind ++ [34; 34; 34; 10] ++ ind ++ join (10 :: ind) ls ++ 10 :: ind ++ [34; 34; 34; 10]).
Proof.
  intros ind ls H. unfold class_doc. destruct (map dbl ls) as [|x xs] eqn:E; [destruct ls; [congruence|discriminate E]|].
  rewrite <- E. clear E x xs. rewrite pct_ind. cbn [app].
  rewrite !pct_char by discriminate. rewrite pct_ind, pct_join by exact H.
  rewrite pct_char by discriminate. rewrite pct_ind. reflexivity.
Qed.

Lemma class_doc_exact : forall off cs ind, named cs -> blanks ind -> class_lines cs <> [] ->
  (forall t, In (CDocClass t) cs -> literal_text t /\ ~ has_quotes3 t) ->
  exists src, class_doc ind (d_class (doc_comments off (map written cs))) = Some src
              /\ indented_doc ind src (class_lines cs).
Proof.
  intros off cs ind HN HB Hn HT. destruct (docs_of_page off cs HN) as (_ & _ & Ec & _). rewrite Ec.
  rewrite class_doc_text by exact Hn. eexists. split; [reflexivity|].
  apply indented_of_lines; [exact HB|exact Hn|]. intros l Hl. apply in_class_lines in Hl as (t & Ht & Hl).
  destruct (HT t Ht) as [H1 H2]. exact (doc_line_ok t l H1 H2 Hl).
Qed.

Lemma module_doc_exact : forall off cs, named cs -> module_lines cs <> [] ->
  (forall t, In (CDocModule t) cs -> literal_text t /\ ~ has_quotes3 t) ->
  flat_doc (module_doc (d_module (doc_comments off (map written cs)))) (module_lines cs).
Proof.
  intros off cs HN Hn HT. destruct (docs_of_page off cs HN) as (_ & _ & _ & Ec & _). rewrite Ec.
  unfold module_doc. destruct (module_lines cs) as [|x xs] eqn:E; [congruence|]. rewrite <- E in *.
  apply flat_of_lines; [exact Hn|]. intros l Hl. apply in_module_lines in Hl as (t & Ht & Hl).
  destruct (HT t Ht) as [H1 H2]. exact (doc_line_ok t l H1 H2 Hl).
Qed.

(** ** The header *)

Lemma join_prefix : forall (p : pystr) ls, ls <> [] ->
  p ++ join (10 :: p) ls = join [10] (map (app p) ls).
Proof.
  intros p ls H. destruct ls as [|l ls]; [congruence|]. clear H. revert l.
  induction ls as [|v ls IH]; intros l; [reflexivity|].
  change (join (10 :: p) (l :: v :: ls)) with (l ++ (10 :: p) ++ join (10 :: p) (v :: ls)).
  change (join [10] (map (app p) (l :: v :: ls))) with ((p ++ l) ++ 10 :: join [10] (map (app p) (v :: ls))).
  rewrite <- IH. rewrite <- !app_assoc. reflexivity.
Qed.

Lemma split_char_snoc : forall c a, ~ In c a -> split_char c (a ++ [c]) = [a; []].
Proof. intros c a H. rewrite split_char_app by exact H. reflexivity. Qed.

Lemma split_join_snoc : forall c ws, ws <> [] -> (forall w, In w ws -> ~ In c w) ->
  split_char c (join [c] ws ++ [c]) = ws ++ [[]].
Proof.
  intros c ws Hn H. rewrite <- (split_join c (ws ++ [[]])).
  - f_equal. rewrite join_snoc by exact Hn. rewrite app_nil_r. reflexivity.
  - destruct ws; discriminate.
  - intros w Hw. apply in_app_iff in Hw as [Hw|[<-|[]]]; [apply H; exact Hw|intros []].
Qed.

Lemma header_exact : forall off cs shbang enc, named cs -> ~ In 10 shbang -> ~ In 10 enc ->
  split_char 10 (module_header shbang enc off (d_header (doc_comments off (map written cs))))
  = shbang :: enc :: map (fun l => L "#" ++ repeat 32 off ++ l) (header_lines cs) ++ [[]]
  /\ forall l c, In l (header_lines cs) -> In c l -> c <> 10 /\ c <> 13.
Proof.
  intros off cs shbang enc HN H1 H2. destruct (docs_of_page off cs HN) as (_ & _ & _ & _ & Eh & _). rewrite Eh.
  assert (HL : forall l c, In l (header_lines cs) -> In c l -> c <> 10 /\ c <> 13).
  { intros l c Hl Hc. apply in_header_lines in Hl as (t & _ & Hl).
    destruct (doc_text_line t l Hl c Hc) as [_ Hb]. split; intros E; subst c; discriminate Hb. }
  split; [|exact HL]. unfold module_header. rewrite split_char_app by exact H1. rewrite split_char_app by exact H2.
  do 2 f_equal. destruct (header_lines cs) as [|x xs] eqn:E; [reflexivity|]. rewrite <- E in *.
  rewrite app_assoc. rewrite join_prefix by (rewrite E; discriminate).
  rewrite split_join_snoc.
  - reflexivity.
  - rewrite E; discriminate.
  - intros w Hw. apply in_map_iff in Hw as (l & <- & Hl). intros Hc. apply in_app_iff in Hc as [[Hc|Hc]|Hc].
    + discriminate Hc.
    + apply repeat_spec in Hc. discriminate Hc.
    + destruct (HL l 10 Hl Hc) as [Hx _]. apply Hx. reflexivity.
Qed.

(** ** The module variables *)

Lemma set_key_keys : forall k v l x, In x (map fst (set_key k v l)) -> x = k \/ In x (map fst l).
Proof.
  intros k v l x. induction l as [|[k' v'] l IH]; cbn [set_key map fst].
  - intros [H|[]]; left; congruence.
  - destruct (str_eqb_spec k k') as [E|E]; cbn [map fst In].
    + tauto.
    + intros [H|H]; [tauto|]. apply IH in H. tauto.
Qed.

Lemma set_key_nodup : forall k v l, NoDup (map fst l) -> NoDup (map fst (set_key k v l)).
Proof.
  intros k v l. induction l as [|[k' v'] l IH]; intros H; cbn [set_key map fst].
  - constructor; [intros []|constructor].
  - cbn [map fst] in H. inversion H as [|? ? H1 H2]; subst. destruct (str_eqb_spec k k') as [E|E]; cbn [map fst].
    + exact H.
    + constructor; [|apply IH; exact H2]. intros Hi. apply set_key_keys in Hi as [Hi|Hi]; [congruence|contradiction].
Qed.

Lemma find_set_key : forall m k v l,
  find_key m (set_key k v l) = if str_eqb m k then Some v else find_key m l.
Proof.
  intros m k v l. induction l as [|[k' v'] l IH]; cbn [set_key find_key].
  - reflexivity.
  - destruct (str_eqb_spec k k') as [E|E]; cbn [find_key].
    + subst k'. destruct (str_eqb m k); reflexivity.
    + destruct (str_eqb_spec m k') as [E'|E'].
      * subst m. destruct (str_eqb_spec k' k) as [E2|E2]; [congruence|reflexivity].
      * exact IH.
Qed.

Lemma put_vars_find : forall vs l m,
  find_key m (put_vars vs l) = last_text m vs (find_key m l).
Proof.
  unfold put_vars. induction vs as [|[n t] vs IH]; intros l m; cbn [fold_left last_text fst snd]; [reflexivity|].
  rewrite IH, find_set_key. reflexivity.
Qed.

Lemma put_vars_nodup : forall vs l, NoDup (map fst l) -> NoDup (map fst (put_vars vs l)).
Proof.
  unfold put_vars. induction vs as [|[n t] vs IH]; intros l H; cbn [fold_left fst snd]; [exact H|].
  apply IH. apply set_key_nodup. exact H.
Qed.

Lemma set_key_in : forall k v l p, In p (set_key k v l) -> (p = (k, v)) \/ In p l.
Proof.
  intros k v l p. induction l as [|[k' v'] l IH]; cbn [set_key].
  - intros [H|[]]; left; congruence.
  - destruct (str_eqb_spec k k') as [E|E]; cbn [In].
    + intros [H|H]; [left; congruence|tauto].
    + intros [H|H]; [tauto|]. apply IH in H. tauto.
Qed.

Lemma put_vars_in : forall vs l p, In p (put_vars vs l) ->
  (exists n t, In (n, t) vs /\ p = (L "__" ++ n ++ L "__", strip t)) \/ In p l.
Proof.
  unfold put_vars. induction vs as [|[n t] vs IH]; intros l p H; cbn [fold_left fst snd] in H; [right; exact H|].
  apply IH in H as [(n' & t' & Hi & E)|H].
  - left. exists n', t'. split; [right; exact Hi|exact E].
  - apply set_key_in in H as [H|H]; [|right; exact H]. left. exists n, t. split; [left; reflexivity|exact H].
Qed.

Lemma put_vars_nonempty : forall vs l, vs <> [] \/ l <> [] -> put_vars vs l <> [].
Proof.
  unfold put_vars. induction vs as [|[n t] vs IH]; intros l H; cbn [fold_left fst snd].
  - destruct H; congruence.
  - apply IH. right. destruct l as [|[k' v'] l]; cbn [set_key]; [discriminate|].
    destruct (str_eqb _ _); discriminate.
Qed.

Section Vars.
Variable printable : N -> bool.

Lemma read_name_word : forall n acc t, (forall c, In c n -> c <> 32) ->
  read_name acc (n ++ 32 :: t) = Some (rev acc ++ n, 32 :: t).
Proof.
  induction n as [|c n IH]; intros acc t H.
  - cbn [app read_name]. change (32 =? 32) with true. rewrite app_nil_r. reflexivity.
  - cbn [app read_name]. assert (E : (c =? 32) = false) by (apply N.eqb_neq; apply H; left; reflexivity).
    rewrite E, IH by (intros d Hd; apply H; right; exact Hd). cbn [rev]. rewrite <- app_assoc. reflexivity.
Qed.

Lemma read_var_line : forall k v, (forall c, In c k -> c <> 32) -> valid_str v ->
  read_assign (var_line printable (k, v)) = Some (k, v).
Proof.
  intros k v Hk Hv. unfold read_assign, var_line. cbn [fst snd].
  change (L " = " ++ repr printable v) with (32 :: L "= " ++ repr printable v).
  rewrite read_name_word by exact Hk. cbn [rev app].
  change (32 :: L "= " ++ repr printable v) with (L " = " ++ repr printable v). rewrite after_app.
  pose proof (take_repr printable v [] Hv ltac:(intros r; split; discriminate)) as H.
  rewrite app_nil_r in H. rewrite H. reflexivity.
Qed.

Lemma run_assigns_lines : forall l env,
  (forall k v, In (k, v) l -> (forall c, In c k -> c <> 32) /\ valid_str v) -> NoDup (map fst l) ->
  exists env', run_assigns (map (var_line printable) l) env = Some env'
    /\ forall m, env' m = match find_key m l with Some v => Some v | None => env m end.
Proof.
  induction l as [|[k v] l IH]; intros env H Hn.
  - exists env. split; reflexivity.
  - cbn [map run_assigns]. destruct (H k v (or_introl eq_refl)) as [Hk Hv]. rewrite read_var_line by assumption.
    cbn [map fst] in Hn. inversion Hn as [|? ? H1 H2]; subst.
    destruct (IH (fun m => if str_eqb m k then Some v else env m)) as (env' & E & HE).
    + intros k' v' Hi. apply H. right; exact Hi.
    + exact H2.
    + exists env'. split; [exact E|]. intros m. rewrite HE. cbn [find_key].
      destruct (str_eqb_spec m k) as [Em|Em]; [|reflexivity]. subst m.
      destruct (find_key k l) as [w|] eqn:F; [|reflexivity]. exfalso. apply H1.
      clear -F. induction l as [|[k' v'] l IH]; [discriminate F|]. cbn [find_key map fst] in *.
      destruct (str_eqb_spec k k') as [E|E]; [left; congruence|right; apply IH; exact F].
Qed.

Lemma ksort_keys_nodup : forall (l : list (pystr * pystr)), NoDup (map fst l) -> NoDup (map fst (ksort l)) /\
  (forall m, find_key m (ksort l) = find_key m l).
Proof.
  assert (HI : forall (x : pystr * pystr) l, ~ In (fst x) (map fst l) -> NoDup (map fst l) ->
     NoDup (map fst (kinsert x l)) /\ (forall y, In y (map fst (kinsert x l)) <-> y = fst x \/ In y (map fst l))
     /\ (forall m, find_key m (kinsert x l) = if str_eqb m (fst x) then Some (snd x) else find_key m l)).
  { intros [k v] l. induction l as [|[k' v'] l IH]; intros Hx Hn; cbn [kinsert fst snd].
    - cbn [map fst In find_key]. split; [constructor; [intros []|constructor]|]. split; [intros y; intuition congruence|reflexivity].
    - destruct (str_ltb k k').
      + cbn [map fst find_key snd In]. split; [constructor; [exact Hx|exact Hn]|]. split; [intros y; intuition congruence|reflexivity].
      + cbn [map fst In] in Hx, Hn. inversion Hn as [|? ? H1 H2]; subst.
        destruct IH as (A & B & C); [cbn [fst]; tauto|exact H2|]. cbn [fst snd] in *. cbn [map fst find_key snd In]. split.
        * constructor; [|exact A]. intros Hi. apply B in Hi as [Hi|Hi]; [apply Hx; left; exact Hi|contradiction].
        * split; [intros y; rewrite B; intuition congruence|]. intros m. rewrite C.
          destruct (str_eqb_spec m k') as [E|E]; [|reflexivity]. subst m.
          destruct (str_eqb_spec k' k) as [E2|E2]; [exfalso; apply Hx; left; exact E2|reflexivity]. }
  induction l as [|[k v] l IH]; intros H; [split; [constructor|reflexivity]|].
  cbn [map fst] in H. inversion H as [|? ? H1 H2]; subst. destruct (IH H2) as [A B]. cbn [ksort].
  assert (HK : ~ In k (map fst (ksort l))).
  { intros Hi. apply H1. apply in_map_iff in Hi as (p & <- & Hp). apply in_map. apply ksort_In. exact Hp. }
  destruct (HI (k, v) (ksort l) HK A) as (C & _ & D). cbn [fst snd] in D. split; [exact C|].
  intros m. rewrite D, B. reflexivity.
Qed.

Lemma strip_valid : forall t, valid_str t -> valid_str (strip t).
Proof.
  intros t H. apply Forall_forall. intros c Hc. apply strip_In in Hc. unfold valid_str in H. rewrite Forall_forall in H.
  apply H. exact Hc.
Qed.

Lemma key_letters : forall n c, letters n -> In c (L "__" ++ n ++ L "__") -> c <> 32 /\ c <> 10
  /\ ((48 <=? c) && (c <=? 57) || (65 <=? c) && (c <=? 90) || (97 <=? c) && (c <=? 122) || (c =? 95)) = true.
Proof.
  intros n c [_ H] Hc.
  assert (HC : c = 95 \/ In c n).
  { apply in_app_iff in Hc as [Hc|Hc]; [destruct Hc as [<-|[<-|[]]]; left; reflexivity|].
    apply in_app_iff in Hc as [Hc|Hc]; [right; exact Hc|]. destruct Hc as [<-|[<-|[]]]; left; reflexivity. }
  destruct HC as [->|HC]; [repeat split; discriminate|]. apply H in HC. repeat split; lia.
Qed.

Lemma vars_exact : forall off cs, named cs -> variables cs <> [] ->
  (forall n t, In (CVar n t) cs -> valid_str t) ->
  exists env,
    run_assigns (split_char 10 (special_vars printable (d_vars (doc_comments off (map written cs))))) (fun _ => None)
    = Some env
    /\ (forall m, env m = last_text m (variables cs) None)
    /\ (forall m, env m <> None -> ascii_name m = true).
Proof.
  intros off cs HN Hn HV. destruct (docs_of_page off cs HN) as (_ & _ & _ & _ & _ & Ev). rewrite Ev.
  set (vs := put_vars (variables cs) []).
  assert (Hnd : NoDup (map fst vs)) by (apply put_vars_nodup; constructor).
  destruct (ksort_keys_nodup vs Hnd) as [Hs Hf].
  assert (HI : forall k v, In (k, v) vs -> exists n t, letters n /\ valid_str t /\ k = L "__" ++ n ++ L "__" /\ v = strip t).
  { intros k v Hi. apply put_vars_in in Hi as [(n & t & Hi & E)|[]]. injection E as -> ->.
    assert (HC : In (CVar n t) cs).
    { unfold variables in Hi. apply in_concat in Hi as (x & Hx & Hi). apply in_map_iff in Hx as (c & <- & Hc).
      destruct c; try contradiction Hi. destruct Hi as [Hi|[]]. injection Hi as -> ->. exact Hc. }
    exists n, t. repeat split; [apply (HN n t HC)|apply (HN n t HC)|apply (HV n t HC)]. }
  assert (HK : forall k v, In (k, v) (ksort vs) -> (forall c, In c k -> c <> 32) /\ valid_str v).
  { intros k v Hi. apply (proj1 (ksort_In _ _)) in Hi. destruct (HI k v Hi) as (n & t & H1 & H2 & -> & ->). split.
    - intros c Hc. apply (key_letters n c H1 Hc).
    - apply strip_valid. exact H2. }
  destruct (run_assigns_lines (ksort vs) (fun _ => None) HK Hs) as (env & E & HE).
  exists env. split; [|split].
  - unfold special_vars. rewrite split_join; [exact E| |].
    + assert (Hne : vs <> []) by (apply put_vars_nonempty; left; exact Hn).
      destruct vs as [|p vs']; [congruence|]. intros Em. apply map_eq_nil in Em.
      assert (Hp : In p (ksort (p :: vs'))) by (apply (proj2 (ksort_In _ _)); left; reflexivity). rewrite Em in Hp. contradiction.
    + intros w Hw. apply in_map_iff in Hw as ([k v] & <- & Hi). intros Hc. unfold var_line in Hc. cbn [fst snd] in Hc.
      apply (proj1 (ksort_In _ _)) in Hi. destruct (HI k v Hi) as (n & t & H1 & H2 & -> & ->).
      apply in_app_iff in Hc as [Hc|Hc].
      * apply (key_letters n 10 H1) in Hc. destruct Hc as (_ & Hc & _). congruence.
      * apply in_app_iff in Hc as [Hc|Hc].
        -- cbn in Hc. destruct Hc as [Hc|[Hc|[Hc|[]]]]; discriminate Hc.
        -- apply repr_one_line in Hc. destruct Hc as [Hc _]. unfold NL in Hc. congruence.
  - intros m. rewrite HE, Hf. unfold vs. rewrite put_vars_find. destruct (last_text m (variables cs) (find_key m [])) eqn:F; cbn [find_key] in F; congruence.
  - intros m Hm. rewrite HE, Hf in Hm. destruct (find_key m vs) as [v|] eqn:F; [|congruence].
    assert (Hi : In (m, v) vs).
    { clear -F. induction vs as [|[k w] vs IH]; [discriminate F|]. cbn [find_key] in F.
      destruct (str_eqb_spec m k) as [E|E]; [left; congruence|right; apply IH; exact F]. }
    destruct (HI m v Hi) as (n & t & H1 & _ & -> & _). unfold ascii_name. apply andb_true_iff. split; [reflexivity|].
    apply forallb_forall. intros c Hc. apply (key_letters n c H1 Hc).
Qed.
End Vars.

Lemma kinds_of_page : forall off cs, named cs ->
  let d := doc_comments off (map written cs) in
  d_body d = map (fun l => L "#" ++ repeat 32 off ++ l) (plain_lines cs)
  /\ d_meth d = map (replace_char 37 [37; 37]) (method_lines cs)
  /\ d_class d = map (replace_char 37 [37; 37]) (class_lines cs)
  /\ d_module d = module_lines cs
  /\ d_header d = header_lines cs
  /\ forall m, find_key m (d_vars d) = last_text m (variables cs) None.
Proof.
  intros off cs HN. cbv zeta. destruct (docs_of_page off cs HN) as (E1 & E2 & E3 & E4 & E5 & E6).
  rewrite E1, E2, E3, E4, E5, E6. split; [reflexivity|]. split; [apply map_ext; intros; apply dbl_char|].
  split; [apply map_ext; intros; apply dbl_char|]. split; [reflexivity|]. split; [reflexivity|].
  intros m. rewrite put_vars_find. reflexivity.
Qed.

(** The conditions as a computation, for examples. *)
Definition literalb (t : pystr) : bool :=
  forallb (fun c => negb (c =? 92) && negb (c =? 0) && negb (c =? 37) && negb (c =? 34)) t.

Lemma literal_check : forall t, literalb t = true -> literal_text t /\ ~ has_quotes3 t /\ ~ In 37 t.
Proof.
  intros t H. unfold literalb in H. rewrite forallb_forall in H. split; [|split].
  - intros c Hc. apply H in Hc. lia.
  - intros (a & b & E). assert (HI : In 34 t) by (rewrite E; apply in_or_app; right; left; reflexivity).
    apply H in HI. discriminate HI.
  - intros HI. apply H in HI. discriminate HI.
Qed.

Lemma percent_doubled : forall off ind, blanks ind ->
  ~ indented_doc ind (meth_doc ind (d_meth (doc_comments off [written (CDoc (L "%"))]))) (doc_text (L "%")).
Proof.
  intros off ind HB H.
  assert (HN : named [CDoc (L "%")]) by (intros n t [H'|[]]; discriminate H').
  pose proof (method_doc_any off [CDoc (L "%")] ind HN HB) as HA.
  assert (EM : method_lines [CDoc (L "%")] = [[37]]) by reflexivity. rewrite EM in HA.
  destruct HA as (lit & v & E1 & E2 & E3); [discriminate| |].
  { intros t [[H'|[]]|[H'|[]]]; try discriminate H'. injection H' as <-. intros c [<-|[]]; split; discriminate. }
  destruct H as (lit' & v' & F1 & F2 & F3). cbn [map] in E1, E2.
  change (map written [CDoc (L "%")]) with [written (CDoc (L "%"))] in E1. rewrite E1 in F1.
  apply app_inv_head in F1. subst lit'. rewrite E2 in F2. injection F2 as <-. rewrite E3 in F3.
  change (doc_text (L "%")) with [[37]] in F3. cbn [map] in F3. injection F3 as F3.
  apply app_inv_head in F3. discriminate F3.
Qed.
