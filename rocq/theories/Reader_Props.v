(** Property theorems C33 (source reader), C34 (rows and columns) and C62 (error reports). *)
From Verif Require Import Names_Model Reader_Model Reader_Spec Reader_Proofs.
Local Open Scope Z_scope.
Local Open Scope string_scope.
Local Open Scope list_scope.

(** C33: no sequence of operations, failing ones included, moves the reader out of its window, apart
    from the two operations named in [leaves_window] (missing for the full statement); the source
    never changes. *)
Theorem C33_window_partial : forall s bp r ops, new_reader s bp = Ok r -> stays ops r ->
  in_window (rrun_ops ops r) /\ r_src (rrun_ops ops r) = s.
Proof. exact new_reader_run. Qed.
Print Assumptions C33_window_partial.
Example C33_window_partial_ex :
  exists r, new_reader (L "ab cd ef") (Some 6) = Ok r
  /\ stays [GetNonWS (L " "); Advance 99; GetWS None (L " "); SetMark (L "m"); Read 2; Rev 1; SetBreak 4;
            GotoMark (L "m"); Ungetc None] r
  /\ r_pos (rrun_ops [GetNonWS (L " "); Advance 99; GetWS None (L " "); SetMark (L "m"); Read 2; Rev 1;
            SetBreak 4; GotoMark (L "m"); Ungetc None] r) = 3.
Proof.
  eexists. split; [vm_compute; reflexivity|]. split; [|vm_compute; reflexivity].
  cbn [stays leaves_window]. repeat split; try (intro F; exact F); vm_compute; intro F; discriminate F.
Qed.

(** C33: an operation whose target is outside the window raises the reader's own error and changes
    nothing; one whose target is inside succeeds and arrives there. *)
Theorem C33_outside_raises : forall o r p, wants o r = Some p -> ~ 0 <= p <= r_bp r ->
  rstep o r = (Raise RError, r).
Proof. exact step_outside. Qed.
Print Assumptions C33_outside_raises.
Example C33_outside_raises_ex :
  let r := mkR (L "abc") 2 1 [] in
  wants (Read 2) r = Some 3 /\ rstep (Read 2) r = (Raise RError, r) /\ rstep (Rev 2) r = (Raise RError, r).
Proof. vm_compute. repeat split. Qed.

Theorem C33_inside_moves : forall o r p, wants o r = Some p -> (forall k, o <> Peek k) -> 0 <= p <= r_bp r ->
  exists v, rstep o r = (Ok v, with_pos r p).
Proof. exact step_inside. Qed.
Print Assumptions C33_inside_moves.
Example C33_inside_moves_ex :
  let r := mkR (L "abc") 2 1 [] in
  rstep (Read 1) r = (Ok (VText (L "b")), mkR (L "abc") 2 2 []).
Proof. vm_compute. reflexivity. Qed.

(** C33: a failed operation leaves the reader as it was ([ungetc] with a character excepted). *)
Theorem C33_failure_changes_nothing : forall o r e r', rstep o r = (Raise e, r') -> in_window r ->
  (forall c, o <> Ungetc (Some c)) -> r' = r.
Proof. exact step_failed. Qed.
Print Assumptions C33_failure_changes_nothing.
Example C33_failure_changes_nothing_ex :
  let r := mkR (L "abc") 3 3 [] in rstep Getc r = (Raise RIndexError, r).
Proof. vm_compute. reflexivity. Qed.

(** C33: whatever is read is exactly the source between the old and the new position. *)
Theorem C33_reads_between : forall o r v r', in_window r -> reads_forward o r -> rstep o r = (Ok v, r') ->
  exists t, v = VText t /\ between (r_src r) t (r_pos r) (r_pos r').
Proof. exact step_reads. Qed.
Print Assumptions C33_reads_between.
Example C33_reads_between_ex :
  let r := mkR (L "ab  cd") 6 2 [] in
  rstep (GetWS None (L " ")) r = (Ok (VText (L "  ")), mkR (L "ab  cd") 6 4 [])
  /\ rstep (ReadTo 5 None) r = (Ok (VText (L "  c")), mkR (L "ab  cd") 6 5 []).
Proof. vm_compute. split; reflexivity. Qed.

Theorem C33_getc_reads_one : forall r, in_window r -> r_pos r < r_bp r ->
  exists c, rstep Getc r = (Ok (VChar c), with_pos r (r_pos r + 1))
            /\ between (r_src r) [c] (r_pos r) (r_pos r + 1).
Proof. exact getc_reads. Qed.
Print Assumptions C33_getc_reads_one.
Example C33_getc_reads_one_ex : rstep Getc (mkR (L "abc") 3 1 []) = (Ok (VChar 98), mkR (L "abc") 3 2 []).
Proof. vm_compute. reflexivity. Qed.

(** C33: white space is read maximally: only those characters, and up to the break point, the given
    maximum, or a different character. *)
Theorem C33_white_space_maximal : forall r mx W t r', in_window r -> getWhiteSpace r mx W = (t, r') ->
  in_window r' /\ r' = with_pos r (r_pos r') /\ between (r_src r) t (r_pos r) (r_pos r')
  /\ (forall c, In c t -> In c W)
  /\ (r_pos r' = r_bp r \/ (exists m, mx = Some m /\ m <= Z.of_nat (length t) <= Z.max 0 m)
      \/ exists c, nth_error (r_src r) (Z.to_nat (r_pos r')) = Some c /\ ~ In c W)
  /\ (forall m, mx = Some m -> Z.of_nat (length t) <= Z.max 0 m).
Proof. exact getWS_spec. Qed.
Print Assumptions C33_white_space_maximal.
Example C33_white_space_maximal_ex :
  getWhiteSpace (mkR (L "a   b") 5 1 []) (Some 2) (L " ") = (L "  ", mkR (L "a   b") 5 3 [])
  /\ getWhiteSpace (mkR (L "a   b") 5 1 []) None (L " ") = (L "   ", mkR (L "a   b") 5 4 []).
Proof. vm_compute. split; reflexivity. Qed.

Theorem C33_non_white_space_maximal : forall r W t r', in_window r -> getNonWhiteSpace r W = (t, r') ->
  in_window r' /\ r' = with_pos r (r_pos r') /\ between (r_src r) t (r_pos r) (r_pos r')
  /\ (forall c, In c t -> ~ In c W)
  /\ (r_pos r' = r_bp r \/ exists c, nth_error (r_src r) (Z.to_nat (r_pos r')) = Some c /\ In c W).
Proof. exact getNonWS_spec. Qed.
Print Assumptions C33_non_white_space_maximal.
Example C33_non_white_space_maximal_ex :
  getNonWhiteSpace (mkR (L "a bcd e") 7 2 []) (L " ") = (L "bcd", mkR (L "a bcd e") 7 5 []).
Proof. vm_compute. reflexivity. Qed.

(** C33: reading to the end of the line without the line break stops at the first line break. *)
Theorem C33_read_to_eol : forall r v r', in_window r -> rstep (ReadToEOL None false) r = (Ok v, r') ->
  exists t, v = VText t /\ between (r_src r) t (r_pos r) (r_pos r') /\ plain t
    /\ (r_pos r' = slen (r_src r) \/ exists c, nth_error (r_src r) (Z.to_nat (r_pos r')) = Some c
                                       /\ (c = 10 \/ c = 13)%N).
Proof. exact readToEOL_spec. Qed.
Print Assumptions C33_read_to_eol.
Example C33_read_to_eol_ex :
  let s := L "ab" ++ [13; 10]%N ++ L "c" in
  rstep (ReadToEOL None false) (mkR s 5 1 []) = (Ok (VText (L "b")), mkR s 5 2 [])
  /\ rstep (ReadToEOL None true) (mkR s 5 1 []) = (Ok (VText (L "b" ++ [13; 10]%N)), mkR s 5 4 []).
Proof. vm_compute. split; reflexivity. Qed.

(** C33: matching a string at the position. *)
Theorem C33_startswith_here : forall r it, in_window r ->
  r_startswith r it None = starts_with it (skipn (Z.to_nat (r_pos r)) (r_src r)).
Proof. exact startswith_here. Qed.
Print Assumptions C33_startswith_here.
Example C33_startswith_here_ex :
  r_startswith (mkR (L "#if x") 5 1 []) (L "if") None = true
  /\ r_startswith (mkR (L "#if x#if") 8 2 []) (L "if") None = false.
Proof. vm_compute. split; reflexivity. Qed.

(** C33: a line is clear up to the position exactly when everything before it on its line is white
    space. *)
Theorem C33_clear_line : forall pre l t bp marks, after_break pre -> plain l ->
  Z.of_nat (length pre + length l) <= bp ->
  isLineClearToPos (mkR (pre ++ l ++ t) bp (Z.of_nat (length pre + length l)) marks) None
  = Ok (forallb is_space l).
Proof. exact clear_line. Qed.
Print Assumptions C33_clear_line.
Example C33_clear_line_ex :
  after_break (L "x" ++ [10]%N) /\ plain (L "  ")
  /\ isLineClearToPos (mkR (L "x" ++ [10]%N ++ L "  #if") 7 4 []) None = Ok true
  /\ isLineClearToPos (mkR (L "x" ++ [10]%N ++ L " y#if") 7 4 []) None = Ok false.
Proof.
  split; [right; exists (L "x"), 10%N; split; [reflexivity|left; reflexivity]|].
  split; [split; vm_compute; intros [F|[F|[]]]; discriminate F|]. vm_compute. split; reflexivity.
Qed.

(** C33 is false of [ungetc]: at the start it succeeds and leaves the window; anywhere else it raises. *)
Theorem C33_ungetc_refuted :
  (exists r, in_window r /\ r_pos r = 0 /\ fst (rstep (Ungetc None) r) = Ok VNone
             /\ ~ in_window (snd (rstep (Ungetc None) r)))
  /\ (forall r c, r_pos r <> 0 -> rstep (Ungetc c) r = (Raise RError, r)).
Proof.
  split.
  - exists (mkR (L "abc") 3 0 []). unfold in_window. cbn. repeat split; try lia.
  - intros r c H. cbn [rstep]. unfold atStart. replace (r_pos r =? 0)%Z with false by lia. reflexivity.
Qed.
Print Assumptions C33_ungetc_refuted.

(** C33 is false of [setBreakPoint]: a break point before the position is accepted. *)
Theorem C33_break_point_refuted : exists r p, in_window r /\ fst (rstep (SetBreak p) r) = Ok VNone
  /\ ~ in_window (snd (rstep (SetBreak p) r)).
Proof. exists (mkR (L "abc") 3 2 []), 1. unfold in_window. cbn. repeat split; try lia. Qed.
Print Assumptions C33_break_point_refuted.

(** C33 is false of [getc], [peek] and [startswith] at the break point: they see text behind it. *)
Theorem C33_beyond_break_point_refuted : exists r c it, in_window r /\ r_pos r = r_bp r
  /\ rstep Getc r = (Ok (VChar c), r) /\ rstep (Peek 0) r = (Ok (VChar c), r)
  /\ it <> [] /\ r_startswith r it None = true.
Proof.
  exists (mkR (L "abc") 1 1 []), 98%N, (L "b"). unfold in_window. cbn. repeat split; try lia; discriminate.
Qed.
Print Assumptions C33_beyond_break_point_refuted.

(** C33 is false of [read] with a negative number: the position moves back and nothing is returned. *)
Theorem C33_read_back_refuted : exists r r', in_window r /\ rstep (Read (-2)) r = (Ok (VText []), r')
  /\ r_pos r' < r_pos r.
Proof. exists (mkR (L "abc") 3 2 []). eexists. unfold in_window. cbn. repeat split; lia. Qed.
Print Assumptions C33_read_back_refuted.

(** C34: the line tables exist for every source; [getRowCol] gives (row, column) exactly if the
    position is reached after row - 1 complete lines and column - 1 characters of the next line, and the
    source goes on there or does not end with a line break. *)
Theorem C34_row_col : forall s, exists t, line_table s = Some t /\ forall pos r c,
  getRowCol t pos = Ok (r, c) <->
  exists p r0 c0, pos = Z.of_nat p /\ r = Z.of_nat (S r0) /\ c = Z.of_nat (S c0) /\ row_col s p r0 c0
    /\ ((p < length s)%nat \/ ends_open s).
Proof. exact getRowCol_exact. Qed.
Print Assumptions C34_row_col.
Example C34_row_col_ex :
  let s := L "ab" ++ [13; 10]%N ++ L "cde" ++ [13]%N ++ [10; 10]%N ++ L "f" in
  match line_table s with
  | Some t => getRowCol t 6 = Ok (2, 3) /\ getRowCol t 10 = Ok (4, 1) /\ getRowCol t 11 = Ok (4, 2)
              /\ getRowCol t 2 = Ok (1, 3)
  | None => False
  end.
Proof. vm_compute. repeat split. Qed.

(** C34: row and column are determined by the position, and the position by row and column. *)
Theorem C34_recover_position : forall s t p q rc, line_table s = Some t ->
  getRowCol t p = Ok rc -> getRowCol t q = Ok rc -> p = q.
Proof. exact getRowCol_inj. Qed.
Print Assumptions C34_recover_position.
Example C34_recover_position_ex :
  let s := L "a" ++ [10]%N ++ L "b" in
  match line_table s with Some t => getRowCol t 0 = Ok (1, 1) /\ getRowCol t 2 = Ok (2, 1) | None => False end.
Proof. vm_compute. split; reflexivity. Qed.

Theorem C34_row_col_unique : forall s p r c r' c', row_col s p r c -> row_col s p r' c' -> r = r' /\ c = c'.
Proof. exact row_col_unique. Qed.
Print Assumptions C34_row_col_unique.
Example C34_row_col_unique_ex : row_col ([97]%N ++ [13; 10]%N ++ [98; 99]%N) (1 + 2 + 1) 1 1.
Proof.
  apply rc_next.
  - split; intros [F|[]]; discriminate F.
  - left. reflexivity.
  - discriminate.
  - apply rc_here; [cbn; lia|]. split; intros [F|[]]; discriminate F.
Qed.

(** C34: exactly the positions for which [getRowCol] succeeds. *)
Theorem C34_when_defined : forall s t p, line_table s = Some t ->
  (exists r c, getRowCol t (Z.of_nat p) = Ok (r, c))
  <-> ~ inside_break s p /\ ((p < length s)%nat \/ (p = length s /\ ends_open s)).
Proof. exact getRowCol_ok. Qed.
Print Assumptions C34_when_defined.
Example C34_when_defined_ex : exists t, line_table (L "ab") = Some t /\ getRowCol t 2 = Ok (1, 3) /\ ends_open (L "ab").
Proof.
  eexists. split; [vm_compute; reflexivity|]. split; [vm_compute; reflexivity|].
  exists (L "a"), 98%N. repeat split; discriminate.
Qed.

(** C34 is false for some positions of the source: on the newline of a two-character line break, at the
    end of a source that ends with a line break, and in the empty source [getRowCol] raises a
    TypeError. *)
Theorem C34_total_refuted :
  (exists s t p, line_table s = Some t /\ (p < length s)%nat /\ getRowCol t (Z.of_nat p) = Raise RTypeError)
  /\ (exists s t, line_table s = Some t /\ s <> [] /\ getRowCol t (slen s) = Raise RTypeError)
  /\ (exists t, line_table [] = Some t /\ getRowCol t 0 = Raise RTypeError).
Proof.
  split; [|split].
  - exists [97; 13; 10]%N. eexists. exists 2%nat. split; [vm_compute; reflexivity|]. split; [cbn; lia|reflexivity].
  - exists [97; 10]%N. eexists. split; [vm_compute; reflexivity|]. split; [discriminate|reflexivity].
  - eexists. split; vm_compute; reflexivity.
Qed.
Print Assumptions C34_total_refuted.

(** C34: the line given with row and column is the complete line of the position, provided the source
    has no line boundaries other than carriage returns and newlines (missing for the full statement). *)
Theorem C34_line_partial : forall s t pos r c, line_table s = Some t -> ordinary_breaks s ->
  getRowCol t pos = Ok (r, c) ->
  exists l, getRowColLine s t pos = Ok (r, c, l) /\ line_at s (Z.to_nat pos) (Z.to_nat (c - 1)) l.
Proof. exact getRowColLine_spec. Qed.
Print Assumptions C34_line_partial.
Example C34_line_partial_ex :
  let s := L "ab" ++ [13; 10]%N ++ L "cde" ++ [10]%N in
  ordinary_breaks s
  /\ match line_table s with Some t => getRowColLine s t 5 = Ok (2, 2, L "cde") | None => False end.
Proof.
  split; [|vm_compute; reflexivity]. intros c Hc F. cbn in Hc, F. lia.
Qed.

(** C34 is false with a form feed in the source: the line shown is not the line of the position. *)
Theorem C34_line_refuted : exists s t pos r c l, line_table s = Some t
  /\ getRowColLine s t pos = Ok (r, c, l) /\ ~ line_at s (Z.to_nat pos) (Z.to_nat (c - 1)) l.
Proof.
  exists [97; 12; 98; 10; 99]%N. eexists. exists 4, 2, 1, [98]%N.
  split; [vm_compute; reflexivity|]. split; [vm_compute; reflexivity|].
  intros (a & b & E & La & _). cbn in La. 
  assert (Ln : length a = 4%nat) by lia.
  do 4 (destruct a as [|? a]; [discriminate Ln|]). destruct a; [|discriminate Ln].
  cbn in E. injection E as _ _ _ _ E. discriminate E.
Qed.
Print Assumptions C34_line_refuted.

(** C62: a parse error raised anywhere can be reported, with row, column and line of the position (or of
    the last character, at the end of the source), and the printed lines are numbered consecutively and
    are lines of the source.  Missing: see the refutations. *)
Theorem C62_report_partial : forall r, in_window r -> r_bp r = slen (r_src r) -> r_src r <> [] ->
  ordinary_breaks (r_src r) -> ~ inside_break (r_src r) (Z.to_nat (Z.min (r_pos r) (r_bp r - 1))) ->
  exists r' row col lines p r0 c0 l, parse_error_pos r = Ok r' /\ parse_report r' = Ok (row, col, lines)
    /\ p = Z.to_nat (Z.min (r_pos r) (r_bp r - 1))
    /\ row = Z.of_nat (S r0) /\ col = Z.of_nat (S c0) /\ row_col (r_src r) p r0 c0
    /\ line_at (r_src r) p c0 l /\ In (row, l) lines
    /\ (exists first, ascending first lines)
    /\ (forall k t, In (k, t) lines -> nth_error (splitlines (r_src r)) (Z.to_nat (k - 1)) = Some t).
Proof. exact parse_report_spec. Qed.
Print Assumptions C62_report_partial.
Example C62_report_partial_ex :
  let s := L "one" ++ [10]%N ++ L "two" ++ [10]%N ++ L "#if x" ++ [10]%N ++ L "four" ++ [10]%N in
  let r := mkR s (slen s) (slen s) [] in
  match parse_error_pos r with
  | Ok r' => parse_report r' = Ok (4, 5, [(2, L "two"); (3, L "#if x"); (4, L "four")])
  | Raise _ => False
  end.
Proof. vm_compute. reflexivity. Qed.

(** C62 is false: for a source that ends with a carriage return and a newline, an error found at the end
    (a missing #end, for example) cannot be printed; for an empty source, raising the error itself fails
    with another one. *)
Theorem C62_report_refuted :
  (exists r r', in_window r /\ r_pos r = r_bp r /\ r_bp r = slen (r_src r)
     /\ parse_error_pos r = Ok r' /\ parse_report r' = Raise RTypeError)
  /\ (exists r, in_window r /\ r_bp r = slen (r_src r) /\ parse_error_pos r = Raise RError).
Proof.
  split.
  - exists (mkR (L "#if x" ++ [13; 10]%N) 7 7 []). eexists. unfold in_window. cbn -[parse_error_pos parse_report].
    repeat split; try lia; vm_compute; reflexivity.
  - exists (mkR [] 0 0 []). unfold in_window. cbn. repeat split; lia.
Qed.
Print Assumptions C62_report_refuted.

(** C62 is false: the first line of the source is never shown as context. *)
Theorem C62_first_line_refuted : exists r row col lines, in_window r /\ parse_report r = Ok (row, col, lines)
  /\ row = 2 /\ lines = [(2, L "b")] /\ nth_error (splitlines (r_src r)) 0 = Some (L "a").
Proof.
  exists (mkR (L "a" ++ [10]%N ++ L "b") 3 2 []). eexists _, _, _.
  split; [unfold in_window; cbn; lia|]. split; [vm_compute; reflexivity|]. repeat split.
Qed.
Print Assumptions C62_first_line_refuted.
