(** * Property theorems about leaf blocks, columns and flanking *)
From Verif Require Import Base Regex Entities Common NormRef Node Inlines Blocks Html Rst Dump Main
  Spec SpecTree SpecSame SpecLines LineFacts Sim ColumnFacts ColumnRun RuleFacts MarkFacts LeafFacts FlankFacts HeadFacts.

(** ** C37 *)
Theorem C37_rule_lines : forall l, ~ In 10%N l -> re_test reThematicBreak l = true <-> rule_line l.
Proof. exact thematic_iff. Qed.
Print Assumptions C37_rule_lines.

Theorem C37_rule_document :
  forall smart o i l, ho_sourcepos o = false -> i <= 3 -> rule_line l ->
    (exists dd rd, parse_doc smart (repeat 32%N i ++ l) = Ok (T dd [T rd []]) /\ n_t dd = document /\ n_t rd = thematic_break) /\
    md_to_html smart o (repeat 32%N i ++ l) = Ok (u "<hr />" ++ [10%N]).
Proof. exact rule_md. Qed.
Print Assumptions C37_rule_document.

Example C37_case : rule_line (u "* *  **" ++ [9%N]) /\ ~ rule_line (u "**") /\ ~ rule_line (u "*-*") /\
  md_to_html false default_opts (u "   * *  **" ++ [9%N]) = Ok (u "<hr />" ++ [10%N]) /\ re_test reThematicBreak (u "--a-") = false.
Proof.
  assert (H : rule_line (u "* *  **" ++ [9%N])). { exists 42%N. split; [left; reflexivity|]. split; [reflexivity|]. split; [vm_compute; lia|]. repeat (constructor; [auto|]). constructor. }
  split; [exact H|]. split; [intros (c & _ & E & N & _); injection E as <-; vm_compute in N; lia|]. split.
  - intros (c & _ & E & _ & N). injection E as <-. inversion N as [|? ? _ N1]. inversion N1 as [|? ? [X|[X|X]] _]; discriminate.
  - split; [|vm_compute; reflexivity]. apply (C37_rule_document false default_opts 3 _ eq_refl ltac:(lia) H).
Qed.

(** ** C38 *)
Theorem C38_marker : forall l, ~ In 10%N l -> re_search reATXHeadingMarker l <> None <-> exists n s, atx_line l n s.
Proof. exact atx_iff. Qed.
Print Assumptions C38_marker.

(** [nul]s in the text are replaced; the content is what [heading_text] leaves of the text *)
Theorem C38_heading_document :
  forall smart i l n s, i <= 3 -> no_eol l -> atx_line l n s ->
    exists dd hd b st, heading_text (replace_char 0 65533 s) b /\ n_t dd = document /\ n_t hd = heading /\ n_level hd = Some n /\
      ip_refmap st = [] /\ ip_smart st = smart /\
      parse_doc smart (repeat 32%N i ++ l) = let* (k, _) := parseInlines b st in Ok (T dd [T hd k]).
Proof. exact heading_doc. Qed.
Print Assumptions C38_heading_document.

Theorem C38_heading_html :
  forall o i l n s, ho_sourcepos o = false -> i <= 3 -> atx_line l n s -> Forall ordinary_char s ->
    exists b, heading_text s b /\
      md_to_html false o (repeat 32%N i ++ l) = Ok (u "<h" ++ str_of_nat n ++ u ">" ++ html_text (strip b) ++ u "</h" ++ str_of_nat n ++ u ">" ++ [10%N]).
Proof. exact heading_md. Qed.
Print Assumptions C38_heading_html.

Theorem C38_no_heading_document :
  forall smart i l c r, i <= 3 -> no_eol l -> replace_char 0 65533 l = c :: r -> c = 35%N -> (forall n s, ~ atx_line (c :: r) n s) ->
    exists dd pd st, n_t dd = document /\ n_t pd = paragraph /\ ip_refmap st = [] /\ ip_smart st = smart /\
      parse_doc smart (repeat 32%N i ++ l) = let* (k, _) := parseInlines (c :: r ++ [10%N]) st in Ok (T dd [T pd k]).
Proof. exact not_heading_doc. Qed.
Print Assumptions C38_no_heading_document.

Theorem C38_seven : forall n s l, atx_line l n s -> ~ exists r, l = repeat 35%N 7 ++ r.
Proof. exact atx_not_seven. Qed.
Print Assumptions C38_seven.

Example C38_case : atx_line (u "## a # b ##  ") 2 (u "a # b ##  ") /\ heading_text (u "a # b ##  ") (u "a # b") /\
  md_to_html false default_opts (u " ## a # b ##  ") = Ok (u "<h2>a # b</h2>" ++ [10%N]) /\
  md_to_html false default_opts (u "####### x") = Ok (u "<p>####### x</p>" ++ [10%N]) /\
  md_to_html false default_opts (u "#x") = Ok (u "<p>#x</p>" ++ [10%N]).
Proof.
  split. { split; [lia|]. exists (u " "). split; [reflexivity|]. split; [repeat constructor|]. split; [discriminate|]. intros x [= <-]. split; discriminate. }
  split; [|split; [|split]; vm_compute; reflexivity].
  right. left. split.
  - intros (w & n & w' & E & Hw & _). destruct w as [|x w]; [discriminate|]. injection E as <- _. inversion Hw as [|? ? [X|X] _]; discriminate.
  - exists 32%N, (u "##  "). split; [reflexivity|]. split; [auto|]. split; [exists [], 1, (u "  "); split; [reflexivity|split; repeat constructor]|]. intros x [= <-]. split; discriminate.
Qed.

(** ** C39 *)
Theorem C39_advance_columns :
  forall n p, at_column (p_line p) (p_offset p) (p_column p) (p_pct p) ->
    let p' := advance_offset n true p in
    at_column (p_line p') (p_offset p') (p_column p') (p_pct p') /\ p_line p' = p_line p /\
    (p_column p' = p_column p + n \/ (p_offset p' = length (p_line p) /\ p_column p <= p_column p' < p_column p + n)).
Proof. exact (fun n p => advance_loop_columns n n p (le_n n)). Qed.
Print Assumptions C39_advance_columns.

Theorem C39_advance_characters :
  forall n p, at_column (p_line p) (p_offset p) (p_column p) (p_pct p) ->
    let p' := advance_offset n false p in
    at_column (p_line p') (p_offset p') (p_column p') (p_pct p') /\ p_line p' = p_line p /\
    p_offset p' = Nat.min (p_offset p + n) (length (p_line p)) /\ (0 < n -> p_offset p < length (p_line p) -> p_pct p' = false).
Proof. exact (fun n p => advance_loop_chars n n p (le_n n)). Qed.
Print Assumptions C39_advance_characters.

Theorem C39_indentation :
  forall p, at_column (p_line p) (p_offset p) (p_column p) (p_pct p) ->
    let p' := find_next_nonspace p in
    (exists w, firstn (p_next_nonspace p') (p_line p) = firstn (p_offset p) (p_line p) ++ w /\ blanks w) /\
    (forall c, nth_error (p_line p) (p_next_nonspace p') = Some c -> c <> 32%N /\ c <> 9%N) /\
    p_next_nonspace_column p' = width (firstn (p_next_nonspace p') (p_line p)) /\
    p_indent p' = width (firstn (p_next_nonspace p') (p_line p)) - p_column p.
Proof. exact indentation. Qed.
Print Assumptions C39_indentation.

(** the state in which a line is read, before and after the open blocks have been matched and new
    ones started *)
Theorem C39_whole_line :
  (forall l p, let p' := line_start l p in at_column (p_line p') (p_offset p') (p_column p') (p_pct p')) /\
  (forall path depth p r q, descend path depth p = Ok (r, q) ->
     at_column (p_line p) (p_offset p) (p_column p) (p_pct p) -> at_column (p_line q) (p_offset q) (p_column q) (p_pct q)) /\
  (forall fuel depth p r q, starts_loop fuel depth p = Ok (r, q) ->
     at_column (p_line p) (p_offset p) (p_column p) (p_pct p) -> at_column (p_line q) (p_offset q) (p_column q) (p_pct q)).
Proof. exact (conj line_start_column (conj descend_col starts_loop_col)). Qed.
Print Assumptions C39_whole_line.

Example C39_case :
  let p := line_start (u " " ++ [9%N] ++ u "a" ++ [9%N] ++ u "b") (new_parser false) in
  width (u " " ++ [9%N] ++ u "a" ++ [9%N] ++ u "b") = 9 /\ p_column (advance_offset 3 true p) = 3 /\ p_offset (advance_offset 3 true p) = 1 /\
  p_pct (advance_offset 3 true p) = true /\ p_column (advance_offset 3 false p) = 5.
Proof. vm_compute. auto. Qed.

(** ** C49 *)
Theorem C49_flanking :
  forall s pre c n post, ip_subject s = pre ++ repeat c n ++ post -> ip_pos s = length pre -> 0 < n -> c = 42%N \/ c = 95%N -> hd_error post <> Some c ->
    let x := last pre 10%N in let y := hd 10%N post in
    exists o cl, scanDelims c s = Some (n, o, cl) /\
      (o = true <-> may_open is_space punctuation c x y) /\ (cl = true <-> may_close is_space punctuation c x y).
Proof. exact scan_flank. Qed.
Print Assumptions C49_flanking.

Theorem C49_ascii_punctuation : forall c, (c < 128)%N -> punctuation c = ascii_punct c.
Proof. exact punctuation_ascii. Qed.
Print Assumptions C49_ascii_punctuation.

(** A text, a word between two equal runs of marks, and another text *)
Theorem C49_marked_word :
  forall o a c n w b, ho_sourcepos o = false -> n = 1 \/ n = 2 -> c = 42%N \/ c = 95%N -> Forall ordinary_char (a ++ w ++ b) -> w <> [] ->
    (forall x, hd_error a = Some x -> is_space x = false /\ ~ block_char x) ->
    (a = [] -> forall x, hd_error w = Some x -> x <> 32%N /\ x <> 9%N) ->
    (forall x, last_opt b = Some x -> is_space x = false) ->
    let l := a ++ repeat c n ++ w ++ repeat c n ++ b in ~ list_number l ->
    let ok := may_open is_space punctuation c (last a 10%N) (hd 10%N w) /\ may_close is_space punctuation c (last w 10%N) (hd 10%N b) in
    (ok -> md_to_html false o l = Ok (one_paragraph (html_text a ++ in_marks n w ++ html_text b))) /\
    (~ ok -> md_to_html false o l = Ok (one_paragraph (html_text l))).
Proof. exact flank_md. Qed.
Print Assumptions C49_marked_word.

Example C49_case :
  may_open is_space punctuation 42 97 98 /\ ~ may_open is_space punctuation 95 97 98 /\ may_open is_space punctuation 95 40 98 /\
  md_to_html false default_opts (u "a*b*c") = Ok (one_paragraph (u "a" ++ in_marks 1 (u "b") ++ u "c")) /\
  md_to_html false default_opts (u "a_b_c") = Ok (one_paragraph (u "a_b_c")) /\
  md_to_html false default_opts (u "x(__b__)") = Ok (one_paragraph (u "x(" ++ in_marks 2 (u "b") ++ u ")")).
Proof.
  unfold may_open, left_flanking, right_flanking.
  change (is_space 97) with false. change (is_space 98) with false. change (is_space 40) with false. change (punctuation 97) with false. change (punctuation 98) with false. change (punctuation 40) with true.
  split; [split; [auto|discriminate]|]. split; [intros [_ H]; destruct (H eq_refl) as [X|X]; [apply X; auto|discriminate]|]. split; [split; [auto|intros _; right; reflexivity]|].
  split; [|split]; vm_compute; reflexivity.
Qed.
