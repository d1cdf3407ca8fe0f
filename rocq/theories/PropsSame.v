(** * Property theorems comparing two parses *)
From Verif Require Import Base Regex Entities Common NormRef Node Inlines Blocks Html Rst Dump Main
  Spec SpecTree SpecSame LineFacts SimFacts SameHtml.

(** ** C02 *)
(** [p] is a parser object in any state whatever, [p_smart p] the option it was made with. *)
Theorem C02_parser_reusable :
  forall p s, Forall code_point s ->
    match parse p s with Ok (t, _) => Ok t | Err e => Err e end =
    match parse (new_parser (p_smart p)) s with Ok (t, _) => Ok t | Err e => Err e end.
Proof. exact parse_reuse. Qed.
Print Assumptions C02_parser_reusable.

Example C02_case : exists p t p', p_refmap p <> [] /\ p_stack p <> [] /\ p_line_number p = 7 /\
  parse p (u "# a [x]") = Ok (t, p') /\ map n_t (nodes t) = [document; heading; text; text; text; text].
Proof.
  exists (set_p_refmap [(u "X", (u "y", u ""))] (set_p_line_number 7 (set_p_offset 3 (set_p_stack [F (new_node paragraph None) []; F (new_node document None) []] (new_parser true))))).
  eexists. eexists. split; [discriminate|]. split; [discriminate|]. split; [reflexivity|]. split; vm_compute; reflexivity.
Qed.

(** ** C15 *)
Theorem C15_crlf :
  forall p s, ~ In 13%N s -> parse p (with_breaks [13; 10]%N s) = parse p s.
Proof. exact (fun p s H => parse_lines p _ _ (text_lines_crlf s H)). Qed.
Print Assumptions C15_crlf.
Theorem C15_cr :
  forall p s, ~ In 13%N s -> last_opt s <> Some 10%N -> parse p (with_breaks [13]%N s) = parse p s.
Proof. exact (fun p s H1 H2 => parse_lines p _ _ (text_lines_cr s H1 H2)). Qed.
Print Assumptions C15_cr.
(** A carriage return at the very end is seen as one more, empty line. *)
Theorem C15_final_cr_refuted :
  exists s, ~ In 13%N s /\ md_to_html false default_opts (with_breaks [13]%N s) <> md_to_html false default_opts s.
Proof.
  exists (u "```" ++ [10%N] ++ u "a" ++ [10%N]). split; [vm_compute; intuition discriminate|]. vm_compute. discriminate.
Qed.
Print Assumptions C15_final_cr_refuted.

Example C15_case : with_breaks [13; 10]%N (u "a" ++ [10; 10]%N ++ u "b") = u "a" ++ [13; 10; 13; 10]%N ++ u "b" /\
  md_to_html false default_opts (u "a" ++ [13; 13]%N ++ u "b") = Ok (u "<p>a</p>" ++ [10%N] ++ u "<p>b</p>" ++ [10%N]).
Proof. split; vm_compute; reflexivity. Qed.

(** ** C16 *)
Theorem C16_final_newline :
  forall p s, s <> [] -> last_opt s <> Some 10%N -> last_opt s <> Some 13%N -> parse p (s ++ [10%N]) = parse p s.
Proof. exact (fun p s H1 H2 H3 => parse_lines p _ _ (text_lines_final s H1 H2 H3)). Qed.
Print Assumptions C16_final_newline.

Example C16_case : md_to_html false default_opts (u "```" ++ [10%N] ++ u "a" ++ [10%N]) = Ok (u "<pre><code>a" ++ [10%N] ++ u "</code></pre>" ++ [10%N]) /\
  md_to_html false default_opts (u "```" ++ [10%N] ++ u "a") = Ok (u "<pre><code>a" ++ [10%N] ++ u "</code></pre>" ++ [10%N]).
Proof. split; vm_compute; reflexivity. Qed.

(** ** C41 *)
Theorem C41_blank_text_is_empty :
  forall smart o s, (forall c, In c s -> In c [32; 9; 10; 13]%N) ->
    (exists d, parse_doc smart s = Ok (T d []) /\ n_t d = document) /\ md_to_html smart o s = Ok [].
Proof. exact blank_chars. Qed.
Print Assumptions C41_blank_text_is_empty.
(** Blank lines [bs] before a text [s] *)
Theorem C41_leading_blank_lines :
  forall smart s bs, Forall code_point s -> Forall blank_line bs ->
    match parse_doc smart s with
    | Ok (T d k) => exists d' k', parse_doc smart (flat_map (fun l => l ++ [10%N]) bs ++ s) = Ok (T d' k') /\
                      n_t d = document /\ n_t d' = document /\
                      Forall2 (same_blocks (lines_down (length bs))) k k'
    | Err e => parse_doc smart (flat_map (fun l => l ++ [10%N]) bs ++ s) = Err e
    end.
Proof. exact blank_before. Qed.
Print Assumptions C41_leading_blank_lines.
Theorem C41_leading_blank_lines_html :
  forall smart o s bs, ho_sourcepos o = false -> Forall code_point s -> Forall blank_line bs ->
    md_to_html smart o (flat_map (fun l => l ++ [10%N]) bs ++ s) = md_to_html smart o s.
Proof. exact blank_before_html. Qed.
Print Assumptions C41_leading_blank_lines_html.

Example C41_case :
  Forall blank_line [[32; 9]%N; []] /\
  flat_map (fun l => l ++ [10%N]) [[32; 9]%N; []] ++ u "1. a" = [32; 9; 10; 10]%N ++ u "1. a" /\
  md_to_html false default_opts ([32; 9; 10; 10]%N ++ u "1. a") = Ok (u "<ol>" ++ [10%N] ++ u "<li>a</li>" ++ [10%N] ++ u "</ol>" ++ [10%N]).
Proof.
  split; [constructor; [intros c [<-|[<-|[]]]; auto|constructor; [intros c []|constructor]]|]. split; vm_compute; reflexivity.
Qed.

(** ** C45 *)
Theorem C45_quoted_document :
  forall smart s, Forall code_point s -> ~ In 9%N s ->
    match parse_doc smart s with
    | Ok (T d k) => exists e b k', parse_doc smart (quote_text s) = Ok (T e [T b k']) /\
                      n_t d = document /\ n_t e = document /\ n_t b = block_quote /\
                      Forall2 (same_blocks (columns_right 2)) k k'
    | Err e => parse_doc smart (quote_text s) = Err e
    end.
Proof. exact quoted_doc. Qed.
Print Assumptions C45_quoted_document.
Theorem C45_quoted_html :
  forall smart o s, ho_sourcepos o = false -> Forall code_point s -> ~ In 9%N s ->
    md_to_html smart o (quote_text s) =
    let* h := md_to_html smart o s in Ok (u "<blockquote>" ++ [10%N] ++ h ++ u "</blockquote>" ++ [10%N]).
Proof. exact quoted_html. Qed.
Print Assumptions C45_quoted_html.

Example C45_case :
  quote_text (u "a" ++ [10%N] ++ u "    b" ++ [13; 13; 10]%N ++ u "- c") =
    u "> a" ++ [10%N] ++ u ">     b" ++ [10%N] ++ u "> " ++ [10%N] ++ u "> - c" ++ [10%N] /\
  md_to_html false default_opts (quote_text (u "a" ++ [10%N] ++ u "    b" ++ [13; 13; 10]%N ++ u "- c")) =
    Ok (u "<blockquote>" ++ [10%N] ++ u "<p>a" ++ [10%N] ++ u "b</p>" ++ [10%N] ++
        u "<ul>" ++ [10%N] ++ u "<li>c</li>" ++ [10%N] ++ u "</ul>" ++ [10%N] ++ u "</blockquote>" ++ [10%N]).
Proof. split; vm_compute; reflexivity. Qed.
