(** * Properties the code fails on some inputs, and what holds: C42, C43, C44 *)
From Verif Require Import Base Regex Common NormRef Node Inlines Blocks Html Main StrFacts Spec SpecTree SpecSame LineFacts ParseFacts BracketFacts RefFacts.

(** ** C42: no empty paragraphs *)
(** True of the texts without an opening bracket (so without a link definition) in which every
    white space character is a space, a tab or a line end. *)
Theorem C42_no_empty_paragraphs :
  forall smart s t, Forall code_point s -> ~ In 91%N s ->
    (forall c, In c s -> is_space c = true -> In c [9; 10; 13; 32]%N) ->
    parse_doc smart s = Ok t -> forall x, In x (subtrees t) -> t_type x = paragraph -> t_kids x <> [].
Proof. exact parsed_paragraphs. Qed.
Print Assumptions C42_no_empty_paragraphs.

Example C42_case : exists t, parse_doc false (u "a" ++ [10] ++ u "- b" ++ [10; 10] ++ u "  c")%N = Ok t /\ In paragraph (map t_type (subtrees t)) /\ length (subtrees t) = 9.
Proof. match eval vm_compute in (parse_doc false (u "a" ++ [10] ++ u "- b" ++ [10; 10] ++ u "  c")%N) with Ok ?t => exists t end. vm_compute. auto 20. Qed.

(** False without the first restriction: a definition followed by hyphens leaves an empty paragraph. *)
Theorem C42_no_empty_paragraphs_refuted :
  exists s t x, Forall code_point s /\ (forall c, In c s -> is_space c = true -> In c [9; 10; 13; 32]%N) /\
    parse_doc false s = Ok t /\ In x (subtrees t) /\ t_type x = paragraph /\ t_kids x = [].
Proof. exact empty_paragraph. Qed.
Print Assumptions C42_no_empty_paragraphs_refuted.
(** False without the second: a paragraph of one no-break space is stripped to nothing. *)
Theorem C42_blank_paragraph_refuted :
  exists s t x, Forall code_point s /\ ~ In 91%N s /\ parse_doc false s = Ok t /\ In x (subtrees t) /\ t_type x = paragraph /\ t_kids x = [].
Proof. exact blank_paragraph. Qed.
Print Assumptions C42_blank_paragraph_refuted.

(** ** C43: a discarded title is not used *)
(** False: the title is not alone on its line, the line stays in the text, and the link has the title. *)
Theorem C43_discarded_title_refuted :
  md_to_html false default_opts (u "[foo]: /url" ++ [10] ++ u """title"" ok" ++ [10; 10] ++ u "[foo]")%N =
    Ok (u "<p>&quot;title&quot; ok</p>" ++ [10] ++ u "<p><a href=""/url"" title=""title"">foo</a></p>" ++ [10])%N.
Proof. exact discarded_title. Qed.
Print Assumptions C43_discarded_title_refuted.
(** The exact extent: the title of a definition that is read from [subj], and consumes its first
    [n] characters, is either written before [n] and alone up to the end of its line, or it is
    written after a line end at [n], and is followed on its line by something else. *)
Theorem C43_title_place_partial :
  forall subj rm s n s' rm', Forall code_point subj -> parseReference subj rm s = Ok (n, s', rm') ->
    rm' = rm \/ exists label dest title, rm' = rm ++ [(label, (dest, title))] /\
      (title = [] \/ exists pre c r post, subj = pre ++ (c :: r) ++ post /\ In c [34; 39; 40]%N /\ In (last (c :: r) 0%N) [34; 39; 41]%N /\
         title = unescape_string (chop_ends (c :: r)) /\
         ((length (pre ++ c :: r) <= n /\ blank_to_eol post) \/
          (n <= length pre /\ ~ blank_to_eol post /\ exists k, firstn n subj = firstn k subj ++ [10%N]))).
Proof. exact reference_title. Qed.
Print Assumptions C43_title_place_partial.
(** The property holds of the definitions written on one line. *)
Theorem C43_one_line_definition_partial :
  forall x rm s n s' rm', Forall code_point x -> ~ In 10%N x -> parseReference (x ++ [10%N]) rm s = Ok (n, s', rm') ->
    rm' = rm \/ exists label dest title, rm' = rm ++ [(label, (dest, title))] /\
      (title = [] \/ exists pre c r k, x = pre ++ (c :: r) ++ repeat 32%N k /\ In c [34; 39; 40]%N /\ In (last (c :: r) 0%N) [34; 39; 41]%N /\
         title = unescape_string (chop_ends (c :: r))).
Proof. exact reference_title_line. Qed.
Print Assumptions C43_one_line_definition_partial.

Example C43_case :
  match parseReference (u "[a]: /b 'c' " ++ [10%N]) [] (IP [] 0 [] false [] [] [] 0) with Ok (n, _, rm) => Some (n, rm) | Err _ => None end
    = Some (13, [(u "a", (u "/b", u "c"))]) /\
  match parseReference (u "[a]: /b 'c' d" ++ [10%N]) [] (IP [] 0 [] false [] [] [] 0) with Ok (n, _, rm) => Some (n, rm) | Err _ => None end = Some (0, []).
Proof. vm_compute. auto. Qed.

(** ** C44: a failed inline link loses no text *)
(** False: the text "(/url " is lost. *)
Theorem C44_failed_link_refuted :
  md_to_html false default_opts (u "[foo](/url [bar]" ++ [10; 10] ++ u "[bar]: /x")%N = Ok (u "<p><a href=""/x"">foo</a></p>" ++ [10])%N.
Proof. exact lost_text. Qed.
Print Assumptions C44_failed_link_refuted.
(** True of a line of ordinary characters, brackets and opening parentheses, when nothing is defined. *)
Theorem C44_brackets_shown_partial :
  forall o s, ho_sourcepos o = false -> s <> [] -> Forall (fun c => code_point c /\ ~ surrogate c) s ->
    Forall (fun c => ordinary_char c \/ c = 91%N) s -> ~ In 41%N s ->
    (forall c, hd_error s = Some c -> is_space c = false /\ ~ block_char c /\ c <> 91%N) ->
    (forall c, last_opt s = Some c -> is_space c = false) -> ~ list_number s ->
    (exists t, parse_doc false s = Ok t /\ paragraph_of_text t s) /\
    md_to_html false o s = Ok (one_paragraph (html_text s)).
Proof. exact bracket_line_md. Qed.
Print Assumptions C44_brackets_shown_partial.

Example C44_case : md_to_html false default_opts (u "a [b](/c ""d"" ![e][f] (g]") = Ok (u "<p>a [b](/c &quot;d&quot; ![e][f] (g]</p>" ++ [10%N]).
Proof. vm_compute. reflexivity. Qed.
