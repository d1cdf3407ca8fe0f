claim("C03", "proved", ["C03_html_renderer_reusable"], "for all sequences of completed renders")
claim("C04", "proved", ["C04_escape_xml", "C04_escape_xml_none_and_plain"])
claim("C31", "proved", ["C31_commonmark_dispatch"])
claim("C32", "proved", ["C32_children_refuted", "C32_dump_lists_events"], "the property as worded is false of the code; refuted by witness, and the true variant is proved")
claim("C34", "proved", ["C34_rst_renderer_reusable"], "for completed renders")
claim("C36", "proved", ["C36_tight_paragraph_no_tag"])
claim("C21", "proved", ["C21_decimal_reference", "C21_hexadecimal_reference", "C21_at_most_one_character"], "for digit strings of any length; the syntax allows a subset of them")
claim("C24", "proved", ["C24_case_and_spacing_ignored", "C24_stable", "C24_visible_label_has_a_key", "C24_nothing_else_ignored"])
claim("C46", "proved", ["C46_identity_without_escapes", "C46_undoes_escaping"])
claim("C47", "proved", ["C47_listed_names", "C47_unlisted_names"])
claim("C01", "proved", ["C01_only_two_exceptions", "C01_returns", "C01_never_raises_refuted"], "for every state of the parser object; the no-exception half is false of the code, refuted by witness, and the exact set of possible exceptions is proved")
claim("C05", "proved", ["C05_safe_html_of_any_text", "C05_safe_render_is_own_markup"], "for all texts, and for all trees without custom nodes and with heading levels 1-6")
claim("C06", "proved", ["C06_html_of_any_text", "C06_render_is_balanced"])
claim("C07", "proved", ["C05_safe_html_of_any_text", "C07_safe_render_urls", "C07_destination_tests"])
claim("C12", "proved", ["C12_nesting"])
claim("C13", "proved", ["C13_ranges"])
claim("C14", "proved", ["C14_no_nul"])
claim("C23", "proved", ["C23_only_uri_characters", "C23_raises_only_for_surrogates", "C23_idempotent", "C23_percent_decoding_gives_back_utf8", "C23_parsed_destinations"])
claim("C33", "proved", ["C33_rst_rendering_returns_exactly_if", "C33_rst_always_renders_refuted"], "the property as worded is false of the code; refuted by witness, and the exact condition is proved")
claim("C35", "proved", ["C35_source_positions"])
claim("C48", "proved", ["C48_html_rendering_returns"])
claim("C02", "proved", ["C02_parser_reusable"], "for every state of the parser object")
claim("C15", "proved", ["C15_crlf", "C15_cr", "C15_final_cr_refuted"], "false of the code for a final bare CR: refuted by witness, and proved for all other texts")
claim("C16", "proved", ["C16_final_newline"])
claim("C41", "proved", ["C41_blank_text_is_empty", "C41_leading_blank_lines", "C41_leading_blank_lines_html"], "last columns are not compared: the code takes them from the previous line for one-line HTML blocks")
claim("C45", "proved", ["C45_quoted_document", "C45_quoted_html"])
claim("C19", "proved", ["C19_escaped_text_is_literal"], "for both values of the smart option and all renderer options but sourcepos")
claim("C20", "proved", ["C20_plain_line"], "smart off; the characters and line starts with a meaning are listed in Spec.v")
claim("C22", "proved", ["C22_code_span", "C22_code_span_document"])
claim("C29", "proved", ["C29_underscores_in_words"], "letters of ASCII, Latin, Greek, Cyrillic, Hebrew, Devanagari, Thai, Kana, Han and Hangul ranges")
claim("C28", "proved", ["C28_written_back", "C28_written_back_document", "C28_pairing_keeps_text"], "exact for text of ordinary characters and delimiters; for any content the sequence before the last pairing is kept up to the turning of typographic quotes")
claim("C30", "proved", ["C30_same_without_marks", "C30_dashes"], "the same document for all texts without marks; the dashes for all lines of words, spaces and hyphens")
claim("C42", "proved", ["C42_no_empty_paragraphs", "C42_no_empty_paragraphs_refuted", "C42_blank_paragraph_refuted"], "false of the code: refuted by two witnesses; proved for all texts without an opening bracket and without exotic white space")
claim("C43", "partial", ["C43_discarded_title_refuted", "C43_title_place_partial", "C43_one_line_definition_partial"], "false of the code: refuted by witness; for every text the theorems say exactly where a title comes from, and the property holds for definitions on one line")
claim("C44", "partial", ["C44_failed_link_refuted", "C44_brackets_shown_partial"], "false of the code: refuted by witness; proved for lines with no closing parenthesis and no definition")
claim("C08", "proved", ["C08_document_order", "C08_every_node_once", "C08_same_as_tree_walker", "C08_every_tree_stands"])
claim("C09", "proved", ["C09_operations", "C09_new_nodes", "C09_no_sibling_of_a_root"])
claim("C10", "proved", ["C10_normalize", "C10_parsed_texts"], "texts whose literal is None (never parsed) are excluded: adding None raises TypeError")
claim("C11", "proved", ["C11_same_html", "C11_same_html_refuted"], "false of the code when a text is just a line feed: refuted by witness, and proved for all other trees")
claim("C37", "proved", ["C37_rule_lines", "C37_rule_document"],
      "The expression matches exactly the lines of rule_line (three or more of one of * _ -, otherwise only spaces and tabs); such a line behind at most three spaces is a document of one thematic break, HTML <hr />.")
claim("C38", "proved", ["C38_marker", "C38_heading_document", "C38_heading_html", "C38_no_heading_document", "C38_seven"],
      "The marker expression matches exactly the lines of atx_line (1 to 6 number signs, then blanks or the end). The document is one heading of that level whose content satisfies heading_text (text without closing sequence); other lines starting with # are paragraphs; seven signs never open a heading.")
claim("C39", "proved", ["C39_advance_columns", "C39_advance_characters", "C39_indentation", "C39_whole_line"],
      "at_column relates offset, column and the partial-tab flag to the tab-expanded width of the consumed prefix; kept by advancing, by matching the open blocks and by starting new ones. Exception noted in DESIGN.md: add_line moves the offset past a partially consumed tab without moving the column, after which the column is not used.")
claim("C49", "proved", ["C49_flanking", "C49_ascii_punctuation", "C49_marked_word"],
      "Opening and closing are exactly may_open and may_close of the specification for every run; for texts around a phrase in one or two marks the HTML has emphasis exactly if both hold. Which non-ASCII characters are punctuation is the list in the code.")
claim("C17", "proved", ["C17_fenced_tree", "C17_fenced_html", "C17_fenced_info_html", "C17_fenced_then_any_text"],
      "Any fence of three or more backquotes or tildes behind at most three spaces, any lines that do not close it, and a closing line or the end of the text: one code block whose literal is the lines (without as many columns of blanks as the fence is indented, NUL replaced), and the escaped text in HTML.")
claim("C18", "proved", ["C18_indented_tree", "C18_indented_html"],
      "Each line has four columns of blanks (spaces or a tab) or is a shorter blank line; blank lines inside are kept, blank lines of spaces at the end dropped. Ending lines that hold tabs behind the fourth column are kept by the code and are outside the statement.")
claim("C40", "proved", ["C40_block_then_any_text", "C40_block_at_the_end"],
      "Lines from one that begins (behind at most three spaces) with an opening or closing tag of the list block_names, in any case, to the next blank line or the end, before any text: the HTML is these lines, NUL replaced, and then the HTML of the text. In safe mode a comment stands for them. The list is the one of the code; it lacks h2 to h6 and meta.")
claim("C25", "proved", ["C25_entries_stay", "C25_first_definition_wins"],
      "For every text, an entry of the reference map stays as it is from the line that made it to the end, and no label has two. End to end for texts of definitions and references (links and images, shortcut, collapsed and full), one per paragraph, labels being words of ASCII letters and digits and destinations of unreserved characters.")
claim("C26", "proved", ["C26_final_map", "C26_place_of_definition"],
      "For every text, the children of every paragraph and heading are those its content gives with the final map. End to end, the place of a definition has no effect, for the texts of C25.")
claim("C27", "proved", ["C27_no_link_in_link_refuted", "C27_only_autolinks", "C27_no_link_in_link"],
      "As stated the property is false of the code: an address in angle brackets inside link text gives a link in a link (refuted with a witness). For every text, any link below a link is such an address standing between angle brackets in the text; so for every text without a left angle bracket no link lies below a link.")
claim("C50", "proved", ["C50_line_breaks"],
      "End to end, for paragraphs of any number of lines of words (characters without inline markup), each line indented and ended as it likes; with smart punctuation off and source positions off.")
claim("C51", "proved", ["C51_setext_headings"],
      "End to end, for the paragraphs of C50 and all underlines.")
claim("C52", "proved", ["C52_lists"],
      "End to end, for any number of items, each one line of words behind a mark indented by at most one space, with any blank lines behind it; with smart punctuation off and source positions off.")
claim("C53", "proved", ["C53_pieces"],
      "End to end, for lines that begin with words, with smart punctuation, source positions and safe mode off. Link texts are words, destinations are made of letters, digits and marks that need no encoding.")
claim("C54", "proved", ["C54_nested", "C54_nested_refuted"],
      "End to end for lines, with smart punctuation, source positions and safe mode off. The case of a run inside a word inside a longer run of the same mark is refuted by witness.")
claim("C55", "proved", ["C55_item_html", "C55_item_tree", "C55_spaces_refuted"],
      "End to end, for all texts without tabs and without lines of only spaces, with smart punctuation and source positions off. That the condition on lines of spaces is needed is shown by a witness.")
claim("C56", "proved", ["C56_blank_line_between", "C56_join_html", "C56_join_tree", "C56_lists_refuted", "C56_references_refuted"],
      "End to end, with and without smart punctuation, source positions off. Texts with \"]:\" in them are left out, which excludes all reference definitions; that this and the condition on lists are needed is shown by witnesses.")
claim("C57", "proved", ["C57_documents", "C57_order_refuted"],
      "End to end, for every tree of the grammar; smart punctuation, source positions and safe mode off. Lines with \"]:\", tabs, and lines of only spaces are left out; every item begins with a line of words; lists whose items hold blocks have an empty line behind each such line, so they are loose.")
claim("C58", "proved", ["C58_smart_line", "C58_nested_refuted"],
      "End to end, exact text. One line of words; source positions off. Quotation marks next to other inline markup are covered only by C30 and C11.")
claim("C59", "proved", ["C59_many_items", "C59_references_refuted"],
      "End to end, with smart punctuation and source positions off. The first line of each item is words; the texts have no tabs, no lines of only spaces and no \"]:\"; the last condition is shown to be needed by a witness.")
claim("C60", "proved", ["C60_command_line", "C60_no_name", "C60_final_cr_refuted"],
      "cmark.py 30-49 on parsed arguments. argparse, opening and decoding files and encoding the output are not modelled; universal newlines are. That contents ending in a bare carriage return must be left out is shown by a witness.")
claim("C61", "proved", ["C61_lazy_quote", "C61_lazy_tree", "C61_indent", "C61_indent_tree", "C61_any_line_refuted", "C61_no_paragraph_refuted"],
      "HTML with source positions off; the trees with positions (same lines, first column two to the right or the same). Texts without tabs. A paragraph made only of link reference definitions leaves no node and does not count as open. Both conditions are shown to be needed by witnesses.")
claim("C62", "proved", ["C62_no_new_block", "C62_indent", "C62_indent_tree", "C62_nested_refuted", "C62_paragraph_kept_refuted", "C62_letters_refuted"],
      "Lines without tabs; HTML with source positions off. Lines indented by four or more are covered whatever they hold, underlines included. Lines with NUL or one of the letters U+0130, U+0131, U+017F, U+212A are covered only by the listed forms, not by the completeness case; a witness shows that such a letter can make a tag. The names of HTML blocks are those in the code (h2 to h6 and meta are missing there). For paragraphs inside other blocks the claim is false: after a paragraph in a quote an unmarked tag line begins an HTML block (witness).")
claim("C63", "proved", ["C63_interrupted_html", "C63_interrupted_tree", "C63_number_refuted", "C63_underline_refuted"],
      "HTML with source positions off. Texts with \"]:\" in them are left out, which excludes all reference definitions. Paragraphs inside other blocks are not covered. The conditions on numbers and underlines are shown to be needed by witnesses.")
claim("C64", "proved", ["C64_interrupt_iff", "C64_any_line"],
      "Both directions, from C62 and C63; the list is shown to be decidable on the way. Same conditions as there: no \"]:\" in the text, no tabs, NUL or the four letters in the line. The second theorem takes in deeper indentation and underlines; blank lines are the subject of other claims.")
claim("C65", "proved", ["C65_underline", "C65_underline_html"],
      "The paragraph is a child of the document; it may be empty. The statement on HTML is for source positions off.")
