{
 "claims": [
  {
   "property": "C01",
   "status": "proved",
   "theorems": [
    "C01_only_two_exceptions",
    "C01_returns",
    "C01_never_raises_refuted"
   ],
   "note": "for every state of the parser object; the no-exception half is false of the code, refuted by witness, and the exact set of possible exceptions is proved"
  },
  {
   "property": "C02",
   "status": "proved",
   "theorems": [
    "C02_parser_reusable"
   ],
   "note": "for every state of the parser object"
  },
  {
   "property": "C03",
   "status": "proved",
   "theorems": [
    "C03_html_renderer_reusable"
   ],
   "note": "for all sequences of completed renders"
  },
  {
   "property": "C04",
   "status": "proved",
   "theorems": [
    "C04_escape_xml",
    "C04_escape_xml_none_and_plain"
   ],
   "note": ""
  },
  {
   "property": "C05",
   "status": "proved",
   "theorems": [
    "C05_safe_html_of_any_text",
    "C05_safe_render_is_own_markup"
   ],
   "note": "for all texts, and for all trees without custom nodes and with heading levels 1-6"
  },
  {
   "property": "C06",
   "status": "proved",
   "theorems": [
    "C06_html_of_any_text",
    "C06_render_is_balanced"
   ],
   "note": ""
  },
  {
   "property": "C07",
   "status": "proved",
   "theorems": [
    "C05_safe_html_of_any_text",
    "C07_safe_render_urls",
    "C07_destination_tests"
   ],
   "note": ""
  },
  {
   "property": "C08",
   "status": "proved",
   "theorems": [
    "C08_document_order",
    "C08_every_node_once",
    "C08_same_as_tree_walker",
    "C08_every_tree_stands"
   ],
   "note": ""
  },
  {
   "property": "C09",
   "status": "proved",
   "theorems": [
    "C09_operations",
    "C09_new_nodes",
    "C09_no_sibling_of_a_root"
   ],
   "note": ""
  },
  {
   "property": "C10",
   "status": "proved",
   "theorems": [
    "C10_normalize",
    "C10_parsed_texts"
   ],
   "note": "texts whose literal is None (never parsed) are excluded: adding None raises TypeError"
  },
  {
   "property": "C11",
   "status": "proved",
   "theorems": [
    "C11_same_html",
    "C11_same_html_refuted"
   ],
   "note": "false of the code when a text is just a line feed: refuted by witness, and proved for all other trees"
  },
  {
   "property": "C12",
   "status": "proved",
   "theorems": [
    "C12_nesting"
   ],
   "note": ""
  },
  {
   "property": "C13",
   "status": "proved",
   "theorems": [
    "C13_ranges"
   ],
   "note": ""
  },
  {
   "property": "C14",
   "status": "proved",
   "theorems": [
    "C14_no_nul"
   ],
   "note": ""
  },
  {
   "property": "C15",
   "status": "proved",
   "theorems": [
    "C15_crlf",
    "C15_cr",
    "C15_final_cr_refuted"
   ],
   "note": "false of the code for a final bare CR: refuted by witness, and proved for all other texts"
  },
  {
   "property": "C16",
   "status": "proved",
   "theorems": [
    "C16_final_newline"
   ],
   "note": ""
  },
  {
   "property": "C17",
   "status": "proved",
   "theorems": [
    "C17_fenced_tree",
    "C17_fenced_html",
    "C17_fenced_info_html",
    "C17_fenced_then_any_text"
   ],
   "note": "Any fence of three or more backquotes or tildes behind at most three spaces, any lines that do not close it, and a closing line or the end of the text: one code block whose literal is the lines (without as many columns of blanks as the fence is indented, NUL replaced), and the escaped text in HTML."
  },
  {
   "property": "C18",
   "status": "proved",
   "theorems": [
    "C18_indented_tree",
    "C18_indented_html"
   ],
   "note": "Each line has four columns of blanks (spaces or a tab) or is a shorter blank line; blank lines inside are kept, blank lines of spaces at the end dropped. Ending lines that hold tabs behind the fourth column are kept by the code and are outside the statement."
  },
  {
   "property": "C19",
   "status": "proved",
   "theorems": [
    "C19_escaped_text_is_literal"
   ],
   "note": "for both values of the smart option and all renderer options but sourcepos"
  },
  {
   "property": "C20",
   "status": "proved",
   "theorems": [
    "C20_plain_line"
   ],
   "note": "smart off; the characters and line starts with a meaning are listed in Spec.v"
  },
  {
   "property": "C21",
   "status": "proved",
   "theorems": [
    "C21_decimal_reference",
    "C21_hexadecimal_reference",
    "C21_at_most_one_character"
   ],
   "note": "for digit strings of any length; the syntax allows a subset of them"
  },
  {
   "property": "C22",
   "status": "proved",
   "theorems": [
    "C22_code_span",
    "C22_code_span_document"
   ],
   "note": ""
  },
  {
   "property": "C23",
   "status": "proved",
   "theorems": [
    "C23_only_uri_characters",
    "C23_raises_only_for_surrogates",
    "C23_idempotent",
    "C23_percent_decoding_gives_back_utf8",
    "C23_parsed_destinations"
   ],
   "note": ""
  },
  {
   "property": "C24",
   "status": "proved",
   "theorems": [
    "C24_case_and_spacing_ignored",
    "C24_stable",
    "C24_visible_label_has_a_key",
    "C24_nothing_else_ignored"
   ],
   "note": ""
  },
  {
   "property": "C25",
   "status": "proved",
   "theorems": [
    "C25_entries_stay",
    "C25_first_definition_wins"
   ],
   "note": "For every text, an entry of the reference map stays as it is from the line that made it to the end, and no label has two. End to end for texts of definitions and references (links and images, shortcut, collapsed and full), one per paragraph, labels being words of ASCII letters and digits and destinations of unreserved characters."
  },
  {
   "property": "C26",
   "status": "proved",
   "theorems": [
    "C26_final_map",
    "C26_place_of_definition"
   ],
   "note": "For every text, the children of every paragraph and heading are those its content gives with the final map. End to end, the place of a definition has no effect, for the texts of C25."
  },
  {
   "property": "C27",
   "status": "proved",
   "theorems": [
    "C27_no_link_in_link_refuted",
    "C27_only_autolinks",
    "C27_no_link_in_link"
   ],
   "note": "As stated the property is false of the code: an address in angle brackets inside link text gives a link in a link (refuted with a witness). For every text, any link below a link is such an address standing between angle brackets in the text; so for every text without a left angle bracket no link lies below a link."
  },
  {
   "property": "C28",
   "status": "proved",
   "theorems": [
    "C28_written_back",
    "C28_written_back_document",
    "C28_pairing_keeps_text"
   ],
   "note": "exact for text of ordinary characters and delimiters; for any content the sequence before the last pairing is kept up to the turning of typographic quotes"
  },
  {
   "property": "C29",
   "status": "proved",
   "theorems": [
    "C29_underscores_in_words"
   ],
   "note": "letters of ASCII, Latin, Greek, Cyrillic, Hebrew, Devanagari, Thai, Kana, Han and Hangul ranges"
  },
  {
   "property": "C30",
   "status": "proved",
   "theorems": [
    "C30_same_without_marks",
    "C30_dashes"
   ],
   "note": "the same document for all texts without marks; the dashes for all lines of words, spaces and hyphens"
  },
  {
   "property": "C31",
   "status": "proved",
   "theorems": [
    "C31_commonmark_dispatch"
   ],
   "note": ""
  },
  {
   "property": "C32",
   "status": "proved",
   "theorems": [
    "C32_children_refuted",
    "C32_dump_lists_events"
   ],
   "note": "the property as worded is false of the code; refuted by witness, and the true variant is proved"
  },
  {
   "property": "C33",
   "status": "proved",
   "theorems": [
    "C33_rst_rendering_returns_exactly_if",
    "C33_rst_always_renders_refuted"
   ],
   "note": "the property as worded is false of the code; refuted by witness, and the exact condition is proved"
  },
  {
   "property": "C34",
   "status": "proved",
   "theorems": [
    "C34_rst_renderer_reusable"
   ],
   "note": "for completed renders"
  },
  {
   "property": "C35",
   "status": "proved",
   "theorems": [
    "C35_source_positions"
   ],
   "note": ""
  },
  {
   "property": "C36",
   "status": "proved",
   "theorems": [
    "C36_tight_paragraph_no_tag"
   ],
   "note": ""
  },
  {
   "property": "C37",
   "status": "proved",
   "theorems": [
    "C37_rule_lines",
    "C37_rule_document"
   ],
   "note": "The expression matches exactly the lines of rule_line (three or more of one of * _ -, otherwise only spaces and tabs); such a line behind at most three spaces is a document of one thematic break, HTML <hr />."
  },
  {
   "property": "C38",
   "status": "proved",
   "theorems": [
    "C38_marker",
    "C38_heading_document",
    "C38_heading_html",
    "C38_no_heading_document",
    "C38_seven"
   ],
   "note": "The marker expression matches exactly the lines of atx_line (1 to 6 number signs, then blanks or the end). The document is one heading of that level whose content satisfies heading_text (text without closing sequence); other lines starting with # are paragraphs; seven signs never open a heading."
  },
  {
   "property": "C39",
   "status": "proved",
   "theorems": [
    "C39_advance_columns",
    "C39_advance_characters",
    "C39_indentation",
    "C39_whole_line"
   ],
   "note": "at_column relates offset, column and the partial-tab flag to the tab-expanded width of the consumed prefix; kept by advancing, by matching the open blocks and by starting new ones. Exception noted in DESIGN.md: add_line moves the offset past a partially consumed tab without moving the column, after which the column is not used."
  },
  {
   "property": "C40",
   "status": "proved",
   "theorems": [
    "C40_block_then_any_text",
    "C40_block_at_the_end"
   ],
   "note": "Lines from one that begins (behind at most three spaces) with an opening or closing tag of the list block_names, in any case, to the next blank line or the end, before any text: the HTML is these lines, NUL replaced, and then the HTML of the text. In safe mode a comment stands for them. The list is the one of the code; it lacks h2 to h6 and meta."
  },
  {
   "property": "C41",
   "status": "proved",
   "theorems": [
    "C41_blank_text_is_empty",
    "C41_leading_blank_lines",
    "C41_leading_blank_lines_html"
   ],
   "note": "last columns are not compared: the code takes them from the previous line for one-line HTML blocks"
  },
  {
   "property": "C42",
   "status": "proved",
   "theorems": [
    "C42_no_empty_paragraphs",
    "C42_no_empty_paragraphs_refuted",
    "C42_blank_paragraph_refuted"
   ],
   "note": "false of the code: refuted by two witnesses; proved for all texts without an opening bracket and without exotic white space"
  },
  {
   "property": "C43",
   "status": "partial",
   "theorems": [
    "C43_discarded_title_refuted",
    "C43_title_place_partial",
    "C43_one_line_definition_partial"
   ],
   "note": "false of the code: refuted by witness; for every text the theorems say exactly where a title comes from, and the property holds for definitions on one line"
  },
  {
   "property": "C44",
   "status": "partial",
   "theorems": [
    "C44_failed_link_refuted",
    "C44_brackets_shown_partial"
   ],
   "note": "false of the code: refuted by witness; proved for lines with no closing parenthesis and no definition"
  },
  {
   "property": "C45",
   "status": "proved",
   "theorems": [
    "C45_quoted_document",
    "C45_quoted_html"
   ],
   "note": ""
  },
  {
   "property": "C46",
   "status": "proved",
   "theorems": [
    "C46_identity_without_escapes",
    "C46_undoes_escaping"
   ],
   "note": ""
  },
  {
   "property": "C47",
   "status": "proved",
   "theorems": [
    "C47_listed_names",
    "C47_unlisted_names"
   ],
   "note": ""
  },
  {
   "property": "C48",
   "status": "proved",
   "theorems": [
    "C48_html_rendering_returns"
   ],
   "note": ""
  },
  {
   "property": "C49",
   "status": "proved",
   "theorems": [
    "C49_flanking",
    "C49_ascii_punctuation",
    "C49_marked_word"
   ],
   "note": "Opening and closing are exactly may_open and may_close of the specification for every run; for texts around a phrase in one or two marks the HTML has emphasis exactly if both hold. Which non-ASCII characters are punctuation is the list in the code."
  },
  {
   "property": "C50",
   "status": "proved",
   "theorems": [
    "C50_line_breaks"
   ],
   "note": "End to end, for paragraphs of any number of lines of words (characters without inline markup), each line indented and ended as it likes; with smart punctuation off and source positions off."
  },
  {
   "property": "C51",
   "status": "proved",
   "theorems": [
    "C51_setext_headings"
   ],
   "note": "End to end, for the paragraphs of C50 and all underlines."
  },
  {
   "property": "C52",
   "status": "proved",
   "theorems": [
    "C52_lists"
   ],
   "note": "End to end, for any number of items, each one line of words behind a mark indented by at most one space, with any blank lines behind it; with smart punctuation off and source positions off."
  },
  {
   "property": "C53",
   "status": "proved",
   "theorems": [
    "C53_pieces"
   ],
   "note": "End to end, for lines that begin with words, with smart punctuation, source positions and safe mode off. Link texts are words, destinations are made of letters, digits and marks that need no encoding."
  },
  {
   "property": "C54",
   "status": "proved",
   "theorems": [
    "C54_nested",
    "C54_nested_refuted"
   ],
   "note": "End to end for lines, with smart punctuation, source positions and safe mode off. The case of a run inside a word inside a longer run of the same mark is refuted by witness."
  },
  {
   "property": "C55",
   "status": "proved",
   "theorems": [
    "C55_item_html",
    "C55_item_tree",
    "C55_spaces_refuted"
   ],
   "note": "End to end, for all texts without tabs and without lines of only spaces, with smart punctuation and source positions off. That the condition on lines of spaces is needed is shown by a witness."
  },
  {
   "property": "C56",
   "status": "proved",
   "theorems": [
    "C56_blank_line_between",
    "C56_join_html",
    "C56_join_tree",
    "C56_lists_refuted",
    "C56_references_refuted"
   ],
   "note": "End to end, with and without smart punctuation, source positions off. Texts with \"]:\" in them are left out, which excludes all reference definitions; that this and the condition on lists are needed is shown by witnesses."
  },
  {
   "property": "C57",
   "status": "proved",
   "theorems": [
    "C57_documents",
    "C57_order_refuted"
   ],
   "note": "End to end, for every tree of the grammar; smart punctuation, source positions and safe mode off. Lines with \"]:\", tabs, and lines of only spaces are left out; every item begins with a line of words; lists whose items hold blocks have an empty line behind each such line, so they are loose."
  },
  {
   "property": "C58",
   "status": "proved",
   "theorems": [
    "C58_smart_line",
    "C58_nested_refuted"
   ],
   "note": "End to end, exact text. One line of words; source positions off. Quotation marks next to other inline markup are covered only by C30 and C11."
  },
  {
   "property": "C59",
   "status": "proved",
   "theorems": [
    "C59_many_items",
    "C59_references_refuted"
   ],
   "note": "End to end, with smart punctuation and source positions off. The first line of each item is words; the texts have no tabs, no lines of only spaces and no \"]:\"; the last condition is shown to be needed by a witness."
  },
  {
   "property": "C60",
   "status": "proved",
   "theorems": [
    "C60_command_line",
    "C60_no_name",
    "C60_final_cr_refuted"
   ],
   "note": "cmark.py 30-49 on parsed arguments. argparse, opening and decoding files and encoding the output are not modelled; universal newlines are. That contents ending in a bare carriage return must be left out is shown by a witness."
  },
  {
   "property": "C61",
   "status": "proved",
   "theorems": [
    "C61_lazy_quote",
    "C61_lazy_tree",
    "C61_indent",
    "C61_indent_tree",
    "C61_any_line_refuted",
    "C61_no_paragraph_refuted"
   ],
   "note": "HTML with source positions off; the trees with positions (same lines, first column two to the right or the same). Texts without tabs. A paragraph made only of link reference definitions leaves no node and does not count as open. Both conditions are shown to be needed by witnesses."
  },
  {
   "property": "C62",
   "status": "proved",
   "theorems": [
    "C62_no_new_block",
    "C62_indent",
    "C62_indent_tree",
    "C62_nested_refuted",
    "C62_paragraph_kept_refuted",
    "C62_letters_refuted"
   ],
   "note": "Lines without tabs; HTML with source positions off. Lines indented by four or more are covered whatever they hold, underlines included. Lines with NUL or one of the letters U+0130, U+0131, U+017F, U+212A are covered only by the listed forms, not by the completeness case; a witness shows that such a letter can make a tag. The names of HTML blocks are those in the code (h2 to h6 and meta are missing there). For paragraphs inside other blocks the claim is false: after a paragraph in a quote an unmarked tag line begins an HTML block (witness)."
  },
  {
   "property": "C63",
   "status": "proved",
   "theorems": [
    "C63_interrupted_html",
    "C63_interrupted_tree",
    "C63_number_refuted",
    "C63_underline_refuted"
   ],
   "note": "HTML with source positions off. Texts with \"]:\" in them are left out, which excludes all reference definitions. Paragraphs inside other blocks are not covered. The conditions on numbers and underlines are shown to be needed by witnesses."
  },
  {
   "property": "C64",
   "status": "proved",
   "theorems": [
    "C64_interrupt_iff",
    "C64_any_line"
   ],
   "note": "Both directions, from C62 and C63; the list is shown to be decidable on the way. Same conditions as there: no \"]:\" in the text, no tabs, NUL or the four letters in the line. The second theorem takes in deeper indentation and underlines; blank lines are the subject of other claims."
  },
  {
   "property": "C65",
   "status": "proved",
   "theorems": [
    "C65_underline",
    "C65_underline_html"
   ],
   "note": "The paragraph is a child of the document; it may be empty. The statement on HTML is for source positions off."
  }
 ]
}