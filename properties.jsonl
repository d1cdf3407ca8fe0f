{"id": "C01", "title": "Parsing terminates and never raises", "statement": "Parser().parse(text) returns a document for every str: no loop of the block or inline parser runs forever and no exception escapes. (The code violates the no-exception half for two input families: a numeric character reference to a non-character right before a line break, and lone surrogates in a link destination; what holds is that these are the only possible exceptions, and that texts without '&#' and without surrogates always parse.)", "quantifier": "all Unicode strings, of any length and nesting depth", "why_tests_cant": "the input space is infinite and the failing inputs found here were missed by the project's own hypothesis fuzzing", "anchors": [{"file": "commonmark/blocks.py", "symbols": ["Parser.parse", "Parser.incorporate_line", "Parser.close_unmatched_blocks", "Parser.add_child"]}, {"file": "commonmark/inlines.py", "symbols": ["InlineParser.parseInlines", "InlineParser.processEmphasis", "InlineParser.parseNewline"]}, {"file": "commonmark/common.py", "symbols": ["normalize_uri"]}]}
{"id": "C02", "title": "A Parser object can be reused", "statement": "The document returned by parse(text) depends only on text and the options given to the constructor, not on what the Parser object was used for before, including earlier parses that raised half way.", "quantifier": "all texts and all prior states of the Parser object", "why_tests_cant": "the set of histories is infinite; parse() resets only some of the attributes", "anchors": [{"file": "commonmark/blocks.py", "symbols": ["Parser.parse", "Parser.__init__"]}, {"file": "commonmark/inlines.py", "symbols": ["InlineParser"]}]}
{"id": "C03", "title": "A HtmlRenderer object can be reused", "statement": "After render(ast) has returned, the renderer is back in its initial state for the purpose of later renders: render(b) gives the same HTML whether or not other documents were rendered before with the same object.", "quantifier": "all documents, all sequences of completed renders", "why_tests_cant": "the disable_tags counter is never reset by render(); its return to zero must hold for every tree", "anchors": [{"file": "commonmark/render/renderer.py", "symbols": ["Renderer.render"]}, {"file": "commonmark/render/html.py", "symbols": ["HtmlRenderer.image", "HtmlRenderer.tag"]}]}
{"id": "C04", "title": "XML escaping is safe and lossless", "statement": "escape_xml(s) contains no raw '<', '>' or '\"', every '&' in it starts one of the four named entities, and decoding these four entities gives back s; None gives the empty string; strings without special characters are unchanged.", "quantifier": "all strings", "why_tests_cant": "infinitely many strings", "anchors": [{"file": "commonmark/common.py", "symbols": ["escape_xml", "UNSAFE_MAP", "reXmlSpecial"]}]}
{"id": "C05", "title": "Safe mode emits only the renderer's own markup", "statement": "With options={'safe': True} the HTML of any document is a properly nested sequence of tags taken from a fixed list of names with a fixed list of attributes, escaped text, and the fixed 'raw HTML omitted' comment: nothing taken from the document can introduce a tag, close one, or break out of an attribute value.", "quantifier": "all document trees the parser can build, hence all input texts", "why_tests_cant": "an injection needs only one bad input among infinitely many", "anchors": [{"file": "commonmark/render/html.py", "symbols": ["HtmlRenderer"]}, {"file": "commonmark/common.py", "symbols": ["escape_xml"]}, {"file": "commonmark/render/renderer.py", "symbols": ["Renderer.render"]}]}
{"id": "C06", "title": "HTML output is balanced", "statement": "Without safe mode, the HTML is balanced in the same sense once the verbatim raw-HTML nodes are set aside: every tag the renderer opens for a node is closed, in nesting order, except that tags inside image alternative text are suppressed.", "quantifier": "all document trees", "why_tests_cant": "every tree shape matters", "anchors": [{"file": "commonmark/render/html.py", "symbols": ["HtmlRenderer"]}, {"file": "commonmark/render/renderer.py", "symbols": ["Renderer.render"]}]}
{"id": "C07", "title": "Safe mode emits no unsafe URL", "statement": "With options={'safe': True}, the href of every link and the src of every image either comes from a destination that the unsafe-protocol test rejects as unsafe, in which case it is dropped, or from one that does not start with javascript: in any letter case and, unless it starts with an allowed data:image type, contains none of vbscript:, file:, data:.", "quantifier": "all document trees and destinations", "why_tests_cant": "infinitely many destinations and trees", "anchors": [{"file": "commonmark/render/html.py", "symbols": ["potentially_unsafe", "HtmlRenderer.link", "HtmlRenderer.image"]}]}
{"id": "C08", "title": "The tree walker visits every node in document order", "statement": "Iterating node.walker() yields, in document order, one entering event for every node under node, plus exactly one exit event for every container after all events of its children; nothing else; and it stops.", "quantifier": "all well-formed trees of any shape, any start node in them", "why_tests_cant": "tree shapes are unbounded; the walker is a pointer-chasing loop with no visited set", "anchors": [{"file": "commonmark/node.py", "symbols": ["NodeWalker.__next__", "NodeWalker.nxt", "is_container"]}]}
{"id": "C09", "title": "Node mutators keep the tree consistent", "statement": "append_child, prepend_child, insert_after, insert_before and unlink change the children lists exactly like the corresponding list operations (the moved node is first removed from where it was) and leave the parent/first_child/last_child/prv/nxt links mutually consistent; no other node moves.", "quantifier": "all well-formed forests, all target nodes, all sequences of operations", "why_tests_cant": "five interdependent pointers per node; every sequence of operations must preserve them", "anchors": [{"file": "commonmark/node.py", "symbols": ["Node.append_child", "Node.prepend_child", "Node.unlink", "Node.insert_after", "Node.insert_before"]}]}
{"id": "C10", "title": "normalize() merges adjacent text and nothing else", "statement": "After node.normalize() no two adjacent siblings are both text, the text content read in document order and all other nodes are unchanged, and a second normalize() changes nothing.", "quantifier": "all well-formed trees", "why_tests_cant": "the loop unlinks nodes while the walker is standing on them", "anchors": [{"file": "commonmark/node.py", "symbols": ["Node.normalize", "NodeWalker.__next__"]}]}
{"id": "C11", "title": "normalize() does not change the rendered HTML", "statement": "render(ast) is the same before and after ast.normalize(). (False of the code when a text node is exactly a line feed, from &#10;, or empty; it holds for all other trees.)", "quantifier": "all well-formed trees", "why_tests_cant": "depends on the renderer's last_out memory, only observable on rare trees", "anchors": [{"file": "commonmark/node.py", "symbols": ["Node.normalize"]}, {"file": "commonmark/render/renderer.py", "symbols": ["Renderer.cr", "Renderer.lit"]}, {"file": "commonmark/render/html.py", "symbols": ["HtmlRenderer.text"]}]}
{"id": "C12", "title": "Parsed documents have the documented node nesting", "statement": "In every parsed document the root is a document; document, block_quote and item hold only blocks other than item; list holds only items and at least one; paragraph and heading hold only inlines; emph, strong, link and image hold only inlines; all other nodes are leaves.", "quantifier": "all input texts", "why_tests_cant": "a single bad interleaving of block starts would break it", "anchors": [{"file": "commonmark/blocks.py", "symbols": ["Parser.add_child", "Block.can_contain", "BlockStarts"]}, {"file": "commonmark/inlines.py", "symbols": ["InlineParser"]}]}
{"id": "C13", "title": "Heading levels and list starts stay in range", "statement": "Every heading of a parsed document has level 1 to 6, every ordered list a start number between 0 and 999999999, every bullet list one of the three bullet characters and no start number.", "quantifier": "all input texts", "why_tests_cant": "all inputs", "anchors": [{"file": "commonmark/blocks.py", "symbols": ["BlockStarts.atx_heading", "BlockStarts.setext_heading", "parse_list_marker"]}]}
{"id": "C14", "title": "No NUL character survives", "statement": "No string stored in a parsed document and no rendered HTML of it contains U+0000, whatever the input or the character references in it.", "quantifier": "all input texts", "why_tests_cant": "all inputs and all numeric references", "anchors": [{"file": "commonmark/blocks.py", "symbols": ["Parser.incorporate_line"]}, {"file": "commonmark/entitytrans.py", "symbols": ["_replace_charref"]}]}
{"id": "C15", "title": "Line-ending style does not matter", "statement": "Writing the line breaks of a text as LF, CRLF or CR gives the same document. (False of the code when the text ends in a bare CR; it holds for CRLF always and for CR except at the very end.)", "quantifier": "all texts and all ways of mixing line endings", "why_tests_cant": "all inputs", "anchors": [{"file": "commonmark/blocks.py", "symbols": ["reLineEnding", "Parser.parse"]}]}
{"id": "C16", "title": "A final newline does not matter", "statement": "parse(text) and parse(text + '\\n') give the same document, if text is not empty and does not itself end with a line break character.", "quantifier": "all texts", "why_tests_cant": "all inputs", "anchors": [{"file": "commonmark/blocks.py", "symbols": ["Parser.parse"]}]}
{"id": "C17", "title": "Fenced code is verbatim", "statement": "A fence of n>=3 backticks (or tildes), any lines none of which is a closing fence, and the closing fence give exactly one code_block whose literal is these lines with NUL replaced, and whose HTML is their escaped text.", "quantifier": "all lists of lines, all fence lengths", "why_tests_cant": "content is arbitrary", "anchors": [{"file": "commonmark/blocks.py", "symbols": ["BlockStarts.fenced_code_block", "CodeBlock.continue_", "CodeBlock.finalize", "Parser.add_line"]}]}
{"id": "C18", "title": "Indented code is verbatim", "statement": "Lines each indented by four spaces, the first and last not blank, give exactly one code_block whose literal is these lines without the four spaces.", "quantifier": "all lists of lines", "why_tests_cant": "content is arbitrary", "anchors": [{"file": "commonmark/blocks.py", "symbols": ["BlockStarts.indented_code_block", "CodeBlock.continue_", "CodeBlock.finalize"]}]}
{"id": "C19", "title": "Backslash-escaping makes any text literal", "statement": "Take any non-empty single-line text that neither starts nor ends with white space and contains no NUL; put a backslash before each ASCII punctuation character; commonmark() of it is one paragraph showing exactly that text, escaped for HTML.", "quantifier": "all such texts", "why_tests_cant": "all inputs; every markup character must be neutralised in every context", "anchors": [{"file": "commonmark/inlines.py", "symbols": ["InlineParser.parseBackslash", "InlineParser.parseString", "reEscapable"]}, {"file": "commonmark/blocks.py", "symbols": ["Parser.incorporate_line"]}]}
{"id": "C20", "title": "Plain words pass through", "statement": "A line of characters without any Markdown meaning renders as one paragraph holding exactly that line.", "quantifier": "all such lines", "why_tests_cant": "all inputs", "anchors": [{"file": "commonmark/inlines.py", "symbols": ["InlineParser.parseString", "reMain"]}, {"file": "commonmark/blocks.py", "symbols": ["reMaybeSpecial"]}]}
{"id": "C21", "title": "Numeric character references decode to their character", "statement": "&#n; and &#xh; decode to the character with that number for every valid number, to U+FFFD for zero, surrogates and numbers above 0x10FFFF, to the Windows-1252 character for 0x80-0x9F where one is defined; every result is at most one character.", "quantifier": "all numbers the syntax allows", "why_tests_cant": "over a million code points times spellings", "anchors": [{"file": "commonmark/entitytrans.py", "symbols": ["_replace_charref", "_unescape"]}, {"file": "commonmark/common.py", "symbols": ["ENTITY"]}, {"file": "commonmark/inlines.py", "symbols": ["InlineParser.parseEntity"]}]}
{"id": "C22", "title": "Code spans are verbatim", "statement": "n backticks, a text without a run of exactly n backticks at its ends or inside, and n backticks parse to one code node whose literal is the text with line feeds turned into spaces, less one space on each side if both are there and the text is not all spaces.", "quantifier": "all texts and all n >= 1", "why_tests_cant": "content is arbitrary", "anchors": [{"file": "commonmark/inlines.py", "symbols": ["InlineParser.parseBackticks", "reTicks", "reTicksHere"]}]}
{"id": "C23", "title": "Destinations are valid percent-encoded ASCII", "statement": "normalize_uri(u) contains only ASCII letters, digits and _.-~;/@:+?=&()%#*, for every u it accepts; it raises only for lone surrogates; applying it twice is the same as once; percent-decoding it gives the UTF-8 bytes of u whenever u has no '%'. Hence so are all destinations in a parsed document.", "quantifier": "all strings", "why_tests_cant": "all of Unicode", "anchors": [{"file": "commonmark/common.py", "symbols": ["normalize_uri"]}, {"file": "commonmark/inlines.py", "symbols": ["InlineParser.parseLinkDestination", "InlineParser.parseAutolink"]}]}
{"id": "C24", "title": "Reference labels match up to case and spacing", "statement": "normalize_reference ignores ASCII letter case and differences in the amount and kind of inner and outer spacing, is stable under re-normalisation, and never maps a visible label to the empty key.", "quantifier": "all labels", "why_tests_cant": "all strings", "anchors": [{"file": "commonmark/normalize_reference.py", "symbols": ["normalize_reference", "XLAT", "_parse_table"]}]}
{"id": "C25", "title": "The first definition of a label wins", "statement": "If a text defines a label several times, every reference to it resolves to the first definition in the text; a definition never changes an entry already present.", "quantifier": "all texts, all sequences of definitions", "why_tests_cant": "order matters over arbitrary histories", "anchors": [{"file": "commonmark/inlines.py", "symbols": ["InlineParser.parseReference"]}, {"file": "commonmark/blocks.py", "symbols": ["Paragraph.finalize"]}]}
{"id": "C26", "title": "References work before their definition", "statement": "Whether a link reference resolves depends only on the set of definitions in the whole text, not on whether the definition comes before or after it: all inline parsing of a document uses the final reference map.", "quantifier": "all texts", "why_tests_cant": "all inputs", "anchors": [{"file": "commonmark/blocks.py", "symbols": ["Parser.process_inlines", "Parser.parse"]}]}
{"id": "C27", "title": "Links never contain links", "statement": "No link node has another link among its descendants. (False of the code for autolinks in link text; it holds for bracketed links.)", "quantifier": "all input texts", "why_tests_cant": "all bracket nestings", "anchors": [{"file": "commonmark/inlines.py", "symbols": ["InlineParser.parseCloseBracket", "InlineParser.parseAutolink"]}]}
{"id": "C28", "title": "Emphasis processing loses no text", "statement": "Pairing delimiters only turns delimiter characters into emph/strong nodes: writing back one delimiter character on each side of every emph and two of every strong gives exactly the character sequence that was there before.", "quantifier": "all delimiter sequences", "why_tests_cant": "quadratically many pairings, unbounded nesting", "anchors": [{"file": "commonmark/inlines.py", "symbols": ["InlineParser.processEmphasis", "InlineParser.handleDelim"]}]}
{"id": "C29", "title": "Underscores inside words are literal", "statement": "A text made only of letters, digits and underscores that starts and ends with a letter or digit has no emphasis: it renders as itself.", "quantifier": "all such texts", "why_tests_cant": "all inputs", "anchors": [{"file": "commonmark/inlines.py", "symbols": ["InlineParser.scanDelims"]}]}
{"id": "C30", "title": "The smart option changes only punctuation", "statement": "On a text with no quote characters, no two adjacent hyphens and no three adjacent full stops, parsing with smart on and off gives the same document; a run of n>=2 hyphens becomes em dashes then en dashes accounting for exactly n hyphens.", "quantifier": "all texts; all n", "why_tests_cant": "all inputs", "anchors": [{"file": "commonmark/inlines.py", "symbols": ["InlineParser.parseString", "smart_dashes", "InlineParser.handleDelim"]}]}
{"id": "C31", "title": "commonmark() dispatches on format", "statement": "commonmark(text, format) equals parse followed by the HTML or RST renderer or the JSON dump for 'html', 'rst', 'json', and raises ValueError exactly for other format names when the text parses.", "quantifier": "all texts and format strings", "why_tests_cant": "all inputs", "anchors": [{"file": "commonmark/main.py", "symbols": ["commonmark"]}]}
{"id": "C32", "title": "JSON dump nests children under their parents", "statement": "In dumpJSON(ast) the objects under 'children' of a container are exactly its child nodes. (False of the code: all nodes up to the first exit are put under the root and each container appears again at top level; what holds is that the dump lists exactly the walker's events.)", "quantifier": "all trees", "why_tests_cant": "all trees", "anchors": [{"file": "commonmark/dump.py", "symbols": ["prepare", "dumpJSON"]}]}
{"id": "C33", "title": "RST rendering succeeds on every document", "statement": "ReStructuredTextRenderer().render(ast) returns for every parsed document. (False of the code for headings that are empty or start with a non-text inline; it holds for all others.)", "quantifier": "all parsed documents", "why_tests_cant": "all inputs", "anchors": [{"file": "commonmark/render/rst.py", "symbols": ["ReStructuredTextRenderer.heading", "ReStructuredTextRenderer.image"]}]}
{"id": "C34", "title": "RST renderer can be reused", "statement": "The indentation level of a ReStructuredTextRenderer returns to its value after each completed render, so later renders are unaffected. (After a render that raised inside a block quote or item it does not.)", "quantifier": "all documents and sequences of renders", "why_tests_cant": "histories", "anchors": [{"file": "commonmark/render/rst.py", "symbols": ["ReStructuredTextRenderer"]}]}
{"id": "C35", "title": "Source positions are sane", "statement": "Every block of a parsed document has a source range whose start line is at least 1, whose end line is not before its start line nor after the number of lines, and that lies within the line range of its parent.", "quantifier": "all input texts", "why_tests_cant": "all inputs", "anchors": [{"file": "commonmark/blocks.py", "symbols": ["Parser.finalize", "Parser.add_child", "Parser.parse"]}]}
{"id": "C36", "title": "Tight lists have no paragraph tags", "statement": "In the HTML of a document the paragraphs directly in the items of a list get <p> tags exactly if the list is loose.", "quantifier": "all trees", "why_tests_cant": "all trees", "anchors": [{"file": "commonmark/render/html.py", "symbols": ["HtmlRenderer.paragraph"]}, {"file": "commonmark/blocks.py", "symbols": ["List.finalize", "ends_with_blank_line"]}]}
{"id": "C37", "title": "Thematic breaks are recognised exactly", "statement": "A line, after at most three columns of indentation, is matched by the thematic break rule iff it consists of three or more of the same one of * _ - and otherwise only spaces and tabs.", "quantifier": "all lines", "why_tests_cant": "all strings", "anchors": [{"file": "commonmark/blocks.py", "symbols": ["reThematicBreak", "BlockStarts.thematic_break"]}]}
{"id": "C38", "title": "ATX headings are recognised exactly", "statement": "A line whose first non-blank text starts with 1-6 '#' followed by space, tab or end of line opens a heading of that level whose content is the rest without the closing sequence; 7 or more '#' never do.", "quantifier": "all lines", "why_tests_cant": "all strings", "anchors": [{"file": "commonmark/blocks.py", "symbols": ["reATXHeadingMarker", "BlockStarts.atx_heading"]}]}
{"id": "C39", "title": "Tab stops are four columns", "statement": "Advancing the parser by columns moves the column by exactly the requested amount unless the line ends; the column always equals the tab-expanded width of the consumed prefix, up to a partially consumed tab.", "quantifier": "all lines and offsets", "why_tests_cant": "all strings and positions", "anchors": [{"file": "commonmark/blocks.py", "symbols": ["Parser.advance_offset", "Parser.find_next_nonspace", "Parser.advance_next_nonspace"]}]}
{"id": "C40", "title": "HTML blocks are verbatim", "statement": "An HTML block opened by a block-level tag runs to the next blank line and is output unchanged.", "quantifier": "all such blocks", "why_tests_cant": "content is arbitrary", "anchors": [{"file": "commonmark/blocks.py", "symbols": ["BlockStarts.html_block", "HtmlBlock.continue_", "HtmlBlock.finalize"]}]}
{"id": "C41", "title": "Blank lines around a document do not matter", "statement": "A text of only spaces, tabs and line breaks gives an empty document and empty HTML; blank lines before the first block change nothing but line numbers.", "quantifier": "all texts", "why_tests_cant": "all inputs", "anchors": [{"file": "commonmark/blocks.py", "symbols": ["Parser.incorporate_line"]}]}
{"id": "C42", "title": "No empty paragraphs", "statement": "A parsed document has no paragraph without content. (False of the code: link definitions followed by a line of hyphens leave one.)", "quantifier": "all input texts", "why_tests_cant": "all inputs", "anchors": [{"file": "commonmark/blocks.py", "symbols": ["Paragraph.finalize", "BlockStarts.setext_heading"]}]}
{"id": "C43", "title": "A discarded title is not used", "statement": "A link definition whose would-be title is not alone on its line has no title. (False of the code: the title is kept.)", "quantifier": "all definitions", "why_tests_cant": "all inputs", "anchors": [{"file": "commonmark/inlines.py", "symbols": ["InlineParser.parseReference"]}]}
{"id": "C44", "title": "A failed inline link loses no text", "statement": "If the parenthesised part after a bracketed text is not a valid inline link tail, the text in it still appears in the output. (False of the code: a label after the failed destination is used as a full reference and the text before it is dropped.)", "quantifier": "all texts", "why_tests_cant": "all inputs", "anchors": [{"file": "commonmark/inlines.py", "symbols": ["InlineParser.parseCloseBracket"]}]}
{"id": "C45", "title": "Quoting a document wraps it", "statement": "Prefixing every line of a tab-free text with '> ' gives the same blocks inside one block_quote.", "quantifier": "all tab-free texts", "why_tests_cant": "relates two parser runs on every input", "anchors": [{"file": "commonmark/blocks.py", "symbols": ["BlockQuote.continue_", "BlockStarts.block_quote", "Parser.incorporate_line"]}]}
{"id": "C46", "title": "unescape_string undoes escaping", "statement": "unescape_string is the identity on strings without backslash and ampersand, and maps the backslash-escaped form of any string (every ASCII punctuation character escaped) back to it.", "quantifier": "all strings", "why_tests_cant": "all strings", "anchors": [{"file": "commonmark/common.py", "symbols": ["unescape_string", "reEntityOrEscapedChar"]}]}
{"id": "C47", "title": "Named entities resolve by the HTML5 table", "statement": "A named reference &name; that is in the table decodes to its value; one that is not in the table and has no listed prefix stays as written.", "quantifier": "all names", "why_tests_cant": "all strings over the name syntax", "anchors": [{"file": "commonmark/entitytrans.py", "symbols": ["_html5", "_replace_charref"]}]}
{"id": "C48", "title": "HTML rendering never raises on a parsed document", "statement": "HtmlRenderer(options).render(ast) returns a string for every document returned by Parser.parse, for all options and whatever the renderer object was used for before.", "quantifier": "all texts that parse, all options, all renderer states", "why_tests_cant": "the renderer indexes optional attributes (list_data, destination, literal, grandparent) whose presence depends on what the parser did for that text", "anchors": [{"file": "commonmark/render/html.py", "symbols": ["HtmlRenderer"]}, {"file": "commonmark/render/renderer.py", "symbols": ["Renderer.render"]}, {"file": "commonmark/blocks.py", "symbols": ["Parser.parse"]}]}
{"id": "C49", "title": "Which marks open and close emphasis", "statement": "Whether a run of * or _ can open or close emphasis depends only on the mark, the character before the run and the character behind it, by the flanking rules of the CommonMark specification; a phrase between two equal runs of one or two marks becomes emphasis exactly if the first run can open and the second can close it, and otherwise the text stays as it is.", "quantifier": "all runs, all characters around them, all texts before, between and behind", "why_tests_cant": "all pairs of Unicode characters around a run, all run lengths", "anchors": [{"file": "commonmark/inlines.py", "symbols": ["InlineParser.scanDelims", "InlineParser.handleDelim", "InlineParser.processEmphasis"]}]}
{"id": "C50", "title": "Line breaks in paragraphs", "statement": "Consecutive lines of words are one paragraph, and the indentation of the lines behind the first has no effect. Between two lines stands a hard line break if the first ends with two or more spaces or with a backslash, and a soft break otherwise, which the HTML renderer writes as its softbreak option says. Spaces at the end of the last line vanish and a backslash there is kept.", "quantifier": "all paragraphs of any number of lines, all indentations, all numbers of spaces at line ends, all softbreak options", "why_tests_cant": "unbounded numbers of lines and spaces, in all combinations; each line must not be mistaken for the start of another block", "anchors": [{"file": "commonmark/inlines.py", "symbols": ["InlineParser.parseNewline", "InlineParser.parseBackslash"]}, {"file": "commonmark/blocks.py", "symbols": ["Parser.incorporate_line", "Paragraph"]}, {"file": "commonmark/render/html.py", "symbols": ["HtmlRenderer.softbreak", "HtmlRenderer.linebreak"]}]}
{"id": "C51", "title": "Setext headings", "statement": "A paragraph of any number of lines followed by a line of equals signs is a heading of level one, followed by a line of hyphens a heading of level two; the underline may be of any length, indented by up to three spaces and followed by blanks. Its content is that of the paragraph, with the same line breaks.", "quantifier": "all paragraphs of words, all underlines", "why_tests_cant": "unbounded numbers of lines, lengths of the underline and blanks; a line of hyphens is also a thematic break and a list marker", "anchors": [{"file": "commonmark/blocks.py", "symbols": ["BlockStarts.setext_heading", "reSetextHeadingLine"]}]}
{"id": "C52", "title": "Lists of one-line items", "statement": "A text of lines that each begin with a list mark, with any number of blank lines behind each, gives one list for each longest run of items whose marks are of one kind (the same bullet character, or the same delimiter behind a number). The first mark of a run decides whether the list is ordered and the number it starts with, written without leading zeros and left out if it is one; the other numbers have no effect. The items are paragraphs exactly if a blank line stands between two items of the run; blank lines behind the last item do not count.", "quantifier": "all sequences of items of any length, all marks, all gaps of one to four spaces, all words without markup, all numbers and kinds of blank lines", "why_tests_cant": "unbounded numbers of items in all combinations of marks and blank lines; looseness is decided when a list is closed, from flags set on lines read long before", "anchors": [{"file": "commonmark/blocks.py", "symbols": ["parse_list_marker", "lists_match", "List.finalize", "Item.continue_", "ends_with_blank_line"]}, {"file": "commonmark/render/html.py", "symbols": ["HtmlRenderer.list", "HtmlRenderer.item", "HtmlRenderer.paragraph"]}]}
{"id": "C53", "title": "A line of words and inline markup is rendered piece by piece", "statement": "A line of words in which code spans, backslash escapes, decimal, hexadecimal and named character references, inline links and images (with bare or angled destination, with or without title), addresses and mail addresses in angle brackets, and opening and closing HTML tags with attributes stand, in any number and order and with or without words between them, becomes one paragraph whose HTML is the concatenation of what each piece and each stretch of words gives on its own.", "quantifier": "all sequences of pieces of all ten kinds of any length, all words without markup between them, all contents of each piece, all rendering options without source positions and safe mode", "why_tests_cant": "unboundedly many pieces in every order and with every content; whether a piece is read alone depends on several regular expressions not matching more or less than the piece whatever follows, and on the parser's state after the piece before it", "anchors": [{"file": "commonmark/inlines.py", "symbols": ["InlineParser.parse", "InlineParser.parseInline", "InlineParser.parseBackticks", "InlineParser.parseBackslash", "InlineParser.parseEntity", "InlineParser.parseAutolink", "InlineParser.parseHtmlTag", "InlineParser.parseOpenBracket", "InlineParser.parseBang", "InlineParser.parseCloseBracket", "InlineParser.parseLinkDestination", "InlineParser.parseLinkTitle"]}, {"file": "commonmark/common.py", "symbols": ["normalize_uri", "unescape_string", "reHtmlTag"]}, {"file": "commonmark/render/html.py", "symbols": ["HtmlRenderer.link", "HtmlRenderer.image", "HtmlRenderer.code", "HtmlRenderer.text", "HtmlRenderer.html_inline"]}]}
{"id": "C54", "title": "Emphasis nests", "statement": "Phrases between equal runs of one or two asterisks or underscores, inside each other to any depth, with words and the pieces of C53 between them, become nested em and strong elements, provided the first run of each phrase may open and the second may close by the flanking rules and no two runs of one mark touch. A first run that may also close must not stand inside a phrase with the same mark; if it stands inside a phrase with a run of another length of the same mark, which the rule of multiples of three should make harmless, the property is false of the code: _a **b*c*d**_ loses its strong element although **b*c*d** alone has it.", "quantifier": "all trees of marked phrases of any depth and width, all words and pieces between them, both marks and both lengths, all rendering options without source positions and safe mode", "why_tests_cant": "unbounded depth and width; the pairing works on a stack of delimiters with search limits per mark that are moved by failed searches far away", "anchors": [{"file": "commonmark/inlines.py", "symbols": ["InlineParser.processEmphasis", "InlineParser.scanDelims", "InlineParser.handleDelim", "InlineParser.removeDelimiter"]}, {"file": "commonmark/render/html.py", "symbols": ["HtmlRenderer.emph", "HtmlRenderer.strong"]}]}
{"id": "C55", "title": "Blocks indented under a list item belong to the item", "statement": "A list item of one line of words, at least one blank line, and a text whose lines are indented by the width of the item's mark (empty lines may have any number of spaces) gives a list of one item whose blocks are the paragraph of the words and the blocks of the text, unchanged but for their positions; the HTML is the HTML of the text on its own wrapped in the item, the item is tight exactly if the text has no blocks, and the whole fails to parse exactly if the text alone does. The text must have no tabs and no lines of only spaces: the property is false of the code with a line of spaces in an indented code block, whose spaces belong to the code but are lost under an item.", "quantifier": "all items with a bullet or number mark, all words, all numbers of blank lines behind it, all texts without tabs and without lines of only spaces, all rendering options without source positions", "why_tests_cant": "all texts: every kind of block at every depth, with every way it can be continued, interrupted and closed, must be unaffected by the container around it", "anchors": [{"file": "commonmark/blocks.py", "symbols": ["Item.continue_", "List.finalize", "Parser.incorporate_line", "Parser.close_unmatched_blocks", "BlockStarts", "ends_with_blank_line"]}, {"file": "commonmark/render/html.py", "symbols": ["HtmlRenderer.paragraph", "HtmlRenderer.item", "HtmlRenderer.list"]}]}
{"id": "C56", "title": "Texts separated by a blank line are rendered one after the other", "statement": "If a first text ends with a blank line and its last block is neither fenced code nor an HTML block, and a second text is not indented and does not begin with a list item, and there are no reference definitions, then the HTML of both texts together is the HTML of the first followed by the HTML of the second. The same holds without a blank line wherever the last block of the first text is over: a heading, a rule, indented code before a line that is not indented, a paragraph or quote before an empty line, a paragraph before a line that interrupts it (C63), or any block closed before the last line. The trees are the blocks of the first text followed by those of the second, moved down. Both conditions are needed: two lists with a blank line between them become one list, and a reference definition in the second text changes the first.", "quantifier": "all pairs of texts with any blocks and inlines in them, with and without smart punctuation, all rendering options without source positions", "why_tests_cant": "all pairs of texts: whatever the first text leaves behind in the parser (open containers, flags, positions, the reference map) must not leak into the second", "anchors": [{"file": "commonmark/blocks.py", "symbols": ["Parser.incorporate_line", "Parser.close_unmatched_blocks", "Parser.add_child", "Parser.finalize", "List.finalize", "Parser.parse"]}, {"file": "commonmark/render/html.py", "symbols": ["HtmlRenderer"]}]}
{"id": "C57", "title": "A document written from a tree of blocks has the HTML of that tree", "statement": "Take any tree of blocks: paragraphs and headings of words with links, code, character references and nested emphasis, paragraphs and underlined headings of several lines, rules, indented and fenced code, HTML blocks, lists of one-line items, block quotes that hold further blocks, and lists of any number of items each of which is a line of words followed by further blocks, to any depth. Write it down with an empty line between neighbouring blocks, \"> \" before the lines of a quote and spaces before the lines of an item. The HTML of the text is exactly the HTML of the tree. The only condition on neighbours is that a list is not followed by something that begins with a list item or is indented, and indented code not by something indented; the first of these is needed, shown by an example.", "quantifier": "all trees of blocks of any depth and width, all words, code and addresses in them, all rendering options without source positions and safe mode; smart punctuation off", "why_tests_cant": "the trees are unbounded in depth, width and content, and each level of quotes and items goes through the same line loop at another column", "anchors": [{"file": "commonmark/blocks.py", "symbols": ["Parser.parse", "Parser.incorporate_line", "BlockQuote", "Item", "List", "BlockStarts"]}, {"file": "commonmark/inlines.py", "symbols": ["InlineParser.parseInlines", "InlineParser.processEmphasis"]}, {"file": "commonmark/render/html.py", "symbols": ["HtmlRenderer"]}, {"file": "commonmark/main.py", "symbols": ["commonmark"]}]}
{"id": "C58", "title": "Smart punctuation writes exactly these quotation marks, dashes and ellipses", "statement": "With smart punctuation on, a line of words (any punctuation in it, no markup) becomes one paragraph whose text is exactly this. A double quotation mark is a right one if something stands before it, otherwise a left one. A single one is a left one if it opens and a closing one comes before the next opening one; otherwise it is an apostrophe. Three full stops become an ellipsis, from left to right. A run of hyphens becomes em dashes if its length is divisible by three, en dashes if it is even, and otherwise em dashes followed by one or two en dashes; a single hyphen stays. Nothing else changes. That an outer pair of single marks around an inner pair loses its left mark is shown by an example.", "quantifier": "all lines of any length made of characters that start no other inline markup, all rendering options without source positions", "why_tests_cant": "the pairing of quotation marks depends on all marks of the line and on the neighbours of each; the number of marks, runs and their lengths is unbounded", "anchors": [{"file": "commonmark/inlines.py", "symbols": ["InlineParser.handleDelim", "InlineParser.scanDelims", "InlineParser.processEmphasis", "InlineParser.parseString", "smart_dashes"]}, {"file": "commonmark/main.py", "symbols": ["commonmark"]}]}
{"id": "C59", "title": "A list of several items shows the text under each item as it would stand alone", "statement": "Take two or more list items with marks of the same kind. Each has a line of words, at least one blank line, and below it any text, indented by the width of the item's mark. The HTML is one list. In each item stand a paragraph of the words and then the HTML that the item's text has on its own, whatever it is: an open fence, a list, a quote whose last line lacks its mark. No text under one item has an effect on the text under another. Texts with definitions of link references are left out; that this is needed is shown by an example.", "quantifier": "all numbers of items, all marks, gaps and numbers of blank lines, all texts without tabs, without lines of only spaces and without \"]:\", all rendering options without source positions; smart punctuation off", "why_tests_cant": "the number of items and the texts are unbounded; each item closes whatever the text of the one before left open", "anchors": [{"file": "commonmark/blocks.py", "symbols": ["Parser.incorporate_line", "Parser.close_unmatched_blocks", "List", "Item", "parse_list_marker", "lists_match", "BlockStarts.list_item"]}, {"file": "commonmark/render/html.py", "symbols": ["HtmlRenderer.list", "HtmlRenderer.item", "HtmlRenderer.paragraph"]}, {"file": "commonmark/main.py", "symbols": ["commonmark"]}]}
{"id": "C60", "title": "The command line tool gives what the library gives", "statement": "For every content of the input file and every combination of -a, -aj and -o with a file name, the tool does what a call of commonmark on that content with the format ast, json or html does: what the call returns goes to the file (or to standard output), what it prints goes to standard output, and an error of the library is the tool's error. With both -a and -aj the former wins; with -a a file named by -o is left empty. -o without a file name fails with AttributeError unless -a is given. A content that ends in a bare carriage return is left out, because the tool reads it as a line feed; that this is needed is shown by an example.", "quantifier": "all contents of the input with any mixture of line breaks, all combinations of the options", "why_tests_cant": "the tool reads the input with translated line breaks and puts it together from lines, the library sees the text itself; that both see the same document must hold for every mixture of line breaks", "anchors": [{"file": "commonmark/cmark.py", "symbols": ["main"]}, {"file": "commonmark/main.py", "symbols": ["commonmark"]}, {"file": "commonmark/blocks.py", "symbols": ["Parser.parse", "reLineEnding"]}]}
{"id": "C61", "title": "Lines that continue a paragraph need no quote mark and no indentation", "statement": "Take a text without tabs and put \"> \" before each of its lines; before a line that comes right after an open paragraph (a paragraph of the text up to there reaches its last line) and whose first character other than a space is not one of #`~*+_=<>- or a digit, the mark may be left out and any number of spaces may stand instead of its own indentation. The result is still the block quote of what the text alone gives: the HTML is the HTML of the text between blockquote tags, and the blocks of the document are the same, on the same lines and two columns to the right. In the same way the number of spaces before such lines can be changed anywhere in a text, in any list or quote, without changing the HTML or the blocks. That the condition on the first character and the open paragraph are needed is shown by examples.", "quantifier": "all texts without tabs, all choices of continuation lines to leave unmarked or indent otherwise, at any depth of nesting", "why_tests_cant": "lazy continuation interacts with every kind of container, with indentation that would otherwise mean code, and with blank line notes that decide tightness; the claim ranges over every document and every subset of such lines", "anchors": [{"file": "commonmark/blocks.py", "symbols": ["Parser.incorporate_line", "Parser.add_line", "reMaybeSpecial", "Parser.find_next_nonspace", "BlockQuote.continue_", "Item.continue_", "BlockStarts.indented_code_block"]}]}
{"id": "C62", "title": "What cannot interrupt a paragraph", "statement": "Let a text end inside a paragraph that is in no other block, and add one line without tabs, with any number of leading spaces, that begins in one of these ways: with a character that is no block mark, unless it is a list number 1. or 1) with a blank behind it or a setext underline (so 2. and the like, and an empty 1., are included); an empty + or * item; # or + with something else right behind it; * or - with no blank behind the first and some other character on the line; _ with some other character on the line; one or two backticks or tildes; an opening or closing tag, or the like, whose name is not one of the names of HTML blocks; or any other line that is neither a setext underline nor in the list of C63, so that the list of C63 is complete (for this last case the line has no NUL and none of the four letters that Python takes for i, s or k when it ignores case; that one of these can make a tag is shown by an example). Or add any line whatever that is indented by four spaces or more and is not blank. Then no block begins with that line: the document has the same blocks before the paragraph, and the paragraph now ends with the new line, or has become link reference definitions only and leaves no block. The number of spaces before such lines (four or more too) changes neither the HTML nor the blocks, wherever in a document they stand. That this fails for paragraphs inside other blocks is shown by an example, and so is a paragraph that vanishes.", "quantifier": "all texts that end inside a paragraph of the document, all lines of these forms, any indentation; all documents and all choices of such lines for the indentation", "why_tests_cant": "the seven block starts, the check that skips them, the rule that lists other than 1 and empty items do not interrupt, HTML start conditions 1 to 7 with their name list and letter case, and indented code all decide over an unbounded set of lines and preceding documents", "anchors": [{"file": "commonmark/blocks.py", "symbols": ["Parser.incorporate_line", "BlockStarts.atx_heading", "BlockStarts.fenced_code_block", "BlockStarts.html_block", "BlockStarts.setext_heading", "BlockStarts.thematic_break", "BlockStarts.list_item", "BlockStarts.indented_code_block", "parse_list_marker", "reHtmlBlockOpen"]}]}
{"id": "C63", "title": "What interrupts a paragraph", "statement": "Let the last block of a text be a paragraph of the document, and let a second text begin with a line, indented by at most three spaces, that is one of these: a quote mark; an ATX heading; an opening fence; the tag of an HTML block, an opening script, pre or style tag, a comment, a processing instruction, a declaration or a CDATA section; a thematic break that is not also a setext underline; a bullet or the number 1. or 1) with a blank and then some text behind it. If there are no reference definitions, the HTML of both texts together is the HTML of the first followed by the HTML of the second, just as with a blank line between them, and the blocks are those of the first followed by those of the second, moved down. That another list number, or a thematic break that is an underline, does not do this is shown by examples.", "quantifier": "all first texts whose last block is a paragraph, all second texts that begin with a line of these forms, with and without smart punctuation", "why_tests_cant": "the paragraph may be behind any blocks and have any text, the line may be of any of twelve forms with any rest, and everything after it is arbitrary; each block start has to treat an open paragraph as if it had been closed before", "anchors": [{"file": "commonmark/blocks.py", "symbols": ["BlockStarts.block_quote", "BlockStarts.atx_heading", "BlockStarts.fenced_code_block", "BlockStarts.html_block", "BlockStarts.setext_heading", "BlockStarts.thematic_break", "BlockStarts.list_item", "Parser.add_child", "Parser.incorporate_line", "parse_list_marker", "reMaybeSpecial", "reNonSpace"]}]}
{"id": "C64", "title": "Exactly these lines interrupt a paragraph", "statement": "Let a text end inside a paragraph that is in no other block, and add one line: not blank, indented by at most three spaces, without tabs, no setext underline, and with no reference definitions anywhere. In the new document the paragraph ends with the last line of the old text if and only if the line is in the list of C63: a quote mark, an ATX heading, an opening fence, one of the six HTML starts, a thematic break, or a list item with text whose number, if it has one, is 1. The line has no NUL and none of the four letters that Python takes for i, s or k when it ignores case (C62 shows by an example what these do). The same holds for every indentation and for underlines: the paragraph ends there if and only if the line is indented by at most three spaces and is in the list.", "quantifier": "all texts that end inside a paragraph of the document and all such lines, with and without smart punctuation", "why_tests_cant": "an equivalence over all lines and all preceding texts: no finite set of samples shows that the list has no gap and nothing too much, across nine patterns and the order in which they are tried", "anchors": [{"file": "commonmark/blocks.py", "symbols": ["Parser.incorporate_line", "BlockStarts", "BlockStarts.atx_heading", "BlockStarts.fenced_code_block", "BlockStarts.html_block", "BlockStarts.thematic_break", "BlockStarts.list_item", "parse_list_marker", "reMaybeSpecial", "reHtmlBlockOpen"]}]}
{"id": "C65", "title": "A setext underline turns the paragraph into a heading", "statement": "Let a text end inside a paragraph that is in no other block, and add one line that is a setext underline: up to three spaces, one or more equals signs or one or more hyphens, then blanks. The new document has the same blocks before the paragraph, unchanged with their inlines and positions. In place of the paragraph it has a heading, of level 1 for equals signs and 2 for hyphens, with exactly the inlines of the paragraph. The heading starts where the paragraph started and ends at the end of the underline. Link reference definitions at the start of the paragraph are taken out in both documents alike. In the HTML, without source positions, the only change is that the last element's p becomes h1 or h2.", "quantifier": "all texts that end inside a paragraph of the document and all underlines, with and without smart punctuation", "why_tests_cant": "the text before the underline is arbitrary, and the reference definitions it holds are read at another moment (when the underline is met, not when the paragraph is closed): that this never changes the inlines or any other block needs a proof over all texts", "anchors": [{"file": "commonmark/blocks.py", "symbols": ["BlockStarts.setext_heading", "Paragraph.finalize", "Heading.finalize", "Parser.finalize", "Parser.incorporate_line", "Parser.process_inlines", "reSetextHeadingLine"]}, {"file": "commonmark/inlines.py", "symbols": ["InlineParser.parseReference", "InlineParser.parseInlines"]}]}
