# Formal model of commonmark.py in Coq

Source: `/repo/commonmark` (rtfd/CommonMark-py, 0.9.1+). Nothing was run; the model is a reading of the text.

## Architecture

| file | models |
|---|---|
| `Base.v` | strings as lists of code points, exceptions as values (`res`), Python `str` helpers |
| `Regex.v` | Python's `re` as a backtracking matcher over a regex AST (ordered alternation, greedy/lazy repetition, anchors, lookahead, IGNORECASE) |
| `Entities.v` (generated) , `Common.v`, `NormRef.v` | entitytrans.py, common.py, normalize_reference.py |
| `Node.v`, `NodeHeap.v` | node.py: as trees (data fields, event list of the walker), and as a heap of doubly linked nodes with all mutators, the walker and normalize |
| `Inlines.v`, `Blocks.v` | inlines.py, blocks.py |
| `Html.v`, `Rst.v`, `Dump.v`, `Main.v`, `Cli.v` | the renderers, dump.py, main.py, cmark.py |
| `SpecTests.v` (generated) | tests of the *model*: the examples of `/repo/spec.txt`, by `vm_compute` |
| `Spec*.v` (but SpecTests.v) | the vocabulary of the theorem statements, independent of the parser's helpers |
| `Props*.v` | the property theorems, each closed by one lemma, with `Print Assumptions` and an example beneath |
| all other files | lemmas (the first line of each says about what) |

Every regex of the code is transcribed construct by construct into the regex AST. Python loops become
structural recursion or recursion on fuel that ends in the distinguished error `OutOfFuel`, which the
termination theorem excludes. Exceptions are values of `res`.

Open blocks of the block parser are a stack (tip first), closed ones are trees; inline nodes being built are
a list of identified siblings. Both replace the linked `Node` fields by lists; `NodeHeap.v` proves that the
linked representation of node.py implements exactly these list operations (`PropsNode.v`: C08, C09, C10).

## Plan per property

C01 fuel-indexed model of parse; invariants on stack and delimiter lists; only IndexError (parseNewline) and UnicodeEncodeError (normalize_uri) remain; refutation by witness.
C02 parse as a function of an arbitrary prior parser record; frame argument over all non-reset fields.
C03, C34 induction on the tree: the counters return to their start value.
C04 induction on the string, via a characterisation of the regex `[&<>"]` substitution.
C05, C06, C07 the renderer is shown equal to a compositional function on trees; token grammar for balanced HTML as separate spec.
C08, C09, C10 heap model of node.py, abstraction to forests; walker = recursive event list.
C11 renderer equality under merging; refutation by witness.
C12, C13, C14, C35 invariants of the block parser state, and of the inline parser.
C15, C16, C41 lemmas on line splitting; simulation on line numbers.
C17-C20, C22, C29, C40 end-to-end computations on symbolic input by induction on lines / characters.
C21, C47 unbounded over numbers: decimal/hex printing and reading; table lookup.
C23, C46, C24, C30 string inductions; case folding table checked by computation over the whole (finite) table.
C25, C26 refmap monotonicity invariant.
C27, C28 invariants of the inline sibling list and delimiter stack.
C31, C32, C33, C36 direct from the models of main.py, dump.py, rst.py, html.py.
C37, C38 regex matched against declarative line grammar.
C39 arithmetic invariant of advance_offset.
C42, C43, C44 refutations by witness plus the part that holds.
C45 simulation between two runs of the block parser.
C48 totality of the renderer on trees satisfying the invariants of C12.
C49 scanDelims against may_open / may_close of the specification; end to end for one marked phrase.
C50 the document of a paragraph of any number of lines: block phase line by line, inline loop line by line.
C51 the same with an underline, which replaces the paragraph by a heading.
C52 invariant of the block parser between two items (finished runs, open run, blank flag), then rendering run by run.
C53 each piece consumes exactly its text from a state without open brackets or delimiters (declarative regex language, no other match), adds nodes of known HTML and leaves such a state.
C54 the inline loop lays down children and delimiters in the shape of the phrase; pairing them is by induction on that shape, with an invariant on the search limits.
C55 a simulation between the parser on the text and the parser inside the item: same stack below the item, positions shifted; closing the list changes only tightness and a flag on its last blocks; then the renderer on equal trees.
C56 the parser after the first text, at the point where its last block is closed, differs from a fresh parser only by finished children of the document, the line number and a flag on the last child; a simulation carries this through the second text (lists compared up to the notes of finished blocks), then the inline phase and the renderer on each half.
C57 a small grammar of block trees with a printer to Markdown and one to HTML (SpecDoc.v, no parser in it); induction on the tree: leaves by C37-C54, quotes by C45, items by C55 and C59, and neighbours by C56; the invariant of the induction is that a block followed by nothing, an empty line, or an empty line and more renders as itself followed by the rest.
C58 the specification (SpecSmart.v) rewrites the line character by character; the loop of the inline parser leaves texts and a stack of quotation marks (invariant laid), the loop of processEmphasis on such a stack is shown equal to a fold that remembers the nearest opener of each kind, and the fold is compared with the specification by induction on the line.
C59 the simulation of C55 with a list that already has items below the open one (Sim.v, parameter LK); the next item line closes what the text left open exactly as the end of the text would (fin_to_sim), so each closed item holds the blocks of its text; induction on the items (ManyItems.v), then inlines and HTML item by item (ManyHtml.v); the list is loose because the first paragraph of the first item is followed by a blank line.
C60 the tool as a function of parsed arguments and content (Cli.v); the data it hands over has the same lines as the content (induction on the content), and parsing depends only on the lines.
C61 an invariant at the end of every line (LazyInv.v): a paragraph that reaches the last line is the tip, the blocks around it are containers and carry no blank line notes. Then one line of text does the same to the tip whatever blocks it continues (LazyFacts.v), so the simulation of C45 can be extended with unmarked lines (LazySim.v).
C62 the block starts, tried on a line after a paragraph of the document, all fail (WeakFacts.v, WeakStart.v: languages of the patterns, the words of the HTML patterns; BreakConv.v: a block start that succeeds on a line puts it in the list of C63 or among the underlines, so a line in neither starts nothing). That the last block of the tree tells that the open paragraph is in no other block follows from closing the open blocks (WeakFacts.v). Then the line is added to the paragraph, and the simulation of C61 is repeated with such lines (WeakSim.v).
C63 one more case of C56: the line is read with the paragraph open and with it closed. Each block start finds the same thing (BreakForm.v: the patterns on each form of line) and, as a paragraph holds no blocks, adding a child closes the paragraph first, so both readings reach the same state (BreakLine.v, para_first in JoinBlocks.v). The rest is the simulation of C56.
C64 C63 in one direction and C62 in the other; for the latter the list of lines is decidable, as each pattern is (BreakExact.v); with C65 and the deep lines of C62, any indentation and underlines (BreakAny.v).
C65 the step for the underline line runs the same loop over reference definitions, from the same state, as the end of the old text does; a paragraph left open after a line holds that line, so its text is not empty (ParaHolds.v); then both ends process the same blocks from the same inline state (BreakUnder.v); the renderer does not look at the kind of the block around the inlines (UnderHtml.v).

## Trusted base

* Coq 8.16.1's kernel, including its `vm_compute` conversion (used for witnesses, examples, finite tables and
  the compiled form of the regular expressions).
* Axioms: none of our own. `Print Assumptions` under every property theorem answers "Closed under the global
  context". (vcheck lists seven items `Coq.ssr.ssrunder.Under_rel.*`: they are the opaque signature of a module
  of the standard library that `coqchk` meets when loading it; no theorem depends on them.)
* No functors, module types, plugins, Admitted, or switched-off checks.
* The reading of the Python text as Gallina, file by file below. It is not proved, but it is tested: `SpecTests.v`
  runs the model on the examples of the repository's spec.txt and of the RST tests by `vm_compute`.
* Tables (`Entities.v`: HTML5 entities, the case folding table, the punctuation class, decimal digits) are
  generated from the text of /repo by `tools/gen_tables.py`; `html.unescape` of Python 3.4+ is modelled by
  entitytrans.py's `_unescape`, whose table equals the one in the library.

## What is modelled

| code | model | not modelled, or simplified |
|---|---|---|
| common.py | all of it | Python 2 branches; `urllib.parse.quote` as UTF-8 percent encoding |
| entitytrans.py | `_unescape`, `_replace_charref`, tables | the Python 2 `unichr` fallback |
| normalize_reference.py | all of it | |
| node.py | all of it (heap model) | the walker's `nxt` and `resume_at`, `__repr__`, `pretty`; objects shared between threads |
| inlines.py | all of it | the doubly linked delimiter stack and the brackets are lists; `log`, dead code |
| blocks.py | all of it | `oldtip` has no field (it is the tip whenever it is read) |
| render/renderer.py, html.py | all of it | the renderer's mutation of the caller's option dictionary |
| render/rst.py | all of it | |
| dump.py | `dumpAST`, `dumpJSON`, `prepare` | text of `json.dumps`/`print` for the values that occur |
| main.py | `commonmark` | |
| cmark.py 30-49 | `Cli.v`: the run on parsed arguments, universal newlines, where the output goes | argparse, opening and decoding files, encoding of the output, exit status |

Strings are sequences of code points (Python 3). Numbers are unbounded. Python's recursion limit and memory
limits are outside the model.

`Regex.v` is a model of the part of `re` the code uses, with backtracking order; `RegexLang.v` proves it sound
and complete for a declarative reading. IGNORECASE follows CPython for the four non-ASCII characters that
fold to ASCII letters.

## Notes

* C39: `add_line` moves the offset past a partially consumed tab without moving the column. Nothing reads the
  column of that line afterwards; the theorem covers all states before it.
* Properties found false of the code are stated as they stand in properties.jsonl, refuted by a witness
  (`..._refuted`), and the part that holds is proved: C01, C11, C15, C27, C32, C33, C42, C43, C44.
  For C54 to C63 the witnesses (`..._refuted`) show instead that conditions of the statement cannot be dropped.
