# Formal model of python-creole — design

Everything lives in `rocq/theories` (logical name `Verif`), Coq 8.16.1, standard library only.

## 1. What is modelled

The model is a shallow, total, computable transcription of the Python code into Gallina,
function by function, with exceptions as values.  Every definition cites the file and lines
it transcribes.  Strings are lists of code points (`N`), so statements range over all
Python strings (including lone surrogates), of any length.

| Python | Coq file | how |
|---|---|---|
| `str` methods used by the code | `PyStr.v` | list functions |
| Unicode `\s`, `\w`, `\d` tables | `UniTab.v` (generated from `unicodedata`) | range tables |
| `re` (matching, `finditer`, `sub`) | `Regex.v` | backtracking matcher over a regex AST: greedy/lazy repetition, groups, back-references, anchors, look-behind, negative look-ahead, Python >= 3.7 rule for empty matches |
| `creole/parser/creol2html_rules.py` | `Rules.v` | regex ASTs, alternative by alternative |
| `creole/shared/utils.py`, `shlex.split`, `json.dumps`, `int()` | `Utils.v` | state machines |
| `creole/parser/creol2html_parser.py` | `CreoleParser.v` | the `DocNode` tree with its `cur` pointer is a zipper (stack of open nodes); `_x_repl` methods one by one |
| `creole/emitter/creol2html_emitter.py` | `HtmlEmitter.v` | recursive emitter with explicit toc state, macros are an arbitrary environment |
| the same with `macros` of any kind, and stderr | `MacroObj.v` | a dict or an object with attributes, entries that are None or no callables; of a traceback the exception is recorded |
| the same with `block_rules` | `BlockRulesArg.v` | lists of the patterns of `BlockRules`, in any order, some left out; no patterns of the caller's own |
| `creole/shared/example_macros.py` | `ExampleMacros.v` | as one environment, without pygments and with it; pygments is a parameter |
| `creole/html_tools/deentity.py`, `strip_html.py`, `text_tools.py` | `Entities.v` (stdlib entity table), `HtmlTools.v` | |
| stdlib `html.parser` tokenizer | `HtmlTok.v` | `goahead` with its regular expressions, `convert_charrefs=False`, without `close()` as the project uses it |
| `creole/parser/html_parser.py` | `HtmlParser.v` | pre/pass areas cut out by `sub`, tree builder as a zipper |
| `creole/shared/markup_table.py` | `MarkupTable.v` | |
| stdlib `urllib.parse.quote` as used by the emitters | `UrlQuote.v` | |
| `creole/shared/base_emitter.py`, `unknown_tags.py` | `HtmlBase.v` | dispatch by node kind, mutable emitter state threaded |
| `creole/emitter/html2{creole,textile,markdown,rest}_emitter.py`, `creole/__init__.py` | `Html2X.v` | |
| `creole/cmdline.py`, `codecs.open`, utf-8 | `Cmdline.v`, `CliArgs.v` | file system with several names per file; the states a call goes through; the conversion function is a parameter; argparse for plain names and `--encoding` in full |
| `creole/setup_utils.py` | `SetupUtils.v` | directory of texts; readme_renderer and the time stamp are parameters |
| `creole/rest_tools/*.py`, `creole/shared/diff_utils.py` | `RestTools.v` | the parts that do not belong to docutils or difflib: link check, `starttag`, text of the diff |
| `creole/publish.py`, the calls of docutils in `creole/rest_tools/clean_writer.py`, `visit_image` | `Publish.v` | what poetry_publish, make and docutils answer is a parameter; the calls are recorded |

Not modelled: docutils, poetry_publish, pygments itself, the text of tracebacks,
patterns and flags in `block_rules` other than those of `BlockRules`, debug output.

Files with specifications only: `HtmlSpec.v`, `Spec.v`, `Spec2.v` … `Spec54.v` (creole documents:
`Spec4.v` inline (a link has a plain text, or a text with images and line breaks), `Spec5.v` blocks, `Spec6.v` plain text and typefaces;
`Spec7.v` macro arguments, `Spec8.v` files, `Spec9.v` reStructuredText tools, `Spec10.v` html documents as text, `Spec11.v` clean html documents and the creole they mean, `Spec12.v` creole documents that survive the way to html and back, `Spec13.v` the text a reader sees, `Spec14.v` the text of an html document, `Spec15.v` html documents that can be converted, `Spec16.v` the textile clean documents mean, `Spec17.v` web addresses, `Spec18.v` the markdown clean documents mean, `Spec19.v` the reStructuredText they mean, `Spec20.v` creole documents with macros, `Spec21.v` with the example macros, `Spec22.v` with macros in paragraphs, `Spec23.v` with a table of contents, `Spec24.v` html documents with unknown tags, `Spec25.v` such documents on the way to creole and back, `Spec26.v` html documents with preformatted blocks, `Spec27.v` creole documents with code blocks, `Spec28.v` html documents with code elements, `Spec29.v` other spellings of html, `Spec30.v` html with comments, `Spec31.v` html of any shape and the attributes that count, `Spec32.v` what the attributes of links and images mean, `Spec33.v` creole tables with blanks, `Spec34.v` aligned tables, `Spec35.v` documents converted in turn, `Spec36.v` creole documents with any blank lines, `Spec37.v` publishing, `Spec38.v` the example macros with pygments, `Spec39.v` lists of any shape, `Spec40.v` white space in html, `Spec41.v` character references in attributes, `Spec42.v` pages that break off, `Spec43.v` pages that contain the parser's own tags, `Spec44.v` command lines, programs and the text of a file, `Spec45.v` textile, markdown and reStructuredText of documents with other tags, `Spec46.v` macros in dicts and objects, reports on stderr, `Spec47.v` selections of block rules, the elements of a rule, `Spec48.v` the lines of texts and files, `Spec49.v` the tags that need marks, `Spec50.v` the texts that `int()` takes for a number, `Spec51.v` the addresses in a document tree, `Spec52.v` pages of nested tables, `Spec53.v` the white space in headings, `Spec54.v` decimal notation).  Property
theorems: `P*_*.v` without `_Lemmas`.  All other files are proofs.

Conformance: `Conf_*.v` evaluates the model (by `vm_compute`) on the expected input/output
pairs of the project's own unit tests.  These are tests of the model, not proofs.

## 2. How the properties are proved

Shared tools: (a) a consumption/capture soundness lemma for the regex matcher (every match is
`before ++ matched ++ after`, every capture is a contiguous part of the match); (b) a
declarative language for regexes, used to exclude alternatives; (c) a lemma describing
`finditer`/`sub` at a position; (d) invariants of the parser state; (e) induction over
document trees.

See section 4 for the list per property.

## 3. Trusted base

* the Coq kernel (and its `vm_compute`), `Print Assumptions` under every property theorem;
* the faithfulness of the transcription (checked by reading, by the conformance files and by
  seeded mutations in `seeded/LOG.jsonl`);
* the Python semantics of `re`, `str`, `shlex`, `json`, `html.parser` as transcribed.

No axioms are added.  `Print Assumptions` answers `Closed under the global context` for every
property theorem: no standard library axiom is used either.  (An audit of all loaded libraries
also lists the parameters of `Coq.ssr.ssrunder`; no theorem depends on them.)

## 4. Plan per property

* C01, C17: the emitter returns a value for every tree the parser can build; exceptions are
  values so totality is `exists out, creole2html ... = Ok out`.  Invariant over the parser.
* C02, C03, C04, C47: a small independent HTML grammar (`Spec`), and an invariant showing that
  every tree the parser builds is emitted as a serialisation of a forest of that grammar.
  Violations by witnesses evaluated in the model.
* C05: string lemma about the two `replace` calls.
* C06, C07, C08, C09, C12, C13, C14, C15: `finditer` lemmas at symbolic positions; induction
  over the text / inline tree.  C15 with any spelling of the numbers: the tree of a lone image, then `int()` (`ImageSize.v`).
* C10, C11: regex lemmas on the block rule.
* C16: the matches of a scan and their groups are pieces of the text in order; every handler
  appends to the text of the open nodes only (`TextOrder.v`); the html shows that text
  (`TextShown.v`).
* C18, C19, C20, C21, C22: toc functions, induction over headline lists / histories.
* C23, C24: shlex state machine on the output of `json.dumps`; every text comes back as its JSON escapes, and numbers are
  described by `Spec50.v` (blanks, sign, digits of any script, single underscores), not by the model's `py_int`.
* C25, C26: regex substitution lemmas.
* C27, C28: substitution lemma: every match is re-emitted up to white space.
* C29, C30, C31: tree builder as a zipper; induction over well-nested event streams.  From the
  text: every round of html.parser consumes something (`HtmlTokFacts.v`), symbolic runs of its
  regular expressions on tags, attributes and references (`TokRun.v`).
* C32, C33, C34: arithmetic of `ljust`/`zip`/`join`.
* C35, C36: emitter state invariants.
* C37, C38, C41: structural induction over the tree.
* C39: `strip_html` on the text of a clean document by a state machine over its parts
  (`StripRun.v`, `CleanRun.v`), the tree of the stripped text by the results of C29
  (`CleanDoc.v`), the emitter with its mutable state by induction over the tree (`CleanEmit.v`).
* C40: the html of a canonical document is a way to write a clean html document (`RoundTrip.v`);
  then C50 and C39.  Violations outside of the canonical documents by witnesses.
* C42, C43: file-system model, both outcomes of every step.
* C44: `strip` lemma.
* C45, C46: list filters; docutils itself is not modelled.
* C48: as C32-C34.  C49: the tree builder invariant with an open `hr`.
* C50-C53: `document_spec` (`DocParse.v`): the parser state after each block, by induction over
  the document; each block rule is shown to match exactly the written block
  (`BlockHits.v`, `TableHits.v`), each inline rule exactly the written element (`InlineRun.v`,
  `InlineParse.v`).  Violations by witnesses.
* C54-C57: `SetupFacts.v`, by cases over `update_rst`, induction over lines for the comparison.
* C58: the shlex state machine on quoted and bare words.
* C59, C60: the four shapes of a UTF-8 sequence, induction over the text.
* C61: induction over the lines of the diff.
* C62: each emitter method keeps the text of its node (`TextKept.v`): the ink of the text is a subsequence
  of the ink of the output; induction over the tree, tables by an invariant on the rows collected so far.
* C63: each emitter method returns a result if its node is sound and its children are handled
  (`NoRaise.v`); the parser: everything the tokenizer reads is a part of the text (`ParseTotal.v`); clashes:
  with one address for all links and one for all images the two dictionaries of the emitter have one value (`ClashFacts.v`).
* C64, C66: as C39, for the other emitters (`CleanGen.v` for what they share, `TextileEmit.v`,
  `MarkdownEmit.v`).
* C67: the same for reStructuredText (`RestEmit.v`); the expected text is a function of the
  document and of the names so far, threaded through the emitter's state by an invariant.
  `RestNames.v` says which documents have no such text.
* C68: what the parser does with a block does not depend on the blocks before it (`LiftDoc.v`:
  every handler commutes with putting more blocks in front); so the block lemmas of C50 hold
  after macros too, and each macro starts afresh (`MacroHit.v`, `MacroDoc.v`).
* C69: C68 with the environment of `ExampleMacros.v` (`ExampleFacts.v`).
* C70: a tag is matched as a tag because no end tag closes it (`TagHit.v`); what a line adds to its
  paragraph and the calls it makes compose (`BitParse.v`); after a paragraph the parser goes on as if
  the paragraph had been closed, which is the situation of C68 (`PartDoc.v`).
* C71: the nested lists are computed line by line from the list of headings (`TocHtml.v`, by induction with
  the stack of open lists as the invariant); what is emitted is followed together with the table of
  contents object through the document, as C68 does with the calls (`TocDoc.v`); no html before the
  first tag contains `<<`, so the tag is what is replaced.
* C72: the induction of C39 is done once for an arbitrary writing of unknown elements (`CleanEmit.v`);
  C39 is the case without them.  `MaskFacts.v`: what the callables of unknown_tags.py write.
  `UnknownFacts.v`: raise_unknown_node (C38) for documents as text; the runs of two callables are
  compared method by method.
* C73: composition of C72 (html to creole with the macro html) with C70 (macro tags in paragraphs) and
  the example macro html (`RichTrip.v`); the html that comes out is a way to write the document again.
* C74: the pre blocks are cut out by the regular expression before anything else (`PreRun.v`: it finds
  exactly the pre blocks of the document, and `strip_html` leaves the placeholders alone), so the tree
  has a node for each; `PreDoc.v` glues the blocks of C64 to C67 and the texts together.
* C75: the creole parser on documents with single newlines after code blocks (`CodeTrip.v`), and C74
  for the way back.
* C76: as C74, but for the second pattern, whose placeholder is no block tag: white space after it may
  stay as one space (`CodeFence.v`: `strip_html` part by part), which the markdown emitter drops.  The
  code element is tokenized and built by C29.
* C77: the tokenizer on tags in any spelling (`TagTok.v`); two spellings of a document are two lists of
  pieces that are alike one by one (`Spelling.v`), `strip_html` keeps them alike, and alike pieces give
  the same tokens (`SpellDoc.v`).  The results follow from C39, C64, C66 and C67 (`SpellOut.v`).
* C78: as C77, with pieces for the unseen parts: the tokenizer gives nothing for them, and `strip_html`
  moves no white space to or from them when a block tag stands before them (`Hidden.v`, `HiddenOut.v`).
* C79: two pieces of html are cut into pieces that correspond (`near`); `strip_html` and the tokenizer keep
  the correspondence (`Soup.v`), the parser gives trees that differ in attributes without a meaning only, and
  no emitter method looks at those (`AttrSoup.v`).
* C80: the tree of a lone image or link from C79, and the methods for them (`AttrMean.v`).  Attributes without a
  value are outside of it; two computed cases show what they do (C80_bare_refuted).
* C81: the match of a padded row and of its cells (`TablePad.v`), then block by block with the table still open
  when the next block begins (`TableDoc.v`).
* C82: C81 to html and C74 back; the aligned text of a table is what html2creole writes (`TableTrip.v`).
* C83: C71 for a table of contents that has been used before, then along the calls (`TocTurns.v`).
* C84: the block rules on blank lines, on every block with any line behind it and on every block behind one, then
  along the blocks with the parser state after each of them (`LayoutDoc.v`); back with C82 (`LayoutTrip.v`).
* C85: the matcher gives the same result for two prefixes that both end a line (parametricity of `m` in the prefix,
  `FreeTail.v`); the newline of the empty line is matched with or without the block below it, and both readings do the
  same; then the parser is run with the document above lifted away (`LiftDoc.v`).
* C86: the soundness of the README check (C42) and the sequence of calls.  C87: `dict.update` key by key.  C88: the only
  `>` of the tag is its last character, so the text is replaced once.
* C89: as C69 (`PygFacts.v`).
* C90: the parser's stack is described by the open lists and the html written so far; every line
  is shown to extend it as `Spec39.v` says (`FreeList.v`).
* C91: the two substitutions of `strip_html` are run over the pieces of the page with the state they
  have reached; every kind of change leads to the same pieces (`Relaid.v`).
* C92: `coded v w` (Spec41.v) says which values a text with character references stands for, without looking at the
  regular expression of `html.unescape`; `Coded.v` proves by induction on it that the scan of that expression gives the value.
  The number table and the names are compared with Python's tables by computation over the whole tables. The links and images
  follow from C80.
* C93: `cut_off t` (Spec42.v) describes the beginnings. Cut.v shows for every text without `>` that the pattern for opening tags
  ends at the end of the text or at an equals sign (by induction over the attributes, with the backtracking for open quotes
  worked out), CutOut.v that strip_html keeps the beginning, that joining lines does not complete it, and that the tokens of the
  page are those without it.
* C94: `written_out` and `refers_to_nothing` (Spec43.v). Sheet.v shows that cutting out the areas turns the page into tags and texts
  (no area is missed, none is found elsewhere), that white space handling keeps every tag, and follows two such pages with
  different lists of areas through the parser with a relation on its states.
* C95: `command`, `ready`, `holds` and `plain_html` (Spec44.v). The command line is followed by hand (Programs.v), the file part is C59, and
  the conversions are those of C68, C72, C64, C67, C15 and C80 with the defaults.
* C96: `tx_doc`, `mx_doc`, `rx_doc` with a parameter for unknown tags, and `way` (Spec45.v). The emitters are followed with the unknown tags as
  leaves of their own (MaskGen.v, TextileMask.v, MarkdownMask.v, RestMask.v); MaskModes.v puts in the callables of the package and the programs. OtherTags.v
  computes which documents `raise_unknown_node` refuses from C38 on trees.
* C97: `mval`: what is found under a name in a dict or an object (MacroObj.v). Simulation between two runs over any tree, and between a run of this model and one of HtmlEmitter.v
  (MacroObjFacts.v): a non-callable entry is simulated by a function that raises TypeError and whose calls are not counted.
* C98: `report`, `reports` (Spec46.v). For the documents: their tree is run with macros that answer nothing, at two levels; both pages are the same, so no arguments are refused, and the calls
  give the macros of the tree in order (StderrFacts.v). C70 gives the page.
* C99: `parse_rules` (BlockRulesArg.v) is the parser with any list of the eight patterns. For every match one rule of the list gave all named groups, so the handler of that rule is called with the
  groups it needs (RulesArgFacts.v); the invariants of C01 and C04 are kept by every handler, and a second invariant tells which kinds of nodes a handler adds (KindFacts.v).
* C100: For every rule a word that all its matches contain is proved from the declarative semantics of patterns (`must`, `capsat` in MarksFacts.v). An invariant of the parser says that the text parsed at
  any depth consists of pieces of the markup and that every node has its mark in the markup; the emitter writes < only in tags of nodes.
* C101: A weight of document trees (nodes, characters of content, levels) grows by a constant times the length of each match; the matches of a pattern are disjoint, so the
  weight of the document is linear (SizeFacts.v). The emitter writes at most 64 characters per unit of weight, plus the tabs after line breaks in list items (SizeEmit.v), which are at most the square of the weight, and none
  without the mark (SizePage.v). The large pages come from C90.
* C102: The page of n nested tables is parsed to the nested tree; by induction on n its emission ends with a table of n cells, the last of which is the whole inner table, so the cells at least double with each level; 2^n outgrows every polynomial.
* C65: `urlparse` and `geturl` on the parts of an address, `quote` byte by byte (`AddressFacts.v`).
