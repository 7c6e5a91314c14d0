#!/usr/bin/env python3
"""Single source for properties.jsonl (run: python3 tools/props.py > properties.jsonl)."""
import json
P = []
def p(id, title, statement, quantifier, why, anchors):
    P.append(dict(id=id, title=title, statement=statement, quantifier=quantifier,
                  why_tests_cant=why, anchors=anchors))

p("C01", "creole2html is total on every markup string",
  "creole2html(s) with no user macros terminates and returns a string for every str s, in both line-break modes and for every verbose/strict setting, provided the document does not use the <<toc>> macro; no exception of any kind escapes.",
  "every unicode markup string, both values of blog_line_breaks, every verbose level, both values of strict",
  "tests sample a handful of documents; a missing handler for one group name, or one node kind without emitter, only shows on the inputs that reach it",
  ["creole/__init__.py:creole2html", "creole/parser/creol2html_parser.py:CreoleParser._replace", "creole/emitter/creol2html_emitter.py:HtmlEmitter.emit_node"])
p("C02", "output is well-formed, balanced HTML built from a fixed tag set",
  "With verbose=0, strict=True, no user macros and no toc, creole2html(s) is (up to outer whitespace stripping) the serialisation of an HTML forest that uses only the fixed element set (p, hN, hr, ul/ol/li, table/tr/td/th, pre, code, i/strong/tt/sup/sub/u/small/del, a, img, br) with only the fixed attributes, where every text run is entity-escaped and every attribute value is free of '<', '>' and '\"'. User input can therefore never introduce a tag or an attribute.",
  "every unicode markup string",
  "injection needs one adversarial input among infinitely many",
  ["creole/emitter/creol2html_emitter.py:HtmlEmitter.html_escape", "creole/emitter/creol2html_emitter.py:HtmlEmitter.attr_escape"])
p("C47", "image with empty title injects attributes (violation of C02 for strict=False)",
  "A user relies on creole2html(s) never letting s add attributes such as onerror to an element. Refuted for strict=False (the default): an image tag with a size and an empty title puts the unescaped target into title and alt. Guarded claim: C02 holds for strict=False too when no image of the document has an empty title with a size.",
  "existence of a markup string for the refutation; every markup string for the guarded claim",
  "image tests never leave the title empty", ["creole/emitter/creol2html_emitter.py:HtmlEmitter.image_emit"])
p("C03", "default settings do not escape broken macro arguments (violation of C02 for verbose>=1)",
  "A user relies on creole2html(s) with default settings never passing raw HTML from s to the output. The faithful model refutes this: an unparsable macro argument string is echoed unescaped in the error message. With verbose=0 the guarantee holds (C02).",
  "existence of a markup string for the refutation; every markup string for the guarded claim",
  "the only test of this message checks the text of one benign message",
  ["creole/emitter/creol2html_emitter.py:HtmlEmitter.macro_emit", "creole/emitter/creol2html_emitter.py:HtmlEmitter.error"])
p("C04", "document structure obeys the HTML content model",
  "For every markup the output nests correctly: block elements occur only at top level, p/h/td/th contain only inline content, ul/ol contain only li, li contains inline content and nested lists only, table contains only tr, tr contains only td/th, and an a element inside link text never contains another a.",
  "every unicode markup string, both line-break modes",
  "nesting bugs depend on the history of the parser's current-node pointer across arbitrary block sequences",
  ["creole/parser/creol2html_parser.py:CreoleParser._upto", "creole/parser/creol2html_parser.py:CreoleParser._item_repl", "creole/parser/creol2html_parser.py:CreoleParser._table_repl"])
p("C05", "line-ending style does not matter",
  "creole2html gives the same result for a document whether its lines end in \\n, \\r\\n or \\r (or any mixture).",
  "every document and every choice of line terminator per line",
  "the test has one two-line document",
  ["creole/parser/creol2html_parser.py:CreoleParser.parse"])
p("C06", "plain text is preserved exactly",
  "A paragraph made of lines that contain no markup characters is rendered as <p>...</p> containing exactly the entity-escaped lines, joined by <br /> (blog mode) or one space (wiki mode).",
  "every non-empty list of non-empty markup-free lines over all unicode characters",
  "requires all regular-expression alternatives to fail at every position of an arbitrary text",
  ["creole/parser/creol2html_rules.py:INLINE_RULES", "creole/parser/creol2html_parser.py:CreoleParser._text_repl"])
p("C07", "the tilde escapes markup",
  "Prefixing every non-space character (other than the tilde itself) of a line with ~ renders the line literally: the output is <p> + escape(line) + </p>.",
  "every line over all unicode characters, tilde and newline excluded, starting with a non-space",
  "an escape must work in front of every character and in every context",
  ["creole/parser/creol2html_rules.py:InlineRules.escape", "creole/parser/creol2html_parser.py:CreoleParser._escape_repl"])
p("C08", "typefaces nest compositionally",
  "For every inline document built from plain text and the eight typeface markers (bold, italic, monospace, superscript, subscript, underline, small, strike), nested so that no marker occurs inside itself, creole2html renders each marker as its HTML element around the rendering of its body. The same holds with links, links around images or with line breaks in their text, images, free-standing URLs, inline code, escapes and line breaks among them.",
  "every inline tree of unbounded size",
  "tests cover a few nestings of depth two",
  ["creole/parser/creol2html_parser.py:CreoleParser._inline_mark", "creole/emitter/creol2html_emitter.py:HtmlEmitter._typeface"])
p("C09", "inline nowiki content is verbatim",
  "In a paragraph, {{{t}}} is rendered as <code>escape(t)</code> for every single-line t in which the closing braces do not occur earlier; no markup in t is interpreted.",
  "every such string t and plain surrounding text",
  "must hold for every markup construct placed inside",
  ["creole/parser/creol2html_rules.py:InlineRules.pre_inline", "creole/parser/creol2html_parser.py:CreoleParser._pre_inline_repl"])
p("C10", "nowiki blocks are verbatim",
  "A block {{{ / body / }}} on its own lines is rendered as <pre> with exactly the escaped body lines, when the body has no line starting with }}}, no ~}}} and does not start with a blank line.",
  "every list of body lines meeting the guard",
  "arbitrary multi-line content",
  ["creole/parser/creol2html_rules.py:BlockRules.pre_block", "creole/parser/creol2html_parser.py:CreoleParser._pre_block_repl"])
p("C11", "leading blank lines of a nowiki block are dropped (violation of C10 without its guard)",
  "A user relies on preformatted text being verbatim. The faithful model refutes this for bodies starting with blank lines.",
  "existence of a body", "no test has a nowiki body starting with a blank line",
  ["creole/parser/creol2html_rules.py:BlockRules.pre_block"])
p("C12", "headings: level and text",
  "A line of n equal signs, a space and heading text t (optionally followed by closing equal signs) is rendered as <hn>escape(t)</hn>, for every n>=1 and every t without inline interpretation. The white space between the signs and the text may be any, line ends and empty lines included, for the headings of any document.",
  "every n >= 1 and every text t that neither starts nor ends with '=' or white space",
  "n is unbounded; the lazy/greedy interplay of three quantifiers decides the split",
  ["creole/parser/creol2html_rules.py:BlockRules.head", "creole/parser/creol2html_parser.py:CreoleParser._head_repl"])
p("C13", "heading level is not bounded by 6",
  "A user relies on creole2html emitting only HTML heading elements h1..h6. Refuted: seven equal signs give <h7>.",
  "existence of a markup string; exact level characterisation for all n", "tests use levels 1-4",
  ["creole/emitter/creol2html_emitter.py:HtmlEmitter.header_emit"])
p("C14", "links carry their target and text unchanged",
  "[[target|text]] is rendered as an a element whose href is the attribute-escaped target and whose content is the escaped text; [[target]] uses the target as text.",
  "every target and text without closing brackets, bars and newlines", "arbitrary targets",
  ["creole/parser/creol2html_parser.py:CreoleParser._link_repl", "creole/emitter/creol2html_emitter.py:HtmlEmitter.link_emit"])
p("C15", "image tags carry target, title and size",
  "{{src|title|WxH}} is rendered (strict=False) with width=W and height=H for all numbers W, H; with strict=True, or for a size that is not two integers, the whole text is the title and no size attribute is produced. With an empty title ({{src||WxH}}) the address is the title. W and H may be written in any way int() reads (sign, underscores, digits of any script, white space around them) and are shown as ASCII numbers.",
  "every src/title without special characters, every pair of numbers in every spelling, both strict modes", "unbounded numbers and texts",
  ["creole/emitter/creol2html_emitter.py:HtmlEmitter.image_emit"])
p("C16", "text content is neither invented, duplicated nor reordered",
  "Leaving white space aside, the text of the parsed document (text nodes, nowiki, preformatted and heading contents, macro texts, targets of links without a text) in document order is a subsequence of the markup; and so is what a browser shows of the html of creole2html with verbose=0, strict=True and no macros, for a markup that does not use the toc macro. Nothing is shown twice, in another order than written, or without having been written.",
  "every markup string, both line modes", "order preservation is a global property of the tree construction and of the emitter",
  ["creole/parser/creol2html_parser.py:CreoleParser", "creole/emitter/creol2html_emitter.py:HtmlEmitter"])
p("C17", "macro call protocol",
  "When a macro is found, it is called exactly with the key/value arguments of its tag plus text; its result string is inserted verbatim (plus a newline for block macros); every Exception it raises, every unparsable argument string, unknown name and non-string result is replaced by the error text and never escapes (for verbose <= 2), and with verbose=0 the error text is empty.",
  "every macro environment, macro outcome, argument string and verbose level", "macros are arbitrary user code",
  ["creole/emitter/creol2html_emitter.py:HtmlEmitter.macro_emit"])
p("C18", "table of contents nesting is faithful",
  "The nested list built for <<toc>> contains every headline exactly once, in document order, at nesting depth equal to its level.",
  "every sequence of (level >= 1, text) headlines", "stack manipulation over arbitrary level sequences",
  ["creole/emitter/creol2html_emitter.py:TableOfContent.flat_list2nest_list"])
p("C19", "table of contents HTML is balanced and indents by level",
  "nested_headlines2html renders every nested headline list as balanced ul/li markup with one link per headline in order.",
  "every nested headline list", "recursive structure of unbounded depth",
  ["creole/emitter/creol2html_emitter.py:TableOfContent.nested_headlines2html"])
p("C20", "toc headline text is not escaped (violation)",
  "A user relies on headline text being escaped everywhere. Refuted: with <<toc>> the headline is inserted raw in the table of contents.",
  "existence of a markup string", "toc tests use harmless headlines",
  ["creole/emitter/creol2html_emitter.py:TableOfContent.nested_headlines2html"])
p("C21", "conversion is history independent",
  "The result of a creole2html call does not depend on earlier calls made with the same macros dictionary. Holds for every history of documents without toc; refuted when toc is used, because the TableOfContent object is stored in the caller's dictionary and reused.",
  "every finite sequence of documents converted with one shared macros dictionary", "needs histories, not single calls",
  ["creole/emitter/creol2html_emitter.py:HtmlEmitter.__init__", "creole/emitter/creol2html_emitter.py:TableOfContent.__call__"])
p("C22", "toc depth must be an integer",
  "A user relies on creole2html never raising. Refuted: <<toc depth=abc>> followed by a headline raises TypeError; with an integer depth (or none) it never raises, and the toc lists exactly the headlines after the macro whose level is at most depth, plus all headlines before it.",
  "every document using toc", "tests use depth 1..3 only",
  ["creole/emitter/creol2html_emitter.py:TableOfContent.add_headline"])
p("C23", "macro argument strings round-trip",
  "string2dict(dict2string(d)) == d for every dictionary with identifier-like keys and values that are integers or printable ASCII strings that do not look like a number or keyword.",
  "every such dictionary of any size", "shell lexing, JSON quoting and integer parsing interact",
  ["creole/shared/utils.py:string2dict", "creole/shared/utils.py:dict2string"])
p("C24", "macro argument round-trip fails outside the guard (violation)",
  "string2dict(dict2string(d)) == d for all d is refuted for booleans, None, numeric strings and strings that JSON escapes with a backslash letter. Every dictionary with identifier-like keys is read again, though, and each value comes back as exactly the text that JSON wrote: printable characters as they are, the others as their JSON escapes, True, False and None as true, false and null; a text that int() reads comes back as that number.",
  "existence for the refutation; every dictionary with identifier-like keys for what comes back", "tests never compose the two functions",
  ["creole/shared/utils.py:string2dict", "creole/shared/utils.py:dict2string"])
p("C25", "entity decoding inverts escaping",
  "Deentity.replace_all(escape(t)) == t for every string t, so preformatted content survives html -> markup conversion.",
  "every unicode string", "overlapping entities such as &amp;lt; need a universal argument",
  ["creole/html_tools/deentity.py:Deentity.replace_all"])
p("C26", "numeric character references decode to their code point",
  "For every code point n < 0x110000, decimal &#n; and hexadecimal &#xh; are replaced by chr(n); larger numbers raise ValueError, from 2^31 on OverflowError (decimal numbers of more than 4300 digits excepted). In a text with several references each one is replaced by what it means and the text between is kept.",
  "every natural number n", "1.1 million code points and unboundedly many invalid ones",
  ["creole/html_tools/deentity.py:Deentity.replace_number", "creole/html_tools/deentity.py:Deentity.replace_hex"])
p("C27", "strip_html only changes white space",
  "strip_html(s) contains exactly the non-white-space characters of s in the same order.",
  "every string s", "a regular-expression substitution over arbitrary, possibly broken, HTML",
  ["creole/html_tools/strip_html.py:strip_html"])
p("C28", "clean_whitespace normalises only the ends",
  "clean_whitespace(s) keeps the stripped core of s unchanged, reduces leading white space to '' or ' ' and trailing white space to a newline, a space or itself when it has neither.",
  "every string s", "white-space runs of any composition",
  ["creole/html_tools/text_tools.py:clean_whitespace"])
p("C29", "the HTML tree builder reconstructs well-nested documents",
  "Feeding the tokens of any well-nested document (elements closed in order, no stray end tags) builds exactly that document tree, with the correct list level on every ul/ol/li.",
  "every well-nested document tree", "current-node pointer discipline over arbitrary nesting",
  ["creole/parser/html_parser.py:HtmlParser.handle_starttag", "creole/parser/html_parser.py:HtmlParser.handle_endtag"])
p("C30", "a stray end tag loses the rest of the document (violation)",
  "A user relies on tolerant parsing: text following an unmatched inline end tag must not vanish. Refuted: once the current node becomes None, no later token can ever reach the document tree.",
  "every continuation of the token stream", "statement is about all suffixes",
  ["creole/parser/html_parser.py:HtmlParser.handle_endtag"])
p("C31", "preformatted areas are stashed and restored unchanged",
  "Every <pre> area cut out before tokenising is given a distinct id, and the node built for its placeholder carries exactly the cut-out text.",
  "every html string", "any number of areas",
  ["creole/parser/html_parser.py:HtmlParser._pre_cut", "creole/parser/html_parser.py:HtmlParser.handle_startendtag"])
p("C32", "tables: all rows are aligned and no cell is lost when rows have equal length",
  "For a table whose rows all have the same number of cells, get_table_markup (auto width) yields one line per row, all of the same length, and splitting a line at the bars and stripping gives back exactly the cells.",
  "every rectangular table of bar-free cells", "any number of rows, columns and widths",
  ["creole/shared/markup_table.py:MarkupTable.get_table_markup"])
p("C33", "ragged tables lose cells (violation)",
  "A user relies on no table cell being dropped. Refuted: all rows are truncated to the shortest row; an empty row drops the whole table content.",
  "exact characterisation for every table", "tests use rectangular tables",
  ["creole/shared/markup_table.py:MarkupTable._get_preformat_info"])
p("C34", "reStructuredText grid tables are well formed",
  "get_rest_table yields 2*rows+1 lines of equal length, separator lines at all even positions, the header separator exactly after the first row of a table with header cells.",
  "every rectangular table", "unbounded",
  ["creole/shared/markup_table.py:MarkupTable.get_rest_table"])
p("C35", "html2rest headings are underlined with the exact length",
  "Every headline is emitted with an adornment line of exactly the length of its text; level 7..9 are treated as 6; level 0 raises KeyError.",
  "every heading text and level", "length equality for all texts",
  ["creole/emitter/html2rest_emitter.py:ReStructuredTextEmitter.headline_emit"])
p("C36", "html2rest substitutions are unambiguous",
  "If html2rest does not raise, each link text and each image text in the output is associated with exactly one URL; two links with the same text and different URLs raise Html2restException.",
  "every sequence of links and images", "depends on the whole history of links in the document",
  ["creole/emitter/html2rest_emitter.py:ReStructuredTextEmitter._get_old_substitution"])
p("C37", "unknown tags are transparent by default",
  "With the default unknown_emit, the output for an unknown element is the (line-joined) output of its children: the element name and attributes never influence the output.",
  "every element name that is not known to the emitter, every attribute list and child list", "infinitely many tag names",
  ["creole/shared/unknown_tags.py:transparent_unknown_nodes", "creole/shared/base_emitter.py:BaseEmitter._emit_content"])
p("C38", "raise_unknown_node rejects exactly the documents with unknown tags",
  "With unknown_emit=raise_unknown_node, html2creole raises NotImplementedError for a document containing an unknown tag, and for a document of known tags gives the same output as with any other unknown_emit.",
  "every document tree", "all trees",
  ["creole/shared/unknown_tags.py:raise_unknown_node", "creole/shared/base_emitter.py:BaseEmitter.emit_node"])
p("C39", "html2creole emission is compositional on clean documents",
  "For every clean HTML document (paragraphs, headings, typefaces, character references, links, images, line breaks, rules, nested lists, tables), written with any white space around its block elements, html2creole yields the creole markup given by a direct recursive specification.",
  "every clean document of any size and every way to write it, every unknown-tag policy", "emitter keeps mutable state (last node, list prefix)",
  ["creole/emitter/html2creole_emitter.py:CreoleEmitter", "creole/shared/base_emitter.py:BaseEmitter"])
p("C40", "creole -> html -> creole round trip",
  "html2creole(creole2html(x)) == x for every canonical creole document x (paragraphs, headings, rules and nested lists with text, typefaces, links, images and links around images). Conversely creole2html(html2creole(h)) is the html creole2html writes for x, for every way h to write it. Refuted outside: lists after headings, nested lists after a typeface, inline code, tables, line breaks in paragraphs and escapes are changed.",
  "every canonical document of any size", "composition of two converters and a tokenizer",
  ["creole/__init__.py:creole2html", "creole/__init__.py:html2creole"])
p("C41", "image size round trip swaps width and height (violation)",
  "A user relies on html2creole(creole2html(x)) == x for images with sizes. Refuted: width and height are swapped.",
  "existence", "the two directions are only tested separately",
  ["creole/emitter/html2creole_emitter.py:CreoleEmitter.img_emit"])
p("C42", "README regeneration makes the README check pass",
  "After update_rst_readme writes, assert_rst_readme accepts. Refuted in general: when the new text is a line-wise prefix of the old file nothing is written although the check fails. It holds whenever the function writes. It leaves the file alone exactly when the lines that the new text and the old file both have are the same but for white space at their ends.",
  "every old file content and every new text", "needs all pairs of contents",
  ["creole/setup_utils.py:update_rst_readme", "creole/setup_utils.py:assert_rst_readme"])
p("C43", "command line conversion never destroys data",
  "A user relies on the destination (and source) being intact when conversion fails. Refuted: the destination is truncated before conversion, and the source itself when source and destination are the same file. On success the destination holds exactly the converted text and no other file changes.",
  "every file system state, every conversion outcome", "crash points and aliasing",
  ["creole/cmdline.py:CreoleCLI.convert"])
p("C44", "html2creole/textile/markdown results are stripped",
  "The result of html2creole, html2textile and html2markdown never starts or ends with white space; html2rest never ends with it; creole2html without toc neither.",
  "every input", "all inputs", ["creole/emitter/html2creole_emitter.py:CreoleEmitter.emit", "creole/emitter/creol2html_emitter.py:HtmlEmitter.emit"])
p("C45", "pypi_rest2html rejects links with foreign schemes",
  "pypi_rest2html raises exactly when some link or image URI of the document has a scheme outside the allowed list.",
  "every document node list", "all documents", ["creole/rest_tools/pypi_rest2html.py:pypi_rest2html"])
p("C46", "clean HTML writer drops exactly the ignored tags and attributes",
  "starttag emits no div, and for other tags every attribute outside the ignore list exactly once in sorted order with lower-cased name.",
  "every tag name and attribute dictionary", "all dictionaries", ["creole/rest_tools/clean_writer.py:CleanHTMLTranslator.starttag"])
p("C48", "markdown tables are aligned and have a header separator",
  "get_markdown_table yields one line per row, all of the same length, the cells of the rows truncated to the shortest row, and after the first row of a table with header cells (and more rows) a separator line of the same length whose cells are dashes.",
  "every table whose columns are not entirely empty and whose cells have neither bar nor newline", "all numbers of rows and columns and all cell texts",
  ["creole/shared/markup_table.py:MarkupTable.get_markdown_table"])
p("C49", "an HTML5 <hr> swallows the rest of the document (violation)",
  "A user relies on the text after a rule being converted. Refuted for <hr> written without a slash: html2creole drops every well-nested element after it.",
  "every well-nested document before and after the rule", "all documents",
  ["creole/parser/html_parser.py:HtmlParser.handle_starttag", "creole/emitter/html2creole_emitter.py:CreoleEmitter.hr_emit"])
p("C50", "unambiguous documents mean what their blocks mean",
  "For every document of paragraphs, headings, rules, preformatted blocks, nested lists and tables, separated by empty lines, whose inline text is unambiguous, creole2html yields exactly the HTML of the blocks, one after the other, and leaves the macro dictionary as it was.",
  "every unambiguous document of unbounded size and depth, both line break modes, any verbose/strict, any macro dictionary", "the grammar is infinite; rules interact through one big regular expression",
  ["creole/__init__.py:creole2html", "creole/parser/creol2html_parser.py:CreoleParser", "creole/parser/creol2html_rules.py", "creole/emitter/creol2html_emitter.py:HtmlEmitter"])
p("C51", "blocks separated by an empty line are independent (violation without blog line breaks)",
  "A user relies on a block being recognised after an empty line. It holds for every pair of unambiguous blocks with blog_line_breaks=True. Refuted for blog_line_breaks=False: a heading or a preformatted block after an empty line becomes plain text.",
  "every pair of unambiguous blocks; existence for the violation", "all pairs of blocks",
  ["creole/parser/creol2html_rules.py:BlockRules", "creole/parser/creol2html_parser.py:CreoleParser._text_repl"])
p("C52", "lists nest as their bullets say",
  "A list written with bullets (* or #, one more character per nesting level) is rendered as the same tree of ul, ol and li elements, each item with the rendering of its text.",
  "every list tree of unbounded depth and width, every unambiguous item text", "all trees", ["creole/parser/creol2html_parser.py:CreoleParser._item_repl", "creole/emitter/creol2html_emitter.py:HtmlEmitter.bullet_list_emit"])
p("C53", "tables keep their rows and cells (violation without blog line breaks)",
  "With blog line breaks, rows of |cell| and |=heading| are rendered as one table with exactly these rows and cells in order; bars inside links and images do not end a cell. Without blog line breaks that holds for one row and is refuted for two.",
  "every non-empty list of rows of unambiguous cells", "all numbers of rows and columns", ["creole/parser/creol2html_parser.py:CreoleParser._table_repl", "creole/parser/creol2html_rules.py:SpecialRules", "creole/emitter/creol2html_emitter.py:HtmlEmitter.table_emit"])
p("C54", "the README target is never created (violation)",
  "A user relies on update_rst_readme creating README.rst. Refuted: when the file is missing the call fails, when it is empty the call reports that nothing changed; in both cases no file changes and the check fails afterwards as before.",
  "every directory without or with an empty target, every README", "all directories", ["creole/setup_utils.py:update_rst_readme"])
p("C55", "a second README update changes nothing",
  "After an update that has written, a further update with the same README writes nothing (the time stamp stays), if the generated text has no line boundaries other than newlines. Refuted without that condition: a U+2028 in the text makes every update write.",
  "every directory and README, every pair of time stamps", "all texts", ["creole/setup_utils.py:update_rst_readme"])
p("C56", "checking a README has no side effects (violation for markdown)",
  "assert_rst_readme changes no file and update_rst_readme no file but its target. Refuted for assert_markdown_readme: it writes README.html.",
  "every directory and file name", "all directories", ["creole/setup_utils.py:assert_rst_readme", "creole/setup_utils.py:assert_markdown_readme", "creole/setup_utils.py:_generate_markdown_readme"])
p("C57", "get_long_description yields reStructuredText (violation)",
  "A user relies on get_long_description returning the converted README. Refuted for every README: it raises when errors are to be raised and otherwise returns an error line and the unconverted text, because html2rest has no parameter emitter_kwargs. Unless the caller says so, errors are raised without arguments on the command line or with one of check, register, sdist, bdist, upload, --long-description and --restructuredtext, and never otherwise.",
  "every file content, readable or not, every command line", "all inputs", ["creole/setup_utils.py:get_long_description", "creole/__init__.py:html2rest"])
p("C58", "macro arguments mean what is written",
  "For every list of arguments key=value, key=\"value\" and key='value' separated by blanks, string2dict yields for every key the value of its last argument: True, False and None as constants, numbers as integers, everything else as the text.",
  "every list of arguments of any length", "all strings", ["creole/shared/utils.py:string2dict"])
p("C59", "the command line tools keep every character",
  "With the default codec, the destination of a successful conversion is the UTF-8 form of the conversion of the text whose UTF-8 form the source is; decoding inverts encoding for every text without surrogates.",
  "every text, every converter, every file system", "1.1 million characters", ["creole/cmdline.py:CreoleCLI.convert"])
p("C60", "damaged input is reported (violation)",
  "A user relies on an undecodable source being reported. Refuted: a source that ends inside a multi-byte character is converted silently without that character.",
  "every text, every character of more than one byte, every cut", "all texts", ["creole/cmdline.py:CreoleCLI.convert"])
p("C61", "the diff shown for an outdated README is faithful (violation)",
  "unified_diff shows the lines of the diff if all end with a newline. Refuted otherwise: the note about the missing newline is glued to the line, so the diff is the same as for another text.",
  "every diff", "all diffs", ["creole/shared/diff_utils.py:unified_diff"])
p("C62", "html documents lose no text",
  "For every html text whose tables are rectangular and consist of rows and cells only, and whose rules, images and line breaks have no content, every character of its text other than white space and backslashes appears in the result of html2creole, html2textile, html2markdown and html2rest, in the same order, with each way to treat unknown tags. Refuted without the conditions: ragged tables, text in rows, code areas in markdown paragraphs.",
  "every html text, every nesting, every unknown tag", "all documents", ["creole/parser/html_parser.py:HtmlParser", "creole/emitter/html2creole_emitter.py:CreoleEmitter", "creole/emitter/html2textile_emitter.py:TextileEmitter", "creole/emitter/html2markdown_emitter.py:MarkdownEmitter", "creole/emitter/html2rest_emitter.py:ReStructuredTextEmitter", "creole/shared/unknown_tags.py"])
p("C63", "converting html does not fail (violation for many texts)",
  "Every html text without preformatted areas, marked sections and the parser's own tag names is parsed. Every parsed document whose images and links have the attributes the format needs, whose cells are in tables, whose headlines and list items are regular and whose references are valid is converted by html2creole, html2textile and html2markdown, with each way to treat unknown tags but the raising one; html2rest converts it or reports clashing link texts. It reports a clash only for documents, regular or not, with two links that have different addresses or two images that have different sources. Refuted for every condition: 15 texts that raise KeyError, TypeError, AttributeError, ValueError, IndexError, AssertionError or NotImplementedError.",
  "every html text, well-formed or not", "all texts", ["creole/parser/html_parser.py:HtmlParser", "creole/shared/base_emitter.py:BaseEmitter", "creole/emitter/html2creole_emitter.py:CreoleEmitter", "creole/emitter/html2textile_emitter.py:TextileEmitter", "creole/emitter/html2markdown_emitter.py:MarkdownEmitter", "creole/emitter/html2rest_emitter.py:ReStructuredTextEmitter"])
p("C64", "html2textile writes the markup a clean document means",
  "For every document of headings, paragraphs, rules, nested lists and tables with marked text, links, images, references and line breaks, and every way to write it as html with any white space between tags, html2textile returns exactly the textile of that document, with each way to treat unknown tags. Refuted: that blocks are apart (a paragraph after a table joins the table).",
  "every document of any size and depth, every way to indent its html", "all documents", ["creole/__init__.py:html2textile", "creole/emitter/html2textile_emitter.py:TextileEmitter", "creole/shared/base_emitter.py:BaseEmitter", "creole/html_tools/strip_html.py:strip_html"])
p("C65", "addresses in markdown links are quoted faithfully (violation)",
  "A link to an unambiguous address becomes a markdown link to the address with the same scheme, host, query and fragment whose path is the percent encoding of its UTF-8 bytes, from which the path can be read back. Parameters (what follows the first semicolon of the last part of the path, for schemes that have them) are kept as they are. Refuted: an address that is encoded already is encoded twice; blanks in the query are left and end the address; a semicolon at the end of the path gets lost.",
  "every scheme, host, path, parameters, query and fragment", "all addresses", ["creole/emitter/html2markdown_emitter.py:quote_link", "creole/emitter/html2markdown_emitter.py:MarkdownEmitter.a_emit"])
p("C66", "html2markdown writes the markup a clean document means",
  "For every clean document as in C64 with rectangular tables of one-line cells, and every way to write it as html, html2markdown returns exactly the markdown of that document. Refuted without the conditions: the space between two marked words is lost, a line break in a cell ends the row, a table without header cells has no rule.",
  "every document of any size and depth, every way to indent its html", "all documents", ["creole/__init__.py:html2markdown", "creole/emitter/html2markdown_emitter.py:MarkdownEmitter", "creole/shared/markup_table.py:MarkupTable.get_markdown_table", "creole/html_tools/strip_html.py:strip_html"])
p("C67", "html2rest writes the markup a clean document means, or refuses it for a clash of names",
  "For every clean document with one-line list items, titles and cells, rectangular tables, and nested lists of the kind of the outer one, and every way to write it as html, html2rest returns exactly the reStructuredText of that document: the first use of a link text carries its address and the later ones refer to it, links in cells and all images are defined below their block, once. It raises the substitution error exactly when a link text, or an image name, stands for two addresses. Refuted without the conditions: a nested list of the other kind changes the mark of the outer item, a line break ends a list item or leaves a title of two lines, in a cell it becomes two backslashes.",
  "every document of any size and depth, every order of links and images in it, every way to indent its html", "all documents and all histories of names", ["creole/__init__.py:html2rest", "creole/emitter/html2rest_emitter.py:ReStructuredTextEmitter", "creole/shared/markup_table.py:MarkupTable.get_rest_table", "creole/html_tools/strip_html.py:strip_html"])
p("C68", "Macros between the blocks of a document are called once each, in order, with the arguments as written, and their answers stand in their places",
  "In a creole document made of unambiguous blocks and of macros <<name args>>text<</name>> separated by empty lines (with blog line breaks; without them a macro may stand at the start), creole2html calls every macro that exists exactly once, in document order, each call after the calls before it. The call gets the text without white space at its ends as text and every argument with the value written (numbers and True/False/None converted). What the macro returns stands verbatim, followed by a line end, in the place of the macro; a macro that does not exist, does not return a str or raises leaves a complaint there (nothing if verbose is 0). The text of a macro is not read as creole, and the blocks around the macros are converted as if the macros were not there. Without blog line breaks a macro after an empty line is not recognised, and a macro cannot contain one of the same name.",
  "all documents of blocks and macros, all macro names (word characters, except toc), arguments and texts, all macro environments including stateful and raising ones, all verbosity levels and options",
  "Tests use a few macros and texts; that no text, argument or neighbouring block disturbs the calls, whatever the macros do, quantifies over all documents and environments.",
  ["creole/parser/creol2html_parser.py:_macro_block_repl", "creole/parser/creol2html_parser.py:_add_macro", "creole/parser/creol2html_rules.py:macro_block", "creole/emitter/creol2html_emitter.py:macro_emit"])

p("C69", "The example macros: html passes its text through, pre and code show it escaped",
  "With the macros of example_macros.py (without pygments) in a dict, <<html>>text<</html>> shows the text verbatim, <<pre>>text<</pre>> and <<code ext=...>>text<</code>> show it escaped between pre tags, at any place of a document of unambiguous blocks and macros; code without ext shows only a complaint, and so does a macro with an argument it does not know.",
  "all documents of blocks and example macros, all texts and extensions, all options",
  "Tests show three texts; that nothing inside of the text is read as markup and that special characters are always escaped quantifies over all texts.",
  ["creole/shared/example_macros.py:html", "creole/shared/example_macros.py:pre", "creole/shared/example_macros.py:code", "creole/emitter/creol2html_emitter.py:macro_emit"])

p("C70", "Macro tags in the lines of paragraphs are called in reading order and answered in place",
  "In a creole document of unambiguous blocks, block macros and paragraphs whose lines contain tags <<name args>> or <<name args />> and macros <<name args>>text<</name>> among the marked up text, creole2html calls every macro that exists exactly once, in reading order. A tag is called with text None, a macro around a text with that text without white space at its ends, and both with every argument as written. What is returned stands verbatim in the place of the tag (no line end is added), a macro that does not exist, does not return a str or raises leaves its complaint there, and the text and the line breaks around are converted as without the macros. A tag must not be followed by the end tag of a macro whose name is a first part of its own (at the start of a line: anywhere in the rest of the document; refuted otherwise, what is between them is lost), and a macro around a text at the start of a line is a block of its own (refuted otherwise).",
  "all documents of blocks, block macros and paragraphs of any number of lines and parts, all names, arguments and texts, all macro environments including stateful and raising ones, both line break modes, all verbosity levels",
  "Tests use one or two tags in short lines; that every tag is called once, in order and in place, whatever stands around it and whatever the macros do, quantifies over all documents and environments.",
  ["creole/parser/creol2html_parser.py:_macro_inline_repl", "creole/parser/creol2html_parser.py:_macro_tag_repl", "creole/parser/creol2html_parser.py:_add_macro", "creole/parser/creol2html_rules.py:macro_inline", "creole/parser/creol2html_rules.py:macro_tag", "creole/emitter/creol2html_emitter.py:macro_emit"])

p("C71", "A table of contents stands in the place of the first <<toc>> and lists the headings of the document",
  "In a creole document of unambiguous blocks and tags <<toc>> or <<toc depth=n>>, each on a line of its own between empty lines, creole2html replaces the first tag by nested lists in which every heading before it and every heading of level at most n after it stands exactly once, in document order, at the depth of its level, as a link to its title; every heading is the target of such a link; later tags are shown as text and change nothing; all other blocks are converted as without the tags. The depth does not apply to headings before the tag.",
  "all documents of blocks and toc tags of any size, all depths, both line break modes, all options and macro environments without a toc macro of their own",
  "Tests have a few headings at fixed levels; that no sequence of levels, position of the tag or neighbouring block leads to a missing, repeated or misplaced entry quantifies over all documents.",
  ["creole/emitter/creol2html_emitter.py:TableOfContent", "creole/emitter/creol2html_emitter.py:HtmlEmitter.header_emit", "creole/emitter/creol2html_emitter.py:HtmlEmitter.emit", "creole/emitter/creol2html_emitter.py:HtmlEmitter.macro_emit"])

p("C72", "Tags creole has no mark for are written as the chosen callable says, in place and around their own text",
  "For every clean HTML document whose inline elements may have any other tag and any attributes, html2creole asks unknown_emit for each element with an unknown tag, with its name, its attributes and the creole of its contents, and puts the answer in the place of the element; the rest is written as if the tag were known. use_html_macro and preformat_unknown_nodes write the start tag (attributes in the order of their names) and the end tag as <<html>> or <<pre>> macros around the contents, or one empty tag; escape_unknown_nodes writes the tags as text; transparent_unknown_nodes writes the contents only. Refuted: attribute values that are not printable ASCII without quotes and backslashes are changed.",
  "all clean documents of any size and nesting, all unknown inline tag names, all attribute lists, every way to write the document, every callable that is a function of name, attributes and contents",
  "Tests have a few literal tags with each callable; the claim is for all names, attributes, positions and nestings.",
  ["creole/shared/unknown_tags.py:_mask_content", "creole/shared/unknown_tags.py:use_html_macro", "creole/shared/unknown_tags.py:preformat_unknown_nodes", "creole/shared/unknown_tags.py:escape_unknown_nodes", "creole/shared/unknown_tags.py:transparent_unknown_nodes", "creole/shared/base_emitter.py:BaseEmitter.emit_node", "creole/shared/utils.py:dict2string"])

p("C73", "HTML with unknown tags survives the way to creole and back when the html macros are used",
  "For every neat document in whose paragraphs there are elements with tags creole does not know: however it is written, html2creole with use_html_macro gives the canonical creole text in which the start and end tags are <<html>> macros, and creole2html with the example html macro gives from that text the document again, with every unknown element around its own contents, its attributes in the order of their names and empty elements as one empty tag. If no element is empty, the attributes are in that order and nothing in their values needs escaping, the HTML leads to the same creole text again, so that further rounds change nothing. Refuted for elements at the start of a line: creole takes the macro there for a block and breaks the paragraph up.",
  "all documents of any number of blocks, lines and elements, all unknown inline tag names and attribute lists, every way to write them, both markup modes, all verbose and strict settings",
  "Tests convert a few literals there and back; the round trip is claimed for every document of the class.",
  ["creole/shared/unknown_tags.py:use_html_macro", "creole/shared/example_macros.py:html", "creole/emitter/creol2html_emitter.py:HtmlEmitter.macro_emit", "creole/emitter/html2creole_emitter.py:CreoleEmitter", "creole/__init__.py:html2creole", "creole/__init__.py:creole2html"])

p("C74", "HTML documents with preformatted blocks become exactly the markup they mean, in all four languages",
  "For every document of clean blocks (as in C64 to C67) and pre blocks whose start and end tags stand on lines of their own: however its other white space is chosen, html2creole, html2textile, html2markdown and html2rest give exactly the blocks' markup with the preformatted texts between their marks, character by character, with character references resolved and nothing inside taken for markup, and the fixed separators between the blocks. For reStructuredText the text is trimmed and its lines are indented; documents without an answer are those in which two link definitions clash. Refuted: html2rest loses the indentation of the first line, so two different texts give the same output; a pre block written on one line is glued to the block after it; the end mark }}} inside a text is not escaped, so creole would end the block there.",
  "all documents of any number of blocks and pre blocks with any text without tags, every way to write them",
  "Tests convert a few literals with one pre block; the placement of any number of them among any blocks, whatever their text, is claimed for every document of the class.",
  ["creole/parser/html_parser.py:HtmlParser._pre_cut", "creole/parser/html_parser.py:HtmlParser.feed", "creole/parser/html_parser_config.py:BLOCK_TAGS", "creole/html_tools/strip_html.py:strip_html", "creole/html_tools/deentity.py:Deentity.replace_all", "creole/emitter/html2creole_emitter.py:CreoleEmitter.blockdata_pre_emit", "creole/emitter/html2textile_emitter.py:TextileEmitter.blockdata_pre_emit", "creole/emitter/html2markdown_emitter.py:MarkdownEmitter.blockdata_pre_emit", "creole/emitter/html2rest_emitter.py:ReStructuredTextEmitter.blockdata_pre_emit"])
p("C75", "Creole documents with code blocks survive the way to html and back",
  "For every canonical creole document (as in C40) with code blocks, in which a code block and the next block are separated by one newline: html2creole(creole2html(x)) == x. If an empty line follows the code block instead, exactly that empty line is lost, and after one round nothing changes any more. From the html side: however the html is written, the creole text leads to the html document again. For all unambiguous blocks, a block directly below a code block is recognised. Refuted: a blank first line of a code block is lost; in wiki mode a code block after an empty line is not recognised.",
  "all documents of any number of blocks, all code texts without a line that starts with the end mark, all verbose and strict settings, every handler of unknown tags",
  "Tests convert a few literals there and back; the round trip is claimed for every document of the class.",
  ["creole/__init__.py:creole2html", "creole/__init__.py:html2creole", "creole/parser/creol2html_parser.py:CreoleParser._pre_block_repl", "creole/parser/creol2html_rules.py:BlockRules.pre_block", "creole/emitter/creol2html_emitter.py:HtmlEmitter.pre_block_emit", "creole/emitter/html2creole_emitter.py:CreoleEmitter.blockdata_pre_emit"])

p("C76", "Html code blocks become fenced code blocks of markdown, with their language",
  "For every html document of paragraphs, headings, lists, tables, rules, code blocks (pre around code, with or without a class language-x) and one-line pre elements, with any white space between them, html2markdown(x) is the markdown of the blocks with every code block as ```, the language, the code, ```, and every pre element as ``` and its decoded text. Code without a character reference is written in full. Refuted in general: from the first character reference on the code is lost (a < b becomes a), and code that begins with a reference becomes the name of the reference; if no newline follows the start tag, language and code run together, so that two different blocks become the same; an element inside code is a TypeError, empty code an IndexError.",
  "all documents of any number of parts, all attributes of the code elements, all texts and references, all white space between the parts, every handler of unknown tags",
  "The test converts one code block without references; the claim is about every text, class and neighbour.",
  ["creole/__init__.py:html2markdown", "creole/emitter/html2markdown_emitter.py:MarkdownEmitter.inlinedata_pre_emit", "creole/parser/html_parser.py:HtmlParser.feed", "creole/parser/html_parser.py:HtmlParser._pre_pre_inline_cut", "creole/html_tools/strip_html.py:strip_html"])

p("C77", "How the tags of an html document are spelled makes no difference",
  "Take any html document of paragraphs, headings, lists, tables and rules with inline elements (any names, any attributes), links, images and line breaks. Write each of its tags in any of these ways: names of attributes and of inline elements in any mixture of upper and lower case, attribute values in double quotes, in single quotes (if they have none) or without quotes (if they need none), any number of spaces between the attributes, around the equals sign and before the >, line breaks as <br /> or <br>. Then html2creole, html2textile, html2markdown and html2rest give the same result for every spelling, for every handler of unknown tags. For clean documents it is the text of C39, C64, C66 and C67. Refuted beyond that: names of block elements in upper case, <br/> without a space and images without the slash change the white space of the result.",
  "all documents of any size and depth, all spellings of each tag, all white space between the blocks, every handler of unknown tags, strict and not strict",
  "A test can try a few spellings of a few tags; the claim is about every combination of them in every document.",
  ["creole/__init__.py:html2creole", "creole/parser/html_parser.py:HtmlParser.feed", "creole/parser/html_parser.py:HtmlParser.handle_starttag", "creole/html_tools/strip_html.py:strip_html", "creole/parser/html_parser_config.py:BLOCK_TAGS"])

p("C78", "Comments, declarations, processing instructions and marked sections between tags do not show",
  "Take any html document as in C77, in any spelling, and put any number of comments (<!-- … -->), document type and other declarations (<!doctype …>, in any case, <! … >), processing instructions (<? … >), conditions (<![if …]>, <![else]>, <![endif]>) and marked sections (<![CDATA[ … ]]>, also temp, ignore, include and rcdata, white space allowed between the closing signs), over any number of lines and without angle brackets inside, at its beginning or directly after tags of block elements, directly before the next tag or the end. Then html2creole, html2textile, html2markdown and html2rest give the same result as without them, for every handler of unknown tags; for clean documents it is the text of C39, C64, C66 and C67. Refuted beyond that: white space around a comment between two blocks is not dropped like the white space between the blocks; a marked section with any other name raises.",
  "all documents of any size and depth, all spellings, all comments, declarations and instructions at all those places, every handler of unknown tags, strict and not strict",
  "A test can try a few comments at a few places; the claim is about every text in them and every combination of places.",
  ["creole/__init__.py:html2creole", "creole/parser/html_parser.py:HtmlParser.feed", "creole/parser/html_parser.py:HtmlParser", "creole/html_tools/strip_html.py:strip_html"])

p("C79", "Attributes without a meaning and the spelling of tags make no difference, whatever the shape of the html",
  "Take any sequence of opening, closing and self closing tags (no pre, script or style; values without newlines) and texts whose every & begins a character reference, well nested or not, each tag in any spelling as in C77. Change the attributes of the tags in any way that keeps the last values of the attributes the target language has a use for: href of links (for markdown also title); src, title and alt of images (for creole, unless strict, also width and height); all attributes of tags the language has no markup for; none of headings, table bodies, paragraphs, lists, tables and typefaces. Then html2creole, html2textile, html2markdown and html2rest give the same result, or raise the same error, for every handler of unknown tags.",
  "all sequences of tags and texts, balanced or not, all spellings, all attributes, every handler of unknown tags, strict and not strict",
  "There are infinitely many attributes and places; a test tries a class or an id on one element.",
  ["creole/__init__.py:html2creole", "creole/__init__.py:html2textile", "creole/__init__.py:html2markdown", "creole/__init__.py:html2rest", "creole/parser/html_parser.py:HtmlParser.handle_starttag", "creole/emitter/html2creole_emitter.py:CreoleEmitter", "creole/shared/base_emitter.py:BaseEmitter.emit_node"])
p("C80", "What the attributes of links and images mean",
  "An <img> with any attributes, in any spelling and order, becomes {{src|text}}, !src(text)!, ![alt](src \"title\") or a reStructuredText substitution. The text is the longer one of title and alt (title if they are equally long), or the file name of src if both are empty or absent. In creole, unless strict, |HEIGHTxWIDTH is added if both are given. In markdown the title is given if there are title and alt. An image whose src is a data: address gives nothing (creole, textile, reStructuredText); one without src raises KeyError. An <a> with any attributes around words becomes [[href|words]] ([[href]] if that is the text), \"words\":href, [words](href \"title\") or `words <href>`_; without href it becomes the words in creole and raises KeyError elsewhere.",
  "all attributes with all values in any order and number (the last one counts), all spellings, all texts of words",
  "The result depends on several attributes together, each present, empty, absent or repeated; tests fix a few combinations.",
  ["creole/emitter/html2creole_emitter.py:CreoleEmitter.img_emit", "creole/emitter/html2creole_emitter.py:CreoleEmitter.a_emit", "creole/emitter/html2textile_emitter.py:TextileEmitter.img_emit", "creole/emitter/html2textile_emitter.py:TextileEmitter.a_emit", "creole/emitter/html2markdown_emitter.py:MarkdownEmitter.a_emit", "creole/emitter/html2markdown_emitter.py:MarkdownEmitter.img_emit", "creole/emitter/html2rest_emitter.py:ReStructuredTextEmitter.a_emit", "creole/emitter/html2rest_emitter.py:ReStructuredTextEmitter.img_emit"])

p("C81", "Blanks in the cells of creole tables",
  "Blanks around the text of the cells of a table, before and after the heading mark, make no difference: creole2html gives the html of the table without them. A cell of blanks only is an empty cell. Any block other than a table may follow right below a table, without an empty line.",
  "all documents of paragraphs, headings, rules, code blocks, lists and tables, all unambiguous texts (C50) in the cells, all numbers of blanks in every cell, with and without empty lines after the tables and code blocks",
  "The rows of a table are found line by line and cut at bars that are not part of links, images or code; tests try a few widths.",
  ["creole/parser/creol2html_rules.py:BlockRules.table", "creole/parser/creol2html_rules.py:SpecialRules.cell", "creole/parser/creol2html_parser.py:CreoleParser._table_repl", "creole/parser/creol2html_parser.py:CreoleParser._upto_block"])

p("C82", "creole -> html -> creole round trip with tables",
  "A canonical creole document with tables (cells padded to the width of their columns) and code blocks comes back from html unchanged. The same document in any other layout (other blanks in the cells, an empty line after a table or a code block or none) comes back in this one. And html of such a document, written in any way, has the html of the canonical document after one trip.",
  "all canonical documents of C40 with any number of aligned tables and code blocks, all texts of the cells with markup, line breaks and empty cells, all options and all handlers of unknown tags",
  "The width of a column depends on all cells, and every text must survive two parsers; tests compare a few tables.",
  ["creole/shared/base_emitter.py:BaseEmitter.table_emit", "creole/shared/markup_table.py:MarkupTable.get_table_markup", "creole/parser/creol2html_parser.py:CreoleParser._table_repl"])

p("C83", "A dictionary of macros is good for one table of contents",
  "When documents are converted one after the other with one macros dictionary, the first that has a <<toc>> tag shows its table of contents. In every later document the tags are shown as text and no table of contents appears. Documents without the tag are not changed by this. So the expectation that each document has a table of its own is refuted.",
  "all histories of calls that share one dictionary, with all options and all documents of C71, with and without tags",
  "The tag is stored in the dictionary of the caller and remembers earlier documents; tests convert one document per dictionary.",
  ["creole/emitter/creol2html_emitter.py:HtmlEmitter.__init__", "creole/emitter/creol2html_emitter.py:TableOfContent.__call__", "creole/emitter/creol2html_emitter.py:TableOfContent.emit"])
p("C84", "Blank lines between the blocks of a creole document do not change them",
  "With the default line breaks, blocks may have any number of blank lines between them, empty or with white space in them, and before and after the document. Every block becomes the same html element; the blank lines only decide how many empty lines stand between the elements: none, one or two. Where two paragraphs, two lists, two tables or a list and a paragraph meet, one blank line is needed and enough, between tables an empty one. Converted back to creole, all layouts of the same blocks give the same text, unless a code block touches a list above it.",
  "all documents of paragraphs, headings, rules, code blocks, lists and tables in any order, and all blank lines around them",
  "How a blank line is matched depends on the block before it, the block after it and the white space in it; tests use one empty line.",
  ["creole/parser/creol2html_rules.py:BlockRules", "creole/parser/creol2html_parser.py:CreoleParser._line_repl", "creole/parser/creol2html_parser.py:CreoleParser._text_repl", "creole/parser/creol2html_parser.py:CreoleParser._table_repl", "creole/parser/creol2html_parser.py:CreoleParser._upto", "creole/parser/creol2html_parser.py:CreoleParser.cleanup_break"])

p("C85", "Any text below a document and an empty line means what it means alone",
  "With the default line breaks, below a document of blocks and an empty line any text at all may follow: markup that is not closed, macros, nonsense. The html is the html of the document, white space, and the html the text gives when it is converted alone; the macro calls made, the dictionary afterwards and an exception, if the text raises one, are also the same. Exceptions: a text that starts with white space, and a text with a table of contents, which lists the headings above it. The document above cannot be any text: below a line of equal signs and any number of empty lines, a line becomes the text of the heading.",
  "all documents of paragraphs, headings, rules, code blocks, lists and tables with any blank lines, all texts below, all macro dictionaries, verbosities and strict modes",
  "The text below is unrestricted: the claim says that no regular expression looks behind a line end and that no open list, table or paragraph leaks through an empty line, whatever follows.",
  ["creole/parser/creol2html_rules.py:BlockRules", "creole/parser/creol2html_parser.py:CreoleParser.parse_block", "creole/parser/creol2html_parser.py:CreoleParser._upto", "creole/parser/creol2html_parser.py:CreoleParser._replace", "creole/emitter/creol2html_emitter.py:HtmlEmitter.emit_children"])

p("C86", "Nothing is published while README.rst is not the text of README.creole",
  "publish() calls neither the style check nor the release unless README.rst is the reStructuredText generated from README.creole, with at most a note of four lines below it, and that text renders. The release is called once, after a style check that succeeds, with the files that check has left. After an update of the README that has written, publishing goes on.",
  "all contents of the package directory, all answers of the renderer and of the style check",
  "Publishing cannot be undone or run in a test; the order of the calls must hold for every state of the files.",
  ["creole/publish.py:publish", "creole/setup_utils.py:assert_rst_readme", "creole/setup_utils.py:update_rst_readme"])
p("C87", "rest2html lets docutils read no files and no raw html unless the caller asks for it",
  "Whatever else is passed to rest2html, docutils is called with the source unchanged and with raw_enabled, file_insertion_enabled and doctitle_xform off, unless the caller passes that very setting; every setting the caller passes arrives as it is. An object that is not a text raises AssertionError before docutils is called.",
  "all texts, all keyword arguments",
  "Tests look at the html of some texts; the claim is about the settings for every combination of arguments.",
  ["creole/rest_tools/clean_writer.py:rest2html"])
p("C88", "An aligned image gets its alignment exactly once and nothing else changes",
  "In the html of rest2html the tag of an image has the alignment of the image, or else that of the figure it stands in, as its last attribute, once; all other attributes and the rest of the tag are as without alignment. Objects that are not img elements are left alone. This holds because docutils escapes the character > in attribute values.",
  "all attributes and values of images, all alignments, all positions in the document",
  "The attribute is added by replacing text in the finished tag, so every attribute value takes part in the search.",
  ["creole/rest_tools/clean_writer.py:CleanHTMLTranslator.visit_image", "creole/rest_tools/clean_writer.py:CleanHTMLTranslator.starttag"])

p("C89", "The code macro with pygments",
  "On a system with pygments, a document with the example macros shows, in the place of <<code ext=\"e\">>text<</code>>, what pygments answers for the text and the lexer of the language e names, with <br /> before every newline; if pygments fails on the text, the escaped text in a pre element with the same breaks; everything else is as without pygments. The language is the text between the first two dots of the extension, or all of it. Violations: for an unknown extension pygments is asked to guess from the macro function and not from the text, and if that raises, the text is not shown at all; of several extensions the first counts, not the last; the lines of a text that pygments cannot mark are doubled.",
  "all documents with example macros, all behaviours of pygments, all extensions and texts, all verbosities",
  "The project's tests skip the macro without pygments and pin one version's output; the claim holds for every answer of pygments.",
  ["creole/shared/example_macros.py:code", "creole/shared/utils.py:get_pygments_lexer", "creole/shared/utils.py:get_pygments_formatter"])

p("C90", "Lists whose items start with any sequence of bullets",
  "In a list every line after the first may start with any number and any mixture of * and #. The item joins the innermost open list with as many bullets if that list is of the kind its last bullet names, and all lists inside of it end; otherwise the item begins a new list inside of the item above. Every item is shown once, in order, with its text, and every list that is opened is closed. Violations: the number of bullets does not determine how deep an item is shown; a list is not continued after an item of the other kind at the same depth, which is shown inside of it.",
  "all lists with any bullets and any markup in the items, between any other blocks, all macro dictionaries, both line break modes, both strict modes",
  "The nesting depends on the whole stack of open lists; tests show some regular lists, the rule must hold for every sequence of bullets.",
  ["creole/parser/creol2html_parser.py:CreoleParser._item_repl", "creole/parser/creol2html_parser.py:CreoleParser._list_repl", "creole/parser/creol2html_rules.py:BlockRules.list", "creole/emitter/creol2html_emitter.py:HtmlEmitter._list_emit"])

p("C91", "White space in html of any shape",
  "Two html pages, well nested or not, that differ only in white space of these kinds give the same result in all four converters: at the ends of the page; after a block tag; before a block tag behind text; white space that goes over lines and as many spaces as it has newlines; before or behind an inline tag, white space that goes over lines or has a space next to the text and a single space; before, behind or on both sides of an opening or closing inline tag. Violations: tabs beside an inline tag are dropped, so that words join; two newlines are two spaces and a tab between words is kept; a space between an inline tag and a block tag is kept.",
  "all pages made of any tags and texts, all sequences of such changes, all handlers of unknown tags, both strict modes",
  "Any number of changes at any places of pages of any length; tests show a few pages.",
  ["creole/html_tools/strip_html.py:strip_html", "creole/parser/html_parser.py:HtmlParser.feed"])

p("C92", "Character references in attributes are read as html 5 means them",
  "The value of an attribute may be written with decimal, hexadecimal and named character references and with ampersands that begin no reference, in either kind of quotes. The address of a link and the address and alternative text of an image are then the value meant, in Creole, Textile, Markdown and ReSt: numbers 128 to 159 are windows-1252 characters, zero, surrogates and numbers above 1114111 become the replacement character, control characters and non-characters vanish, names are the html 5 names. It fails for addresses with a query in which the name of a key begins with the name of a character, e.g. &copy=2.",
  "all values and all ways to write them with references, all link texts",
  "the references are infinitely many and mix freely with text; tests show some of them",
  ["creole/parser/html_parser.py:HtmlParser.handle_starttag", "creole/emitter/html2creole_emitter.py:CreoleEmitter.a_emit", "creole/emitter/html2textile_emitter.py:TextileEmitter.a_emit", "creole/emitter/html2markdown_emitter.py:MarkdownEmitter.a_emit", "creole/emitter/html2rest_emitter.py:ReStructuredTextEmitter.a_emit"])

p("C93", "What a page breaks off in is left out",
  "A page that ends in the middle of a tag, a comment, a declaration, a processing instruction or a character reference is converted to Creole, Textile, Markdown and ReSt exactly like the page without that beginning, whatever stands in it (an unclosed quote, line ends, another tag that seems to begin); if the page without it cannot be converted, the same error is raised. So a text AT&T at the end of a page loses &T, and a page that ends in an unknown marked section cannot be converted.",
  "all pages made of tags and texts, all beginnings of tags and references without their end",
  "where a page breaks off and what stands in the unfinished tag is unbounded; the result depends on how regular expressions backtrack over it",
  ["creole/parser/html_parser.py:HtmlParser.feed", "creole/html_tools/strip_html.py:strip_html", "creole/emitter/html2creole_emitter.py:CreoleEmitter.emit"])

p("C94", "The parser's own tags in a page copy preformatted areas or make the conversion fail",
  "The parser replaces each preformatted area of a page by a tag (inlinedata or blockdata) with the number of the area. A page that contains such tags itself is not protected against this. A tag inlinedata of type pre with the number of an area, counted from 0 or backwards from -1, is converted to Creole, Textile, Markdown and ReSt as if that area were written again in its place, however many such tags there are and wherever they stand. A tag of either name without number, without type, with a number that is not one or for which the page has no area, makes all four conversions raise, whatever else the page contains.",
  "all pages made of tags, texts and preformatted areas in any order, all such tags in them",
  "the number of areas, the numbers in the tags and what else stands on the page are unbounded; a test sees a few pages",
  ["creole/parser/html_parser.py:HtmlParser.feed", "creole/parser/html_parser.py:HtmlParser.handle_startendtag", "creole/parser/html_parser.py:HtmlParser._pre_cut"])

p("C95", "The installed programs convert documents from file to file with the documented defaults",
  "Typing creole2html, html2creole, html2textile or html2rest with the name of a source file, the name of a destination and optionally --encoding (before, between or behind the names) writes the conversion of the source to the destination, in utf-8 if nothing else is asked for. The conversion is the one with the default arguments: creole2html keeps line breaks, reports macros in their places because there are none, and reads the sizes of images; html2creole writes the sizes of images and leaves out unknown tags but not their text. A page html2rest refuses, and a page with a reference to half of a character, leaves the destination empty.",
  "all documents of the families of C50, C64, C67, C68 and C72, all images of C15 and C80, all file systems and names, all of these command lines",
  "documents, file systems and command lines are unbounded; the tests run the programs on one sentence each",
  ["creole/cmdline.py:CreoleCLI", "creole/cmdline.py:cli_creole2html", "creole/cmdline.py:cli_html2creole", "creole/cmdline.py:cli_html2rest", "creole/cmdline.py:cli_html2textile", "pyproject.toml:tool.poetry.scripts"])

p("C96", "Tags without a mark in textile, markdown and reStructuredText are written the way the caller asked for",
  "Converting HTML to textile, markdown or reStructuredText with a callable for unknown tags writes an element the target has no mark for the way the callable says, in its place, and all the rest of the document as if the element were a piece of text: headings, paragraphs, typefaces, links, images, lists and tables around and inside it come out as in C64, C66 and C67, with heading lines and table columns as wide as what was written. The callables of the package wrap the tags into html macros or pre macros, spell them out escaped, with sorted attributes, or leave them out; the programs html2textile and html2rest leave them out. In reStructuredText two link texts that become the same by leaving out tags are refused if the addresses differ. With raise_unknown_node a document is refused exactly if it uses a tag the target has no mark for, and is converted as without the callable otherwise.",
  "all documents with headings, paragraphs, lists, tables, typefaces, links, images and any number of unknown inline tags with any attributes, nested anywhere, in any HTML spelling, and all callables",
  "documents, nesting, attributes and callables are unbounded; the tests show one or two unknown tags per target",
  ["creole/parser/html_parser.py:HtmlParser", "creole/shared/base_emitter.py:BaseEmitter.emit_node", "creole/shared/unknown_tags.py", "creole/emitter/html2textile_emitter.py:TextileEmitter", "creole/emitter/html2markdown_emitter.py:MarkdownEmitter", "creole/emitter/html2rest_emitter.py:ReStructuredTextEmitter", "creole/cmdline.py:cli_html2textile", "creole/cmdline.py:cli_html2rest"])

p("C97", "Macros can be given as a dict, a module or any other object",
  "The page, the table of contents that is left behind and the calls are the same whether the macros are the entries of a dict or the attributes of a module or another object; only the report on stderr for a missing macro differs (KeyError or AttributeError). An entry that cannot be called is reported like a function that raises TypeError, and is never called. An entry that is None is as good as none. One callable for all macros is refused with TypeError for every page, and nothing is called. An object that cannot be given attributes works as well, except that a page with a table of contents fails with AttributeError, before any macro is called, if it brings none of its own.",
  "all markup, all option values, all dicts and objects with any entries (None, callables of any behaviour, objects that cannot be called, a table of contents), all histories of calls",
  "the tests try one module and one dict on a few pages; the equality must hold for every page and every macro",
  ["creole/emitter/creol2html_emitter.py:HtmlEmitter.__init__", "creole/emitter/creol2html_emitter.py:HtmlEmitter.macro_emit", "creole/emitter/creol2html_emitter.py:HtmlEmitter.header_emit", "creole/emitter/creol2html_emitter.py:HtmlEmitter.emit", "creole/emitter/creol2html_emitter.py:HtmlEmitter.error", "creole/__init__.py:creole2html"])

p("C98", "Reports on stderr: none by default, and in the order of the macros if asked for",
  "creole2html writes nothing to stderr with verbose up to 1 (the default), whatever the page and the macros do. Up to verbose 2 the level makes no difference to the macros that are called, to the table of contents and to whether and how the call ends; above 2 all is as with 2, except that a TypeError of a macro is let through. For documents with macros between blocks and inside of paragraphs, stderr has one traceback for each macro that does not exist or that fails, in reading order; the calls are those of the existing macros, in reading order, and end at the first exception that is let through, which is then what the caller gets.",
  "all markup and macros of any kind for the first three; all documents of C70 with macros of any kind, any level and any history for the last",
  "levels, macros and documents are unbounded; the tests look at the stderr of single macros",
  ["creole/emitter/creol2html_emitter.py:HtmlEmitter.__init__", "creole/emitter/creol2html_emitter.py:HtmlEmitter.macro_emit", "creole/emitter/creol2html_emitter.py:HtmlEmitter.header_emit", "creole/emitter/creol2html_emitter.py:HtmlEmitter.emit", "creole/emitter/creol2html_emitter.py:HtmlEmitter.error", "creole/__init__.py:creole2html"])

p("C99", "Block rules can be chosen: any selection in any order gives a well-formed page of the chosen elements",
  "creole2html with a block_rules object that has some of the rules of BlockRules, in any order, converts every markup (without a table of contents) and raises nothing. The page is well-formed with the content model of C04, and with strict images and verbose 0 nothing of the markup is unescaped. At every depth it has only inline elements and elements of the chosen rules: no table without the table rule, no heading without the heading rule, no paragraph without the text rule. With the rules of BlockRules(blog_line_breaks=b) the result is the one of blog_line_breaks=b, whatever the argument blog_line_breaks says. A list with a rule in it twice is refused for every markup. The order matters.",
  "all markup without the word toc, all lists of rules of any length, all option values, all macros that let no exception through",
  "the tests never pass block_rules; 205502 ordered selections times all markup",
  ["creole/__init__.py:creole2html", "creole/parser/creol2html_parser.py:CreoleParser.__init__", "creole/parser/creol2html_parser.py:CreoleParser.parse_block", "creole/parser/creol2html_parser.py:CreoleParser._replace", "creole/parser/creol2html_rules.py:BlockRules"])

p("C100", "Elements need their marks: a page has no element that the author did not write",
  "In the page creole2html gives for a markup without << every < starts a tag whose mark occurs in the markup: ** for strong, // for i, ## for tt, ^^ for sup, ,, for sub, __ for u, ~~ for del, -- for small, {{ for img, {{{ for code and pre, ---- for hr, * for ul and li, # for ol and li, | for table, tr and td, | and = for th, n equals signs in a row for hn, [[ for a; a link without [[ needs one of the nine protocols followed by :// in the markup, and its href starts with the same protocol. Only p and br need no mark. A markup with none of the marks gives paragraphs and line breaks only. It is required that images are strict, or that {{ or < does not occur. In brackets every address is taken: [[javascript:x|y]] is a link to a script.",
  "all markup of any length without <<, all option values, all macro dicts",
  "the tests show that marks give elements; that nothing else does is a statement about all other texts",
  ["creole/__init__.py:creole2html", "creole/parser/creol2html_parser.py:CreoleParser", "creole/parser/creol2html_rules.py:InlineRules", "creole/parser/creol2html_rules.py:BlockRules", "creole/emitter/creol2html_emitter.py:HtmlEmitter"])

p("C101", "The size of a page is bounded by the size of its markup",
  "The page creole2html gives for a markup of n characters without << has at most 1300*(n+1)^2 characters, whatever the options. If the markup has no line break mark (two backslashes) it has at most 2000*(n+1) characters. No linear bound holds for all markup: a line break in a list item repeats the indentation of the item, and for every n there is a markup of 4n+8 characters whose page has n*n characters or more.",
  "all markup of any length without <<, all option values, all macro dicts",
  "tests convert pages of a few sizes; a bound is a statement about all markup of all sizes, and a construct that multiplies text need not be in any test",
  ["creole/__init__.py:creole2html", "creole/parser/creol2html_parser.py:CreoleParser", "creole/emitter/creol2html_emitter.py:HtmlEmitter.break_emit", "creole/emitter/creol2html_emitter.py:HtmlEmitter._list_emit", "creole/emitter/creol2html_emitter.py:HtmlEmitter.image_emit"])

p("C102", "A table inside of a table doubles the result",
  "Converting html to any of the four formats keeps only one table at a time: a table inside of a cell of another table takes its place, the remaining cells of the outer table are added to it, and both write it. So a page of n nested tables around one letter, which has 33n+1 characters, gives a result of more than 2^(n-1) characters in each format, and the size of the results is not bounded by any polynomial in the size of the page.",
  "all numbers of nested tables, all handlers of unknown nodes, all four formats, all polynomials",
  "A test looks at a few depths; that no polynomial bounds the result is a statement about all of them.",
  ["creole/shared/base_emitter.py:BaseEmitter.table_emit", "creole/shared/markup_table.py:MarkupTable", "creole/emitter/html2markdown_emitter.py:MarkdownEmitter.table_emit", "creole/emitter/html2rest_emitter.py:ReStructuredTextEmitter.table_emit"])

if __name__ == "__main__":
    for x in sorted(P, key=lambda x: int(x["id"][1:])):
        print(json.dumps(x))
