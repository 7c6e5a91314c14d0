{
 "C01": {
  "note": "For every string and every option; hypothesis: toc is not among the used macros (C01_total gives a textual sufficient condition)."
 },
 "C02": {
  "note": "verbose=0, strict=True, no macros, no toc. HtmlSpec.v is the grammar."
 },
 "C03": {
  "note": "Refutation witness plus the exact guarantee for any verbose level: only error texts are unescaped."
 },
 "C04": {
  "note": "Any options, any macro environment that never lets an exception through; raw pieces are error texts and macro results."
 },
 "C05": {
  "note": "A CR followed by an empty line ended by LF is the same characters as CRLF and is excluded."
 },
 "C06": {
  "note": "Plain: no doubled mark, no tilde, no ://, no line end; first character no space and none of = | * #; no backslash at the line end."
 },
 "C07": {
  "note": "Any non-empty line starting with a visible character, without tilde, CR and LF."
 },
 "C08": {
  "note": "C08_typefaces: text without marks and colons, no typeface inside itself. C08_inline: every unambiguous line of inline elements."
 },
 "C09": {
  "note": "Any plain text around it."
 },
 "C10": {
  "note": "Any options; ~}}} (the escape) is excluded as well."
 },
 "C11": {
  "note": "Refutation witness."
 },
 "C12": {
  "note": "Any level, any text, optional white space and closing signs. C12_white_space: any white space before the text, in documents of blocks."
 },
 "C13": {
  "note": "Refutation witness and the exact level for every n."
 },
 "C14": {
  "note": "Link text without ], {{ and two backslashes; target without | and ]."
 },
 "C15": {
  "note": "C15_title covers every text whose part after the bar is not two numbers around an x, with the numbers of Spec50.v; C15_sized is about numbers in plain decimal digits. C15_untitled: an empty title; documents of C50 may contain such images too. C15_any_numbers: every spelling of the two numbers (Spec50.v), for an image that is the whole markup. C15_raw_address_refuted: with an empty title and a size, the address is not escaped in title and alt, whatever it contains."
 },
 "C17": {
  "note": "Calls in document order with their arguments, no exception escapes for verbose <= 2, raw output pieces are error texts or macro results."
 },
 "C20": {
  "note": "Refutation witness."
 },
 "C21": {
  "note": "Holds for memoryless macros and any history of toc-free documents; refuted with toc."
 },
 "C22": {
  "note": "Refutation witness; totality for numeric or missing depth; exact list of headlines."
 },
 "C25": {
  "note": "For every string."
 },
 "C26": {
  "note": "Any sequence of text and references; the value of each reference is specified in Spec2.v."
 },
 "C27": {
  "note": "For every string; additionally the result has no newline."
 },
 "C28": {
  "note": "Every string splits into white space, core, white space; the result is given exactly."
 },
 "C29": {
  "note": "From the text of the document (attributes with entities, character references, empty elements) through html.parser to the tree; C29_tree also with cut-out areas. Block elements only inside block elements; script and style excluded."
 },
 "C30": {
  "note": "Refutation witness, and for every well-nested document followed by an unmatched inline end tag the rest never reaches the tree."
 },
 "C31": {
  "note": "What is cut out and numbered, and what a placeholder becomes. Refuted for areas inside areas."
 },
 "C32": {
  "note": "For tables with cells free of bars and newlines; rows are truncated to the shortest one, so nothing is lost when all rows have equal length."
 },
 "C33": {
  "note": "Refutation witness; C32_cells gives the exact number of cells that survive, C33_empty_row the case of an empty row."
 },
 "C34": {
  "note": "Lines, lengths, separators and cells of the grid."
 },
 "C35": {
  "note": "Any headline node at any place in a document, and the complete output for a document of one heading with any text and level."
 },
 "C36": {
  "note": "For every html input that html2rest accepts: equal link (image) texts have equal URLs."
 },
 "C37": {
  "note": "All four converters, on document trees: unknown non-block elements can be renamed, get other attributes, or be dropped around a text that has no outer white space. Unknown elements around other content join its lines and are covered by renaming only."
 },
 "C38": {
  "note": "All four converters, for every html input that parses and every other unknown_emit."
 },
 "C41": {
  "note": "Refutation witness and the general fact that the sizes are swapped."
 },
 "C44": {
  "note": "Every input of every converter; creole2html in P1 (no toc)."
 },
 "C47": {
  "note": "Refutation witness; guarded claim on the parsed tree (no image text starting with a bar)."
 },
 "C48": {
  "note": "Every column needs a non-empty cell."
 },
 "C49": {
  "note": "Refutation witness and the general fact on the level of tokens."
 },
 "C50": {
  "note": "Grammar, rendering and unambiguity predicates in Spec4.v and Spec5.v."
 },
 "C51": {
  "note": "Proved for blog line breaks, refuted without."
 },
 "C52": {
  "note": "Any options."
 },
 "C53": {
  "note": "Proved for blog line breaks (and for one row without), refuted without for two rows."
 },
 "C23": {
  "note": "Keys without blanks, quotes, backslash and equal sign; printable ASCII texts that int() refuses; integers of at most 4300 digits. C23_words: every text with a letter is such a text."
 },
 "C24": {
  "note": "Refutation plus what comes back instead, for every dict with plain keys (C24_values). What int() reads is specified in Spec50.v independently of the model."
 },
 "C42": {
  "note": "Proved when the update writes (also for markdown) and no carriage return is in the generated text; C42_not_written says exactly when it does not write; C42_passes_refuted refutes the general claim."
 },
 "C43": {
  "note": "Success, untouched other files at every moment, failures before opening are proved; the safety claim is refuted, with the exact damage."
 },
 "C45": {
  "note": "The nodes of the document are the input; docutils is not modelled. The NFKC check of urllib is not modelled."
 },
 "C46": {
  "note": "docutils' attval is any function."
 },
 "C61": {
  "note": "The lines of difflib are the input."
 },
 "C39": {
  "note": "From the html text to the creole text. Clean: at most one space beside inline elements, none at block edges; images without size and not data: urls; texts that begin and end visibly; tables rectangular."
 },
 "C40": {
  "note": "Canonical: unambiguous (C50) and written as html2creole writes: neat white space, links and images with texts of their own, no tables or code blocks (C75, C82), inline code, free URLs or escapes."
 },
 "C16": {
  "note": "White space is left out: in wiki mode the parser joins lines by a space of its own (C16_white_space_refuted). Texts of images are attributes in html and count in the tree only."
 },
 "C62": {
  "note": "White space and backslashes are left out: line breaks are written as two backslashes in cells, and those at the ends of a cell are stripped. The witnesses show why the conditions on tables and code areas are needed."
 },
 "C63": {
  "note": "The conditions are a check of the parsed tree (Spec15.v) and sufficient; a cell after a table, for example, is accepted by the code too. C63_refuted has a witness for each condition."
 },
 "C64": {
  "note": "Line breaks in list items and cells are written as two backslashes, which textile does not know; the theorem says what is written."
 },
 "C65": {
  "note": "addr_ok leaves out ambiguous addresses: a path with ? or #, brackets in the host, schemes of urllib with a host but none given. Links are proved; images are covered by C66."
 },
 "C66": {
  "note": "Nested lists are indented by two spaces also below ordered items, as the code does; a text of one space is left out of the condition because the code drops it (C66_space_refuted)."
 },
 "C67": {
  "note": "C67_refused reads the names off the document when no link is inside a link; with a link inside a link the text of the outer one depends on what came before, and C67_clean_rest still says what is written. The width of a title line is that of its characters."
 },
 "C68": {
  "note": "The html expected is a function of the answers of the environment (html_pieces in Spec20.v); the case in which an exception is let through (verbose > 2, or no Exception) is in C17. Macros inside of paragraphs are not part of these documents."
 },
 "C69": {
  "note": "Without pygments; the macros are in a dict."
 },
 "C70": {
  "note": "Tags named toc are excluded (C71 treats the table of contents). Each macro in a line is closed in that line."
 },
 "C71": {
  "note": "Titles stand unescaped in the list, as the code writes them (C20). A tag inside of a line of text is not part of these documents; the tag on a line of its own is where the code replaces the whole paragraph."
 },
 "C72": {
  "note": "Attribute values without quotes, backslashes and characters that are not ASCII (C72_values_refuted). Inline tags only; tag names that the tree builder itself uses (data, document, headline, ...) are excluded."
 },
 "C73": {
  "note": "Unknown elements stand in paragraphs, not at the start of a line (C73_line_start_refuted) and not inside typefaces or each other. Headings, lists and rules may stand between the paragraphs as in C40."
 },
 "C74": {
  "note": "The pre blocks stand between the blocks, not inside of list items or cells; their text has no tags and its first line is not blank. countable: fewer than 10^4300 parts, since Python reads back no longer number."
 },
 "C75": {
  "note": "blog_line_breaks=True (the default); C75_wiki_mode_refuted shows why. Tables: C82; C75_shown has all blocks."
 },
 "C76": {
  "note": "Stray ampersands (not part of a reference) inside code are left out. C76_whole_text is the property as a user expects it, under the hypothesis that makes it true; C76_code_blocks says what happens in general."
 },
 "C77": {
  "note": "Elements with a meaning of their own (pre, script, style, data, ...) are left out as in C39. Only spaces, no other white space, inside tags. The three refuted theorems show which spellings do matter."
 },
 "C78": {
  "note": "Comments inside of text and next to inline elements are left out: the white space rules treat them as inline elements. Angle brackets inside of comments are left out. The document has at least one block."
 },
 "C79": {
  "note": "Tags pre, script and style, values with newlines and ampersands that begin no reference are left out. Attributes without a value are left out."
 },
 "C80": {
  "note": "The image or the link is the whole document; inside documents the links and images of C39, C64, C66 and C67 with C79. Markdown: for the unambiguous addresses of C65, which are percent encoded. C80_bare_refuted: an attribute without a value is neither absent nor empty; `<a href>x</a>` links to \"None\" (markdown: to \"b''\"), `<img src />` raises AttributeError (markdown: image of \"b''\"). Values are given in all other theorems."
 },
 "C81": {
  "note": "blog_line_breaks=True (the default). Only spaces as blanks. C81_table_below_table_refuted and C81_empty_cell_refuted show that the conditions are needed."
 },
 "C82": {
  "note": "blog_line_breaks=True (the default). The refuted theorems show that the conditions are needed: two tables with an empty line between them become one, an empty column gets lost, white space beside a line break is dropped. countable as in C74."
 },
 "C83": {
  "note": "The table of contents is stored in the dictionary of the caller; a user who passes no dictionary is not affected (C71)."
 },
 "C84": {
  "note": "The condition on touching blocks is exact: C84_touching_refuted shows what happens otherwise. The condition on code blocks below lists is needed for the way back only."
 },
 "C85": {
  "note": "The document above is one of C84; the text below is any text. C85_touching_refuted, C85_toc_refuted and C85_above_refuted show that the conditions are needed."
 },
 "C86": {
  "note": "poetry_publish, make and readme_renderer are parameters. C86_wrong_note_refuted: the last four lines are not looked at."
 },
 "C87": {
  "note": "docutils is a parameter."
 },
 "C88": {
  "note": "docutils' own visit_image is represented by the tag it leaves, made by starttag; its escaping is a hypothesis, and C88_escaping_needed shows that it is needed."
 },
 "C89": {
  "note": "pygments is a parameter (by_name, guess, highlight); guess is one answer because it is always called with the macro function. The violations are proved as C89_text_lost_refuted, C89_last_extension_refuted and C89_doubled_lines_refuted."
 },
 "C90": {
  "note": "The html is specified line by line with the stack of open lists (Spec39.v). The violations are proved for all item texts as C90_fewer_bullets_refuted and C90_other_kind_refuted."
 },
 "C91": {
  "note": "The allowed changes are the relation relaid of Spec40.v, closed under composition. The violations are C91_tabs_refuted, for all pages, and C91_other_refuted. Pages with pre, script or style are left out."
 },
 "C92": {
  "note": "html.unescape of the standard library is part of the model (HtmlTok.v); `coded` also became one of the ways to write values in C77, C79, C80 and C91. Decimal references are limited to 4300 digits, the limit of int(). C92_query_refuted shows why an ampersand must begin no name."
 },
 "C93": {
  "note": "The page must be empty or end in something other than white space. A beginning of a marked section (<![) is outside; C93_section_refuted shows that it may raise."
 },
 "C94": {
  "note": "Areas are <pre>…</pre> without tags inside and with something on their first line. Tags of other types than pre, and blockdata tags with the number of an area, are outside the first theorem."
 },
 "C95": {
  "note": "argparse is modelled for names that do not begin with a hyphen and for the full spellings of --encoding. The texts must consist of characters (no surrogates), the codec must be utf-8 under any name, and the disk must not be full; C43 has the other cases."
 },
 "C96": {
  "note": "The text of an element that is left out must have no spaces at its edges (C72 shows that they are stripped). In markdown the tag <list> is left out because the emitter takes it for its own list node. For reStructuredText the theorem is about the four callables; for the two others any callable."
 },
 "C97": {
  "note": "Properties of the object that raise other exceptions, dicts with __missing__ and macros that change the dict are not modelled."
 },
 "C98": {
  "note": "Of a traceback the exception with its message is recorded, not the text with file names and lines."
 },
 "C99": {
  "note": "Patterns of the caller's own and other flags are not modelled. C99_order_refuted shows that the order of the rules changes the page."
 },
 "C100": {
  "note": "C100_title_refuted: an image with a size and no title shows its address unescaped in title and alt. C100_scripts_refuted: links in brackets may go to javascript: addresses."
 },
 "C101": {
  "note": "The constants are generous. C101_large and C101_linear_refuted: line breaks in deep list items make the page quadratic."
 },
 "C102": {
  "note": "The wished-for bound (the result is as long as the page, up to a factor) is refuted; the theorem gives the lower bound for every depth."
 }
}