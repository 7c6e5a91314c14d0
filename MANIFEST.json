{
 "claims": [
  {
   "property": "C01",
   "status": "proved",
   "theorems": [
    "C01_total",
    "C01_total_unless_toc"
   ],
   "note": "For every string and every option; hypothesis: toc is not among the used macros (C01_total gives a textual sufficient condition)."
  },
  {
   "property": "C02",
   "status": "proved",
   "theorems": [
    "C02_wellformed"
   ],
   "note": "verbose=0, strict=True, no macros, no toc. HtmlSpec.v is the grammar."
  },
  {
   "property": "C03",
   "status": "proved",
   "theorems": [
    "C03_refuted",
    "C03_only_error_texts"
   ],
   "note": "Refutation witness plus the exact guarantee for any verbose level: only error texts are unescaped."
  },
  {
   "property": "C04",
   "status": "proved",
   "theorems": [
    "C04_content_model"
   ],
   "note": "Any options, any macro environment that never lets an exception through; raw pieces are error texts and macro results."
  },
  {
   "property": "C05",
   "status": "proved",
   "theorems": [
    "C05_line_endings"
   ],
   "note": "A CR followed by an empty line ended by LF is the same characters as CRLF and is excluded."
  },
  {
   "property": "C06",
   "status": "proved",
   "theorems": [
    "C06_plain_text"
   ],
   "note": "Plain: no doubled mark, no tilde, no ://, no line end; first character no space and none of = | * #; no backslash at the line end."
  },
  {
   "property": "C07",
   "status": "proved",
   "theorems": [
    "C07_tilde"
   ],
   "note": "Any non-empty line starting with a visible character, without tilde, CR and LF."
  },
  {
   "property": "C08",
   "status": "proved",
   "theorems": [
    "C08_typefaces",
    "C08_inline"
   ],
   "note": "C08_typefaces: text without marks and colons, no typeface inside itself. C08_inline: every unambiguous line of inline elements."
  },
  {
   "property": "C09",
   "status": "proved",
   "theorems": [
    "C09_inline_code"
   ],
   "note": "Any plain text around it."
  },
  {
   "property": "C10",
   "status": "proved",
   "theorems": [
    "C10_code_block"
   ],
   "note": "Any options; ~}}} (the escape) is excluded as well."
  },
  {
   "property": "C11",
   "status": "proved",
   "theorems": [
    "C11_leading_blank_refuted"
   ],
   "note": "Refutation witness."
  },
  {
   "property": "C12",
   "status": "proved",
   "theorems": [
    "C12_heading",
    "C12_white_space"
   ],
   "note": "Any level, any text, optional white space and closing signs. C12_white_space: any white space before the text, in documents of blocks."
  },
  {
   "property": "C13",
   "status": "proved",
   "theorems": [
    "C13_h7_refuted",
    "C13_level"
   ],
   "note": "Refutation witness and the exact level for every n."
  },
  {
   "property": "C14",
   "status": "proved",
   "theorems": [
    "C14_link"
   ],
   "note": "Link text without ], {{ and two backslashes; target without | and ]."
  },
  {
   "property": "C15",
   "status": "proved",
   "theorems": [
    "C15_sized",
    "C15_title",
    "C15_bare",
    "C15_untitled",
    "C15_any_numbers",
    "C15_raw_address_refuted"
   ],
   "note": "C15_title covers every text whose part after the bar is not two numbers around an x, with the numbers of Spec50.v; C15_sized is about numbers in plain decimal digits. C15_untitled: an empty title; documents of C50 may contain such images too. C15_any_numbers: every spelling of the two numbers (Spec50.v), for an image that is the whole markup. C15_raw_address_refuted: with an empty title and a size, the address is not escaped in title and alt, whatever it contains."
  },
  {
   "property": "C16",
   "status": "proved",
   "theorems": [
    "C16_tree_text",
    "C16_displayed_text",
    "C16_white_space_refuted"
   ],
   "note": "White space is left out: in wiki mode the parser joins lines by a space of its own (C16_white_space_refuted). Texts of images are attributes in html and count in the tree only."
  },
  {
   "property": "C17",
   "status": "proved",
   "theorems": [
    "C17_macro_calls",
    "C17_no_exception_escapes",
    "C17_quiet"
   ],
   "note": "Calls in document order with their arguments, no exception escapes for verbose <= 2, raw output pieces are error texts or macro results."
  },
  {
   "property": "C18",
   "status": "proved",
   "theorems": [
    "C18_toc_nesting"
   ],
   "note": ""
  },
  {
   "property": "C19",
   "status": "proved",
   "theorems": [
    "C19_toc_html"
   ],
   "note": ""
  },
  {
   "property": "C20",
   "status": "proved",
   "theorems": [
    "C20_refuted"
   ],
   "note": "Refutation witness."
  },
  {
   "property": "C21",
   "status": "proved",
   "theorems": [
    "C21_history_independent",
    "C21_refuted"
   ],
   "note": "Holds for memoryless macros and any history of toc-free documents; refuted with toc."
  },
  {
   "property": "C22",
   "status": "proved",
   "theorems": [
    "C22_refuted",
    "C22_total_with_toc",
    "C22_listed_headlines"
   ],
   "note": "Refutation witness; totality for numeric or missing depth; exact list of headlines."
  },
  {
   "property": "C23",
   "status": "proved",
   "theorems": [
    "C23_roundtrip",
    "C23_words"
   ],
   "note": "Keys without blanks, quotes, backslash and equal sign; printable ASCII texts that int() refuses; integers of at most 4300 digits. C23_words: every text with a letter is such a text."
  },
  {
   "property": "C24",
   "status": "proved",
   "theorems": [
    "C24_everything_refuted",
    "C24_keywords",
    "C24_numbers",
    "C24_values",
    "C24_escapes_refuted"
   ],
   "note": "Refutation plus what comes back instead, for every dict with plain keys (C24_values). What int() reads is specified in Spec50.v independently of the model."
  },
  {
   "property": "C25",
   "status": "proved",
   "theorems": [
    "C25_deentity_escape"
   ],
   "note": "For every string."
  },
  {
   "property": "C26",
   "status": "proved",
   "theorems": [
    "C26_references",
    "C26_decimal"
   ],
   "note": "Any sequence of text and references; the value of each reference is specified in Spec2.v."
  },
  {
   "property": "C27",
   "status": "proved",
   "theorems": [
    "C27_only_white_space",
    "C27_no_newline"
   ],
   "note": "For every string; additionally the result has no newline."
  },
  {
   "property": "C28",
   "status": "proved",
   "theorems": [
    "C28_clean_whitespace"
   ],
   "note": "Every string splits into white space, core, white space; the result is given exactly."
  },
  {
   "property": "C29",
   "status": "proved",
   "theorems": [
    "C29_tree",
    "C29_document",
    "C29_tokens"
   ],
   "note": "From the text of the document (attributes with entities, character references, empty elements) through html.parser to the tree; C29_tree also with cut-out areas. Block elements only inside block elements; script and style excluded."
  },
  {
   "property": "C30",
   "status": "proved",
   "theorems": [
    "C30_refuted",
    "C30_rest_lost"
   ],
   "note": "Refutation witness, and for every well-nested document followed by an unmatched inline end tag the rest never reaches the tree."
  },
  {
   "property": "C31",
   "status": "proved",
   "theorems": [
    "C31_areas",
    "C31_placeholder",
    "C31_refuted"
   ],
   "note": "What is cut out and numbered, and what a placeholder becomes. Refuted for areas inside areas."
  },
  {
   "property": "C32",
   "status": "proved",
   "theorems": [
    "C32_cells",
    "C32_no_auto_width"
   ],
   "note": "For tables with cells free of bars and newlines; rows are truncated to the shortest one, so nothing is lost when all rows have equal length."
  },
  {
   "property": "C33",
   "status": "proved",
   "theorems": [
    "C33_refuted",
    "C33_empty_row"
   ],
   "note": "Refutation witness; C32_cells gives the exact number of cells that survive, C33_empty_row the case of an empty row."
  },
  {
   "property": "C34",
   "status": "proved",
   "theorems": [
    "C34_rest_grid"
   ],
   "note": "Lines, lengths, separators and cells of the grid."
  },
  {
   "property": "C35",
   "status": "proved",
   "theorems": [
    "C35_adorned",
    "C35_heading"
   ],
   "note": "Any headline node at any place in a document, and the complete output for a document of one heading with any text and level."
  },
  {
   "property": "C36",
   "status": "proved",
   "theorems": [
    "C36_links",
    "C36_images"
   ],
   "note": "For every html input that html2rest accepts: equal link (image) texts have equal URLs."
  },
  {
   "property": "C37",
   "status": "proved",
   "theorems": [
    "C37_creole",
    "C37_textile",
    "C37_markdown",
    "C37_rest"
   ],
   "note": "All four converters, on document trees: unknown non-block elements can be renamed, get other attributes, or be dropped around a text that has no outer white space. Unknown elements around other content join its lines and are covered by renaming only."
  },
  {
   "property": "C38",
   "status": "proved",
   "theorems": [
    "C38_raise_or_same",
    "C38_documents",
    "C38_creole",
    "C38_textile",
    "C38_markdown",
    "C38_rest",
    "C38_textile_documents",
    "C38_markdown_documents",
    "C38_rest_documents"
   ],
   "note": "All four converters, for every html input that parses and every other unknown_emit."
  },
  {
   "property": "C39",
   "status": "proved",
   "theorems": [
    "C39_clean_document",
    "C39_written"
   ],
   "note": "From the html text to the creole text. Clean: at most one space beside inline elements, none at block edges; images without size and not data: urls; texts that begin and end visibly; tables rectangular."
  },
  {
   "property": "C40",
   "status": "proved",
   "theorems": [
    "C40_round_trip",
    "C40_round_trip_html",
    "C40_list_after_heading_refuted",
    "C40_nested_list_refuted",
    "C40_inline_code_refuted",
    "C40_others_refuted"
   ],
   "note": "Canonical: unambiguous (C50) and written as html2creole writes: neat white space, links and images with texts of their own, no tables or code blocks (C75, C82), inline code, free URLs or escapes."
  },
  {
   "property": "C41",
   "status": "proved",
   "theorems": [
    "C41_refuted",
    "C41_swapped"
   ],
   "note": "Refutation witness and the general fact that the sizes are swapped."
  },
  {
   "property": "C42",
   "status": "proved",
   "theorems": [
    "C42_written_passes",
    "C42_markdown",
    "C42_written_text",
    "C42_line_ends",
    "C42_not_written",
    "C42_not_written_markdown",
    "C42_lines",
    "C42_check_sound",
    "C42_passes_refuted"
   ],
   "note": "Proved when the update writes (also for markdown) and no carriage return is in the generated text; C42_not_written says exactly when it does not write; C42_passes_refuted refutes the general claim."
  },
  {
   "property": "C43",
   "status": "proved",
   "theorems": [
    "C43_success",
    "C43_others_untouched",
    "C43_nothing_happens",
    "C43_failure_empties_destination",
    "C43_safe_refuted",
    "C43_same_file_loses_the_source"
   ],
   "note": "Success, untouched other files at every moment, failures before opening are proved; the safety claim is refuted, with the exact damage."
  },
  {
   "property": "C44",
   "status": "proved",
   "theorems": [
    "C44_creole2html_stripped",
    "C44_html_stripped",
    "C44_html2rest_rstripped"
   ],
   "note": "Every input of every converter; creole2html in P1 (no toc)."
  },
  {
   "property": "C45",
   "status": "proved",
   "theorems": [
    "C45_accepted_means_allowed",
    "C45_allowed_is_accepted"
   ],
   "note": "The nodes of the document are the input; docutils is not modelled. The NFKC check of urllib is not modelled."
  },
  {
   "property": "C46",
   "status": "proved",
   "theorems": [
    "C46_starttag",
    "C46_div",
    "C46_none_value"
   ],
   "note": "docutils' attval is any function."
  },
  {
   "property": "C47",
   "status": "proved",
   "theorems": [
    "C47_refuted",
    "C47_guarded"
   ],
   "note": "Refutation witness; guarded claim on the parsed tree (no image text starting with a bar)."
  },
  {
   "property": "C48",
   "status": "proved",
   "theorems": [
    "C48_markdown_table"
   ],
   "note": "Every column needs a non-empty cell."
  },
  {
   "property": "C49",
   "status": "proved",
   "theorems": [
    "C49_refuted",
    "C49_rest_swallowed"
   ],
   "note": "Refutation witness and the general fact on the level of tokens."
  },
  {
   "property": "C50",
   "status": "proved",
   "theorems": [
    "C50_documents"
   ],
   "note": "Grammar, rendering and unambiguity predicates in Spec4.v and Spec5.v."
  },
  {
   "property": "C51",
   "status": "proved",
   "theorems": [
    "C51_blog",
    "C51_wiki_refuted",
    "C51_wiki_code_refuted"
   ],
   "note": "Proved for blog line breaks, refuted without."
  },
  {
   "property": "C52",
   "status": "proved",
   "theorems": [
    "C52_lists"
   ],
   "note": "Any options."
  },
  {
   "property": "C53",
   "status": "proved",
   "theorems": [
    "C53_tables",
    "C53_wiki_row",
    "C53_wiki_refuted"
   ],
   "note": "Proved for blog line breaks (and for one row without), refuted without for two rows."
  },
  {
   "property": "C54",
   "status": "proved",
   "theorems": [
    "C54_never_created"
   ],
   "note": ""
  },
  {
   "property": "C55",
   "status": "proved",
   "theorems": [
    "C55_second_update_changes_nothing",
    "C55_every_text_refuted"
   ],
   "note": ""
  },
  {
   "property": "C56",
   "status": "proved",
   "theorems": [
    "C56_rst_effects",
    "C56_markdown_check_writes",
    "C56_check_changes_nothing_refuted"
   ],
   "note": ""
  },
  {
   "property": "C57",
   "status": "proved",
   "theorems": [
    "C57_long_description_never_works",
    "C57_command_line"
   ],
   "note": ""
  },
  {
   "property": "C58",
   "status": "proved",
   "theorems": [
    "C58_written_arguments"
   ],
   "note": ""
  },
  {
   "property": "C59",
   "status": "proved",
   "theorems": [
    "C59_utf8",
    "C59_utf8_roundtrip"
   ],
   "note": ""
  },
  {
   "property": "C60",
   "status": "proved",
   "theorems": [
    "C60_truncated_character_lost"
   ],
   "note": ""
  },
  {
   "property": "C61",
   "status": "proved",
   "theorems": [
    "C61_complete_lines",
    "C61_ambiguous"
   ],
   "note": "The lines of difflib are the input."
  },
  {
   "property": "C62",
   "status": "proved",
   "theorems": [
    "C62_unknown_tags",
    "C62_creole",
    "C62_textile",
    "C62_markdown",
    "C62_rest",
    "C62_ragged_table_refuted",
    "C62_text_in_row_refuted",
    "C62_markdown_code_refuted"
   ],
   "note": "White space and backslashes are left out: line breaks are written as two backslashes in cells, and those at the ends of a cell are stripped. The witnesses show why the conditions on tables and code areas are needed."
  },
  {
   "property": "C63",
   "status": "proved",
   "theorems": [
    "C63_unknown_tags",
    "C63_parse",
    "C63_creole",
    "C63_textile",
    "C63_markdown",
    "C63_rest",
    "C63_rest_clash",
    "C63_rest_alike",
    "C63_refuted"
   ],
   "note": "The conditions are a check of the parsed tree (Spec15.v) and sufficient; a cell after a table, for example, is accepted by the code too. C63_refuted has a witness for each condition."
  },
  {
   "property": "C64",
   "status": "proved",
   "theorems": [
    "C64_clean_textile",
    "C64_apart_refuted"
   ],
   "note": "Line breaks in list items and cells are written as two backslashes, which textile does not know; the theorem says what is written."
  },
  {
   "property": "C65",
   "status": "proved",
   "theorems": [
    "C65_address",
    "C65_path_back",
    "C65_same_address_refuted",
    "C65_query_refuted",
    "C65_semicolon_refuted"
   ],
   "note": "addr_ok leaves out ambiguous addresses: a path with ? or #, brackets in the host, schemes of urllib with a host but none given. Links are proved; images are covered by C66."
  },
  {
   "property": "C66",
   "status": "proved",
   "theorems": [
    "C66_clean_markdown",
    "C66_space_refuted",
    "C66_cell_refuted",
    "C66_table_refuted"
   ],
   "note": "Nested lists are indented by two spaces also below ordered items, as the code does; a text of one space is left out of the condition because the code drops it (C66_space_refuted)."
  },
  {
   "property": "C67",
   "status": "proved",
   "theorems": [
    "C67_clean_rest",
    "C67_refused",
    "C67_mixed_refuted",
    "C67_item_refuted",
    "C67_title_refuted",
    "C67_cell_refuted"
   ],
   "note": "C67_refused reads the names off the document when no link is inside a link; with a link inside a link the text of the outer one depends on what came before, and C67_clean_rest still says what is written. The width of a title line is that of its characters."
  },
  {
   "property": "C68",
   "status": "proved",
   "theorems": [
    "C68_macros_in_documents",
    "C68_wiki_refuted",
    "C68_nested_refuted"
   ],
   "note": "The html expected is a function of the answers of the environment (html_pieces in Spec20.v); the case in which an exception is let through (verbose > 2, or no Exception) is in C17. Macros inside of paragraphs are not part of these documents."
  },
  {
   "property": "C69",
   "status": "proved",
   "theorems": [
    "C69_example_macros",
    "C69_code_without_ext"
   ],
   "note": "Without pygments; the macros are in a dict."
  },
  {
   "property": "C70",
   "status": "proved",
   "theorems": [
    "C70_macros_in_paragraphs",
    "C70_closed_refuted",
    "C70_line_start_refuted"
   ],
   "note": "Tags named toc are excluded (C71 treats the table of contents). Each macro in a line is closed in that line."
  },
  {
   "property": "C71",
   "status": "proved",
   "theorems": [
    "C71_documents_with_toc",
    "C71_depth_before_refuted"
   ],
   "note": "Titles stand unescaped in the list, as the code writes them (C20). A tag inside of a line of text is not part of these documents; the tag on a line of its own is where the code replaces the whole paragraph."
  },
  {
   "property": "C72",
   "status": "proved",
   "theorems": [
    "C72_unknown_tags",
    "C72_html_macro",
    "C72_pre_macro",
    "C72_escaped",
    "C72_transparent",
    "C72_values_refuted"
   ],
   "note": "Attribute values without quotes, backslashes and characters that are not ASCII (C72_values_refuted). Inline tags only; tag names that the tree builder itself uses (data, document, headline, ...) are excluded."
  },
  {
   "property": "C73",
   "status": "proved",
   "theorems": [
    "C73_there_and_back",
    "C73_and_again",
    "C73_line_start_refuted"
   ],
   "note": "Unknown elements stand in paragraphs, not at the start of a line (C73_line_start_refuted) and not inside typefaces or each other. Headings, lists and rules may stand between the paragraphs as in C40."
  },
  {
   "property": "C74",
   "status": "proved",
   "theorems": [
    "C74_creole",
    "C74_textile",
    "C74_markdown",
    "C74_rest",
    "C74_rest_indent_refuted",
    "C74_one_line_refuted",
    "C74_end_mark_refuted"
   ],
   "note": "The pre blocks stand between the blocks, not inside of list items or cells; their text has no tags and its first line is not blank. countable: fewer than 10^4300 parts, since Python reads back no longer number."
  },
  {
   "property": "C75",
   "status": "proved",
   "theorems": [
    "C75_code_trip",
    "C75_empty_line",
    "C75_html_trip",
    "C75_shown",
    "C75_blank_line_refuted",
    "C75_wiki_mode_refuted"
   ],
   "note": "blog_line_breaks=True (the default); C75_wiki_mode_refuted shows why. Tables: C82; C75_shown has all blocks."
  },
  {
   "property": "C76",
   "status": "proved",
   "theorems": [
    "C76_code_blocks",
    "C76_whole_text",
    "C76_rest_lost",
    "C76_reference_refuted",
    "C76_fused_refuted",
    "C76_element_refuted",
    "C76_empty_refuted"
   ],
   "note": "Stray ampersands (not part of a reference) inside code are left out. C76_whole_text is the property as a user expects it, under the hypothesis that makes it true; C76_code_blocks says what happens in general."
  },
  {
   "property": "C77",
   "status": "proved",
   "theorems": [
    "C77_same_result",
    "C77_written",
    "C77_creole",
    "C77_textile",
    "C77_markdown",
    "C77_rest",
    "C77_upper_block_refuted",
    "C77_tight_break_refuted",
    "C77_open_image_refuted"
   ],
   "note": "Elements with a meaning of their own (pre, script, style, data, ...) are left out as in C39. Only spaces, no other white space, inside tags. The three refuted theorems show which spellings do matter."
  },
  {
   "property": "C78",
   "status": "proved",
   "theorems": [
    "C78_not_shown",
    "C78_none",
    "C78_creole",
    "C78_textile",
    "C78_markdown",
    "C78_rest",
    "C78_spaces_refuted",
    "C78_section_refuted"
   ],
   "note": "Comments inside of text and next to inline elements are left out: the white space rules treat them as inline elements. Angle brackets inside of comments are left out. The document has at least one block."
  },
  {
   "property": "C79",
   "status": "proved",
   "theorems": [
    "C79_creole",
    "C79_textile",
    "C79_markdown",
    "C79_rest",
    "C79_spelling",
    "C79_plain"
   ],
   "note": "Tags pre, script and style, values with newlines and ampersands that begin no reference are left out. Attributes without a value are left out."
  },
  {
   "property": "C80",
   "status": "proved",
   "theorems": [
    "C80_creole_image",
    "C80_textile_image",
    "C80_markdown_image",
    "C80_rest_image",
    "C80_image_text",
    "C80_in_place",
    "C80_no_source",
    "C80_creole_link",
    "C80_textile_link",
    "C80_markdown_link",
    "C80_rest_link",
    "C80_bare_refuted"
   ],
   "note": "The image or the link is the whole document; inside documents the links and images of C39, C64, C66 and C67 with C79. Markdown: for the unambiguous addresses of C65, which are percent encoded. C80_bare_refuted: an attribute without a value is neither absent nor empty; `<a href>x</a>` links to \"None\" (markdown: to \"b''\"), `<img src />` raises AttributeError (markdown: image of \"b''\"). Values are given in all other theorems."
  },
  {
   "property": "C81",
   "status": "proved",
   "theorems": [
    "C81_tables",
    "C81_blanks",
    "C81_table_below_table_refuted",
    "C81_empty_cell_refuted"
   ],
   "note": "blog_line_breaks=True (the default). Only spaces as blanks. C81_table_below_table_refuted and C81_empty_cell_refuted show that the conditions are needed."
  },
  {
   "property": "C82",
   "status": "proved",
   "theorems": [
    "C82_table_trip",
    "C82_any_layout",
    "C82_html_trip",
    "C82_two_tables_refuted",
    "C82_empty_column_refuted",
    "C82_break_space_refuted"
   ],
   "note": "blog_line_breaks=True (the default). The refuted theorems show that the conditions are needed: two tables with an empty line between them become one, an empty column gets lost, white space beside a line break is dropped. countable as in C74."
  },
  {
   "property": "C83",
   "status": "proved",
   "theorems": [
    "C83_documents_in_turn",
    "C83_second_table_refuted"
   ],
   "note": "The table of contents is stored in the dictionary of the caller; a user who passes no dictionary is not affected (C71)."
  },
  {
   "property": "C84",
   "status": "proved",
   "theorems": [
    "C84_any_blank_lines",
    "C84_back_to_one_layout",
    "C84_touching_refuted",
    "C84_code_below_list_refuted"
   ],
   "note": "The condition on touching blocks is exact: C84_touching_refuted shows what happens otherwise. The condition on code blocks below lists is needed for the way back only."
  },
  {
   "property": "C85",
   "status": "proved",
   "theorems": [
    "C85_any_text_below",
    "C85_touching_refuted",
    "C85_toc_refuted",
    "C85_above_refuted"
   ],
   "note": "The document above is one of C84; the text below is any text. C85_touching_refuted, C85_toc_refuted and C85_above_refuted show that the conditions are needed."
  },
  {
   "property": "C86",
   "status": "proved",
   "theorems": [
    "C86_nothing_without_readme",
    "C86_released_files",
    "C86_after_update",
    "C86_wrong_note_refuted"
   ],
   "note": "poetry_publish, make and readme_renderer are parameters. C86_wrong_note_refuted: the last four lines are not looked at."
  },
  {
   "property": "C87",
   "status": "proved",
   "theorems": [
    "C87_settings",
    "C87_not_text"
   ],
   "note": "docutils is a parameter."
  },
  {
   "property": "C88",
   "status": "proved",
   "theorems": [
    "C88_image_align",
    "C88_objects_untouched",
    "C88_escaping_needed"
   ],
   "note": "docutils' own visit_image is represented by the tag it leaves, made by starttag; its escaping is a hypothesis, and C88_escaping_needed shows that it is needed."
  },
  {
   "property": "C89",
   "status": "proved",
   "theorems": [
    "C89_code_with_pygments",
    "C89_text_lost_refuted",
    "C89_last_extension_refuted",
    "C89_doubled_lines_refuted"
   ],
   "note": "pygments is a parameter (by_name, guess, highlight); guess is one answer because it is always called with the macro function. The violations are proved as C89_text_lost_refuted, C89_last_extension_refuted and C89_doubled_lines_refuted."
  },
  {
   "property": "C90",
   "status": "proved",
   "theorems": [
    "C90_lists_of_any_shape",
    "C90_fewer_bullets_refuted",
    "C90_other_kind_refuted"
   ],
   "note": "The html is specified line by line with the stack of open lists (Spec39.v). The violations are proved for all item texts as C90_fewer_bullets_refuted and C90_other_kind_refuted."
  },
  {
   "property": "C91",
   "status": "proved",
   "theorems": [
    "C91_same_result",
    "C91_tabs_refuted",
    "C91_other_refuted"
   ],
   "note": "The allowed changes are the relation relaid of Spec40.v, closed under composition. The violations are C91_tabs_refuted, for all pages, and C91_other_refuted. Pages with pre, script or style are left out."
  },
  {
   "property": "C92",
   "status": "proved",
   "theorems": [
    "C92_value",
    "C92_link",
    "C92_image",
    "C92_query_refuted"
   ],
   "note": "html.unescape of the standard library is part of the model (HtmlTok.v); `coded` also became one of the ways to write values in C77, C79, C80 and C91. Decimal references are limited to 4300 digits, the limit of int(). C92_query_refuted shows why an ampersand must begin no name."
  },
  {
   "property": "C93",
   "status": "proved",
   "theorems": [
    "C93_same_result",
    "C93_text_refuted",
    "C93_section_refuted"
   ],
   "note": "The page must be empty or end in something other than white space. A beginning of a marked section (<![) is outside; C93_section_refuted shows that it may raise."
  },
  {
   "property": "C94",
   "status": "proved",
   "theorems": [
    "C94_areas_copied",
    "C94_nothing_raises"
   ],
   "note": "Areas are <pre>\u2026</pre> without tags inside and with something on their first line. Tags of other types than pre, and blockdata tags with the number of an area, are outside the first theorem."
  },
  {
   "property": "C95",
   "status": "proved",
   "theorems": [
    "C95_creole2html",
    "C95_html2creole",
    "C95_html2textile",
    "C95_html2rest",
    "C95_creole2html_size",
    "C95_html2creole_size",
    "C95_half_character_refuted"
   ],
   "note": "argparse is modelled for names that do not begin with a hyphen and for the full spellings of --encoding. The texts must consist of characters (no surrogates), the codec must be utf-8 under any name, and the disk must not be full; C43 has the other cases."
  },
  {
   "property": "C96",
   "status": "proved",
   "theorems": [
    "C96_textile",
    "C96_markdown",
    "C96_rest",
    "C96_textile_any",
    "C96_markdown_any",
    "C96_textile_raise",
    "C96_markdown_raise",
    "C96_rest_raise",
    "C96_textile_program",
    "C96_rest_program"
   ],
   "note": "The text of an element that is left out must have no spaces at its edges (C72 shows that they are stripped). In markdown the tag <list> is left out because the emitter takes it for its own list node. For reStructuredText the theorem is about the four callables; for the two others any callable."
  },
  {
   "property": "C97",
   "status": "proved",
   "theorems": [
    "C97_as_dict",
    "C97_dict",
    "C97_object",
    "C97_none",
    "C97_frozen",
    "C97_callable"
   ],
   "note": "Properties of the object that raise other exceptions, dicts with __missing__ and macros that change the dict are not modelled."
  },
  {
   "property": "C98",
   "status": "proved",
   "theorems": [
    "C98_quiet",
    "C98_levels",
    "C98_above",
    "C98_reports"
   ],
   "note": "Of a traceback the exception with its message is recorded, not the text with file names and lines."
  },
  {
   "property": "C99",
   "status": "proved",
   "theorems": [
    "C99_default",
    "C99_chosen",
    "C99_safe",
    "C99_twice",
    "C99_order_refuted"
   ],
   "note": "Patterns of the caller's own and other flags are not modelled. C99_order_refuted shows that the order of the rules changes the page."
  },
  {
   "property": "C100",
   "status": "proved",
   "theorems": [
    "C100_marks",
    "C100_plain",
    "C100_addresses",
    "C100_scripts_refuted",
    "C100_title_refuted"
   ],
   "note": "C100_title_refuted: an image with a size and no title shows its address unescaped in title and alt. C100_scripts_refuted: links in brackets may go to javascript: addresses."
  },
  {
   "property": "C101",
   "status": "proved",
   "theorems": [
    "C101_size",
    "C101_linear",
    "C101_large",
    "C101_linear_refuted"
   ],
   "note": "The constants are generous. C101_large and C101_linear_refuted: line breaks in deep list items make the page quadratic."
  },
  {
   "property": "C102",
   "status": "proved",
   "theorems": [
    "C102_doubling",
    "C102_size_refuted"
   ],
   "note": "The wished-for bound (the result is as long as the page, up to a factor) is refuted; the theorem gives the lower bound for every depth."
  }
 ]
}
