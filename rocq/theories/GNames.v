(** * Names of the groups [(?P<name>...)] of the regular expressions in /repo
    (creole/parser/creol2html_rules.py, creole/parser/html_parser_config.py,
    creole/html_tools/*.py, creole/parser/html_parser.py). *)
Inductive gname :=
(* InlineRules, creol2html_rules.py:14-90 *)
| G_link | G_link_target | G_link_text
| G_url | G_escaped_url | G_url_target | G_url_proto
| G_macro_inline | G_macro_inline_start | G_macro_inline_args | G_macro_inline_text
| G_macro_tag | G_macro_tag_name | G_macro_tag_args
| G_pre_inline | G_pre_inline_text
| G_image | G_image_target | G_image_text
| G_strong | G_strong_text | G_emphasis | G_emphasis_text
| G_monospace | G_monospace_text | G_underline | G_underline_text
| G_superscript | G_superscript_text | G_subscript | G_subscript_text
| G_small | G_small_text | G_delete | G_delete_text
| G_linebreak | G_escape | G_escaped_char | G_char
(* BlockRules, creol2html_rules.py:93-170 *)
| G_macro_block | G_macro_block_start | G_macro_block_args | G_macro_block_text
| G_line | G_head | G_head_head | G_head_text | G_separator
| G_pre_block | G_pre_block_text | G_pre_block_kind
| G_list | G_table | G_text | G_break | G_space
(* SpecialRules, creol2html_rules.py:173-200 *)
| G_item | G_item_head | G_item_text
| G_cell
| G_indent | G_rest
(* entities_rules, html_tools/deentity.py:15-19 *)
| G_number | G_hex | G_named
(* strip_html_regex, html_tools/strip_html.py:16-28 *)
| G_end | G_tag | G_startend
(* space_re, html_tools/text_tools.py:14 (groups 1, 2, 3) *)
| G_ws_start | G_ws_txt | G_ws_end
(* block_re, inline_re, parser/html_parser.py:20-36 *)
| G_html_pre_block | G_html_pre_inline
(* html.parser: tag name; attribute name, "= value", value; entity name *)
| G_hp_tag | G_hp_attr | G_hp_rest | G_hp_value | G_hp_entity.

Scheme Equality for gname.

Lemma gname_beq_refl : forall g, gname_beq g g = true.
Proof. destruct g; reflexivity. Qed.
Lemma gname_beq_eq : forall g h, gname_beq g h = true -> g = h.
Proof. exact internal_gname_dec_bl. Qed.
