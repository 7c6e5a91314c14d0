(** * creole/parser/creol2html_rules.py

    The regular expressions, transcribed alternative by alternative.  All patterns are
    compiled with [re.VERBOSE] (blanks in the pattern do not count) and are [str] patterns
    (Unicode classes).  Anonymous groups do not capture anything that the code reads. *)
From Coq Require Import String List NArith Bool.
From Verif Require Import PyStr GNames Regex.
Import ListNotations.
Open Scope N_scope.

Definition dot : regex := RChr is_dot.
Definition sp : regex := RChr is_space.                           (* \s *)
Definition sps : regex := RStar true sp.                          (* \s* *)
Definition anyc : regex := RAlt dot (c1 10).                      (* (.|\n) *)
Definition word : regex := RChr is_word.
Definition dotplus_lazy : regex := RPlus false dot.               (* .+? *)
Definition dotstar_lazy : regex := RStar false dot.               (* .*? *)

(** ** InlineRules *)

(** proto, creol2html_rules.py:17 *)
Definition proto : regex :=
  alts (map lit [$ "http"; $ "https"; $ "ftp"; $ "nntp"; $ "news"; $ "mailto"; $ "telnet"; $ "file"; $ "irc"]).

(** url, creol2html_rules.py:19-23.  [^] is not multi-line in the inline rules. *)
Definition r_url : regex :=
  RGrp G_url (seqs
    [ RAlt RBos (RBehind false is_space);
      ROpt (RGrp G_escaped_url (c1 126));
      RGrp G_url_target (seqs
        [ RGrp G_url_proto proto; lit ($ "://");
          RPlus true (RChr (fun c => negb ((c =? 36) || is_space c))) ]) ]).

(** link, creol2html_rules.py:31-36 *)
Definition r_link : regex :=
  RGrp G_link (seqs
    [ lit ($ "[[");
      RGrp G_link_target dotplus_lazy; sps;
      ROpt (seqs [c1 124; sps; RGrp G_link_text dotplus_lazy; sps]);
      lit ($ "]]") ]).

(** image, creol2html_rules.py:51-55 *)
Definition r_image : regex :=
  RGrp G_image (seqs
    [ lit ($ "{{");
      RGrp G_image_target dotplus_lazy; sps;
      ROpt (seqs [c1 124; sps; RGrp G_image_text dotplus_lazy; sps]);
      lit ($ "}}") ]).

(** macro_inline, creol2html_rules.py:60-66; macro_block, creol2html_rules.py:112-118.
    The two patterns differ only in the names of their groups. *)
Definition r_macro (g gs ga gt : gname) : regex :=
  RGrp g (seqs
    [ lit ($ "<<"); sps; RGrp gs (RPlus true word); sps; RGrp ga dotstar_lazy; sps; lit ($ ">>");
      RGrp gt (RStar false anyc);
      lit ($ "<</"); sps; RBack gs; sps; lit ($ ">>") ]).
Definition r_macro_inline : regex :=
  r_macro G_macro_inline G_macro_inline_start G_macro_inline_args G_macro_inline_text.

(** macro_tag, creol2html_rules.py:68-70 *)
Definition r_macro_tag : regex :=
  RGrp G_macro_tag (seqs
    [ lit ($ "<<"); RGrp G_macro_tag_name (RPlus true word);
      RGrp G_macro_tag_args dotstar_lazy; sps; RStar true (c1 47); lit ($ ">>") ]).

(** pre_inline, creol2html_rules.py:72 *)
Definition r_pre_inline : regex :=
  RGrp G_pre_inline (seqs [lit ($ "{{{"); RGrp G_pre_inline_text dotstar_lazy; lit ($ "}}}")]).

(** typefaces, creol2html_rules.py:76-90 *)
Definition r_mark (g gt : gname) (c : char) : regex :=
  RGrp g (seqs [lit [c; c]; RGrp gt dotplus_lazy; lit [c; c]]).
Definition r_emphasis : regex :=
  RGrp G_emphasis (seqs
    [ RBehind true (N.eqb 58); lit ($ "//"); RGrp G_emphasis_text dotplus_lazy;
      RBehind true (N.eqb 58); lit ($ "//") ]).
Definition r_strong := r_mark G_strong G_strong_text 42.
Definition r_monospace := r_mark G_monospace G_monospace_text 35.
Definition r_superscript := r_mark G_superscript G_superscript_text 94.
Definition r_subscript := r_mark G_subscript G_subscript_text 44.
Definition r_underline := r_mark G_underline G_underline_text 95.
Definition r_delete := r_mark G_delete G_delete_text 126.
Definition r_small := r_mark G_small G_small_text 45.

(** linebreak, escape, char, creol2html_rules.py:92-94 *)
Definition r_linebreak : regex := RGrp G_linebreak (lit [92; 92]).
Definition r_escape : regex :=
  RGrp G_escape (RSeq (c1 126) (RGrp G_escaped_char (RChr (fun c => negb (is_space c))))).
Definition r_char : regex := RGrp G_char dot.

(** INLINE_RULES, creol2html_rules.py:198-212, joined with [|] (creol2html_parser.py:59) *)
Definition inline_re : regex :=
  alts [ r_link; r_url; r_macro_inline; r_macro_tag; r_pre_inline; r_image;
         r_strong; r_emphasis; r_monospace; r_underline; r_superscript; r_subscript;
         r_small; r_delete; r_linebreak; r_escape; r_char ].

(** order of [groupdict()] for [inline_re] *)
Definition inline_groups : list gname :=
  [ G_link; G_link_target; G_link_text; G_url; G_escaped_url; G_url_target; G_url_proto;
    G_macro_inline; G_macro_inline_start; G_macro_inline_args; G_macro_inline_text;
    G_macro_tag; G_macro_tag_name; G_macro_tag_args; G_pre_inline; G_pre_inline_text;
    G_image; G_image_target; G_image_text; G_strong; G_strong_text; G_emphasis; G_emphasis_text;
    G_monospace; G_monospace_text; G_underline; G_underline_text; G_superscript; G_superscript_text;
    G_subscript; G_subscript_text; G_small; G_small_text; G_delete; G_delete_text;
    G_linebreak; G_escape; G_escaped_char; G_char ].

(** link_re (link descriptions), creol2html_parser.py:46-49 *)
Definition link_re : regex := alts [r_image; r_linebreak; r_char].
Definition link_groups : list gname :=
  [G_image; G_image_target; G_image_text; G_linebreak; G_char].

(** ** BlockRules *)

Definition r_macro_block : regex :=
  r_macro G_macro_block G_macro_block_start G_macro_block_args G_macro_block_text.

(** line, creol2html_rules.py:120 *)
Definition r_line : regex := RGrp G_line (seqs [RBol; sps; REol]).

(** head, creol2html_rules.py:122-127 *)
Definition r_head : regex :=
  RGrp G_head (seqs
    [ RBol; RGrp G_head_head (RPlus true (c1 61)); sps;
      RGrp G_head_text dotstar_lazy;
      RStar false (RAlt (c1 61) sp); REol ]).

(** separator, creol2html_rules.py:128 *)
Definition r_separator : regex :=
  seqs [ RGrp G_separator (seqs [RBol; sps; lit ($ "----")]);
         RStar true (RChr (fun c => (c =? 32) || (c =? 9))); REol ].

(** pre_block, creol2html_rules.py:130-137 *)
Definition r_pre_block : regex :=
  RGrp G_pre_block (seqs
    [ RBol; lit ($ "{{{"); sps; REol;
      RGrp G_pre_block_text (RSeq
        (ROpt (seqs [ c1 35; c1 33; RGrp G_pre_block_kind (RStar false word);
                      ROpt (RSeq (RPlus true sp) (RStar true dot)); REol ]))
        (RPlus false anyc));
      RBol; lit ($ "}}}") ]).

(** list, creol2html_rules.py:141-144 *)
Definition is_bullet (c : char) : bool := (c =? 42) || (c =? 35).      (* [*#] *)
Definition r_list : regex :=
  RGrp G_list (seqs
    [ RBol; sps;
      RAlt (RSeq (c1 42) (RChr (fun c => negb (is_bullet c))))
           (RSeq (c1 35) (RChr (fun c => negb (is_bullet c))));
      RStar true dot; REol;
      RStar true (seqs
        [ c1 10; RStar true (RChr (fun c => (c =? 32) || (c =? 9)));
          RPlus true (RChr is_bullet); RStar true dot; REol ]) ]).

(** table, creol2html_rules.py:146-149 *)
Definition r_table : regex :=
  seqs [ RBol; sps;
         RGrp G_table (seqs [c1 124; dotstar_lazy; sps; ROpt (c1 124)]);
         sps; REol ].

(** the line end that becomes a break or a space, creol2html_rules.py:156,159 *)
Definition r_line_end : regex :=
  seqs [ RBehind true (N.eqb 92); REol; c1 10; RNotAhead (RSeq sps REol) ].

(** text, creol2html_rules.py:154-159 *)
Definition r_text (blog_line_breaks : bool) : regex :=
  if blog_line_breaks
  then RSeq (RGrp G_text (RPlus true dot)) (ROpt (RGrp G_break r_line_end))
  else RSeq (ROpt (RGrp G_space r_line_end)) (RGrp G_text (RPlus true dot)).

(** BlockRules.rules, creol2html_rules.py:161-166, joined (creol2html_parser.py:72) *)
Definition block_re (blog : bool) : regex :=
  alts [ r_macro_block; r_line; r_head; r_separator; r_pre_block; r_list; r_table; r_text blog ].
Definition block_groups (blog : bool) : list gname :=
  [ G_macro_block; G_macro_block_start; G_macro_block_args; G_macro_block_text;
    G_line; G_head; G_head_head; G_head_text; G_separator;
    G_pre_block; G_pre_block_text; G_pre_block_kind; G_list; G_table ] ++
  (if blog then [G_text; G_break] else [G_space; G_text]).

(** ** SpecialRules *)

(** item, creol2html_rules.py:174-177, MULTILINE *)
Definition item_re : regex :=
  seqs [ RBol; sps;
         RGrp G_item (seqs [ RGrp G_item_head (RPlus true (RChr is_bullet)); sps;
                             RGrp G_item_text dotstar_lazy ]);
         sps; REol ].
Definition item_groups : list gname := [G_item; G_item_head; G_item_text].

(** cell, creol2html_rules.py:180-191 *)
Definition not_bar : regex := RChr (fun c => negb (c =? 124)).
Definition cell_re : regex :=
  seqs [ c1 124; sps;
         RAlt (RGrp G_head (RSeq (c1 61) (RPlus true not_bar)))
              (RGrp G_cell (RPlus true
                 (alts [r_link; r_macro_inline; r_macro_tag; r_image; r_pre_inline; not_bar])));
         sps ].

(** pre_escape, creol2html_rules.py:194, MULTILINE *)
Definition pre_escape_re : regex :=
  seqs [ RBol; RGrp G_indent sps; c1 126; RGrp G_rest (RSeq (lit ($ "}}}")) sps); REol ].
