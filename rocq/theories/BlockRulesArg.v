(** * The [block_rules] argument of creole2html

    creole/__init__.py:34-66 hands [block_rules] to [CreoleParser], whose [__init__]
    (creol2html_parser.py:61-72) compiles ['|'.join(block_rules.rules)].  Modelled are lists
    made of the eight patterns of [BlockRules] (creol2html_rules.py:97-166), in any order and
    with any of them left out, with the flags of [BlockRules].  Patterns of the caller's own
    and other flags are not modelled. *)
From Coq Require Import String List NArith ZArith Bool.
From Verif Require Import PyStr GNames Regex Rules DocTree CreoleParser Res HtmlEmitter.
Import ListNotations.
Open Scope N_scope.

(** the attributes of a [BlockRules] object, creol2html_rules.py:114-159; [text] is the
    pattern chosen by [blog_line_breaks] *)
Inductive brule := B_macro | B_line | B_head | B_separator | B_pre | B_list | B_table | B_text (blog : bool).

Definition rule_re (r : brule) : regex :=
  match r with
  | B_macro => r_macro_block | B_line => r_line | B_head => r_head | B_separator => r_separator
  | B_pre => r_pre_block | B_list => r_list | B_table => r_table | B_text blog => r_text blog
  end.

(** the named groups of a pattern, in the order of [groupdict()] *)
Definition rule_groups (r : brule) : list gname :=
  match r with
  | B_macro => [G_macro_block; G_macro_block_start; G_macro_block_args; G_macro_block_text]
  | B_line => [G_line]
  | B_head => [G_head; G_head_head; G_head_text]
  | B_separator => [G_separator]
  | B_pre => [G_pre_block; G_pre_block_text; G_pre_block_kind]
  | B_list => [G_list]
  | B_table => [G_table]
  | B_text true => [G_text; G_break]
  | B_text false => [G_space; G_text]
  end.

(** creol2html_parser.py:72.  The empty list gives the empty pattern, which matches without
    any group: [_replace] (creol2html_parser.py:427-444) then does nothing, just as with no
    match at all. *)
Definition rules_re (rs : list brule) : regex := alts (map rule_re rs).
Definition rules_groups (rs : list brule) : list gname := flat_map rule_groups rs.

(** [re.compile] refuses a pattern that defines a group name twice *)
Fixpoint no_name_twice (l : list gname) : bool :=
  match l with [] => true | g :: r => negb (existsb (gname_beq g) r) && no_name_twice r end.

(** parse with these rules, creol2html_parser.py:446-462 *)
Definition parse_rules (rs : list brule) (raw : str) : option (node * list str) :=
  finish (fold_left (replace_ (rules_groups rs) block_handler) (finditer (rules_re rs) (norm_newlines raw)) init_ps).

(** creole2html with a [block_rules] object whose [rules] are [rs], creole/__init__.py:34-66.
    [o_blog o] is not used: [blog_line_breaks] is only read to make the default rules
    (creol2html_parser.py:65-66). *)
Definition creole2html_rules (o : opts) (rs : list brule) (md : mdict) (markup : str) : res str * mdict :=
  if no_name_twice (rules_groups rs) then
    match parse_rules rs markup with
    | None => (Exc EOther, md)
    | Some (root, usedm) =>
      let '(ut, t) := init_toc usedm (md_toc md) in
      let c := mkcfg (match o_verbose o with None => 1%Z | Some v => v end) (o_strict o) (md_env md) ut in
      let '(r, s) := emit c root (mkest t (md_log md)) in
      (r, mkmd (md_env md) (toc s) (log s))
    end
  else (Exc EOther, md).
