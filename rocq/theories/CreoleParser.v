(** * creole/parser/creol2html_parser.py — CreoleParser

    The parser object is modelled by its attributes [root], [cur], [text]:
    the path from [root] to [cur] is a stack of open nodes (top = [cur]); each open node
    carries its children so far in reverse order.  [text] is either [None] or the last child
    of [cur] (it is reset to [None] whenever [cur] changes and whenever another child is
    appended), so a flag suffices.  A Python exception raised by a handler sets [perr]. *)
From Coq Require Import String List NArith Bool.
From Verif Require Import PyStr GNames Regex Rules DocTree.
Import ListNotations.
Open Scope N_scope.

Definition frame : Type := hdr * list node.
Record ps := mkps {
  stk  : list frame;      (* cur first, root last *)
  txt  : bool;            (* self.text is not None *)
  used : list str;        (* self.root.used_macros *)
  perr : bool             (* an exception was raised *)
}.

Definition raise_ (s : ps) : ps := mkps (stk s) (txt s) (used s) true.
Definition set_stk (k : list frame) (s : ps) : ps := mkps k (txt s) (used s) (perr s).
Definition set_txt (b : bool) (s : ps) : ps := mkps (stk s) b (used s) (perr s).

(** [self.cur.kind] *)
Definition cur_kind (s : ps) : kind :=
  match stk s with (h, _) :: _ => hk h | [] => KDocument end.
Definition cur_children (s : ps) : list node :=
  match stk s with (_, ch) :: _ => ch | [] => [] end.

(** [DocNode(..., self.cur)] that does not become [cur] *)
Definition append_child (n : node) (s : ps) : ps :=
  match stk s with
  | (h, ch) :: up => set_stk ((h, n :: ch) :: up) s
  | [] => raise_ s
  end.
(** [self.cur = DocNode(..., self.cur)] *)
Definition open_ (h : hdr) (s : ps) : ps := set_stk ((h, []) :: stk s) s.
(** leave the innermost open node *)
Definition pop1 (k : list frame) : list frame :=
  match k with
  | (h, ch) :: (h', ch') :: up => (h', Nd h (rev ch) :: ch') :: up
  | _ => k
  end.
(** [self.cur = <the ancestor of cur at depth d>] (d = number of nodes on its path) *)
Fixpoint pop_n (n : nat) (k : list frame) : list frame :=
  match n with O => k | S n' => pop_n n' (pop1 k) end.
Definition pop_to (d : nat) (s : ps) : ps :=
  set_stk (pop_n (List.length (stk s) - d) (stk s)) s.

(** use a group that must have taken part in the match: [None.strip()], [None + ""] ... raise *)
Definition need (g : gname) (x : mtch) (s : ps) (f : str -> ps) : ps :=
  match group g x with Some v => f v | None => raise_ s end.

Definition kind_in (k : kind) (l : list kind) : bool := existsb (kind_beq k) l.

(** cleanup_break, creol2html_parser.py:84-96 *)
Definition cleanup_break (s : ps) : ps :=
  match stk s with
  | (h, n :: ch) :: up => if kind_beq (nkind n) KBreak then set_stk ((h, ch) :: up) s else s
  | _ => s
  end.

(** the loop of _upto, creol2html_parser.py:105-106 *)
Fixpoint upto_loop (kinds : list kind) (h : hdr) (ch : list node) (up : list frame) : list frame :=
  match up with
  | [] => [(h, ch)]
  | (h', ch') :: up' =>
    if kind_in (hk h) kinds then (h, ch) :: up
    else upto_loop kinds h' (Nd h (rev ch) :: ch') up'
  end.
(** [self.cur = self._upto(self.cur, kinds)], creol2html_parser.py:98-108 *)
Definition upto (kinds : list kind) (s : ps) : ps :=
  let s := cleanup_break s in
  match stk s with
  | (h, ch) :: up => set_stk (upto_loop kinds h ch up) s
  | [] => raise_ s
  end.
(** _upto_block, creol2html_parser.py:110-111 *)
Definition upto_block (s : ps) : ps := upto [KDocument] s.

(** [self.text.content += w], creating the text node if needed
    (creol2html_parser.py:154-156, 415-417, 421-423) *)
Definition add_text (w : str) (s : ps) : ps :=
  if txt s then
    match stk s with
    | (h, Nd th tch :: ch) :: up =>
      match hcontent th with
      | Some c => set_stk ((h, Nd (mkh (hk th) (Some (c ++ w)) (hlevel th) (hmname th) (hmargs th)) tch :: ch) :: up) s
      | None => raise_ s
      end
    | _ => raise_ s
    end
  else set_txt true (append_child (Nd (mkn KText (Some w)) []) s).

(** ** Inline handlers *)

(** _url_repl, creol2html_parser.py:143-156 *)
Definition url_repl (x : mtch) (s : ps) : ps :=
  need G_url_target x s (fun target =>
    if truthy (group0 G_escaped_url x)
    then add_text target s
    else set_txt false
           (append_child (Nd (mkn KLink (Some target)) [Nd (mkn KText (Some target)) []]) s)).

(** _image_repl, creol2html_parser.py:250-256 *)
Definition image_repl (x : mtch) (s : ps) : ps :=
  need G_image_target x s (fun t =>
    let target := strip t in
    let text := strip (group0 G_image_text x) in
    set_txt false (append_child
      (Nd (mkn KImage (Some target))
          [Nd (mkn KText (Some (if truthy text then text else target))) []]) s)).

(** _linebreak_repl, creol2html_parser.py:410-412 *)
Definition linebreak_repl (s : ps) : ps :=
  set_txt false (append_child (Nd (mkn KBreak None) []) s).

(** _escape_repl, creol2html_parser.py:414-417; _char_repl, 420-423 *)
Definition escape_repl (x : mtch) (s : ps) : ps := need G_escaped_char x s (fun c => add_text c s).
Definition char_repl (x : mtch) (s : ps) : ps := need G_char x s (fun c => add_text c s).

(** _pre_inline_repl, creol2html_parser.py:355-358 *)
Definition pre_inline_repl (x : mtch) (s : ps) : ps :=
  need G_pre_inline_text x s (fun t =>
    set_txt false (append_child (Nd (mkn KPreInline (Some t)) []) s)).

(** _add_macro, creol2html_parser.py:177-196 *)
Definition add_macro (k : kind) (name args : str) (text : option str) (s : ps) : ps :=
  let s := append_child (Nd (mkh k (option_map strip text) 0 name (strip args)) []) s in
  mkps (stk s) false (used s ++ [name]) (perr s).
(** _macro_tag_repl, creol2html_parser.py:219-229 *)
Definition macro_tag_repl (x : mtch) (s : ps) : ps :=
  need G_macro_tag_name x s (fun n => need G_macro_tag_args x s (fun a =>
    add_macro KMacroInline n a None s)).
(** _macro_inline_repl, creol2html_parser.py:233-243 *)
Definition macro_inline_repl (x : mtch) (s : ps) : ps :=
  need G_macro_inline_start x s (fun n => need G_macro_inline_args x s (fun a =>
    need G_macro_inline_text x s (fun t => add_macro KMacroInline n a (Some t) s))).

(** the first group of [match.groupdict()] that is not [None], creol2html_parser.py:436-438 *)
Fixpoint first_group (gs : list gname) (x : mtch) : option gname :=
  match gs with
  | [] => None
  | g :: t => match group g x with Some _ => Some g | None => first_group t x end
  end.

(** [_replace], creol2html_parser.py:427-444: call [handler name match]; nothing happens when
    no named group took part; after an exception nothing else happens *)
Definition replace_ (gs : list gname) (handler : gname -> mtch -> ps -> ps) (s : ps) (x : mtch) : ps :=
  if perr s then s else
  match first_group gs x with
  | Some g => handler g x s
  | None => s
  end.

(** handlers reachable from [link_re]; a name without [_name_repl] method raises *)
Definition link_text_handler (g : gname) (x : mtch) (s : ps) : ps :=
  match g with
  | G_image | G_image_target | G_image_text => image_repl x s
  | G_linebreak => linebreak_repl s
  | G_char => char_repl x s
  | _ => raise_ s
  end.

(** _link_repl, creol2html_parser.py:161-171 *)
Definition link_repl (x : mtch) (s : ps) : ps :=
  need G_link_target x s (fun target =>
    let text := strip (group0 G_link_text x) in
    let d := List.length (stk s) in
    let s := set_txt false (open_ (mkn KLink (Some target)) s) in
    let s := fold_left (replace_ link_groups link_text_handler) (finditer link_re text) s in
    set_txt false (pop_to d s)).

(** _inline_mark, creol2html_parser.py:364-372; [pi] is [parse_inline] *)
Definition inline_mark (pi : str -> ps -> ps) (k : kind) (gt : gname) (x : mtch) (s : ps) : ps :=
  let s := set_txt false (open_ (mkn k None) s) in
  need gt x s (fun text =>
    let s := pi text s in
    let s := upto [k] s in
    set_txt false (set_stk (pop1 (stk s)) s)).

(** [getattr(self, f'_{name}_repl')], creol2html_parser.py:442, for the groups of [inline_re] *)
Definition inline_handler (pi : str -> ps -> ps) (g : gname) (x : mtch) (s : ps) : ps :=
  match g with
  | G_link | G_link_target | G_link_text => link_repl x s
  | G_url | G_escaped_url | G_url_target | G_url_proto => url_repl x s
  | G_macro_inline | G_macro_inline_start | G_macro_inline_args | G_macro_inline_text => macro_inline_repl x s
  | G_macro_tag | G_macro_tag_name | G_macro_tag_args => macro_tag_repl x s
  | G_pre_inline | G_pre_inline_text => pre_inline_repl x s
  | G_image | G_image_target | G_image_text => image_repl x s
  | G_strong | G_strong_text => inline_mark pi KStrong G_strong_text x s
  | G_emphasis | G_emphasis_text => inline_mark pi KEmphasis G_emphasis_text x s
  | G_monospace | G_monospace_text => inline_mark pi KMonospace G_monospace_text x s
  | G_underline | G_underline_text => inline_mark pi KUnderline G_underline_text x s
  | G_superscript | G_superscript_text => inline_mark pi KSuperscript G_superscript_text x s
  | G_subscript | G_subscript_text => inline_mark pi KSubscript G_subscript_text x s
  | G_small | G_small_text => inline_mark pi KSmall G_small_text x s
  | G_delete | G_delete_text => inline_mark pi KDelete G_delete_text x s
  | G_linebreak => linebreak_repl s
  | G_escape | G_escaped_char => escape_repl x s
  | G_char => char_repl x s
  | _ => raise_ s
  end.

(** parse_inline, creol2html_parser.py:446-448.  The recursion through [_inline_mark] is
    bounded by [fuel]; the text of a mark is shorter than the text it occurs in, so
    [parse_inline] below never runs out of fuel ([parse_inline_fuel] in ParserFacts.v). *)
Fixpoint parse_inline_f (fuel : nat) (raw : str) (s : ps) : ps :=
  match fuel with
  | O => s
  | S f => fold_left (replace_ inline_groups (inline_handler (parse_inline_f f)))
                     (finditer inline_re raw) s
  end.
Definition parse_inline (raw : str) (s : ps) : ps := parse_inline_f (S (List.length raw)) raw s.

(** ** Block handlers *)

Definition list_kinds : list kind := [KNumberList; KBulletList].

(** _text_repl, creol2html_parser.py:117-139 *)
Definition text_repl (x : mtch) (s : ps) : ps :=
  let s := if kind_in (cur_kind s) [KTable; KTableRow; KBulletList; KNumberList]
           then upto_block s else s in
  let s := if kind_in (cur_kind s) [KDocument] then open_ (mkn KParagraph None) s else s in
  need G_text x s (fun text =>
    let text := if truthy (group0 G_space x) && negb (is_nil (cur_children s))
                then 32 :: text else text in
    let s := parse_inline text s in
    let s := if truthy (group0 G_break x) &&
                kind_in (cur_kind s) [KParagraph; KEmphasis; KStrong; KPreInline]
             then append_child (Nd (mkn KBreak (Some [])) []) s else s in
    set_txt false s).

(** _macro_block_repl, creol2html_parser.py:198-214 *)
Definition macro_block_repl (x : mtch) (s : ps) : ps :=
  let s := upto_block s in
  let s := pop_to 1 s in
  need G_macro_block_start x s (fun n => need G_macro_block_args x s (fun a =>
    need G_macro_block_text x s (fun t => add_macro KMacroBlock n a (Some t) s))).

(** _separator_repl, creol2html_parser.py:260-262 *)
Definition separator_repl (s : ps) : ps :=
  append_child (Nd (mkn KSeparator None) []) (upto_block s).

(** the loop looking for a list of the same level, creol2html_parser.py:273-283:
    number of nodes to leave and the node found *)
Fixpoint find_list (level : nat) (n : nat) (k : list frame) : option (nat * hdr) :=
  match k with
  | [] => None
  | (h, _) :: up =>
    if (kind_in (hk h) list_kinds && Nat.eqb (hlevel h) level) || kind_in (hk h) [KDocument]
    then Some (n, h) else find_list level (S n) up
  end.

(** _item_repl, creol2html_parser.py:264-295 *)
Definition item_repl (x : mtch) (s : ps) : ps :=
  need G_item_head x s (fun bullet =>
  need G_item_text x s (fun text =>
    match rev bullet with
    | [] => raise_ s                                  (* bullet[-1]: IndexError *)
    | b :: _ =>
      let k := if b =? 35 then KNumberList else KBulletList in
      let level := (List.length bullet - 1)%nat in
      let fresh := fun s =>
        open_ (mkl k None level) (upto [KListItem; KDocument] s) in
      let s := match find_list level 0 (stk s) with
               | Some (n, h) => if kind_beq (hk h) k then set_stk (pop_n n (stk s)) s else fresh s
               | None => fresh s
               end in
      let s := open_ (mkl KListItem None (level + 1)) s in
      set_txt false (parse_inline text s)
    end)).

(** _list_repl, creol2html_parser.py:299-301 *)
Definition item_handler (g : gname) (x : mtch) (s : ps) : ps :=
  match g with
  | G_item | G_item_head | G_item_text => item_repl x s
  | _ => raise_ s
  end.
Definition list_repl (x : mtch) (s : ps) : ps :=
  need G_list x s (fun l => fold_left (replace_ item_groups item_handler) (finditer item_re l) s).

(** _head_repl, creol2html_parser.py:303-307 *)
Definition head_repl (x : mtch) (s : ps) : ps :=
  let s := upto_block s in
  need G_head_text x s (fun t => need G_head_head x s (fun h =>
    set_txt false (append_child (Nd (mkl KHeader (Some (strip t)) (List.length h)) []) s))).

(** one cell of a table row, creol2html_parser.py:320-330; [d]: depth of the row node *)
Definition cell_step (d : nat) (s : ps) (x : mtch) : ps :=
  if perr s then s else
  let s := pop_to d s in
  let cell := group0 G_cell x in
  if truthy cell
  then parse_inline (strip cell) (set_txt false (open_ (mkn KTableCell None) s))
  else need G_head x s (fun h =>
         parse_inline (strip_chars ($ "= ") h)
           (set_txt true (append_child (Nd (mkn KText (Some [])) []) (open_ (mkn KTableHead None) s)))).

(** _table_repl, creol2html_parser.py:311-333 *)
Definition table_repl (x : mtch) (s : ps) : ps :=
  need G_table x s (fun t =>
    let row := strip t in
    let s := upto [KTable; KDocument] s in
    let s := if kind_beq (cur_kind s) KTable then s else open_ (mkn KTable None) s in
    let d := List.length (stk s) in
    let s := open_ (mkn KTableRow None) s in
    let s := fold_left (cell_step (S d)) (finditer cell_re row) s in
    set_txt false (pop_to d s)).

(** _pre_block_repl, creol2html_parser.py:335-345 *)
Definition remove_tilde (x : mtch) : str := group0 G_indent x ++ group0 G_rest x.
Definition pre_block_repl (x : mtch) (s : ps) : ps :=
  let s := upto_block s in
  need G_pre_block_text x s (fun t =>
    set_txt false (append_child (Nd (mkn KPreBlock (Some (resub pre_escape_re remove_tilde t))) []) s)).

(** _line_repl, creol2html_parser.py:350-353 *)
Definition line_repl (s : ps) : ps :=
  append_child (Nd (mkn KLine (Some [])) []) (upto_block s).

(** [getattr(self, f'_{name}_repl')] for the groups of [block_re] *)
Definition block_handler (g : gname) (x : mtch) (s : ps) : ps :=
  match g with
  | G_macro_block | G_macro_block_start | G_macro_block_args | G_macro_block_text => macro_block_repl x s
  | G_line => line_repl s
  | G_head | G_head_head | G_head_text => head_repl x s
  | G_separator => separator_repl s
  | G_pre_block | G_pre_block_text | G_pre_block_kind => pre_block_repl x s
  | G_list => list_repl x s
  | G_table => table_repl x s
  | G_text | G_break | G_space => text_repl x s
  | _ => raise_ s
  end.

(** parse_block, creol2html_parser.py:450-452 *)
Definition parse_block (blog : bool) (raw : str) (s : ps) : ps :=
  fold_left (replace_ (block_groups blog) block_handler) (finditer (block_re blog) raw) s.

(** line endings, creol2html_parser.py:457 *)
Definition norm_newlines (raw : str) : str := replace [13] [10] (replace [13; 10] [10] raw).

(** __init__, creol2html_parser.py:74-80 *)
Definition init_ps : ps := mkps [(mkn KDocument None, [])] false [] false.

(** the finished document: root node and used macros.  [None]: an exception was raised. *)
Definition finish (s : ps) : option (node * list str) :=
  if perr s then None else
  match stk (pop_to 1 s) with
  | [(h, ch)] => Some (Nd h (rev ch), used s)
  | _ => None
  end.

(** parse, creol2html_parser.py:454-462 *)
Definition parse (blog : bool) (raw : str) : option (node * list str) :=
  finish (parse_block blog (norm_newlines raw) init_ps).
