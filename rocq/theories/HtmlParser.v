(** * creole/parser/html_parser.py — HtmlParser

    and the part of creole/shared/document_tree.py (DocNode) it uses. *)
From Coq Require Import String List NArith ZArith Bool.
From Verif Require Import PyStr GNames Regex Rules Utils Res HtmlTools HtmlTok.
Import ListNotations.
Open Scope N_scope.

(** DocNode, document_tree.py:16-36.  [content] is [None] or a string; [level] is [None] or an
    int; the parent reference is the position in the tree. *)
Inductive hnode := HN (kind : str) (content : option str) (attr : pydict) (level : option Z) (children : list hnode).
Definition h_kind (n : hnode) : str := let 'HN k _ _ _ _ := n in k.
Definition h_content (n : hnode) : option str := let 'HN _ c _ _ _ := n in c.
Definition h_attrs (n : hnode) : pydict := let 'HN _ _ a _ _ := n in a.
Definition h_level (n : hnode) : option Z := let 'HN _ _ _ l _ := n in l.
Definition h_children (n : hnode) : list hnode := let 'HN _ _ _ _ ch := n in ch.

(** [dict(attrs)]: a later value replaces an earlier one *)
Definition dict_of (a : attrs) : pydict := fold_left (fun d (kv : str * pyval) => dict_set (fst kv) (snd kv) d) a [].

(** ** Cutting out preformatted areas *)

(** block_re, html_parser.py:20-28 *)
Definition pre_block_re : regex :=
  seqs [ RBol; lit ($ "<pre>"); sps; REol;
         RGrp G_html_pre_block (RStar false (RAlt (c1 10) dot));
         RBol; lit ($ "</pre>"); sps; REol;
         RStar true (RChr (fun c => is_space c || (c =? 10))) ].
(** inline_re, html_parser.py:30-36 *)
Definition pre_inline_re : regex :=
  seqs [ lit ($ "<pre>"); RGrp G_html_pre_inline (RStar false (RAlt (c1 10) dot)); lit ($ "</pre>") ].

(** _pre_cut, html_parser.py:97-104: the data goes to the end of [blockdata] *)
Definition pre_cut (data placeholder : str) (bd : list str) : str * list str :=
  ($ "<" ++ placeholder ++ $ " type=""pre"" id=""" ++ show_nat (List.length bd) ++ $ """ />", bd ++ [data]).

(** _pre_cut_out with _pre_pre_block_cut / _pre_pre_inline_cut, html_parser.py:106-125.
    (The group named [pass_block] does not occur in the patterns.) *)
Definition cut_block (x : mtch) (bd : list str) : res (str * list str) :=
  Ok (pre_cut (group0 G_html_pre_block x) ($ "blockdata") bd).
Definition cut_inline (x : mtch) (bd : list str) : res (str * list str) :=
  Ok (pre_cut (group0 G_html_pre_inline x) ($ "inlinedata") bd).

(** the preprocessing in feed, html_parser.py:131-138: the cleaned text and [blockdata] *)
Definition preprocess (raw_data : str) : res (str * list str) :=
  let data := strip raw_data in
  do (data, bd) <- resub_st pre_block_re cut_block data [];
  do (data, bd) <- resub_st pre_inline_re cut_inline data bd;
  Ok (strip_html data, bd).

(** ** Building the tree *)

(** an open node: kind, attributes, level, children so far (last first) *)
Record frame := mkf { f_kind : str; f_attrs : pydict; f_level : option Z; f_kids : list hnode }.
Definition close (f : frame) : hnode := HN (f_kind f) None (f_attrs f) (f_level f) (rev (f_kids f)).
Definition add_kid (f : frame) (n : hnode) : frame := mkf (f_kind f) (f_attrs f) (f_level f) (n :: f_kids f).

(** [self.cur] and its ancestors.  [Live top up]: [cur] is [top], [up] are its ancestors, the
    nearest first, the root "document" last.  [Lost root]: [cur] is [None] or belongs to a
    tree that does not hang below the root; nothing can be added to the document any more
    (html_parser.py:185: [cur.parent] of the root is [None]; a node created then has no
    parent, and no operation leads from such a tree back to the root). *)
Inductive cursor := Live (top : frame) (up : list frame) | Lost (root : hnode).

Record hstate := mkh { cur : cursor; list_level : Z; blockdata : list str }.
Definition h_init (bd : list str) : hstate := mkh (Live (mkf ($ "document") [] None []) []) 0 bd.

(** a node without children is added to [cur] *)
Definition leaf (n : hnode) (c : cursor) : cursor :=
  match c with Live top up => Live (add_kid top n) up | Lost r => Lost r end.
(** a new node becomes [cur] *)
Definition push (kind : str) (a : pydict) (l : option Z) (c : cursor) : cursor :=
  match c with Live top up => Live (mkf kind a l []) (top :: up) | Lost r => Lost r end.
(** [self.cur = self.cur.parent], html_parser.py:241-244 *)
Definition go_parent (c : cursor) : cursor :=
  match c with
  | Live top (p :: up) => Live (add_kid p (close top)) up
  | Live top [] => Lost (close top)
  | Lost r => Lost r
  end.
(** _upto and _go_up, html_parser.py:162-178 *)
Fixpoint upto_kinds (kinds : list str) (top : frame) (up : list frame) : cursor :=
  match up with
  | [] => Live top []
  | p :: up' =>
    let p' := add_kid p (close top) in
    if in_list kinds (f_kind p) then Live p' up' else upto_kinds kinds p' up'
  end.
Definition go_up (c : cursor) : cursor :=
  match c with
  | Live top up => upto_kinds (BLOCK_TAGS ++ [$ "document"]) top up
  | Lost r => Lost r
  end.

(** [headline_tag_re.match(tag)] and [int(headline.group(1))], html_parser.py:39, 188-193 *)
Definition headline_level (tag : str) : option Z :=
  match tag with
  | 104 :: c :: _ => match digit_val c with Some d => Some (Z.of_N d) | None => None end
  | _ => None
  end.

(** handle_starttag, html_parser.py:182-205 *)
Definition handle_starttag (tag : str) (a : attrs) (h : hstate) : hstate :=
  if in_list IGNORE_TAGS tag then h
  else match headline_level tag with
  | Some l => mkh (push ($ "headline") [] (Some l) (cur h)) (list_level h) (blockdata h)
  | None =>
    if in_list [$ "li"; $ "ul"; $ "ol"] tag then
      let ll := if in_list [$ "ul"; $ "ol"] tag then (list_level h + 1)%Z else list_level h in
      mkh (push tag (dict_of a) (Some ll) (cur h)) ll (blockdata h)
    else if in_list [$ "img"; $ "br"] tag then
      mkh (leaf (HN tag None (dict_of a) None []) (cur h)) (list_level h) (blockdata h)
    else mkh (push tag (dict_of a) None (cur h)) (list_level h) (blockdata h)
  end.

(** handle_data, handle_charref, handle_entityref, html_parser.py:207-218 *)
Definition handle_leaf (kind : str) (content : str) (h : hstate) : hstate :=
  mkh (leaf (HN kind (Some content) [] None []) (cur h)) (list_level h) (blockdata h).

(** [lst[i]] with an int index *)
Definition py_index {A} (l : list A) (i : Z) : option A :=
  let n := Z.of_nat (List.length l) in
  if ((- n <=? i) && (i <? n))%Z
  then nth_error l (Z.to_nat (if (i <? 0)%Z then i + n else i)) else None.

(** handle_startendtag, html_parser.py:220-233 *)
Definition handle_startendtag (tag : str) (a : attrs) (h : hstate) : res hstate :=
  let d := dict_of a in
  if in_list [$ "blockdata"; $ "inlinedata"] tag then
    match dict_get ($ "id") d with
    | None => Exc EKeyError
    | Some (VStr s) =>
      match py_int s with
      | None => Exc EValueError
      | Some i =>
        match dict_get ($ "type") d with
        | None => Exc EKeyError
        | Some t =>
          match py_index (blockdata h) i with
          | None => Exc EIndexError
          | Some data =>
            let ty := match t with VStr s => s | _ => $ "None" end in
            Ok (mkh (leaf (HN (tag ++ [95] ++ ty) (Some data) [] None []) (cur h)) (list_level h) (blockdata h))
          end
        end
      end
    | Some _ => Exc ETypeError                (* int(None) *)
    end
  else Ok (mkh (leaf (HN tag None d None []) (cur h)) (list_level h) (blockdata h)).

(** handle_endtag, html_parser.py:235-251 *)
Definition handle_endtag (tag : str) (h : hstate) : hstate :=
  if in_list IGNORE_TAGS tag then h
  else if str_eqb tag ($ "br") then h
  else
    let ll := if in_list [$ "ul"; $ "ol"] tag then (list_level h - 1)%Z else list_level h in
    let c := if in_list BLOCK_TAGS tag then go_up (cur h) else go_parent (cur h) in
    mkh c ll (blockdata h).

Definition handle (t : tok) (h : hstate) : res hstate :=
  match t with
  | TStart tag a => Ok (handle_starttag tag a h)
  | TStartEnd tag a => handle_startendtag tag a h
  | TEnd tag => Ok (handle_endtag tag h)
  | TData s => Ok (handle_leaf ($ "data") s h)
  | TCharref s => Ok (handle_leaf ($ "charref") s h)
  | TEntity s => Ok (handle_leaf ($ "entityref") s h)
  end.
Fixpoint handle_all (ts : list tok) (h : hstate) : res hstate :=
  match ts with
  | [] => Ok h
  | t :: r => do h' <- handle t h; handle_all r h'
  end.

(** the document tree below [self.root] *)
Fixpoint close_up (n : hnode) (up : list frame) : hnode :=
  match up with
  | [] => n
  | p :: up' => close_up (close (add_kid p n)) up'
  end.
Definition root_of (c : cursor) : hnode :=
  match c with Live top up => close_up (close top) up | Lost r => r end.

(** HTMLParser.feed, html_parser.py:154-156 *)
Definition feed_tokens (data : str) (bd : list str) : res hnode :=
  let '(ts, raised) := tokens data in
  do h <- handle_all ts (h_init bd);
  if raised then Exc EAssertion else Ok (root_of (cur h)).

(** feed, html_parser.py:129-158, with [preprocess=True] *)
Definition feed (raw_data : str) : res hnode :=
  do (data, bd) <- preprocess raw_data; feed_tokens data bd.
(** feed with [preprocess=False] (html2markdown_emitter.py:78) *)
Definition feed_raw (raw_data : str) : res hnode := feed_tokens (strip raw_data) [].

(** parse_html, creole/__init__.py:69-77 *)
Definition parse_html (html_string : str) : res hnode := feed html_string.
