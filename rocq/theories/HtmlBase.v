(** * creole/shared/base_emitter.py — BaseEmitter, and creole/shared/unknown_tags.py *)
From Coq Require Import String List NArith ZArith Bool.
From Verif Require Import PyStr Utils Res HtmlTools HtmlTok HtmlParser MarkupTable.
Import ListNotations.
Open Scope N_scope.

(** ** State of an emitter

    base_emitter.py:23-36 and html2rest_emitter.py:34-43.  [last] is kind and content of
    [self.last]; [tbl] is [self._table], absent before the first table; the others are
    [self._inner_list], [self._substitution_data], [self._used_substitution_links],
    [self._used_substitution_images], [self._list_markup].  [_mask_linebreak] is never read. *)
Record est := mke { last : option (str * option str); inner_list : str; tbl : option mtable;
                    subst_data : list str; used_links : pydict; used_images : pydict;
                    list_markup : str }.
Definition e_init : est := mke None [] None [] [] [] [].
Definition set_last (l : str * option str) (s : est) : est :=
  mke (Some l) (inner_list s) (tbl s) (subst_data s) (used_links s) (used_images s) (list_markup s).
Definition set_inner (l : str) (s : est) : est :=
  mke (last s) l (tbl s) (subst_data s) (used_links s) (used_images s) (list_markup s).
Definition set_tbl (t : mtable) (s : est) : est :=
  mke (last s) (inner_list s) (Some t) (subst_data s) (used_links s) (used_images s) (list_markup s).

(** What a method knows of its node: kind, content, attributes, level and the kinds of its
    ancestors (nearest first, the root last). *)
Record ninfo := mkn { n_kind : str; n_content : option str; n_attrs : pydict; n_level : option Z; n_anc : list str }.
(** [self.emit_children(node)] as an action on the state; a method calls it at most once *)
Definition action := est -> res (str * est).
(** a method [xyz_emit] *)
Definition meth := ninfo -> action -> action.
(** the attributes of a class, own ones before inherited ones *)
Definition methods := list (str * meth).
Fixpoint find_meth (ms : methods) (kind : str) : option meth :=
  match ms with
  | [] => None
  | (k, f) :: t => if str_eqb k kind then Some f else find_meth t kind
  end.

(** an [unknown_emit] callable.  Those of unknown_tags.py (and every callable that uses the
    node only through its kind, its attributes and [emitter.emit_children(node)]) are
    functions of kind, attributes and emitted children. *)
Definition unknown := str -> pydict -> str -> res str.

(** ** The traversal *)

(** emit_node and emit_children_list, base_emitter.py:184-224.  [pre] is what a subclass
    does before a node (html2rest_emitter.py:91-97).  A kind [xyz] is emitted by the method
    [xyz_emit] if there is one. *)
Section Emit.
  Variable ms : methods.
  Variable u : unknown.
  Variable pre : list str -> est -> str * est.

  Definition run_meth (ni : ninfo) (kids : action) : action :=
    match find_meth ms (n_kind ni) with
    | Some f => f ni kids
    | None => fun s => do (c, s1) <- kids s; do r <- u (n_kind ni) (n_attrs ni) c; Ok (r, s1)
    end.

  Fixpoint emit_node (anc : list str) (n : hnode) (s : est) {struct n} : res (str * est) :=
    let 'HN k c a l ch := n in
    let kids (s : est) : res (str * est) :=
      (fix go (ch : list hnode) (s : est) : res (str * est) :=
         match ch with
         | [] => Ok ([], s)
         | x :: t => do (r, s1) <- emit_node (k :: anc) x s; do (r', s2) <- go t s1; Ok (r ++ r', s2)
         end) ch (set_last (k, c) s) in
    let '(p, s1) := pre anc s in
    do (r, s2) <- run_meth (mkn k c a l anc) kids s1;
    Ok (p ++ r, set_last (k, c) s2).
End Emit.
Definition no_pre (anc : list str) (s : est) : str * est := ([], s).

(** ** Methods of BaseEmitter *)
Definition ret (r : str) : action := fun s => Ok (r, s).

(** blockdata_pass_emit, base_emitter.py:40-41; [f"{None}"] is "None" *)
Definition show_content (c : option str) : str := match c with Some s => s | None => $ "None" end.
Definition blockdata_pass_emit : meth := fun ni _ => ret (show_content (n_content ni) ++ [10; 10]).

(** data_emit, base_emitter.py:45-47; [None] is rejected by emit_node (AssertionError) *)
Definition data_emit : meth := fun ni _ s =>
  match n_content ni with Some c => Ok (c, s) | None => Exc EAssertion end.

(** entityref_emit, base_emitter.py:49-64 *)
Definition entityref_emit : meth := fun ni _ =>
  match n_content ni with
  | Some e => match replace_named e with Ok r => ret r | Exc _ => ret (38 :: e) end
  | None => ret ($ "&None")
  end.

(** charref_emit, base_emitter.py:66-78 *)
Definition charref_emit : meth := fun ni _ s =>
  match n_content ni with
  | None => Exc EAttributeError
  | Some e =>
    do r <- (match e with
             | 120 :: hex_no => replace_hex hex_no
             | _ => replace_number e
             end);
    Ok (r, s)
  end.

(** p_emit, base_emitter.py:82-83 *)
Definition p_emit : meth := fun ni kids s => do (c, s1) <- kids s; Ok (c ++ [10; 10], s1).

(** br_emit, base_emitter.py:85-89 *)
Definition br_emit : meth := fun ni kids s => Ok (if truthy (inner_list s) then [92; 92] else [10], s).

(** _typeface, base_emitter.py:93-94 *)
Definition typeface (key : str) : meth := fun ni kids s => do (c, s1) <- kids s; Ok (key ++ c ++ key, s1).

(** li_emit, base_emitter.py:98-100 *)
Definition li_emit : meth := fun ni kids s =>
  do (c, s1) <- kids s; Ok ([10] ++ inner_list s1 ++ [32] ++ c, s1).

(** _list_emit, base_emitter.py:102-123; [list_type] is one character *)
Definition starts_newline (s : est) : bool :=
  match last s with
  | None => false
  | Some (k, c) =>
    negb (in_list BLOCK_TAGS k) &&
    match c with
    | None | Some [] => true
    | Some t => negb (endswith [10] t)
    end
  end.
Definition list_emit (list_type : str) : meth := fun ni kids s =>
  let start_newline := starts_newline s in
  do (content, s1) <- kids (set_inner (inner_list s ++ list_type) s);
  let s2 := set_inner (removelast (inner_list s1)) s1 in
  Ok (match inner_list s2 with
      | [] => if start_newline then [10] ++ content ++ [10; 10] else strip content ++ [10; 10]
      | _ => content
      end, s2).

(** table_emit, base_emitter.py:127-135 *)
Definition the_table (s : est) : mtable := match tbl s with Some t => t | None => new_table [] true end.
Definition table_emit (hp : str) (aw : bool) : meth := fun ni kids s =>
  do (_, s1) <- kids (set_tbl (new_table hp aw) s);
  Ok (get_table_markup (the_table s1) ++ [10], s1).

(** tr_emit, base_emitter.py:137-140; without [self._table]: AttributeError *)
Definition tr_emit : meth := fun ni kids s =>
  match tbl s with
  | None => Exc EAttributeError
  | Some t => do (_, s1) <- kids (set_tbl (add_tr t) s); Ok ([], s1)
  end.

(** _escape_linebreaks, base_emitter.py:142-149 *)
Definition escape_linebreaks (text : str) : str :=
  let lines := filter truthy (map strip (split_on 10 (strip text))) in
  strip_chars [92] (join [92; 92] lines).

(** th_emit, td_emit, base_emitter.py:151-161 *)
Definition cell_emit (add : str -> mtable -> mtable) : meth := fun ni kids s =>
  do (c, s1) <- kids s;
  match tbl s1 with
  | None => Exc EAttributeError
  | Some t => Ok ([], set_tbl (add (escape_linebreaks c) t) s1)
  end.

(** _emit_content, base_emitter.py:165-170 *)
Definition content_text (kind c : str) : str :=
  let c := escape_linebreaks c in if in_list BLOCK_TAGS kind then c ++ [10; 10] else c.
Definition content_emit : meth := fun ni kids s =>
  do (c, s1) <- kids s; Ok (content_text (n_kind ni) c, s1).

(** document_emit, base_emitter.py:180-182 ([emit_children] sets [last] again) *)
Definition document_emit : meth := fun ni kids => kids.

(** BaseEmitter; the methods for tables depend on attributes of the subclass *)
Definition base_methods (hp : str) (aw : bool) : methods :=
  [ ($ "blockdata_pass", blockdata_pass_emit); ($ "data", data_emit); ($ "entityref", entityref_emit);
    ($ "charref", charref_emit); ($ "p", p_emit); ($ "br", br_emit); ($ "li", li_emit);
    ($ "table", table_emit hp aw); ($ "tr", tr_emit); ($ "th", cell_emit add_th); ($ "td", cell_emit add_td);
    ($ "div", content_emit); ($ "span", content_emit); ($ "document", document_emit) ].

(** a method that formats the attribute [node.attrs[k]] : KeyError if absent *)
Definition attr (k : str) (ni : ninfo) : res pyval :=
  match dict_get k (n_attrs ni) with Some v => Ok v | None => Exc EKeyError end.
(** an attribute value in an f-string *)
Definition show_attr (v : pyval) : str := match v with VStr s => s | _ => $ "None" end.
(** [node.attrs.get(k, "")] passed to [len]: TypeError for [None] *)
Definition attr_len (k : str) (ni : ninfo) : res str :=
  match dict_get k (n_attrs ni) with
  | None => Ok []
  | Some (VStr s) => Ok s
  | Some _ => Exc ETypeError
  end.
(** [posixpath.basename] *)
Definition basename (s : str) : str := rev (take_while (fun c => negb (c =? 47)) (rev s)).

(** the common part of the three img_emit methods: html2creole_emitter.py:110-125,
    html2textile_emitter.py:102-116, html2rest_emitter.py:226-239.  [None] for a data URI,
    otherwise source and text. *)
Definition img_parts (ni : ninfo) : res (option (str * str)) :=
  do src <- attr ($ "src") ni;
  match src with
  | VStr src =>
    if str_eqb (take_while (fun c => negb (c =? 58)) src) ($ "data") then Ok None
    else
      do alt <- attr_len ($ "alt") ni;
      do title <- attr_len ($ "title") ni;
      let text := if (List.length title <? List.length alt)%nat then alt else title in
      Ok (Some (src, if truthy text then text else basename src))
  | _ => Exc EAttributeError
  end.

(** [self.deentity.replace_all(node.content)]: TypeError for [None] *)
Definition deentity_content (ni : ninfo) : res str :=
  match n_content ni with Some c => replace_all c | None => Exc ETypeError end.

(** ** unknown_tags.py *)

(** [" " + attrs] if there are attributes, unknown_tags.py:15-17, 72-74 *)
Definition attr_part (a : pydict) : str :=
  match dict2string a with [] => [] | s => [32] ++ s end.

(** _mask_content, unknown_tags.py:14-33 *)
Definition mask_content (mask_tag : str) : unknown := fun kind a content =>
  let open := $ "<<" ++ mask_tag ++ $ ">>" in
  let shut := $ "<</" ++ mask_tag ++ $ ">>" in
  Ok (match content with
      | [] => open ++ [60] ++ kind ++ attr_part a ++ $ " />" ++ shut
      | _ => (open ++ [60] ++ kind ++ attr_part a ++ [62] ++ shut) ++ content ++
             (open ++ [60; 47] ++ kind ++ [62] ++ shut)
      end).
(** raise_unknown_node, unknown_tags.py:36-45 *)
Definition raise_unknown_node : unknown := fun _ _ _ => Exc ENotImplemented.
(** use_html_macro, preformat_unknown_nodes, unknown_tags.py:48-63 *)
Definition use_html_macro : unknown := mask_content ($ "html").
Definition preformat_unknown_nodes : unknown := mask_content ($ "pre").
(** escape_unknown_nodes, unknown_tags.py:66-89 *)
Definition escape_unknown_nodes : unknown := fun kind a content =>
  Ok (match content with
      | [] => escape ([60] ++ kind ++ attr_part a ++ $ " />")
      | _ => escape ([60] ++ kind ++ attr_part a ++ [62]) ++ content ++ escape ([60; 47] ++ kind ++ [62])
      end).
(** transparent_unknown_nodes, unknown_tags.py:92-99; the default, base_emitter.py:26-29 *)
Definition transparent_unknown_nodes : unknown := fun kind _ content => Ok (content_text kind content).
