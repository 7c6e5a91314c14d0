(** * The emitters for creole, textile, markdown and reStructuredText
    and the functions html2creole, html2textile, html2markdown, html2rest *)
From Coq Require Import String List NArith ZArith Bool.
From Verif Require Import PyStr Utils Res HtmlTools HtmlTok HtmlParser MarkupTable UrlQuote HtmlBase.
Import ListNotations.
Open Scope N_scope.

(** ['c' * node.level]: a negative number gives the empty string; TypeError for [None] *)
Definition times (c : str) (z : Z) : str := repeat_str c (Z.to_nat z).
Definition level_of (ni : ninfo) : res Z :=
  match n_level ni with Some z => Ok z | None => Exc ETypeError end.
Definition const_emit (r : str) : meth := fun _ _ => ret r.

(** ** creole/emitter/html2creole_emitter.py — CreoleEmitter *)

(** blockdata_pre_emit, inlinedata_pre_emit, html2creole_emitter.py:35-41 *)
Definition c_blockdata_pre : meth := fun ni _ s =>
  do r <- deentity_content ni; Ok ($ "{{{" ++ r ++ $ "}}}" ++ [10], s).
Definition c_inlinedata_pre : meth := fun ni _ s =>
  do r <- deentity_content ni; Ok ($ "{{{" ++ r ++ $ "}}}", s).

(** p_emit, html2creole_emitter.py:48-52 *)
Definition c_p : meth := fun ni kids s =>
  do (c, s1) <- kids s; Ok (if truthy (inner_list s1) then c else c ++ [10; 10], s1).

(** headline_emit, html2creole_emitter.py:60-61 *)
Definition c_headline : meth := fun ni kids s =>
  do l <- level_of ni; do (c, s1) <- kids s; Ok (times [61] l ++ [32] ++ c ++ [10; 10], s1).

(** a_emit, html2creole_emitter.py:98-108 *)
Definition c_a : meth := fun ni kids s =>
  do (text, s1) <- kids s;
  Ok (match dict_get ($ "href") (n_attrs ni) with
      | None => text
      | Some url =>
        if match url with VStr h => str_eqb text h | _ => false end
        then $ "[[" ++ show_attr url ++ $ "]]"
        else $ "[[" ++ show_attr url ++ $ "|" ++ text ++ $ "]]"
      end, s1).

(** [if width and height] : truth value of an attribute value *)
Definition attr_true (v : option pyval) : bool := match v with Some (VStr s) => truthy s | _ => false end.

(** img_emit, html2creole_emitter.py:110-132 ([width] is read from "height" and the other
    way round, as in the code) *)
Definition c_img (strict : bool) : meth := fun ni _ s =>
  do p <- img_parts ni;
  match p with
  | None => Ok ([], s)
  | Some (src, text) =>
    let width := dict_get ($ "height") (n_attrs ni) in
    let height := dict_get ($ "width") (n_attrs ni) in
    let sh v := match v with Some v => show_attr v | None => $ "None" end in
    Ok ($ "{{" ++ src ++ $ "|" ++ text ++
        (if negb strict && (attr_true width && attr_true height)
         then $ "|" ++ sh width ++ $ "x" ++ sh height else []) ++ $ "}}", s)
  end.

Definition creole_methods (strict : bool) : methods :=
  [ ($ "blockdata_pre", c_blockdata_pre); ($ "inlinedata_pre", c_inlinedata_pre);
    ($ "blockdata_pass", blockdata_pass_emit); ($ "p", c_p); ($ "br", br_emit); ($ "headline", c_headline);
    ($ "strong", typeface ($ "**")); ($ "b", typeface ($ "**")); ($ "big", typeface ($ "**"));
    ($ "i", typeface ($ "//")); ($ "em", typeface ($ "//")); ($ "tt", typeface ($ "##"));
    ($ "sup", typeface ($ "^^")); ($ "sub", typeface ($ ",,")); ($ "u", typeface ($ "__"));
    ($ "small", typeface ($ "--")); ($ "del", typeface ($ "~~")); ($ "strike", typeface ($ "~~"));
    ($ "hr", const_emit ($ "----" ++ [10; 10])); ($ "a", c_a); ($ "img", c_img strict);
    ($ "ul", list_emit ($ "*")); ($ "ol", list_emit ($ "#"));
    ($ "div", content_emit); ($ "span", content_emit) ] ++ base_methods ($ "= ") true.

(** emit, html2creole_emitter.py:29-31 *)
Definition emit_creole (u : unknown) (strict : bool) (root : hnode) : res str :=
  do (r, _) <- emit_node (creole_methods strict) u no_pre [] root e_init; Ok (strip r).

(** ** creole/emitter/html2textile_emitter.py — TextileEmitter *)

(** html2textile_emitter.py:34-43 *)
Definition t_blockdata_pre : meth := fun ni _ s =>
  do r <- deentity_content ni; Ok ($ "<pre>" ++ r ++ $ "</pre>" ++ [10], s).
Definition t_inlinedata_pre : meth := fun ni _ s =>
  do r <- deentity_content ni; Ok ($ "<pre>" ++ r ++ $ "</pre>", s).
(** headline_emit, html2textile_emitter.py:50-51 *)
Definition t_headline : meth := fun ni kids s =>
  do l <- level_of ni; do (c, s1) <- kids s; Ok ($ "h" ++ show_Z l ++ $ ". " ++ c ++ [10; 10], s1).
(** a_emit, html2textile_emitter.py:97-100 *)
Definition t_a : meth := fun ni kids s =>
  do (text, s1) <- kids s; do url <- attr ($ "href") ni;
  Ok ($ """" ++ text ++ $ """:" ++ show_attr url, s1).
(** img_emit, html2textile_emitter.py:102-118 *)
Definition t_img : meth := fun ni _ s =>
  do p <- img_parts ni;
  Ok (match p with None => [] | Some (src, text) => $ "!" ++ src ++ $ "(" ++ text ++ $ ")!" end, s).

Definition textile_methods : methods :=
  [ ($ "blockdata_pre", t_blockdata_pre); ($ "inlinedata_pre", t_inlinedata_pre);
    ($ "blockdata_pass", blockdata_pass_emit); ($ "p", p_emit); ($ "headline", t_headline);
    ($ "strong", typeface ($ "*")); ($ "b", typeface ($ "**")); ($ "big", typeface ($ "*"));
    ($ "i", typeface ($ "__")); ($ "em", typeface ($ "_")); ($ "sup", typeface ($ "^"));
    ($ "sub", typeface ($ "~")); ($ "del", typeface ($ "-")); ($ "cite", typeface ($ "??"));
    ($ "ins", typeface ($ "+")); ($ "span", typeface ($ "%")); ($ "code", typeface ($ "@"));
    ($ "hr", const_emit ($ "----" ++ [10; 10])); ($ "a", t_a); ($ "img", t_img);
    ($ "ul", list_emit ($ "*")); ($ "ol", list_emit ($ "#")) ] ++ base_methods ($ "_. ") false.

(** emit, html2textile_emitter.py:28-30 *)
Definition emit_textile (u : unknown) (root : hnode) : res str :=
  do (r, _) <- emit_node textile_methods u no_pre [] root e_init; Ok (strip r).

(** ** creole/emitter/html2markdown_emitter.py — MarkdownEmitter *)

(** table_emit ... td_emit, html2markdown_emitter.py:47-64 *)
Definition m_table : meth := fun ni kids s =>
  do (_, s1) <- kids (set_tbl (new_table [] true) s);
  Ok ([10] ++ get_markdown_table (the_table s1) ++ [10], s1).
Definition m_cell (add : str -> mtable -> mtable) : meth := fun ni kids s =>
  do (c, s1) <- kids s;
  match tbl s1 with
  | None => Exc EAttributeError
  | Some t => Ok ([], set_tbl (add c t) s1)
  end.
(** blockdata_pre_emit, html2markdown_emitter.py:67-69 *)
Definition m_blockdata_pre : meth := fun ni _ s =>
  do r <- deentity_content ni; Ok ($ "```" ++ r ++ $ "```" ++ [10], s).
(** inlinedata_pre_emit, html2markdown_emitter.py:71-90 *)
Definition m_code_block (pre_content : str) : res str :=
  do root <- feed_raw pre_content;
  match h_children root with
  | [] => Exc EIndexError
  | code_node :: _ =>
    match h_children code_node with
    | [] => Exc EIndexError
    | first :: _ =>
      do code <- (match h_content first with Some c => replace_all c | None => Exc ETypeError end);
      let language := match dict_get ($ "class") (h_attrs code_node) with
                      | Some (VStr cv) => if startswith ($ "language-") cv then snd (cut1 45 cv) else []
                      | _ => []
                      end in
      Ok ([10] ++ $ "```" ++ language ++ code ++ $ "```" ++ [10])
    end
  end.
Definition m_inlinedata_pre : meth := fun ni _ s =>
  match n_content ni with
  | None => Exc EAttributeError
  | Some c =>
    do r <- (if endswith ($ "</code>") c then m_code_block c
             else do r <- replace_all c; Ok ([10] ++ $ "```" ++ r ++ $ "```" ++ [10]));
    Ok (r, s)
  end.
(** blockdata_pass_emit, p_emit, headline_emit, html2markdown_emitter.py:92-107.
    (A DocNode is never equal to a string, so the newline is always put in front.) *)
Definition m_pass : meth := fun ni _ => ret ([10] ++ show_content (n_content ni) ++ [10]).
Definition m_p : meth := fun ni kids s => do (c, s1) <- kids s; Ok ([10] ++ c ++ [10], s1).
Definition m_headline : meth := fun ni kids s =>
  do l <- level_of ni; do (c, s1) <- kids s; Ok ([10] ++ times [35] l ++ [32] ++ c ++ [10], s1).
(** _typeface_html, html2markdown_emitter.py:125-132 *)
Definition m_html (tag : str) : meth := fun ni kids s =>
  do (c, s1) <- kids s; Ok ([60] ++ tag ++ [62] ++ c ++ [60; 47] ++ tag ++ [62], s1).
(** a_emit, img_emit, html2markdown_emitter.py:150-169 *)
Definition m_a : meth := fun ni kids s =>
  do (text, s1) <- kids s;
  do href <- attr ($ "href") ni;
  do url <- quote_link href;
  let title := dict_get ($ "title") (n_attrs ni) in
  Ok ($ "[" ++ text ++ $ "](" ++ url ++
      (if attr_true title then $ " """ ++ match title with Some t => show_attr t | None => [] end ++ $ """" else []) ++
      $ ")", s1).
Definition m_img : meth := fun ni _ s =>
  do srcv <- attr ($ "src") ni;
  do src <- quote_link srcv;
  let title := dict_get ($ "title") (n_attrs ni) in
  let alt := match dict_get ($ "alt") (n_attrs ni) with Some v => v | None => VStr [] end in
  Ok ($ "![" ++ show_attr alt ++ $ "](" ++ src ++
      (if attr_true title && attr_true (Some alt)
       then $ " """ ++ match title with Some t => show_attr t | None => [] end ++ $ """" else []) ++
      $ ")", s).
(** list_emit, html2markdown_emitter.py:173-180 *)
Definition m_list : meth := fun ni kids s =>
  do (c, s1) <- kids s;
  Ok (match n_level ni with Some 1%Z => [10] ++ c ++ [10] | _ => c end, s1).
(** li_emit, html2markdown_emitter.py:182-197 *)
Definition m_li : meth := fun ni kids s =>
  let parent := match n_anc ni with k :: _ => k | [] => [] end in
  do prefix <- (if str_eqb parent ($ "ul") then Ok ($ "*")
                else if str_eqb parent ($ "ol") then Ok ($ "1.")
                else Exc ENotImplemented);
  do l <- level_of ni;
  do (c, s1) <- kids s;
  Ok ([10] ++ times ($ "  ") (l - 1) ++ prefix ++ [32] ++ c, s1).
(** data_emit, html2markdown_emitter.py:200-205 *)
Definition m_data : meth := fun ni _ s =>
  match n_content ni with
  | Some c => Ok (if str_eqb c [32] then [] else c, s)
  | None => Exc EAssertion
  end.
(** code_emit, html2markdown_emitter.py:207-214 *)
Definition m_code : meth := fun ni kids s =>
  do (c, s1) <- content_emit ni kids s;
  if contains [10] c then Exc EAssertion
  else Ok (if contains [96] c then $ "``" ++ c ++ $ "``" else $ "`" ++ c ++ $ "`", s1).

Definition markdown_methods : methods :=
  [ ($ "table", m_table); ($ "tr", tr_emit); ($ "th", m_cell add_th); ($ "td", m_cell add_td);
    ($ "blockdata_pre", m_blockdata_pre); ($ "inlinedata_pre", m_inlinedata_pre); ($ "blockdata_pass", m_pass);
    ($ "p", m_p); ($ "br", const_emit [10]); ($ "headline", m_headline);
    ($ "strong", typeface ($ "**")); ($ "b", typeface ($ "**")); ($ "big", typeface ($ "**"));
    ($ "i", typeface ($ "_")); ($ "em", typeface ($ "_")); ($ "tt", typeface ($ "##"));
    ($ "sup", m_html ($ "sup")); ($ "sub", m_html ($ "sub")); ($ "u", typeface ($ "__"));
    ($ "small", typeface ($ "--")); ($ "del", typeface ($ "~~")); ($ "strike", typeface ($ "~~"));
    ($ "hr", const_emit ([10] ++ $ "----" ++ [10])); ($ "a", m_a); ($ "img", m_img);
    ($ "list", m_list); ($ "ul", m_list); ($ "ol", m_list); ($ "li", m_li); ($ "data", m_data); ($ "code", m_code);
    ($ "div", content_emit); ($ "span", content_emit) ] ++ base_methods [] true.

(** emit, html2markdown_emitter.py:42-44 *)
Definition emit_markdown (u : unknown) (root : hnode) : res str :=
  do (r, _) <- emit_node markdown_methods u no_pre [] root e_init; Ok (strip r).

(** ** creole/emitter/html2rest_emitter.py — ReStructuredTextEmitter *)

Definition set_subst (l : list str) (s : est) : est :=
  mke (last s) (inner_list s) (tbl s) l (used_links s) (used_images s) (list_markup s).
Definition set_links (l : pydict) (s : est) : est :=
  mke (last s) (inner_list s) (tbl s) (subst_data s) l (used_images s) (list_markup s).
Definition set_images (l : pydict) (s : est) : est :=
  mke (last s) (inner_list s) (tbl s) (subst_data s) (used_links s) l (list_markup s).
Definition set_markup (l : str) (s : est) : est :=
  mke (last s) (inner_list s) (tbl s) (subst_data s) (used_links s) (used_images s) l.

(** _get_block_data, html2rest_emitter.py:45-54 *)
Definition get_block_data (s : est) : str * est := (join [10] (subst_data s), set_subst [] s).

(** emit_node, html2rest_emitter.py:91-97: before a child of the root *)
Definition rest_pre (anc : list str) (s : est) : str * est :=
  match subst_data s, anc with
  | _ :: _, [_] => let '(d, s1) := get_block_data s in (d ++ [10; 10], s1)
  | _, _ => ([], s)
  end.

(** blockdata_pre_emit, inlinedata_pre_emit, html2rest_emitter.py:58-66 *)
Definition r_blockdata_pre : meth := fun ni _ s =>
  do r <- deentity_content ni;
  Ok ($ "::" ++ [10; 10] ++ join [10] (map (fun l => $ "    " ++ l) (splitlines (strip r))) ++ [10; 10], s).

(** document_emit, html2rest_emitter.py:81-89 *)
Definition r_document : meth := fun ni kids s =>
  do (c, s1) <- kids s;
  match subst_data s1 with
  | [] => Ok (c, s1)
  | _ =>
    let c := if endswith [10; 10] c then c else c ++ [10; 10] in
    let '(d, s2) := get_block_data s1 in
    Ok (c ++ d ++ [10; 10], s2)
  end.

(** HEADLINE_DATA and headline_emit, html2rest_emitter.py:102-126 *)
Definition headline_data (level : Z) : option (char * bool) :=
  match level with
  | 1%Z => Some (61, true) | 2%Z => Some (45, true) | 3%Z => Some (61, false)
  | 4%Z => Some (45, false) | 5%Z => Some (96, false) | 6%Z => Some (39, false)
  | _ => None
  end.
Definition r_headline : meth := fun ni kids s =>
  do (text, s1) <- kids s;
  do l <- level_of ni;
  match headline_data (if (6 <? l)%Z then 6%Z else l) with
  | None => Exc EKeyError
  | Some (c, both) =>
    let markup := repeat c (List.length text) in
    Ok ((if both then markup ++ [10] else []) ++ text ++ [10] ++ markup ++ [10; 10], s1)
  end.

(** small_emit, html2rest_emitter.py:149-151 *)
Definition r_small : meth := fun ni kids => kids.

(** _should_do_substitution, html2rest_emitter.py:175-184 *)
Definition should_substitute (ni : ninfo) : bool := existsb (in_list [$ "th"; $ "td"]) (n_anc ni).

(** values of attributes as Python compares them *)
Definition pyval_eqb (a b : pyval) : bool :=
  match a, b with
  | VStr x, VStr y => str_eqb x y
  | VNone, VNone => true
  | _, _ => false
  end.
(** _get_old_substitution, html2rest_emitter.py:186-202: the known target and the new
    dictionary *)
Definition get_old (d : pydict) (text : str) (url : pyval) : res (option pyval * pydict) :=
  match dict_get text d with
  | None => Ok (None, dict_set text url d)
  | Some old => if pyval_eqb old url then Ok (Some old, d) else Exc ESubstitution
  end.

(** a_emit, html2rest_emitter.py:204-224 *)
Definition r_a : meth := fun ni kids s =>
  do (text, s1) <- kids s;
  do url <- attr ($ "href") ni;
  do (old, links) <- get_old (used_links s1) text url;
  let s2 := set_links links s1 in
  let ref := $ "`" ++ text ++ $ "`_" in
  if should_substitute ni then
    Ok (ref, if attr_true old then s2
             else set_subst (subst_data s2 ++ [$ ".. _" ++ text ++ $ ": " ++ show_attr url]) s2)
  else if attr_true old then Ok (ref, s2)
  else Ok ($ "`" ++ text ++ $ " <" ++ show_attr url ++ $ ">`_", s2).

(** img_emit, html2rest_emitter.py:226-250 *)
Definition r_img : meth := fun ni _ s =>
  do p <- img_parts ni;
  match p with
  | None => Ok ([], s)
  | Some (src, text) =>
    do (old, images) <- get_old (used_images s) text (VStr src);
    let s2 := set_images images s in
    Ok ($ "|" ++ text ++ $ "|",
        if attr_true old then s2
        else set_subst (subst_data s2 ++ [$ ".. |" ++ text ++ $ "| image:: " ++ src]) s2)
  end.

(** code_emit, html2rest_emitter.py:254-255 *)
Definition r_code : meth := fun ni kids s =>
  do (c, s1) <- content_emit ni kids s; Ok ($ "``" ++ c ++ $ "``", s1).

(** li_emit, html2rest_emitter.py:259-262 *)
Definition r_li : meth := fun ni kids s =>
  do (c, s1) <- kids s;
  do l <- level_of ni;
  Ok ([10] ++ times ($ "    ") (l - 1) ++ list_markup s1 ++ [32] ++ strip_chars [10] c ++ [10], s1).

(** _list_emit, html2rest_emitter.py:264-273.  ([_list_markup] is not restored.) *)
Definition r_list (list_type : str) : meth := fun ni kids s =>
  do (c, s1) <- kids (set_markup list_type s);
  Ok (match n_level ni with
      | Some 1%Z => join [10; 10] (map (strip_chars [10]) (filter truthy (split_on 10 c))) ++ [10; 10]
      | _ => c
      end, s1).

(** table_emit, html2rest_emitter.py:281-292 *)
Definition r_table : meth := fun ni kids s =>
  do (_, s1) <- kids (set_tbl (new_table [] true) s);
  Ok (get_rest_table (the_table s1) ++ [10; 10], s1).

Definition rest_methods : methods :=
  [ ($ "blockdata_pre", r_blockdata_pre); ($ "inlinedata_pre", t_inlinedata_pre);
    ($ "blockdata_pass", blockdata_pass_emit); ($ "document", r_document); ($ "p", p_emit); ($ "headline", r_headline);
    ($ "strong", typeface ($ "**")); ($ "b", typeface ($ "**")); ($ "big", typeface ($ "**"));
    ($ "i", typeface ($ "*")); ($ "em", typeface ($ "*")); ($ "tt", typeface ($ "``")); ($ "small", r_small);
    ($ "hr", const_emit ($ "----" ++ [10; 10])); ($ "a", r_a); ($ "img", r_img); ($ "code", r_code);
    ($ "li", r_li); ($ "ul", r_list ($ "*")); ($ "ol", r_list ($ "#.")); ($ "table", r_table) ]
  ++ base_methods ($ "_. ") false.

(** emit, html2rest_emitter.py:77-79 *)
Definition emit_rest (u : unknown) (root : hnode) : res str :=
  do (r, _) <- emit_node rest_methods u rest_pre [] root e_init; Ok (rstrip r).

(** ** creole/__init__.py:80-142 *)
Definition html2creole (u : unknown) (strict : bool) (html : str) : res str :=
  do root <- parse_html html; emit_creole u strict root.
Definition html2textile (u : unknown) (html : str) : res str :=
  do root <- parse_html html; emit_textile u root.
Definition html2markdown (u : unknown) (html : str) : res str :=
  do root <- parse_html html; emit_markdown u root.
Definition html2rest (u : unknown) (html : str) : res str :=
  do root <- parse_html html; emit_rest u root.
