(** * creole/emitter/creol2html_emitter.py — TableOfContent, HtmlEmitter
    and creole/__init__.py — creole2html *)
From Coq Require Import String List NArith ZArith Bool.
From Verif Require Import PyStr GNames Regex Rules DocTree Utils CreoleParser.
From Verif Require Export Res.
Import ListNotations.
Open Scope N_scope.

(** ** TableOfContent *)

(** __init__, creol2html_emitter.py:19-23 ([_current_level] is never used) *)
Record tocst := mktoc { max_depth : option pyval; headlines : list (nat * str); created : bool }.
Definition new_toc : tocst := mktoc None [] false.

(** __call__, creol2html_emitter.py:25-34 *)
Definition toc_call (kw : pydict) (t : tocst) : str * tocst :=
  if created t then ($ "&lt;&lt;toc&gt;&gt;", t)
  else
    let md := match dict_get ($ "depth") kw with
              | Some VNone | None => max_depth t
              | Some d => Some d
              end in
    ($ "<<toc>>", mktoc md (headlines t) true).

(** [level <= self.max_depth]: comparing an int with a str raises TypeError *)
Definition depth_ok (level : nat) (d : option pyval) : res bool :=
  match d with
  | None | Some VNone => Ok true
  | Some (VInt z) => Ok (Z.of_nat level <=? z)%Z
  | Some (VBool b) => Ok (Z.of_nat level <=? (if b then 1 else 0))%Z
  | Some (VStr _) => Exc ETypeError
  end.

(** add_headline, creol2html_emitter.py:36-41 *)
Definition add_headline (level : nat) (content : str) (t : tocst) : res tocst :=
  match depth_ok level (max_depth t) with
  | Ok true => Ok (mktoc (max_depth t) (headlines t ++ [(level, content)]) (created t))
  | Ok false => Ok t
  | Exc e => Exc e
  end.

(** a Python list of headlines and sub-lists *)
Inductive nest := NLeaf (s : str) | NList (l : list nest).

(** flat_list2nest_list, creol2html_emitter.py:43-62.  The stack of lists under construction
    is kept with its top first; the elements of each list are reversed; a sub-list is put
    into its parent when it is left (in Python it is shared by reference). *)
Fixpoint nest_push (n : nat) (stack : list (list nest)) : list (list nest) :=
  match n with O => stack | S k => nest_push k ([] :: stack) end.
Fixpoint nest_pop (n : nat) (stack : list (list nest)) : list (list nest) :=
  match n, stack with
  | S k, top :: par :: r => nest_pop k ((NList (rev top) :: par) :: r)
  | _, _ => stack
  end.
Definition nest_add (e : nest) (stack : list (list nest)) : list (list nest) :=
  match stack with top :: r => (e :: top) :: r | [] => [] end.
Definition nest_step (stack : list (list nest)) (x : nat * str) : list (list nest) :=
  let '(index, element) := x in
  let len := List.length stack in
  let stack := if Nat.ltb len index then nest_push (index - len) stack
               else if Nat.ltb index len then nest_pop (len - index) stack
               else stack in
  nest_add (NLeaf element) stack.
Definition flat_list2nest_list (flat : list (nat * str)) : list nest :=
  let stack := fold_left nest_step flat [[]] in
  match nest_pop (List.length stack - 1) stack with
  | top :: _ => rev top
  | [] => []
  end.

(** nested_headlines2html, creol2html_emitter.py:64-76 *)
Fixpoint nested_headlines2html (level : nat) (n : nest) : str :=
  let indent := repeat 9 level in
  match n with
  | NLeaf s => indent ++ $ "<li><a href=""#" ++ s ++ $ """>" ++ s ++ $ "</a></li>" ++ [10]
  | NList l =>
    indent ++ $ "<ul>" ++ [10] ++
    (fix go (l : list nest) : str :=
       match l with [] => [] | e :: r => nested_headlines2html (S level) e ++ go r end) l ++
    indent ++ $ "</ul>" ++
    (if Nat.ltb 0 level then [10] else [])
  end.

(** emit, creol2html_emitter.py:78-90 *)
Definition toc_emit (t : tocst) (document : str) : str :=
  let html := nested_headlines2html 0 (NList (flat_list2nest_list (headlines t))) in
  if contains ($ "<p><<toc>></p>") document
  then replace1 ($ "<p><<toc>></p>") html document
  else replace1 ($ "<<toc>>") html document.

(** ** Macros

    [macros] is a dict from names to callables.  A user macro is arbitrary code: it is
    modelled by an oracle that may depend on its name, on its keyword arguments and on all
    calls made before (so it may have internal state), and that answers with one of the
    outcomes [macro_emit] distinguishes.  [macros] objects that are not dicts, and entries that
    are None or cannot be called, are in MacroObj.v. *)
Inductive outcome :=
| MRet (s : str)               (* returns a str *)
| MNonStr (descr : str)        (* returns something else; [descr] = " - returns: ..., type ..." *)
| MTypeError (msg : str)       (* raises TypeError *)
| MException (msg : str)       (* raises another Exception *)
| MBase.                       (* raises a BaseException that is not an Exception *)

Definition call : Type := str * pydict.
Record uenv := mkenv {
  u_has : str -> bool;                            (* name in macros *)
  u_call : list call -> str -> pydict -> outcome  (* macros[name] called after a history *)
}.
Definition no_macros : uenv := mkenv (fun _ => false) (fun _ _ _ => MBase).

(** the entry macros["toc"] *)
Inductive tocval := TNone | TObj (t : tocst) | TUser.

Record cfg := mkcfg { verbose : Z; strict : bool; env : uenv; use_toc : bool }.
(** mutable state of an emit run: the toc entry of the macros dict, calls made so far *)
Record est := mkest { toc : tocval; log : list call }.

(** html_escape, attr_escape, creol2html_emitter.py:148-152 *)
Definition attr_escape (t : str) : str := replace [34] ($ "&quot") (escape t).

(** error, creol2html_emitter.py:409-422.  For the output to stderr see MacroObj.v. *)
Definition error (c : cfg) (text : str) : str :=
  if (0 <? verbose c)%Z then $ "[Error: " ++ text ++ $ "]" ++ [10] else [].

(** macro_emit, creol2html_emitter.py:285-364 *)
Definition macro_emit (c : cfg) (h : hdr) (s : est) : res str * est :=
  let name := hmname h in
  match string2dict (hmargs h) with
  | None =>
    (Ok (error c ($ "Wrong macro arguments: " ++ json_str (hmargs h) ++ $ " for macro '" ++ name
                  ++ $ "' (maybe wrong macro tag syntax?)")), s)
  | Some kw =>
    let kw := dict_set ($ "text") (match hcontent h with Some t => VStr t | None => VNone end) kw in
    let block r := if kind_beq (hk h) KMacroBlock then r ++ [10] else r in
    let is_toc := str_eqb name ($ "toc") in
    match (if is_toc then toc s else TNone) with
    | TObj t =>
      match dict_get ($ "self") kw with
      | Some _ =>
        (* __call__() got multiple values for argument 'self' *)
        if (2 <? verbose c)%Z then (Exc ETypeError, s)
        else (Ok (error c ($ "Macro 'toc' error: TableOfContent.__call__() got multiple values for argument 'self'")), s)
      | None =>
        let '(r, t') := toc_call kw t in
        (Ok (block r), mkest (TObj t') (log s))
      end
    | _ =>
      if u_has (env c) name then
        let s' := mkest (toc s) (log s ++ [(name, kw)]) in
        match u_call (env c) (log s) name kw with
        | MRet r => (Ok (block r), s')
        | MNonStr d =>
          (Ok (error c ($ "Macro '" ++ name ++ $ "' doesn't return a unicode string!"
                        ++ (if (1 <? verbose c)%Z then d else []))), s')
        | MTypeError msg =>
          if (2 <? verbose c)%Z then (Exc ETypeError, s')
          else (Ok (error c ($ "Macro '" ++ name ++ $ "' error: " ++ msg)), s')
        | MException msg => (Ok (error c ($ "Macro '" ++ name ++ $ "' error: " ++ msg)), s')
        | MBase => (Exc EMacroBase, s')
        end
      else (Ok (error c ($ "Macro '" ++ name ++ $ "' doesn't exist")), s)
    end
  end.

(** get_text, creol2html_emitter.py:141-146 *)
Definition get_text (h : hdr) (ch : list node) : str :=
  match ch with
  | Nd h' _ :: _ => match hcontent h' with Some t => t | None => [] end
  | [] => match hcontent h with Some t => t | None => [] end
  end.

(** the sized variant of image_emit, creol2html_emitter.py:272-282; [None]: an exception was
    swallowed or there is no "|" *)
Definition image_sized (target text : str) : option str :=
  match split1 124 text with
  | None => None
  | Some (title, size_str) =>
    let title := if truthy title then title else target in
    match split1 120 size_str with
    | None => None
    | Some (w_str, h_str) =>
      match py_int (strip w_str), py_int (strip h_str) with
      | Some w, Some h =>
        Some ($ "<img src=""" ++ attr_escape target ++ $ """ title=""" ++ title ++ $ """ alt="""
              ++ title ++ $ """ width=""" ++ show_Z w ++ $ """ height=""" ++ show_Z h ++ $ """ />")
      | _, _ => None
      end
    end
  end.
(** image_emit, creol2html_emitter.py:268-283 *)
Definition image_emit (c : cfg) (target : str) (h : hdr) (ch : list node) : str :=
  let text := attr_escape (get_text h ch) in
  match (if strict c then None else image_sized target text) with
  | Some r => r
  | None => $ "<img src=""" ++ attr_escape target ++ $ """ title=""" ++ text ++ $ """ alt="""
            ++ text ++ $ """ />"
  end.

(** header_emit, creol2html_emitter.py:246-254 *)
Definition header_emit (c : cfg) (h : hdr) (content : str) (s : est) : res str * est :=
  let l := show_nat (hlevel h) in
  let header := $ "<h" ++ l ++ $ ">" ++ escape content ++ $ "</h" ++ l ++ $ ">" in
  if use_toc c then
    match toc s with
    | TObj t =>
      match add_headline (hlevel h) content t with
      | Ok t' => (Ok ($ "<a name=""" ++ escape content ++ $ """>" ++ header ++ $ "</a>" ++ [10]),
                  mkest (TObj t') (log s))
      | Exc e => (Exc e, s)
      end
    | _ => (Exc EAttributeError, s)    (* a user macro has no add_headline *)
    end
  else (Ok (header ++ [10]), s).

Definition tag (t c : str) : str := $ "<" ++ t ++ $ ">" ++ c ++ $ "</" ++ t ++ $ ">".

(** _list_emit, creol2html_emitter.py:168-188 *)
Definition list_emit (par h : hdr) (t c : str) : str :=
  let i := repeat 9 (hlevel h) in
  (if kind_beq (hk par) KDocument then [] else [10]) ++
  (if kind_beq (hk h) KListItem
   then i ++ tag t c
   else i ++ $ "<" ++ t ++ $ ">" ++ c ++ [10] ++ i ++ $ "</" ++ t ++ $ ">").

(** break_emit, creol2html_emitter.py:368-374 *)
Definition break_emit (par : hdr) : str :=
  match hk par with
  | KListItem => $ "<br />" ++ [10] ++ repeat 9 (hlevel par)
  | KTableHead | KTableCell => $ "<br />" ++ [10; 9; 9]
  | _ => $ "<br />" ++ [10]
  end.

(** apply a wrapper to the emitted children *)
Definition wrap (f : str -> str) (r : res str * est) : res str * est :=
  match r with
  | (Ok a, s) => (Ok (f a), s)
  | (Exc e, s) => (Exc e, s)
  end.

(** emit_node, emit_children and the [_*_emit] methods, creol2html_emitter.py:156-399.
    [par] is [node.parent].  [escape(None)] raises. *)
Fixpoint emit_node (c : cfg) (par : hdr) (n : node) (s : est) {struct n} : res str * est :=
  match n with
  | Nd h ch =>
    let emit_children :=
      (fix go (l : list node) (s : est) : res str * est :=
         match l with
         | [] => (Ok [], s)
         | x :: r =>
           match emit_node c h x s with
           | (Ok a, s1) =>
             match go r s1 with
             | (Ok b, s2) => (Ok (a ++ b), s2)
             | (Exc e, s2) => (Exc e, s2)
             end
           | (Exc e, s1) => (Exc e, s1)
           end
         end) ch in
    let with_content (f : str -> res str * est) : res str * est :=
      match hcontent h with Some t => f t | None => (Exc EAttributeError, s) end in
    match hk h with
    | KDocument => emit_children s
    | KText => with_content (fun t => (Ok (escape t), s))
    | KSeparator => (Ok ($ "<hr />" ++ [10]), s)
    | KParagraph => wrap (fun x => $ "<p>" ++ x ++ $ "</p>" ++ [10]) (emit_children s)
    | KBulletList => wrap (list_emit par h ($ "ul")) (emit_children s)
    | KNumberList => wrap (list_emit par h ($ "ol")) (emit_children s)
    | KListItem => wrap (list_emit par h ($ "li")) (emit_children s)
    | KTable => wrap (fun x => $ "<table>" ++ [10] ++ x ++ $ "</table>" ++ [10]) (emit_children s)
    | KTableRow => wrap (fun x => $ "<tr>" ++ [10] ++ x ++ $ "</tr>" ++ [10]) (emit_children s)
    | KTableCell => wrap (fun x => [9] ++ $ "<td>" ++ x ++ $ "</td>" ++ [10]) (emit_children s)
    | KTableHead => wrap (fun x => [9] ++ $ "<th>" ++ x ++ $ "</th>" ++ [10]) (emit_children s)
    | KEmphasis => wrap (tag ($ "i")) (emit_children s)
    | KStrong => wrap (tag ($ "strong")) (emit_children s)
    | KMonospace => wrap (tag ($ "tt")) (emit_children s)
    | KSuperscript => wrap (tag ($ "sup")) (emit_children s)
    | KSubscript => wrap (tag ($ "sub")) (emit_children s)
    | KUnderline => wrap (tag ($ "u")) (emit_children s)
    | KSmall => wrap (tag ($ "small")) (emit_children s)
    | KDelete => wrap (tag ($ "del")) (emit_children s)
    | KHeader => with_content (fun t => header_emit c h t s)
    | KLink =>
      with_content (fun target =>
        wrap (fun inside => $ "<a href=""" ++ attr_escape target ++ $ """>" ++ inside ++ $ "</a>")
             (match ch with
              | [] => (Ok (escape target), s)
              | _ => emit_children s
              end))
    | KImage => with_content (fun target => (Ok (image_emit c target h ch), s))
    | KMacroInline | KMacroBlock => macro_emit c h s
    | KBreak => (Ok (break_emit par), s)
    | KLine => (Ok [10], s)
    | KPreBlock => with_content (fun t => (Ok ($ "<pre>" ++ escape t ++ $ "</pre>" ++ [10]), s))
    | KPreInline => with_content (fun t => (Ok ($ "<code>" ++ escape t ++ $ "</code>"), s))
    end
  end.

(** emit_children as a function of its own *)
Fixpoint emit_children (c : cfg) (h : hdr) (l : list node) (s : est) : res str * est :=
  match l with
  | [] => (Ok [], s)
  | x :: r =>
    match emit_node c h x s with
    | (Ok a, s1) =>
      match emit_children c h r s1 with
      | (Ok b, s2) => (Ok (a ++ b), s2)
      | (Exc e, s2) => (Exc e, s2)
      end
    | (Exc e, s1) => (Exc e, s1)
    end
  end.

(** emit, creol2html_emitter.py:401-407 *)
Definition emit (c : cfg) (root : node) (s : est) : res str * est :=
  match emit_node c (mkn KDocument None) root s with
  | (Ok a, s') =>
    let document := strip a in
    if use_toc c then
      match toc s' with
      | TObj t => (Ok (toc_emit t document), s')
      | _ => (Exc EAttributeError, s')     (* a user macro has no emit method *)
      end
    else (Ok document, s')
  | (Exc e, s') => (Exc e, s')
  end.

(** HtmlEmitter.__init__, creol2html_emitter.py:99-139: the toc entry *)
Definition init_toc (usedm : list str) (t : tocval) : bool * tocval :=
  if existsb (str_eqb ($ "toc")) usedm
  then (true, match t with TNone => TObj new_toc | _ => t end)
  else (false, t).

(** the macros dict passed by the caller: user macros and its "toc" entry *)
Record mdict := mkmd { md_env : uenv; md_toc : tocval; md_log : list call }.

(** creole2html, creole/__init__.py:34-66.  Returns the result and the macros dict after the
    call ([md_log] records the macro calls made).  [block_rules] is modelled in BlockRulesArg.v
    and [stderr] in MacroObj.v; [debug] is not modelled (its default value is assumed). *)
Record opts := mkopts { o_blog : bool; o_verbose : option Z; o_strict : bool }.
Definition default_opts : opts := mkopts true None false.

Definition creole2html (o : opts) (md : mdict) (markup : str) : res str * mdict :=
  match parse (o_blog o) markup with
  | None => (Exc EOther, md)
  | Some (root, usedm) =>
    let '(ut, t) := init_toc usedm (md_toc md) in
    let c := mkcfg (match o_verbose o with None => 1%Z | Some v => v end) (o_strict o) (md_env md) ut in
    let '(r, s) := emit c root (mkest t (md_log md)) in
    (r, mkmd (md_env md) (toc s) (log s))
  end.

(** macros=None: a fresh empty dict for every call *)
Definition no_md : mdict := mkmd no_macros TNone [].
