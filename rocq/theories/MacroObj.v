(** * creole/emitter/creol2html_emitter.py with macros of any kind, and what goes to stderr

    HtmlEmitter.v has [macros] as a dict of callables and leaves stderr out.  Here [macros] is
    any dict, or any other object (a module, say) whose attributes are the macros; an entry may
    be None or an object that cannot be called; and the tracebacks written to [stderr] are
    recorded.  MacroObjFacts.v shows that both models agree.  Simplifications: a property that
    raises something else than AttributeError, a dict with [__missing__] and a macro that
    changes [macros] are not modelled; of a traceback only the exception is recorded. *)
From Coq Require Import String List NArith ZArith Bool.
From Verif Require Import PyStr GNames Regex Rules DocTree Utils CreoleParser HtmlEmitter.
Import ListNotations.
Open Scope N_scope.

(** what is found under a name: None, an object that is no callable (with the name of its
    class), a callable, or the table of contents *)
Inductive entry := VoidEntry | PlainEntry (cls : str) | CallEntry | TocEntry (t : tocst).
(** a dict, or an object that can or cannot be given an attribute *)
Inductive holder := InDict | InObject (writable : bool).
Record mval := mkmv {
  mv_holder : holder;
  mv_get : str -> option entry;
  mv_call : list call -> str -> pydict -> outcome
}.
(** the exception of a traceback *)
Inductive trace :=
| TrValue (args : str)               (* ValueError: the arguments cannot be read *)
| TrKey (name : str)                 (* KeyError: not in the dict *)
| TrAttr (name : str)                (* AttributeError: no attribute of the object *)
| TrType (name msg : str)            (* TypeError from the call *)
| TrOther (name msg : str).          (* another Exception from the macro *)
Record mcfg := mkmcfg { m_verbose : Z; m_strict : bool; m_macros : mval; m_use_toc : bool }.
(** mutable state: macros["toc"] or macros.toc, the calls made so far, stderr *)
Record mst := mkmst { m_toc : option entry; m_log : list call; m_err : list trace }.

(** error, creol2html_emitter.py:409-422 *)
Definition merror (c : mcfg) (text : str) (exc_info : option trace) (s : mst) : res str * mst :=
  (Ok (if (0 <? m_verbose c)%Z then $ "[Error: " ++ text ++ $ "]" ++ [10] else []),
   match exc_info with
   | Some t => if (1 <? m_verbose c)%Z then mkmst (m_toc s) (m_log s) (m_err s ++ [t]) else s
   | None => s
   end).
(** self.macros[macro_name] or getattr(self.macros, macro_name).  A table of contents under
    another name is a callable like any other. *)
Definition lookup (c : mcfg) (name : str) (s : mst) : option entry :=
  if str_eqb name ($ "toc") then m_toc s
  else match mv_get (m_macros c) name with Some (TocEntry _) => Some CallEntry | e => e end.
(** except TypeError, creol2html_emitter.py:322-348 (the text of the traceback is not modelled) *)
Definition mtype_error (c : mcfg) (name msg : str) (s : mst) : res str * mst :=
  if (2 <? m_verbose c)%Z then (Exc ETypeError, s)
  else merror c ($ "Macro '" ++ name ++ $ "' error: " ++ msg) (Some (TrType name msg)) s.

(** macro_emit, creol2html_emitter.py:285-364 *)
Definition mmacro_emit (c : mcfg) (h : hdr) (s : mst) : res str * mst :=
  let name := hmname h in
  match string2dict (hmargs h) with
  | None =>
    merror c ($ "Wrong macro arguments: " ++ json_str (hmargs h) ++ $ " for macro '" ++ name
              ++ $ "' (maybe wrong macro tag syntax?)") (Some (TrValue (hmargs h))) s
  | Some kw =>
    let kw := dict_set ($ "text") (match hcontent h with Some t => VStr t | None => VNone end) kw in
    let block r := if kind_beq (hk h) KMacroBlock then r ++ [10] else r in
    match lookup c name s with
    | None =>
      merror c ($ "Macro '" ++ name ++ $ "' doesn't exist")
        (Some (match mv_holder (m_macros c) with InDict => TrKey name | InObject _ => TrAttr name end)) s
    | Some VoidEntry => merror c ($ "Macro '" ++ name ++ $ "' doesn't exist") None s
    | Some (PlainEntry cls) => mtype_error c name ($ "'" ++ cls ++ $ "' object is not callable") s
    | Some (TocEntry t) =>
      match dict_get ($ "self") kw with
      | Some _ => mtype_error c name ($ "TableOfContent.__call__() got multiple values for argument 'self'") s
      | None =>
        let '(r, t') := toc_call kw t in
        (Ok (block r), mkmst (Some (TocEntry t')) (m_log s) (m_err s))
      end
    | Some CallEntry =>
      let s' := mkmst (m_toc s) (m_log s ++ [(name, kw)]) (m_err s) in
      match mv_call (m_macros c) (m_log s) name kw with
      | MRet r => (Ok (block r), s')
      | MNonStr d =>
        merror c ($ "Macro '" ++ name ++ $ "' doesn't return a unicode string!"
                  ++ (if (1 <? m_verbose c)%Z then d else [])) None s'
      | MTypeError msg => mtype_error c name msg s'
      | MException msg => merror c ($ "Macro '" ++ name ++ $ "' error: " ++ msg) (Some (TrOther name msg)) s'
      | MBase => (Exc EMacroBase, s')
      end
    end
  end.

(** header_emit, creol2html_emitter.py:246-254 *)
Definition mheader_emit (c : mcfg) (h : hdr) (content : str) (s : mst) : res str * mst :=
  let l := show_nat (hlevel h) in
  let header := $ "<h" ++ l ++ $ ">" ++ escape content ++ $ "</h" ++ l ++ $ ">" in
  if m_use_toc c then
    match m_toc s with
    | Some (TocEntry t) =>
      match add_headline (hlevel h) content t with
      | Ok t' => (Ok ($ "<a name=""" ++ escape content ++ $ """>" ++ header ++ $ "</a>" ++ [10]),
                  mkmst (Some (TocEntry t')) (m_log s) (m_err s))
      | Exc e => (Exc e, s)
      end
    | _ => (Exc EAttributeError, s)    (* no add_headline *)
    end
  else (Ok (header ++ [10]), s).
(** image_emit, creol2html_emitter.py:268-283: as in HtmlEmitter.v, which only looks at [strict] *)
Definition mimage_emit (c : mcfg) (target : str) (h : hdr) (ch : list node) : str :=
  image_emit (mkcfg (m_verbose c) (m_strict c) no_macros false) target h ch.
Definition mwrap (f : str -> str) (r : res str * mst) : res str * mst :=
  match r with
  | (Ok a, s) => (Ok (f a), s)
  | (Exc e, s) => (Exc e, s)
  end.

(** memit_node: emit_node, emit_children and the [_*_emit] methods, creol2html_emitter.py:156-399.
    [par] is [node.parent].  [escape(None)] raises. *)
Fixpoint memit_node (c : mcfg) (par : hdr) (n : node) (s : mst) {struct n} : res str * mst :=
  match n with
  | Nd h ch =>
    let emit_children :=
      (fix go (l : list node) (s : mst) : res str * mst :=
         match l with
         | [] => (Ok [], s)
         | x :: r =>
           match memit_node c h x s with
           | (Ok a, s1) =>
             match go r s1 with
             | (Ok b, s2) => (Ok (a ++ b), s2)
             | (Exc e, s2) => (Exc e, s2)
             end
           | (Exc e, s1) => (Exc e, s1)
           end
         end) ch in
    let with_content (f : str -> res str * mst) : res str * mst :=
      match hcontent h with Some t => f t | None => (Exc EAttributeError, s) end in
    match hk h with
    | KDocument => emit_children s
    | KText => with_content (fun t => (Ok (escape t), s))
    | KSeparator => (Ok ($ "<hr />" ++ [10]), s)
    | KParagraph => mwrap (fun x => $ "<p>" ++ x ++ $ "</p>" ++ [10]) (emit_children s)
    | KBulletList => mwrap (list_emit par h ($ "ul")) (emit_children s)
    | KNumberList => mwrap (list_emit par h ($ "ol")) (emit_children s)
    | KListItem => mwrap (list_emit par h ($ "li")) (emit_children s)
    | KTable => mwrap (fun x => $ "<table>" ++ [10] ++ x ++ $ "</table>" ++ [10]) (emit_children s)
    | KTableRow => mwrap (fun x => $ "<tr>" ++ [10] ++ x ++ $ "</tr>" ++ [10]) (emit_children s)
    | KTableCell => mwrap (fun x => [9] ++ $ "<td>" ++ x ++ $ "</td>" ++ [10]) (emit_children s)
    | KTableHead => mwrap (fun x => [9] ++ $ "<th>" ++ x ++ $ "</th>" ++ [10]) (emit_children s)
    | KEmphasis => mwrap (tag ($ "i")) (emit_children s)
    | KStrong => mwrap (tag ($ "strong")) (emit_children s)
    | KMonospace => mwrap (tag ($ "tt")) (emit_children s)
    | KSuperscript => mwrap (tag ($ "sup")) (emit_children s)
    | KSubscript => mwrap (tag ($ "sub")) (emit_children s)
    | KUnderline => mwrap (tag ($ "u")) (emit_children s)
    | KSmall => mwrap (tag ($ "small")) (emit_children s)
    | KDelete => mwrap (tag ($ "del")) (emit_children s)
    | KHeader => with_content (fun t => mheader_emit c h t s)
    | KLink =>
      with_content (fun target =>
        mwrap (fun inside => $ "<a href=""" ++ attr_escape target ++ $ """>" ++ inside ++ $ "</a>")
             (match ch with
              | [] => (Ok (escape target), s)
              | _ => emit_children s
              end))
    | KImage => with_content (fun target => (Ok (mimage_emit c target h ch), s))
    | KMacroInline | KMacroBlock => mmacro_emit c h s
    | KBreak => (Ok (break_emit par), s)
    | KLine => (Ok [10], s)
    | KPreBlock => with_content (fun t => (Ok ($ "<pre>" ++ escape t ++ $ "</pre>" ++ [10]), s))
    | KPreInline => with_content (fun t => (Ok ($ "<code>" ++ escape t ++ $ "</code>"), s))
    end
  end.


(** emit, creol2html_emitter.py:401-407 *)
Definition memit (c : mcfg) (root : node) (s : mst) : res str * mst :=
  match memit_node c (mkn KDocument None) root s with
  | (Ok a, s') =>
    let document := strip a in
    if m_use_toc c then
      match m_toc s' with
      | Some (TocEntry t) => (Ok (toc_emit t document), s')
      | _ => (Exc EAttributeError, s')     (* no emit method *)
      end
    else (Ok document, s')
  | (Exc e, s') => (Exc e, s')
  end.

(** HtmlEmitter.__init__, creol2html_emitter.py:99-139: self.toc is not None, and the toc entry;
    [None]: the attribute cannot be set *)
Definition minit_toc (usedm : list str) (m : mval) : option (bool * option entry) :=
  let t := mv_get m ($ "toc") in
  if existsb (str_eqb ($ "toc")) usedm
  then match t, mv_holder m with
       | Some VoidEntry, _ => Some (false, t)
       | Some _, _ => Some (true, t)
       | None, InObject false => None
       | None, _ => Some (true, Some (TocEntry new_toc))
       end
  else Some (false, t).

(** creole2html, creole/__init__.py:34-66, with [macros] and after the calls [before]: the
    result, the toc entry, the calls and what was written to stderr *)
Definition mcreole2html (o : opts) (m : mval) (before : list call) (markup : str) : res str * mst :=
  match parse (o_blog o) markup with
  | None => (Exc EOther, mkmst (mv_get m ($ "toc")) before [])
  | Some (root, usedm) =>
    match minit_toc usedm m with
    | None => (Exc EAttributeError, mkmst None before [])
    | Some (ut, t) =>
      memit (mkmcfg (match o_verbose o with None => 1%Z | Some v => v end) (o_strict o) m ut) root (mkmst t before [])
    end
  end.
(** HtmlEmitter.__init__, creol2html_emitter.py:103-105: macros that can be called are refused,
    after the page was parsed *)
Definition creole2html_any (o : opts) (callable : bool) (m : mval) (before : list call) (markup : str) : res str * mst :=
  if callable
  then match parse (o_blog o) markup with
       | None => (Exc EOther, mkmst (mv_get m ($ "toc")) before [])
       | Some _ => (Exc ETypeError, mkmst (mv_get m ($ "toc")) before [])
       end
  else mcreole2html o m before markup.
