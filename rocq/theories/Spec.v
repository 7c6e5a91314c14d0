(** * Specification vocabulary for creole2html

    Definitions used to state the properties of [creole2html]; no proofs here. *)
From Coq Require Import String List Arith NArith ZArith Bool.
From Verif Require Import PyStr GNames Regex DocTree Utils CreoleParser HtmlEmitter HtmlSpec.
Import ListNotations.
Open Scope N_scope.

(** a predicate on every node of a tree *)
Fixpoint everywhere (P : node -> Prop) (n : node) : Prop :=
  P n /\ match n with Nd _ ch => (fix all (l : list node) : Prop :=
                                   match l with [] => True | x :: r => everywhere P x /\ all r end) ch end.
(** macros that never let a non-Exception escape *)
Definition no_base (e : uenv) : Prop := forall l name kw, u_call e l name kw <> MBase.

(** macro nodes *)
Definition is_macro (k : kind) : bool := match k with KMacroInline | KMacroBlock => true | _ => false end.

Definition eff_verbose (o : opts) : Z := match o_verbose o with None => 1 | Some v => v end.

(** raw pieces of the output: error texts and results of macro calls *)
Definition error_text (r : str) : Prop := exists t, r = $ "[Error: " ++ t ++ $ "]" ++ [10].
Definition macro_result (e : uenv) (r : str) : Prop :=
  exists l name kw v, u_has e name = true /\ u_call e l name kw = MRet v /\ (r = v \/ r = v ++ [10]).
Definition raw_piece (v : Z) (e : uenv) (r : str) : Prop :=
  ((0 < v)%Z /\ error_text r) \/ macro_result e r.

(** macros that never let an exception through *)
Definition tame (v : Z) (e : uenv) : Prop :=
  (forall name, u_has e name = false) \/ ((v <= 2)%Z /\ no_base e).

(** an image whose text does not start with a bar *)
Definition titled (n : node) : Prop :=
  match n with Nd h ch => hk h = KImage -> startswith [124] (get_text h ch) = false end.

(** attribute lists of images in general: only the source is known to be safe *)
Definition img_shape (l : list (str * str)) : Prop :=
  exists s t a, attr_safe s /\
    (l = [($ "src", s); ($ "title", t); ($ "alt", a)] \/
     exists w h, attr_safe w /\ attr_safe h /\
       l = [($ "src", s); ($ "title", t); ($ "alt", a); ($ "width", w); ($ "height", h)]).

Definition depth_num (d : option pyval) : Prop := forall v, d <> Some (VStr v).
(** toc tags of the document have no [depth] or a numeric one *)
Definition toc_args_ok (n : node) : Prop :=
  match n with Nd h _ => is_macro (hk h) = true -> hmname h = $ "toc" ->
    forall kw, string2dict (hmargs h) = Some kw -> depth_num (dict_get ($ "depth") kw) end.

(** headlines of a nested list with their depth, left to right *)
Fixpoint outline (d : nat) (n : nest) : list (nat * str) :=
  match n with
  | NLeaf s => [(d, s)]
  | NList l => flat_map (outline (S d)) l
  end.

(** link targets of a forest, left to right, with the number of enclosing ul elements *)
Fixpoint toc_links (d : nat) (h : html) : list (nat * str) :=
  match h with
  | HEl tag attrs kids =>
    if str_eqb tag ($ "ul") then flat_map (toc_links (S d)) kids
    else match attrs with
         | (k, v) :: _ => if str_eqb tag ($ "a") then [(d, v)] else []
         | [] => flat_map (toc_links d) kids
         end
  | _ => []
  end.

(** lists of links: ul elements with ul and li elements inside, every li holds one link *)
Inductive toc_list : html -> Prop :=
| tl_ul kids : Forall toc_item kids -> toc_list (HEl ($ "ul") [] kids)
with toc_item : html -> Prop :=
| ti_blank h : blank h -> toc_item h
| ti_ul h : toc_list h -> toc_item h
| ti_li s : toc_item (HEl ($ "li") [] [HEl ($ "a") [($ "href", 35 :: s)] [HRaw s]]).

(** headings and toc tags of a document in document order *)
Inductive ev := EHead (level : nat) (t : str) | EToc (depth : option pyval).
Fixpoint events (n : node) : list ev :=
  match n with
  | Nd h ch =>
    match hk h with
    | KHeader => match hcontent h with Some t => [EHead (hlevel h) t] | None => [] end
    | KMacroInline | KMacroBlock =>
      if str_eqb (hmname h) ($ "toc")
      then match string2dict (hmargs h) with
           | Some kw => match dict_get ($ "self") kw with None => [EToc (dict_get ($ "depth") kw)] | Some _ => [] end
           | None => []
           end
      else []
    | KText | KPreInline | KImage | KBreak | KLine | KPreBlock | KSeparator => []
    | _ => (fix go (l : list node) : list ev := match l with [] => [] | x :: r => events x ++ go r end) ch
    end
  end.

Definition level_ok (d : option pyval) (l : nat) : bool :=
  match d with
  | None | Some VNone => true
  | Some (VInt z) => (Z.of_nat l <=? z)%Z
  | Some (VBool b) => (Z.of_nat l <=? (if b then 1 else 0))%Z
  | Some (VStr _) => false
  end.
(** after the first toc tag only headlines up to its depth are listed *)
Fixpoint listed_after (d : option pyval) (l : list ev) : list (nat * str) :=
  match l with
  | [] => []
  | EHead n t :: r => if level_ok d n then (n, t) :: listed_after d r else listed_after d r
  | EToc _ :: r => listed_after d r
  end.
Fixpoint listed (l : list ev) : list (nat * str) :=
  match l with
  | [] => []
  | EHead n t :: r => (n, t) :: listed r
  | EToc d :: r => listed_after d r
  end.

(** macros without memory *)
Definition stateless (e : uenv) : Prop := forall l l' name kw, u_call e l name kw = u_call e l' name kw.

Definition uses_toc (blog : bool) (s : str) : Prop := exists n u, parse blog s = Some (n, u) /\ In ($ "toc") u.
(** the macros dict after converting some documents *)
Fixpoint after (md : mdict) (docs : list (opts * str)) : mdict :=
  match docs with
  | [] => md
  | (o, d) :: r => after (snd (creole2html o md d)) r
  end.

(** macro tags of a document, in document order *)
Fixpoint macro_tags (n : node) : list hdr :=
  match n with
  | Nd h ch =>
    match hk h with
    | KMacroInline | KMacroBlock => [h]
    | KText | KPreInline | KImage | KBreak | KLine | KPreBlock | KSeparator | KHeader => []
    | _ => (fix go (l : list node) : list hdr := match l with [] => [] | x :: r => macro_tags x ++ go r end) ch
    end
  end.
(** the call a tag leads to *)
Definition tag_call (e : uenv) (h : hdr) : list call :=
  match string2dict (hmargs h) with
  | Some kw =>
    if u_has e (hmname h)
    then [(hmname h, dict_set ($ "text") (match hcontent h with Some t => VStr t | None => VNone end) kw)]
    else []
  | None => []
  end.

(** ** Line endings *)
Inductive term := LF | CR | CRLF.
Definition term_str (t : term) : str := match t with LF => [10] | CR => [13] | CRLF => [13; 10] end.
Definition no_newline (l : str) : Prop := forall c, In c l -> c <> 10 /\ c <> 13.
(** a text: terminated lines and a last line *)
Definition text_of (lines : list (str * term)) (last : str) : str :=
  flat_map (fun x => fst x ++ term_str (snd x)) lines ++ last.
(** the terminators are what a reader sees: no CR followed by an empty line ended by LF *)
Fixpoint unambiguous (lines : list (str * term)) : Prop :=
  match lines with
  | (_, t) :: ((l2, t2) :: _) as r => ~ (t = CR /\ l2 = [] /\ t2 = LF) /\ unambiguous r
  | _ => True
  end.
