(** * Specification vocabulary: HTML forests

    Independent of the model: only strings (lists of code points) are used. *)
From Coq Require Import String List NArith Bool.
From Verif Require Import PyStr.
Import ListNotations.
Open Scope N_scope.

(** an HTML forest; [HRaw] is a piece of text that was inserted unescaped *)
Inductive html :=
| HText (t : str)
| HRaw (t : str)
| HVoid (tag : str) (attrs : list (str * str))
| HEl (tag : str) (attrs : list (str * str)) (kids : list html).

(** entity escaping of one character *)
Definition entity (c : char) : str :=
  if c =? 38 then $ "&amp;" else if c =? 60 then $ "&lt;" else if c =? 62 then $ "&gt;" else [c].

Definition show_attr (a : str * str) : str := [32] ++ fst a ++ $ "=""" ++ snd a ++ $ """".
Definition show_attrs (l : list (str * str)) : str := flat_map show_attr l.

(** serialisation *)
Fixpoint show (h : html) : str :=
  match h with
  | HText t => flat_map entity t
  | HRaw t => t
  | HVoid tag attrs => $ "<" ++ tag ++ show_attrs attrs ++ $ " />"
  | HEl tag attrs kids =>
    $ "<" ++ tag ++ show_attrs attrs ++ $ ">" ++
    flat_map show kids ++ $ "</" ++ tag ++ $ ">"
  end.
Definition show_all (l : list html) : str := flat_map show l.

(** attribute values that cannot end the attribute or the tag *)
Definition attr_safe (v : str) : Prop := forall c, In c v -> c <> 34 /\ c <> 60 /\ c <> 62.

(** tabs and newlines between elements *)
Definition blank (h : html) : Prop := exists w, h = HText w /\ forall c, In c w -> c = 9 \/ c = 10.

(** elements for the eight typefaces *)
Definition faces : list str :=
  [ $ "i"; $ "strong"; $ "tt"; $ "sup"; $ "sub"; $ "u"; $ "small"; $ "del" ].

Definition img_attrs (l : list (str * str)) : Prop :=
  exists s t a, attr_safe s /\ attr_safe t /\ attr_safe a /\
    (l = [($ "src", s); ($ "title", t); ($ "alt", a)] \/
     exists w h, attr_safe w /\ attr_safe h /\
       l = [($ "src", s); ($ "title", t); ($ "alt", a); ($ "width", w); ($ "height", h)]).

Definition is_numeral (s : str) : Prop := s <> [] /\ forall c, In c s -> 48 <= c /\ c <= 57.

(** Which forests are documents.  [R] tells which raw pieces are allowed, [A] which attribute
    lists images may have. *)
Section Content.
  Variable R : str -> Prop.
  Variable A : list (str * str) -> Prop.

  (** what may stand inside a link: text, line breaks, images — no link *)
  Inductive link_content : html -> Prop :=
  | lc_text t : link_content (HText t)
  | lc_br : link_content (HVoid ($ "br") [])
  | lc_img l : A l -> link_content (HVoid ($ "img") l).

  (** phrasing (inline) content *)
  Inductive phrasing : html -> Prop :=
  | ph_text t : phrasing (HText t)
  | ph_raw t : R t -> phrasing (HRaw t)
  | ph_br : phrasing (HVoid ($ "br") [])
  | ph_img l : A l -> phrasing (HVoid ($ "img") l)
  | ph_code t : phrasing (HEl ($ "code") [] [HText t])
  | ph_face tag kids : In tag faces -> Forall phrasing kids -> phrasing (HEl tag [] kids)
  | ph_a href kids : attr_safe href -> Forall link_content kids ->
      phrasing (HEl ($ "a") [($ "href", href)] kids).

  (** lists contain items only; an item is phrasing content followed by lists *)
  Inductive hlist : html -> Prop :=
  | hl_ul tag kids : tag = $ "ul" \/ tag = $ "ol" -> Forall hitem kids -> hlist (HEl tag [] kids)
  with hitem : html -> Prop :=
  | hi_blank h : blank h -> hitem h
  | hi_li a b : Forall phrasing a -> Forall hsub b -> hitem (HEl ($ "li") [] (a ++ b))
  with hsub : html -> Prop :=
  | hs_blank h : blank h -> hsub h
  | hs_list h : hlist h -> hsub h.

  Inductive hcell : html -> Prop :=
  | hc_blank h : blank h -> hcell h
  | hc_cell tag kids : tag = $ "td" \/ tag = $ "th" -> Forall phrasing kids -> hcell (HEl tag [] kids).
  Inductive hrow : html -> Prop :=
  | hr_blank h : blank h -> hrow h
  | hr_row kids : Forall hcell kids -> hrow (HEl ($ "tr") [] kids).

  (** top level elements *)
  Inductive block : html -> Prop :=
  | bl_blank h : blank h -> block h
  | bl_raw t : R t -> block (HRaw t)
  | bl_p kids : Forall phrasing kids -> block (HEl ($ "p") [] kids)
  | bl_head n t : is_numeral n -> block (HEl (($ "h") ++ n) [] [HText t])
  | bl_hr : block (HVoid ($ "hr") [])
  | bl_pre t : block (HEl ($ "pre") [] [HText t])
  | bl_list h : hlist h -> block h
  | bl_table kids : Forall hrow kids -> block (HEl ($ "table") [] kids).

  Definition document (f : list html) : Prop := Forall block f.
End Content.
