(** * Vocabulary: html of any shape, and the attributes that mean something

    A document is any sequence of tags and texts, well nested or not. *)
From Coq Require Import String List Arith NArith ZArith Bool.
From Verif Require Import PyStr Utils Res HtmlTok Spec2 Spec10 Spec11 Spec29.
Import ListNotations.
Open Scope N_scope.

(** text whose every [&] begins a character reference *)
Inductive readable : str -> Prop :=
| read_nil : readable []
| read_char c w : c <> 60 -> c <> 38 -> readable w -> readable (c :: w)
| read_number n w : dom_wf (DChar n) = true -> readable w -> readable ($ "&#" ++ n ++ $ ";" ++ w)
| read_name n w : dom_wf (DEnt n) = true -> readable w -> readable ($ "&" ++ n ++ $ ";" ++ w).
(** tags with a content of their own are left out; values have no newline *)
Definition tag_plain (t : str) : bool := tag_ok t && negb (str_eqb t ($ "pre")).
Definition attr_plain (nv : str * pyval) : bool := attr_ok nv && one_line (value_of (snd nv)).
Definition part_plain (p : part) : Prop :=
  match p with
  | Open t a | Single t a => tag_plain t = true /\ forallb attr_plain a = true
  | Close t => tag_plain t = true
  | Txt w => readable w
  | Ws => False
  end.
(** [s] is the text of the parts, each tag in any spelling *)
Fixpoint soup (l : list part) (s : str) : Prop :=
  match l with
  | [] => s = []
  | p :: r => exists v u, part_plain p /\ part_written p v /\ s = v ++ u /\ soup r u
  end.

(** ** the attributes a language has a use for; [None]: all of them *)
Definition heading_tags : list str := [$ "h1"; $ "h2"; $ "h3"; $ "h4"; $ "h5"; $ "h6"].
Definition table_tags : list str := [$ "table"; $ "tr"; $ "th"; $ "td"].
Definition list_tags : list str := [$ "ul"; $ "ol"; $ "li"].
Definition box_tags : list str := [$ "p"; $ "br"; $ "hr"; $ "div"; $ "span"].
Definition creole_tags : list str :=
  box_tags ++ list_tags ++ table_tags ++
  [$ "strong"; $ "b"; $ "big"; $ "i"; $ "em"; $ "tt"; $ "sup"; $ "sub"; $ "u"; $ "small"; $ "del"; $ "strike"].
Definition textile_tags : list str :=
  box_tags ++ list_tags ++ table_tags ++
  [$ "strong"; $ "b"; $ "big"; $ "i"; $ "em"; $ "sup"; $ "sub"; $ "del"; $ "cite"; $ "ins"; $ "code"].
Definition markdown_tags : list str :=
  box_tags ++ list_tags ++ table_tags ++
  [$ "strong"; $ "b"; $ "big"; $ "i"; $ "em"; $ "tt"; $ "sup"; $ "sub"; $ "u"; $ "small"; $ "del"; $ "strike"; $ "code"].
Definition rest_tags : list str :=
  box_tags ++ list_tags ++ table_tags ++ [$ "strong"; $ "b"; $ "big"; $ "i"; $ "em"; $ "tt"; $ "small"; $ "code"].
Definition uses (link image : list str) (tags : list str) (t : str) : option (list str) :=
  if str_eqb t ($ "a") then Some link
  else if str_eqb t ($ "img") then Some image
  else if in_names tags t then Some []
  else None.
Definition creole_uses (strict : bool) : str -> option (list str) :=
  uses [$ "href"] ([$ "src"; $ "title"; $ "alt"] ++ if strict then [] else [$ "width"; $ "height"]) creole_tags.
Definition textile_uses : str -> option (list str) := uses [$ "href"] [$ "src"; $ "title"; $ "alt"] textile_tags.
Definition markdown_uses : str -> option (list str) := uses [$ "href"; $ "title"] [$ "src"; $ "title"; $ "alt"] markdown_tags.
Definition rest_uses : str -> option (list str) := uses [$ "href"] [$ "src"; $ "title"; $ "alt"] rest_tags.
(** opening tags of headings, and of table bodies, which are skipped *)
Definition uses_open (use : str -> option (list str)) (t : str) : option (list str) :=
  if in_names (heading_tags ++ [$ "tbody"]) t then Some [] else use t.

(** the same values for the attributes that count (the last one counts if there are several) *)
Definition same_attrs (u : option (list str)) (a a' : attrs) : Prop :=
  match u with
  | None => a = a'
  | Some ks => forall k, In k ks -> last_value k a = last_value k a'
  end.
Definition same_part (use : str -> option (list str)) (p p' : part) : Prop :=
  match p, p' with
  | Open t a, Open t' a' => t = t' /\ same_attrs (uses_open use t) a a'
  | Single t a, Single t' a' => t = t' /\ same_attrs (use t) a a'
  | _, _ => p = p'
  end.
