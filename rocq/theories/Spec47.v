(** * Specification vocabulary: chosen block rules (C99)

    Independent of the parser: only the names of the rules and the HTML forests of HtmlSpec.v. *)
From Coq Require Import String List NArith Bool.
From Verif Require Import PyStr HtmlSpec BlockRulesArg.
Import ListNotations.
Open Scope N_scope.

(** all rules of [BlockRules(blog_line_breaks)], in their order *)
Definition standard (blog : bool) : list brule :=
  [ B_macro; B_line; B_head; B_separator; B_pre; B_list; B_table; B_text blog ].

(** the two forms of the text rule are one rule *)
Definition same_rule (a b : brule) : Prop :=
  a = b \/ exists x y, a = B_text x /\ b = B_text y.
(** no rule stands twice in the list *)
Fixpoint once (rs : list brule) : Prop :=
  match rs with [] => True | r :: t => (forall q, In q t -> ~ same_rule r q) /\ once t end.

(** the element at the top level of a page that a rule is there for *)
Inductive made_by : brule -> html -> Prop :=
| mb_macro t : made_by B_macro (HRaw t)
| mb_head n t : is_numeral n -> made_by B_head (HEl ($ "h" ++ n) [] [HText t])
| mb_hr : made_by B_separator (HVoid ($ "hr") [])
| mb_pre t : made_by B_pre (HEl ($ "pre") [] [HText t])
| mb_list tag kids : tag = $ "ul" \/ tag = $ "ol" -> made_by B_list (HEl tag [] kids)
| mb_table kids : made_by B_table (HEl ($ "table") [] kids)
| mb_text blog kids : made_by (B_text blog) (HEl ($ "p") [] kids).

(** everything at the top level is white space or comes from one of the rules *)
Definition only_from (rs : list brule) (f : list html) : Prop :=
  forall h, In h f -> blank h \/ exists r, In r rs /\ made_by r h.

(** the names of the elements of a forest, at every depth *)
Fixpoint names (h : html) : list str :=
  match h with
  | HText _ | HRaw _ => []
  | HVoid tag _ => [tag]
  | HEl tag _ kids => tag :: flat_map names kids
  end.

(** the elements that belong to a rule, and the inline elements that belong to none *)
Inductive element_of : brule -> str -> Prop :=
| eo_head n : is_numeral n -> element_of B_head ($ "h" ++ n)
| eo_hr : element_of B_separator ($ "hr")
| eo_pre : element_of B_pre ($ "pre")
| eo_list t : In t [ $ "ul"; $ "ol"; $ "li" ] -> element_of B_list t
| eo_table t : In t [ $ "table"; $ "tr"; $ "td"; $ "th" ] -> element_of B_table t
| eo_p blog : element_of (B_text blog) ($ "p").
Definition inline_names : list str := $ "br" :: $ "img" :: $ "code" :: $ "a" :: faces.
(** at every depth there are only inline elements and elements of the rules *)
Definition elements_from (rs : list brule) (f : list html) : Prop :=
  forall t, In t (flat_map names f) -> In t inline_names \/ exists r, In r rs /\ element_of r t.
