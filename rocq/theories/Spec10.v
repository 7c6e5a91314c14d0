(** * Vocabulary: well-nested html documents as text

    How the documents of Spec2.v ([dom]) are written. *)
From Coq Require Import String List NArith ZArith Bool.
From Verif Require Import PyStr Utils Res HtmlTok Spec2.
Import ListNotations.
Open Scope N_scope.

(** escaping of attribute values *)
Definition attr_entity (c : N) : str :=
  if c =? 38 then $ "&amp;" else if c =? 60 then $ "&lt;" else if c =? 62 then $ "&gt;" else if c =? 34 then $ "&quot;" else [c].
Definition value_of (v : pyval) : str := match v with VStr s => s | _ => [] end.
Definition show_attrs (a : attrs) : str :=
  flat_map (fun nv => $ " " ++ fst nv ++ $ "=""" ++ flat_map attr_entity (value_of (snd nv)) ++ $ """") a.
Fixpoint show_dom (d : dom) : str :=
  match d with
  | DText s => s
  | DChar n => $ "&#" ++ n ++ $ ";"
  | DEnt n => $ "&" ++ n ++ $ ";"
  | DVoid t a => $ "<" ++ t ++ show_attrs a ++ $ ">"
  | DSelf t a => $ "<" ++ t ++ show_attrs a ++ $ " />"
  | DCut b i => $ "<" ++ placeholder b ++ $ " type=""pre"" id=""" ++ show_nat i ++ $ """ />"
  | DElem t a ks => $ "<" ++ t ++ show_attrs a ++ $ ">" ++ flat_map show_dom ks ++ $ "</" ++ t ++ $ ">"
  end.
Definition show_doms (ds : list dom) : str := flat_map show_dom ds.

(** names: lower case letters, digits and hyphens, a letter first *)
Definition lower_letter (c : N) : bool := (97 <=? c) && (c <=? 122).
Definition name_char (c : N) : bool := lower_letter c || ((48 <=? c) && (c <=? 57)) || (c =? 45).
Definition name_ok (n : str) : bool := match n with c :: t => lower_letter c && forallb name_char t | [] => false end.
Definition attr_ok (nv : str * pyval) : bool := name_ok (fst nv) && match snd nv with VStr _ => true | _ => false end.
(** [script] and [style] have another content *)
Definition tag_ok (t : str) : bool := name_ok t && negb (str_eqb t ($ "script")) && negb (str_eqb t ($ "style")).
Definition all_digits (p : N -> bool) (s : str) : bool := negb (is_nil s) && forallb p s.
Definition dec (c : N) : bool := (48 <=? c) && (c <=? 57).
Definition hexadecimal (c : N) : bool := dec c || ((65 <=? c) && (c <=? 70)) || ((97 <=? c) && (c <=? 102)).
Definition letter (c : N) : bool := lower_letter c || ((65 <=? c) && (c <=? 90)).
(** no two pieces of text side by side *)
Fixpoint apart (l : list dom) : bool :=
  match l with
  | DText _ :: ((DText _ :: _) as r) => false
  | _ :: r => apart r
  | [] => true
  end.
Fixpoint dom_wf (d : dom) : bool :=
  match d with
  | DText s => negb (is_nil s) && forallb (fun c => negb ((c =? 60) || (c =? 38))) s
  | DChar n => all_digits dec n || match n with 120 :: h => all_digits hexadecimal h | _ => false end
  | DEnt n => match n with c :: t => letter c && forallb (fun c => letter c || dec c) t | [] => false end
  | DVoid t a | DSelf t a => tag_ok t && forallb attr_ok a
  | DCut _ _ => true
  | DElem t a ks => tag_ok t && forallb attr_ok a && forallb dom_wf ks && apart ks
  end.
