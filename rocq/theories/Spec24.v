(** * Vocabulary: html elements the target knows nothing about

    What html2creole is expected to write for documents (Spec11.v) that also use inline tags
    without a creole mark.  [w t a s] is what stands for an element with the tag [t], the
    attributes [a] and the text [s]; [fine t a s] says which of them may be used. *)
From Coq Require Import String List Arith NArith ZArith Bool.
From Verif Require Import PyStr Utils Res HtmlTok Spec2 Spec10 Spec11.
Import ListNotations.
Open Scope N_scope.

(** creole has a mark for it *)
Definition marked (t : str) : bool := existsb (str_eqb t) (map fst xfaces).
(** one line, and neither white space nor a backslash at its ends *)
Definition span_text (s : str) : bool := is_nil s || solid s && one_line s && negb (startswith [92] s) && negb (endswith [92] s).

Section Unknown.
Variable w : str -> attrs -> str -> str.
Variable fine : str -> attrs -> str -> bool.

(** ** the creole they mean: as in Spec11.v, but for the unknown tags; <span> is left out *)
Fixpoint w_inl (b : str) (i : xinl) : str :=
  match i with
  | XText t => t
  | XRef e => match meant e with Ok s => s | Exc _ => [] end
  | XFace t a body => let text := flat_map (w_inl b) body in
                      if marked t then xmark t ++ text ++ xmark t else if str_eqb t ($ "span") then text else w t a text
  | XLink h body => let text := flat_map (w_inl b) body in
                    if str_eqb text h then $ "[[" ++ h ++ $ "]]" else $ "[[" ++ h ++ $ "|" ++ text ++ $ "]]"
  | XImage src title alt => $ "{{" ++ src ++ $ "|" ++ image_title src title alt ++ $ "}}"
  | XBreak => b
  end.
Definition w_inls (b : str) (l : list xinl) : str := flat_map (w_inl b) l.
Fixpoint w_item (bullets : str) (i : xitem) : list str :=
  match i with XI t o sub => (bullets ++ $ " " ++ w_inls [92; 92] t) :: flat_map (w_item (bullets ++ [if o then 35 else 42])) sub end.
Definition w_cell (c : bool * list xinl) : str :=
  match one_row (w_inls [10] (snd c)) with
  | [] => []
  | t => (if fst c then $ "= " else $ " ") ++ t ++ $ " "
  end.
Definition w_block (b : xblock) : str :=
  match b with
  | XPara l => w_inls [10] l
  | XHead n l => repeat 61 n ++ $ " " ++ w_inls [10] l
  | XRule => $ "----"
  | XList o items => x_lines (flat_map (w_item [if o then 35 else 42]) items)
  | XTable rows => let cells := map (map w_cell) rows in x_lines (map (pad_row cells 0) cells)
  end.
Fixpoint w_doc (d : list xblock) : str :=
  match d with
  | [] => []
  | b :: r => w_block b ++ match r with [] => [] | c :: _ => x_gap b c end ++ w_doc r
  end.

(** ** which documents are meant *)
Fixpoint w_fine (b : str) (i : xinl) : bool :=
  match i with
  | XFace t a body => let text := flat_map (w_inl b) body in
                      forallb (w_fine b) body && (marked t || (if str_eqb t ($ "span") then span_text text else fine t a text))
  | XLink _ body => forallb (w_fine b) body
  | _ => true
  end.
Definition w_text_ok (b : str) (l : list xinl) : bool := clean_inls Edge l && forallb (w_fine b) l && solid (w_inls b l).
Fixpoint w_item_ok (i : xitem) : bool := match i with XI t o sub => w_text_ok [92; 92] t && forallb w_item_ok sub end.
Definition w_cell_ok (c : bool * list xinl) : bool :=
  let t := w_inls [10] (snd c) in
  clean_inls Edge (snd c) && forallb (w_fine [10]) (snd c) &&
  (negb (fst c) && is_nil t ||
   forallb solid (split_on 10 t) && negb (startswith [92] t) && negb (endswith [92] t) && (fst c || negb (startswith ($ "= ") t))).
Definition w_block_ok (b : xblock) : bool :=
  match b with
  | XPara l => w_text_ok [10] l
  | XHead n l => Nat.leb 1 n && Nat.leb n 6 && w_text_ok [10] l
  | XRule => true
  | XList o items => negb (is_nil items) && forallb w_item_ok items
  | XTable rows => match rows with
                   | [] => false
                   | r :: _ => negb (is_nil r) && forallb (fun r' => Nat.eqb (List.length r') (List.length r) && forallb w_cell_ok r') rows
                   end
  end.
Definition w_doc_ok (d : list xblock) : bool := forallb w_block_ok d.
End Unknown.

(** ** how the four ways to treat unknown tags write them *)
(** the attributes in the order of their names, values in quotes as they are *)
Fixpoint name_before (a b : str) : bool :=
  match a, b with
  | [], _ => true
  | _ :: _, [] => false
  | x :: a', y :: b' => (x <? y) || ((x =? y) && name_before a' b')
  end.
Fixpoint put_attr (e : str * pyval) (l : attrs) : attrs :=
  match l with
  | [] => [e]
  | h :: t => if name_before (fst e) (fst h) then e :: l else h :: put_attr e t
  end.
Definition by_name (a : attrs) : attrs := fold_right put_attr [] a.
Definition attr_value (v : pyval) : str := match v with VStr s => s | _ => [] end.
Definition attrs_text (a : attrs) : str := flat_map (fun kv : str * pyval => $ " " ++ fst kv ++ $ "=""" ++ attr_value (snd kv) ++ $ """") (by_name a).
(** no name twice, only printable ASCII characters but quotes and backslashes *)
Fixpoint distinct (l : list str) : bool := match l with [] => true | x :: r => negb (existsb (str_eqb x) r) && distinct r end.
Definition plain_value (v : str) : bool := forallb (fun c => (32 <=? c) && (c <=? 126) && negb ((c =? 34) || (c =? 92))) v.
Definition attrs_fine (a : attrs) : bool := distinct (map fst a) && forallb (fun kv : str * pyval => match snd kv with VStr v => plain_value v | _ => false end) a.
(** with the macro [m]: <<m>><t a><</m>>s<<m>></t><</m>> *)
Definition in_macro (m s : str) : str := $ "<<" ++ m ++ $ ">>" ++ s ++ $ "<</" ++ m ++ $ ">>".
Definition masked (m : str) (t : str) (a : attrs) (s : str) : str :=
  match s with
  | [] => in_macro m ($ "<" ++ t ++ attrs_text a ++ $ " />")
  | _ => in_macro m ($ "<" ++ t ++ attrs_text a ++ $ ">") ++ s ++ in_macro m ($ "</" ++ t ++ $ ">")
  end.
(** escaped: &lt;t a&gt;s&lt;/t&gt; *)
Definition no_markup (s : str) : str :=
  flat_map (fun c => if c =? 38 then $ "&amp;" else if c =? 60 then $ "&lt;" else if c =? 62 then $ "&gt;" else [c]) s.
Definition spelled (t : str) (a : attrs) (s : str) : str :=
  match s with
  | [] => $ "&lt;" ++ t ++ no_markup (attrs_text a) ++ $ " /&gt;"
  | _ => $ "&lt;" ++ t ++ no_markup (attrs_text a) ++ $ "&gt;" ++ s ++ $ "&lt;/" ++ t ++ $ "&gt;"
  end.
(** left out *)
Definition bare (t : str) (a : attrs) (s : str) : str := s.
(** which of them may be used there *)
Definition any_text (t : str) (a : attrs) (s : str) : bool := attrs_fine a.
Definition bare_text (t : str) (a : attrs) (s : str) : bool := span_text s.
Definition always (t : str) (a : attrs) (s : str) : bool := true.

(** ** a document that uses an unknown tag *)
Fixpoint inl_unknown (i : xinl) : bool :=
  match i with
  | XFace t _ body => negb (marked t || str_eqb t ($ "span")) || existsb inl_unknown body
  | XLink _ body => existsb inl_unknown body
  | _ => false
  end.
Fixpoint item_unknown (i : xitem) : bool := match i with XI t _ sub => existsb inl_unknown t || existsb item_unknown sub end.
Definition block_unknown (b : xblock) : bool :=
  match b with
  | XPara l => existsb inl_unknown l
  | XHead _ l => existsb inl_unknown l
  | XRule => false
  | XList _ items => existsb item_unknown items
  | XTable rows => existsb (existsb (fun c => existsb inl_unknown (snd c))) rows
  end.
Definition doc_unknown (d : list xblock) : bool := existsb block_unknown d.
