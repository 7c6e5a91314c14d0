(** * Vocabulary of the properties of the html side *)
From Coq Require Import String List NArith ZArith Bool.
From Verif Require Import PyStr Res Utils Entities HtmlTools MarkupTable HtmlTok HtmlParser.
Import ListNotations.
Open Scope N_scope.

(** ** C25, C26: entity decoding *)

(** text with character references: what is written ... *)
Inductive ent :=
| Text (t : str)       (* text without an ampersand *)
| Dec (digits : str)   (* &#digits; *)
| Hex (digits : str)   (* &#xdigits; *)
| Named (name : str).  (* &name; *)
Definition write (e : ent) : str :=
  match e with
  | Text t => t
  | Dec d => $ "&#" ++ d ++ $ ";"
  | Hex d => $ "&#x" ++ d ++ $ ";"
  | Named n => $ "&" ++ n ++ $ ";"
  end.
Definition decimal (c : N) : bool := (48 <=? c) && (c <=? 57).
Definition hexdigit (c : N) : bool := ((48 <=? c) && (c <=? 57)) || ((65 <=? c) && (c <=? 70)) || ((97 <=? c) && (c <=? 102)).
Definition letter (c : N) : bool := ((65 <=? c) && (c <=? 90)) || ((97 <=? c) && (c <=? 122)).
Definition ent_ok (e : ent) : Prop :=
  match e with
  | Text t => ~ In 38 t
  | Dec d => d <> [] /\ forallb decimal d = true /\ (N.of_nat (List.length d) <= 4300)
  | Hex d => d <> [] /\ forallb hexdigit d = true
  | Named n => n <> [] /\ forallb letter n = true
  end.
(** ... and what is meant *)
Definition dec_value (d : str) : N := fold_left (fun a c => a * 10 + (c - 48)) d 0.
Definition hex_value (d : str) : N :=
  fold_left (fun a c => a * 16 + (if c <=? 57 then c - 48 else if c <=? 70 then c - 55 else c - 87)) d 0.
Definition code_point (n : N) : res str :=
  if n <? 1114112 then Ok [n] else Exc (if n <? 2147483648 then EValueError else EOverflow).
Definition meant (e : ent) : res str :=
  match e with
  | Text t => Ok t
  | Dec d => code_point (dec_value d)
  | Hex d => code_point (hex_value d)
  | Named n =>
    if str_eqb n ($ "nbsp") then Ok [32]
    else match List.find (fun kv : string * N => str_eqb (L (fst kv)) n) name2codepoint_tab with
         | Some (_, v) => Ok [v]
         | None => Exc EKeyError
         end
  end.
Fixpoint meant_all (l : list ent) : res str :=
  match l with
  | [] => Ok []
  | e :: t => match meant e, meant_all t with
              | Ok a, Ok b => Ok (a ++ b)
              | Ok _, Exc x => Exc x
              | Exc x, _ => Exc x
              end
  end.

(** ** C27: everything but white space *)
Definition visible (s : str) : str := filter (fun c => negb (is_space c)) s.

(** ** C32-C34: tables *)
(** a cell as the emitters add it: header cell or data cell *)
Inductive tcell := TD (text : str) | TH (text : str).
(** a table is filled row by row with the methods add_tr, add_td and add_th *)
Definition put_cell (t : mtable) (c : tcell) : mtable :=
  match c with TD s => add_td s t | TH s => add_th s t end.
Definition put_row (t : mtable) (r : list tcell) : mtable := fold_left put_cell r (add_tr t).
Definition filled (hp : str) (aw : bool) (rs : list (list tcell)) : mtable := fold_left put_row rs (new_table hp aw).

(** the text of a cell in the source of the table *)
Definition cell_src (hp : str) (c : tcell) : str := match c with TD s => s | TH s => hp ++ s end.
Definition clean (s : str) : Prop := ~ In 124 s /\ ~ In 10 s.
Definition clean_cell (c : tcell) : Prop := match c with TD s | TH s => clean s end.
Definition is_th (c : tcell) : bool := match c with TH _ => true | TD _ => false end.

(** reading a table back: lines, and the cells between the bars of a line *)
Definition lines_of (s : str) : list str := split_on 10 s.
Definition cells_of (line : str) : list str := removelast (tl (split_on 124 line)).
(** the length of the shortest row *)
Definition shortest {A} (rs : list (list A)) : nat :=
  match rs with [] => O | r :: t => fold_left (fun n x => Nat.min n (List.length x)) t (List.length r) end.
(** a line of reStructuredText grid: plus signs between runs of [c] *)
Definition grid (c : N) (ws : list nat) : str :=
  [43] ++ flat_map (fun w => repeat c w ++ [43]) ws.

(** ** C29-C31: documents and their trees *)
(** a well-nested document, seen by the tokenizer *)
Inductive dom :=
| DText (s : str)                                    (* character data *)
| DChar (name : str)                                 (* &#name; *)
| DEnt (name : str)                                  (* &name; *)
| DVoid (tag : str) (a : attrs)                      (* <tag a> for br and img *)
| DSelf (tag : str) (a : attrs)                      (* <tag a /> *)
| DCut (block : bool) (i : nat)                      (* placeholder of a <pre> area *)
| DElem (tag : str) (a : attrs) (kids : list dom).   (* <tag a> ... </tag> *)
Definition placeholder (block : bool) : str := if block then $ "blockdata" else $ "inlinedata".
Fixpoint dom_toks (d : dom) : list tok :=
  match d with
  | DText s => [TData s]
  | DChar s => [TCharref s]
  | DEnt s => [TEntity s]
  | DVoid t a => [TStart t a]
  | DSelf t a => [TStartEnd t a]
  | DCut b i => [TStartEnd (placeholder b) [($ "type", VStr ($ "pre")); ($ "id", VStr (show_nat i))]]
  | DElem t a ks => [TStart t a] ++ flat_map dom_toks ks ++ [TEnd t]
  end.
Definition is_heading (t : str) : bool :=
  match t with 104 :: c :: _ => match Regex.digit_val c with Some _ => true | None => false end | _ => false end.
Definition heading_level (t : str) : option Z :=
  match t with 104 :: c :: _ => option_map Z.of_N (Regex.digit_val c) | _ => None end.
(** attributes as a dict: the names in the order in which they first appear, each with the
    value that was given last *)
Definition last_value (k : str) (a : attrs) : pyval := fold_left (fun v (kv : str * pyval) => if str_eqb (fst kv) k then snd kv else v) a VNone.
Fixpoint once (seen l : list str) : list str :=
  match l with [] => [] | k :: t => if existsb (str_eqb k) seen then once seen t else k :: once (k :: seen) t end.
Definition attr_dict (a : attrs) : pydict := map (fun k => (k, last_value k a)) (once [] (map fst a)).
(** the elements that are blocks *)
Definition block_elements : list str :=
  [ $ "address"; $ "blockquote"; $ "center"; $ "dir"; $ "div"; $ "dl"; $ "fieldset"; $ "form"; $ "h1"; $ "h2"; $ "h3"; $ "h4"; $ "h5"; $ "h6";
    $ "hr"; $ "ins"; $ "isindex"; $ "men"; $ "noframes"; $ "noscript"; $ "ul"; $ "ol"; $ "li"; $ "table"; $ "th"; $ "tr"; $ "td"; $ "p"; $ "pre"; $ "br" ].
Definition in_names (l : list str) (t : str) : bool := existsb (str_eqb t) l.
Definition is_list (t : str) : bool := str_eqb t ($ "ul") || str_eqb t ($ "ol").
(** the tree meant by it; [bd] are the cut-out texts, [ll] the number of lists around *)
Fixpoint dom_tree (bd : list str) (ll : Z) (d : dom) : list hnode :=
  match d with
  | DText s => [HN ($ "data") (Some s) [] None []]
  | DChar s => [HN ($ "charref") (Some s) [] None []]
  | DEnt s => [HN ($ "entityref") (Some s) [] None []]
  | DVoid t a | DSelf t a => [HN t None (attr_dict a) None []]
  | DCut b i => [HN (placeholder b ++ $ "_pre") (Some (nth i bd [])) [] None []]
  | DElem t a ks =>
    if str_eqb t ($ "tbody") then flat_map (dom_tree bd ll) ks
    else if is_heading t then
      [HN ($ "headline") None [] (heading_level t) (flat_map (dom_tree bd ll) ks)]
    else if is_list t then
      [HN t None (attr_dict a) (Some (ll + 1)%Z) (flat_map (dom_tree bd (ll + 1)) ks)]
    else [HN t None (attr_dict a) (if str_eqb t ($ "li") then Some ll else None) (flat_map (dom_tree bd ll) ks)]
  end.
(** block elements only inside of block elements (or at the top).  [blk]: the surrounding
    element is the document or a block element (not a heading). *)
Definition is_block (t : str) : bool := in_names (block_elements ++ [$ "document"]) t && negb (is_heading t).
Inductive dom_ok (bd : list str) : bool -> dom -> Prop :=
| ok_text blk s : dom_ok bd blk (DText s)
| ok_char blk s : dom_ok bd blk (DChar s)
| ok_ent blk s : dom_ok bd blk (DEnt s)
| ok_void blk t a : t = $ "br" \/ t = $ "img" -> dom_ok bd blk (DVoid t a)
| ok_self blk t a : t <> $ "blockdata" -> t <> $ "inlinedata" -> dom_ok bd blk (DSelf t a)
| ok_cut blk b i : (i < List.length bd)%nat -> (N.of_nat (List.length (show_nat i)) <= 4300) -> dom_ok bd blk (DCut b i)
| ok_tbody blk a ks : Forall (dom_ok bd blk) ks -> dom_ok bd blk (DElem ($ "tbody") a ks)
| ok_elem blk t a ks : t <> $ "tbody" -> t <> $ "br" -> t <> $ "img" ->
    (in_names block_elements t = true -> blk = true) ->
    Forall (dom_ok bd (is_block t)) ks -> dom_ok bd blk (DElem t a ks).

(** a text in which areas are marked to be cut out *)
Inductive piece := Keep (c : N) | Cut (whole content : str).
Definition piece_src (p : piece) : str := match p with Keep c => [c] | Cut w _ => w end.
(** the contents of the areas in order *)
Definition cuts (ps : list piece) : list str := flat_map (fun p => match p with Keep _ => [] | Cut _ c => [c] end) ps.
(** the text with the areas replaced by placeholders, numbered from [n] *)
Fixpoint stubbed (block : bool) (n : nat) (ps : list piece) : str :=
  match ps with
  | [] => []
  | Keep c :: t => c :: stubbed block n t
  | Cut _ _ :: t => ($ "<" ++ placeholder block ++ $ " type=""pre"" id=""" ++ show_nat n ++ $ """ />") ++ stubbed block (S n) t
  end.
Definition pre_area (w c : str) : Prop := w = $ "<pre>" ++ c ++ $ "</pre>".
Definition pre_block_area (w c : str) : Prop :=
  exists s1 s2, forallb is_space s1 = true /\ forallb is_space s2 = true /\ w = $ "<pre>" ++ s1 ++ c ++ $ "</pre>" ++ s2.
Definition areas (P : str -> str -> Prop) (ps : list piece) : Prop := forall w c, In (Cut w c) ps -> P w c.
(** no area is left: what is kept does not start one *)
Definition none_left (ps : list piece) : Prop :=
  forall a c b, ps = a ++ Keep c :: b -> ~ exists u v, flat_map piece_src (Keep c :: b) = $ "<pre>" ++ u ++ $ "</pre>" ++ v.
