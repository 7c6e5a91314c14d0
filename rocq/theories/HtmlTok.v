(** * The standard library's html.parser (Python 3.11)

    creole/parser/html_parser.py:43 derives its [HtmlParser] from [html.parser.HTMLParser],
    created with [convert_charrefs=False], fed once and never closed.  This file models that
    use: the text is turned into the sequence of handler calls.  Comments, declarations and
    processing instructions call handlers that do nothing, so they give no token. *)
From Coq Require Import String List NArith ZArith Bool.
From Verif Require Import PyStr GNames Regex Rules Utils Res Entities HtmlTools.
Import ListNotations.
Open Scope N_scope.

(** ** html.unescape — html/__init__.py:91-130 (attribute values) *)

(** [r{1,n+1}] *)
Fixpoint upto (n : nat) (r : regex) : regex :=
  match n with O => REps | S k => ROpt (RSeq r (upto k r)) end.

(** _charref, html/__init__.py:117-119.  [G_hp_entity] is group 1. *)
Definition charref_name_char (c : char) : bool :=
  negb ((c =? 9) || (c =? 10) || (c =? 12) || (c =? 32) || (c =? 60) || (c =? 38) || (c =? 35) || (c =? 59)).
Definition unescape_re : regex :=
  RSeq (c1 38) (RGrp G_hp_entity (alts
    [ seqs [c1 35; RPlus true (RChr is_dec); ROpt (c1 59)];
      seqs [c1 35; RChr (fun c => (c =? 120) || (c =? 88)); RPlus true (RChr is_hex); ROpt (c1 59)];
      seqs [RChr charref_name_char; upto 31 (RChr charref_name_char); ROpt (c1 59)] ])).

Fixpoint assoc_N {A} (k : N) (l : list (N * A)) : option A :=
  match l with [] => None | (x, v) :: t => if k =? x then Some v else assoc_N k t end.
Fixpoint assoc_str {A} (k : str) (l : list (string * A)) : option A :=
  match l with [] => None | (x, v) :: t => if str_eqb (L x) k then Some v else assoc_str k t end.
Definition html5 (s : str) : option str := assoc_str s html5_tab.

(** [int(s)] for ASCII digits.  Simplification: the limit of 4300 digits (ValueError) is not
    modelled here. *)
Definition int10 (s : str) : N := fold_left (fun a c => a * 10 + (c - 48)) s 0.

(** the loop [for x in range(len(s)-1, 1, -1)], html/__init__.py:111-115 *)
Fixpoint longest_html5 (x : nat) (s : str) : option str :=
  match x with
  | S (S _ as x') =>
    match html5 (firstn x s) with
    | Some v => Some (v ++ skipn x s)
    | None => longest_html5 x' s
    end
  | _ => None
  end.

(** _replace_charref, html/__init__.py:91-115 *)
Definition numeric_charref (num : N) : str :=
  match assoc_N num invalid_charrefs_tab with
  | Some c => [c]
  | None =>
    if ((55296 <=? num) && (num <=? 57343)) || (1114111 <? num) then [65533]
    else if existsb (N.eqb num) invalid_codepoints_tab then []
    else [num]
  end.
Definition replace_charref (x : mtch) : str :=
  let s := group0 G_hp_entity x in
  match s with
  | 35 :: t =>
    match t with
    | c :: t' => if (c =? 120) || (c =? 88) then numeric_charref (int16 (rstrip_chars [59] t'))
                 else numeric_charref (int10 (rstrip_chars [59] t))
    | [] => []
    end
  | _ => match html5 s with
         | Some v => v
         | None => match longest_html5 (pred (List.length s)) s with
                   | Some v => v
                   | None => 38 :: s
                   end
         end
  end.
Definition unescape (s : str) : str := if contains [38] s then resub unescape_re replace_charref s else s.

(** ** Regular expressions of html/parser.py:18-62 and _markupbase.py:10-18 *)
Definition is_tagchar (c : char) : bool :=   (* [^\t\n\r\f />\x00] *)
  negb ((c =? 9) || (c =? 10) || (c =? 13) || (c =? 12) || (c =? 32) || (c =? 47) || (c =? 62) || (c =? 0)).
Definition is_quote (c : char) : bool := (c =? 39) || (c =? 34).
Definition is_alnum (c : char) : bool := is_alpha c || is_dec c.
Definition skip_slash : regex :=            (* (?:\s|/(?!>))* *)
  RStar true (RAlt sp (RSeq (c1 47) (RNotAhead (c1 62)))).

Definition entityref_re : regex :=
  seqs [ c1 38;
         RGrp G_hp_entity (RSeq (RChr is_alpha)
           (RStar true (RChr (fun c => (c =? 45) || (c =? 46) || is_alnum c))));
         RChr (fun c => negb (is_alnum c)) ].
Definition charref_re : regex :=
  seqs [ lit ($ "&#");
         RGrp G_hp_entity (RAlt (RPlus true (RChr is_dec))
              (RSeq (RChr (fun c => (c =? 120) || (c =? 88))) (RPlus true (RChr is_hex))));
         RChr (fun c => negb (is_hex c)) ].
Definition commentclose_re : regex := seqs [lit ($ "--"); sps; c1 62].
Definition tagfind_re : regex :=
  RSeq (RGrp G_hp_tag (RSeq (RChr is_alpha) (RStar true (RChr is_tagchar)))) skip_slash.
(** an attribute name: look-behind for a quote, white space or slash, then
    [[^\s/>][^\s/=>]*] *)
Definition attr_name_re : regex :=
  seqs [ RBehind false (fun c => is_quote c || is_space c || (c =? 47));
         RChr (fun c => negb (is_space c || (c =? 47) || (c =? 62)));
         RStar true (RChr (fun c => negb (is_space c || (c =? 47) || (c =? 61) || (c =? 62)))) ].
(** an attribute value: quoted (either kind) or bare *)
Definition attr_value_re : regex :=
  alts [ seqs [c1 39; RStar true (RChr (fun c => negb (c =? 39))); c1 39];
         seqs [c1 34; RStar true (RChr (fun c => negb (c =? 34))); c1 34];
         RSeq (RNotAhead (RChr is_quote)) (RStar true (RChr (fun c => negb ((c =? 62) || is_space c)))) ].
Definition attr_eq_re : regex := seqs [sps; RPlus true (c1 61); sps].
Definition attrfind_re : regex :=
  seqs [ RGrp G_hp_attr attr_name_re;
         ROpt (RGrp G_hp_rest (RSeq attr_eq_re (RGrp G_hp_value attr_value_re)));
         skip_slash ].
Definition locatestarttagend_re : regex :=
  seqs [ c1 60; RChr is_alpha; RStar true (RChr is_tagchar);
         ROpt (RSeq (RStar true (RChr (fun c => is_space c || (c =? 47))))
                    (RStar true (seqs [ attr_name_re;
                                        ROpt (seqs [attr_eq_re; attr_value_re; sps]);
                                        skip_slash ])));
         sps ].
Definition endtagfind_re : regex :=
  seqs [ lit ($ "</"); sps;
         RGrp G_hp_tag (RSeq (RChr is_alpha) (RStar true
           (RChr (fun c => (c =? 45) || (c =? 46) || is_alnum c || (c =? 58) || (c =? 95)))));
         sps; c1 62 ].
Definition declname_re : regex :=
  RSeq (RGrp G_hp_tag (RSeq (RChr is_alpha) (RStar true (RChr (fun c => (c =? 45) || (c =? 95) || (c =? 46) || is_alnum c)))))
       sps.
Definition markedsectionclose_re : regex := seqs [c1 93; sps; c1 93; sps; c1 62].
Definition msmarkedsectionclose_re : regex := seqs [c1 93; sps; c1 62].

(** [re.IGNORECASE] for the letters of "script" and "style" *)
Definition icase (l c : char) : bool :=
  (c =? l) || (c + 32 =? l) ||
  ((l =? 105) && ((c =? 304) || (c =? 305))) || ((l =? 115) && (c =? 383)).
Definition cdata_end_re (elem : str) : regex :=    (* html/parser.py:134-136 *)
  seqs [ lit ($ "</"); sps; seqs (map (fun l => RChr (icase l)) elem); sps; c1 62 ].

(** [pattern.match(txt, k)]; look-behind sees the text before [k] *)
Definition match_at (r : regex) (txt : str) (k : nat) : option mtch :=
  try_at r false (rev (firstn k txt)) (skipn k txt).

(** [pattern.search(txt)]: text before the match and text after it.  (None of the patterns
    used looks behind.) *)
Fixpoint search (r : regex) (txt : str) : option (str * mtch * str) :=
  match try_at r false [] txt with
  | Some x => Some ([], x, skipn (List.length (mtxt x)) txt)
  | None =>
    match txt with
    | [] => None
    | c :: t => match search r t with
                | Some (b, x, a) => Some (c :: b, x, a)
                | None => None
                end
    end
  end.

(** [txt.find(c)]: text before the character and text after it *)
Definition find (c : char) (txt : str) : option (str * str) := split1 c txt.

(** ** Tokens: calls of the handlers *)
Definition attrs := list (str * pyval).       (* values are [VStr] or [VNone] *)
Inductive tok :=
| TStart (tag : str) (a : attrs)
| TStartEnd (tag : str) (a : attrs)
| TEnd (tag : str)
| TData (s : str)
| TCharref (s : str)
| TEntity (s : str).

(** what one step of the loop in [goahead] does: stop (html/parser.py [break]), raise
    AssertionError, or call handlers and go on with the remaining text *)
Inductive step :=
| Stop (ts : list tok)
| Raise
| Next (ts : list tok) (rest : str) (cdata : option str).

(** check_for_whole_start_tag, html/parser.py:326-359.  [None] is -1; the pattern always
    matches because the caller saw "<" and a letter. *)
Definition is_letter_eq_slash (c : char) : bool := is_alpha c || (c =? 61) || (c =? 47).
Definition check_for_whole_start_tag (txt : str) : option nat :=
  match match_at locatestarttagend_re txt 0 with
  | None => None
  | Some x =>
    let j := List.length (mtxt x) in
    match skipn j txt with
    | [] => None
    | c :: t =>
      if c =? 62 then Some (S j)
      else if c =? 47 then (match t with 62 :: _ => Some (S (S j)) | _ => None end)
      else if is_letter_eq_slash c then None
      else Some j
    end
  end.

(** quotes are removed and references replaced, html/parser.py:299-306 *)
Definition attr_value (x : mtch) : pyval :=
  match group G_hp_rest x with
  | None | Some [] => VNone
  | Some _ =>
    let v := group0 G_hp_value x in
    let first := firstn 1 v in
    let v' := if (str_eqb first [39] || str_eqb first [34]) && str_eqb first (firstn 1 (rev v))
              then removelast (tl v) else v in
    VStr (match v' with [] => [] | _ => unescape v' end)
  end.

(** the attribute loop, html/parser.py:294-308; every match consumes a character *)
Fixpoint attr_loop (fuel : nat) (txt : str) (k endpos : nat) : attrs * nat :=
  match fuel with
  | O => ([], k)
  | S f =>
    if (k <? endpos)%nat then
      match match_at attrfind_re txt k with
      | None => ([], k)
      | Some x =>
        let '(r, k') := attr_loop f txt (k + List.length (mtxt x)) endpos in
        ((lower (group0 G_hp_attr x), attr_value x) :: r, k')
      end
    else ([], k)
  end.

(** parse_starttag, html/parser.py:279-322, on a text that starts with "<" and a letter *)
Definition parse_starttag (txt : str) : step :=
  match check_for_whole_start_tag txt with
  | None => Stop []
  | Some endpos =>
    match match_at tagfind_re txt 1 with
    | None => Stop []
    | Some x =>
      let tag := lower (group0 G_hp_tag x) in
      let '(a, k) := attr_loop (S endpos) txt (1 + List.length (mtxt x)) endpos in
      let end_ := strip (skipn k (firstn endpos txt)) in
      let rest := skipn endpos txt in
      if str_eqb end_ [62] then
        Next [TStart tag a] rest (if in_list [$ "script"; $ "style"] tag then Some tag else None)
      else if str_eqb end_ [47; 62] then Next [TStartEnd tag a] rest None
      else Next [TData (firstn endpos txt)] rest None
    end
  end.

(** parse_bogus_comment, html/parser.py:249-259, on a text of two characters and more *)
Definition parse_bogus_comment (cdata : option str) (txt : str) : step :=
  match find 62 (skipn 2 txt) with
  | None => Stop []
  | Some (_, t) => Next [] t cdata
  end.

(** parse_endtag, html/parser.py:362-405, on a text that starts with "</" *)
Definition parse_endtag (cdata : option str) (txt : str) : step :=
  match find 62 (skipn 1 txt) with
  | None => Stop []
  | Some (b, t) =>
    let whole := firstn 1 txt ++ b ++ [62] in
    match match_at endtagfind_re txt 0 with
    | None =>
      match cdata with
      | Some _ => Next [TData whole] t cdata
      | None =>
        match match_at tagfind_re txt 2 with
        | None => if startswith ($ "</>") txt then Next [] (skipn 3 txt) cdata
                  else parse_bogus_comment cdata txt
        | Some x =>
          match find 62 (skipn (2 + List.length (mtxt x)) txt) with
          | None => Stop []                   (* impossible: there is a ">" *)
          | Some (_, t') => Next [TEnd (lower (group0 G_hp_tag x))] t' cdata
          end
        end
      end
    | Some x =>
      let elem := lower (group0 G_hp_tag x) in
      match cdata with
      | Some e => if str_eqb elem e then Next [TEnd elem] t None else Next [TData whole] t cdata
      | None => Next [TEnd elem] t None
      end
    end
  end.

(** parse_marked_section and _scan_name, _markupbase.py:149-176, 377-393, on "<![" *)
Definition parse_marked_section (txt : str) : step :=
  let body := skipn 3 txt in
  match body with
  | [] => Stop []
  | _ =>
    match match_at declname_re body 0 with
    | None => Raise
    | Some x =>
      if Nat.eqb (List.length (mtxt x)) (List.length body) then Stop []
      else
        let name := lower (group0 G_hp_tag x) in
        let close r := match search r body with
                       | None => Stop []
                       | Some (_, _, a) => Next [] a None
                       end in
        if in_list [$ "temp"; $ "cdata"; $ "ignore"; $ "include"; $ "rcdata"] name
        then close markedsectionclose_re
        else if in_list [$ "if"; $ "else"; $ "endif"] name
        then close msmarkedsectionclose_re
        else Raise
    end
  end.

(** parse_html_declaration, html/parser.py:227-245, on "<!" *)
Definition parse_html_declaration (txt : str) : step :=
  if startswith ($ "<![") txt then parse_marked_section txt
  else if str_eqb (lower (firstn 9 txt)) ($ "<!doctype") then
    match find 62 (skipn 9 txt) with
    | None => Stop []
    | Some (_, t) => Next [] t None
    end
  else parse_bogus_comment None txt.

(** one "<...", html/parser.py:178-196 *)
Definition lt_step (cdata : option str) (txt : str) : step :=
  match txt with
  | _ :: c :: _ =>
    if is_alpha c then parse_starttag txt
    else if c =? 47 then parse_endtag cdata txt
    else if startswith ($ "<!--") txt then
      match search commentclose_re (skipn 4 txt) with
      | None => Stop []
      | Some (_, _, a) => Next [] a cdata
      end
    else if c =? 63 then parse_bogus_comment cdata txt         (* parse_pi: next ">" *)
    else if c =? 33 then parse_html_declaration txt
    else Next [TData [60]] (skipn 1 txt) cdata
  | _ => Stop []
  end.

(** one "&...", html/parser.py:210-247 *)
Definition amp_step (txt : str) : step :=
  match txt with
  | _ :: 35 :: t =>
    match match_at charref_re txt 0 with
    | Some x =>
      let k := List.length (mtxt x) in
      let k' := if startswith [59] (skipn (pred k) txt) then k else pred k in
      Next [TCharref (group0 G_hp_entity x)] (skipn k' txt) None
    | None => if contains [59] txt then Stop [TData ($ "&#")] else Stop []
    end
  | _ :: c :: t =>
    match match_at entityref_re txt 0 with
    | Some x =>
      let k := List.length (mtxt x) in
      let k' := if startswith [59] (skipn (pred k) txt) then k else pred k in
      Next [TEntity (group0 G_hp_entity x)] (skipn k' txt) None
    | None => if is_alpha c then Stop [] else Next [TData [38]] (skipn 1 txt) None
    end
  | _ => Stop []
  end.

(** text up to the next interesting character, html/parser.py:160-172:
    "<" or "&"; in the content of script and style its end tag *)
Fixpoint until_markup (txt : str) : str * str :=
  match txt with
  | [] => ([], [])
  | c :: t => if (c =? 60) || (c =? 38) then ([], txt)
              else let '(a, b) := until_markup t in (c :: a, b)
  end.
Definition interesting (cdata : option str) (txt : str) : option (str * str) :=
  match cdata with
  | None => Some (until_markup txt)
  | Some e => match search (cdata_end_re e) txt with
              | Some (b, x, a) => Some (b, mtxt x ++ a)
              | None => None
              end
  end.
Definition tdata (s : str) : list tok := match s with [] => [] | _ => [TData s] end.

(** goahead(0), html/parser.py:147-252.  The remaining text gets shorter in every round
    ([tokens_fuel_enough] in HtmlTokFacts.v), so its length bounds the number of rounds.
    Returns the handler calls and whether an AssertionError ended the loop. *)
Fixpoint goahead (fuel : nat) (cdata : option str) (txt : str) : list tok * bool :=
  match fuel with
  | O => ([], false)
  | S f =>
    match txt with
    | [] => ([], false)
    | _ =>
      match interesting cdata txt with
      | None => ([], false)
      | Some (d, []) => (tdata d, false)
      | Some (d, (c :: _) as t) =>
        match (if c =? 60 then lt_step cdata t else amp_step t) with
        | Stop ts => (tdata d ++ ts, false)
        | Raise => (tdata d, true)
        | Next ts rest cd =>
          let '(r, b) := goahead f cd rest in (tdata d ++ ts ++ r, b)
        end
      end
    end
  end.
Definition tokens (txt : str) : list tok * bool := goahead (S (List.length txt)) None txt.
