(** * creole/html_tools/*.py and creole/parser/html_parser_config.py *)
From Coq Require Import String List NArith ZArith Bool.
From Verif Require Import PyStr GNames Regex Rules Utils Res Entities.
Import ListNotations.
Open Scope N_scope.

(** ** [re.sub] with a callback that has a state and may raise *)
Fixpoint sub_go {S} (f : mtch -> S -> res (str * S)) (l : list (char + mtch)) (st : S) : res (str * S) :=
  match l with
  | [] => Ok ([], st)
  | inl c :: t => do (r, st1) <- sub_go f t st; Ok (c :: r, st1)
  | inr x :: t => do (a, st1) <- f x st; do (r, st2) <- sub_go f t st1; Ok (a ++ r, st2)
  end.
Definition resub_st {S} (r : regex) (f : mtch -> S -> res (str * S)) (s : str) (st : S) : res (str * S) :=
  sub_go f (scan r O [] s) st.
Definition resub_r (r : regex) (f : mtch -> res str) (s : str) : res str :=
  do (x, _) <- resub_st r (fun x (_ : unit) => do a <- f x; Ok (a, tt)) s tt; Ok x.

(** [x in (...)] for a tuple of strings *)
Definition in_list (l : list str) (s : str) : bool := existsb (str_eqb s) l.

(** ** html_parser_config.py:12-22 *)
Definition BLOCK_TAGS : list str :=
  [ $ "address"; $ "blockquote"; $ "center"; $ "dir"; $ "div"; $ "dl"; $ "fieldset"; $ "form";
    $ "h1"; $ "h2"; $ "h3"; $ "h4"; $ "h5"; $ "h6";
    $ "hr"; $ "ins"; $ "isindex"; $ "men"; $ "noframes"; $ "noscript";
    $ "ul"; $ "ol"; $ "li"; $ "table"; $ "th"; $ "tr"; $ "td"; $ "p"; $ "pre"; $ "br" ].
Definition IGNORE_TAGS : list str := [ $ "tbody" ].

(** ** deentity.py *)
Definition is_hex (c : char) : bool :=
  ((48 <=? c) && (c <=? 57)) || ((65 <=? c) && (c <=? 70)) || ((97 <=? c) && (c <=? 102)).
Definition is_alpha (c : char) : bool := ((65 <=? c) && (c <=? 90)) || ((97 <=? c) && (c <=? 122)).
Definition is_dec (c : char) : bool := (48 <=? c) && (c <=? 57).

(** entities_rules, deentity.py:15-23 (the anonymous outer groups are not read) *)
Definition entities_re : regex :=
  alts [ seqs [lit ($ "&#"); RGrp G_number (RPlus true (RChr is_digit)); c1 59];
         seqs [lit ($ "&#x"); RGrp G_hex (RPlus true (RChr is_hex)); c1 59];
         seqs [c1 38; RGrp G_named (RPlus true (RChr is_alpha)); c1 59] ].

(** [chr(n)]: ValueError outside of range(0x110000), OverflowError outside of a C int *)
Definition py_chr (z : Z) : res char :=
  if (z <? 0)%Z then Exc (if (z <? -2147483648)%Z then EOverflow else EValueError)
  else if (z <? 1114112)%Z then Ok (Z.to_N z)
  else Exc (if (z <? 2147483648)%Z then EValueError else EOverflow).

(** replace_number, deentity.py:45-48 *)
Definition replace_number (text : str) : res str :=
  match py_int text with
  | Some z => do c <- py_chr z; Ok [c]
  | None => Exc EValueError
  end.

(** [int(text, 16)] for a non-empty string of ASCII hexadecimal digits (all callers pass
    such a string; no digit limit applies to base 16) *)
Definition hex_val (c : char) : N :=
  if c <? 58 then c - 48 else if c <? 71 then c - 55 else c - 87.
Definition int16 (s : str) : N := fold_left (fun a c => a * 16 + hex_val c) s 0.

(** replace_hex, deentity.py:50-53 *)
Definition replace_hex (text : str) : res str := do c <- py_chr (Z.of_N (int16 text)); Ok [c].

(** [entities.name2codepoint[text]] *)
Fixpoint name2cp (tab : list (string * N)) (text : str) : option N :=
  match tab with
  | [] => None
  | (k, v) :: t => if str_eqb (L k) text then Some v else name2cp t text
  end.

(** replace_named, deentity.py:55-62; KeyError for an unknown name *)
Definition replace_named (text : str) : res str :=
  if str_eqb text ($ "nbsp") then Ok [32]
  else match name2cp name2codepoint_tab text with
       | Some v => Ok [v]
       | None => Exc EKeyError
       end.

(** replace_entity, deentity.py:66-74: the first group that took part, in the order
    number, hex, named *)
Definition replace_entity (x : mtch) : res str :=
  match group G_number x with
  | Some t => replace_number t
  | None =>
    match group G_hex x with
    | Some t => replace_hex t
    | None =>
      match group G_named x with
      | Some t => replace_named t
      | None => Exc EOther
      end
    end
  end.

(** replace_all, deentity.py:64-76 *)
Definition replace_all (content : str) : res str := resub_r entities_re replace_entity content.

(** ** strip_html.py *)

(** strip_html_regex, strip_html.py:16-28 *)
Definition strip_html_re : regex :=
  seqs [ sps; c1 60;
         RGrp G_end (ROpt (c1 47));
         RGrp G_tag (RPlus true (RChr (fun c => negb ((c =? 32) || (c =? 62)))));
         dotstar_lazy;
         RGrp G_startend (ROpt (c1 47));
         c1 62; sps ].

(** strip_tag, strip_html.py:58-96 *)
Definition strip_tag (x : mtch) : str :=
  let block := mtxt x in
  let end_tag := str_eqb (group0 G_end x) [47] in
  let startend_tag := str_eqb (group0 G_startend x) [47] in
  let tag := group0 G_tag x in
  if in_list BLOCK_TAGS tag then strip block
  else
    let space_start := startswith [32] block in
    let space_end := endswith [32] block in
    let result := strip block in
    if end_tag then (if space_start || space_end then result ++ [32] else result)
    else if startend_tag then
      let result := if space_start then [32] ++ result else result in
      if space_end then result ++ [32] else result
    else (if space_start || space_end then [32] ++ result else result).

(** strip_html, strip_html.py:31-101 *)
Definition strip_html (html_code : str) : str :=
  let data := strip html_code in
  let clean_data := join [32] (map strip (split_on 10 data)) in
  resub strip_html_re strip_tag clean_data.

(** ** text_tools.py *)

(** space_re, text_tools.py:14, DOTALL.  [$] also matches before a final newline, but the
    greedy [\s*] in front of it takes that newline, so it is modelled as the end of the
    text. *)
Definition space_re : regex :=
  seqs [ RBos; RGrp G_ws_start sps; RGrp G_ws_txt (RStar false (RChr (fun _ => true)));
         RGrp G_ws_end sps; RNotAhead (RChr (fun _ => true)) ].

(** cleanup, text_tools.py:33-46 *)
Definition ws_cleanup (x : mtch) : str :=
  let start := if contains [32] (group0 G_ws_start x) then [32] else [] in
  let end_ := group0 G_ws_end x in
  let end_ := if contains [10] end_ then [10] else if contains [32] end_ then [32] else end_ in
  start ++ group0 G_ws_txt x ++ end_.

(** clean_whitespace, text_tools.py:17-48 *)
Definition clean_whitespace (txt : str) : str := resub space_re ws_cleanup txt.
