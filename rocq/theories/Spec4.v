(** * Vocabulary of the properties of creole documents: what is written and what is shown

    A small syntax of creole documents, how it is written ([wr_...]), the HTML it means
    ([html_...]) and which documents are unambiguous ([..._ok]).  Nothing here refers to the
    parser or to its regular expressions. *)
From Coq Require Import String List NArith ZArith Bool.
From Verif Require Import PyStr Utils Spec50.
Import ListNotations.
Open Scope N_scope.

(** ** Inline elements *)
Inductive face := Bold | Italic | Mono | Under | Sup | Sub | Small | Del.
Definition face_mark (f : face) : N :=
  match f with Bold => 42 | Italic => 47 | Mono => 35 | Under => 95 | Sup => 94 | Sub => 44 | Small => 45 | Del => 126 end.
Definition face_tag (f : face) : str :=
  match f with
  | Bold => $ "strong" | Italic => $ "i" | Mono => $ "tt" | Under => $ "u"
  | Sup => $ "sup" | Sub => $ "sub" | Small => $ "small" | Del => $ "del"
  end.

Inductive inl :=
| IText (w : str)                                   (* text *)
| IEsc (c : N)                                      (* ~c *)
| IFace (f : face) (body : list inl)                (* **body** and so on *)
| ICode (t : str)                                   (* {{{t}}} *)
| ILink (target : str) (text : option str)          (* [[target|text]] *)
| IImage (target : str) (title : option str) (size : option (N * N))  (* {{target|title|1x2}} *)
| IUrl (u : str)                                    (* a free-standing URL *)
| IBreak                                            (* two backslashes *)
| IRich (target : str) (body : list inl).           (* [[target|body]]: text with images and line breaks *)

Definition size_text (wh : N * N) : str := show_N (fst wh) ++ $ "x" ++ show_N (snd wh).
(** what stands after the bar of an image *)
Definition image_text (title : option str) (size : option (N * N)) : option str :=
  match title, size with
  | None, None => None
  | Some t, None => Some t
  | None, Some wh => Some ($ "|" ++ size_text wh)
  | Some t, Some wh => Some (t ++ $ "|" ++ size_text wh)
  end.
Definition with_bar (t : option str) : str := match t with None => [] | Some t => $ "|" ++ t end.

Fixpoint wr_inl (i : inl) : str :=
  match i with
  | IText w => w
  | IEsc c => [126; c]
  | IFace f body => [face_mark f; face_mark f] ++ flat_map wr_inl body ++ [face_mark f; face_mark f]
  | ICode t => $ "{{{" ++ t ++ $ "}}}"
  | ILink target text => $ "[[" ++ target ++ with_bar text ++ $ "]]"
  | IImage target title size => $ "{{" ++ target ++ with_bar (image_text title size) ++ $ "}}"
  | IUrl u => u
  | IBreak => [92; 92]
  | IRich target body => $ "[[" ++ target ++ $ "|" ++ flat_map wr_inl body ++ $ "]]"
  end.
Definition wr_inls (l : list inl) : str := flat_map wr_inl l.

(** escaping of attribute values: the project writes the quote as [&quot] (no semicolon) *)
Definition attr_text (t : str) : str := replace [34] ($ "&quot") (escape t).
Definition or_else (t : option str) (d : str) : str := match t with Some x => x | None => d end.
Definition img (target title more : str) : str :=
  $ "<img src=""" ++ attr_text target ++ $ """ title=""" ++ attr_text title ++ $ """ alt=""" ++ attr_text title ++ $ """" ++ more ++ $ " />".
Definition html_image (strict : bool) (target : str) (title : option str) (size : option (N * N)) : str :=
  match size with
  | Some wh =>
    if strict then img target (or_else (image_text title size) target) []
    else img target (or_else title target)
             ($ " width=""" ++ show_N (fst wh) ++ $ """ height=""" ++ show_N (snd wh) ++ $ """")
  | None => img target (or_else title target) []
  end.
Definition elem (t c : str) : str := $ "<" ++ t ++ $ ">" ++ c ++ $ "</" ++ t ++ $ ">".
Definition br : str := $ "<br />" ++ [10].
(** [b]: how a line break is written at this place *)
Fixpoint html_inl (strict : bool) (b : str) (i : inl) : str :=
  match i with
  | IText w => escape w
  | IEsc c => escape [c]
  | IFace f body => elem (face_tag f) (flat_map (html_inl strict br) body)
  | ICode t => elem ($ "code") (escape t)
  | ILink target text => $ "<a href=""" ++ attr_text target ++ $ """>" ++ escape (or_else text target) ++ $ "</a>"
  | IImage target title size => html_image strict target title size
  | IUrl u => $ "<a href=""" ++ attr_text u ++ $ """>" ++ escape u ++ $ "</a>"
  | IBreak => b
  | IRich target body => $ "<a href=""" ++ attr_text target ++ $ """>" ++ flat_map (html_inl strict br) body ++ $ "</a>"
  end.
Definition html_inls (strict : bool) (b : str) (l : list inl) : str := flat_map (html_inl strict b) l.

(** ** Which inline elements are unambiguous

    [b] is the text before, last character first; [t] is the text after. *)
Definition head_is (p : N -> bool) (t : str) : bool := match t with c :: _ => p c | [] => false end.
Definition last_is (p : N -> bool) (t : str) : bool := head_is p (rev t).
Definition protocols : list str :=
  [$ "http"; $ "https"; $ "ftp"; $ "nntp"; $ "news"; $ "mailto"; $ "telnet"; $ "file"; $ "irc"].
Definition url_start (t : str) : bool := existsb (fun p => startswith (p ++ $ "://") t) protocols.
(** at the start of the text, or after white space *)
Definition word_start (b : str) : bool := match b with [] => true | c :: _ => is_space c end.
Definition url_here (b t : str) : bool :=
  word_start b && (url_start t || match t with 126 :: t' => url_start t' | _ => false end).
(** characters that mean something when doubled: [ { < * / # _ ^ , - \ *)
Definition doubles : list N := [91; 123; 60; 42; 47; 35; 95; 94; 44; 45; 92].
(** [c] stands for itself: it does not start a doubled mark (the two slashes of [://] are no
    mark), it is no tilde in front of a visible character, and no URL starts here *)
Definition literal (b : str) (c : N) (t : str) : bool :=
  negb (existsb (N.eqb c) doubles && head_is (N.eqb c) t && negb ((c =? 47) && head_is (N.eqb 58) b)) &&
  negb ((c =? 126) && head_is (fun d => negb (is_space d)) t) &&
  negb (url_here b (c :: t)) && negb (c =? 10).
Fixpoint literals (b w t : str) : bool :=
  match w with [] => true | c :: w' => literal b c (w' ++ t) && literals (c :: b) w' t end.
(** [pat] occurs in [t ++ pat] only at the end *)
Fixpoint only_end (pat t : str) : bool :=
  match t with [] => true | _ :: t' => negb (startswith pat (t ++ pat)) && only_end pat t' end.
(** two slashes after a colon do not end an emphasis; [p] is the character before *)
Fixpoint only_end_colon (p : N) (t : str) : bool :=
  match t with
  | [] => negb (p =? 58)
  | c :: t' => ((p =? 58) || negb (startswith [47; 47] (t ++ [47; 47]))) && only_end_colon c t'
  end.
(** the first mark after [body] (of at least one character) ends it *)
Definition face_ends (f : face) (body : str) : bool :=
  match body with
  | [] => false
  | c :: t => match f with Italic => only_end_colon c t | _ => only_end [face_mark f; face_mark f] t end
  end.
Definition no_char (cs : list N) (t : str) : bool := forallb (fun c => negb (existsb (N.eqb c) cs)) t.
Definition trimmed (t : str) : bool := negb (head_is is_space t) && negb (last_is is_space t) && truthy t.
Definition is_break (i : inl) : bool := match i with IBreak => true | _ => false end.
Definition ends_in_break (l : list inl) : bool := match rev l with i :: _ => is_break i | [] => false end.
Definition opt_ok (p : str -> bool) (o : option str) : bool := match o with None => true | Some x => p x end.

(** what follows the first bar *)
Fixpoint after_bar (t : str) : option str :=
  match t with [] => None | c :: t' => if c =? 124 then Some t' else after_bar t' end.
Definition letter (c : N) : bool := ((65 <=? c) && (c <=? 90)) || ((97 <=? c) && (c <=? 122)).
(** what stands before and after the first x *)
Fixpoint at_x (t : str) : option (str * str) :=
  match t with
  | [] => None
  | c :: t' => if c =? 120 then Some ([], t') else match at_x t' with Some (w, h) => Some (c :: w, h) | None => None end
  end.
(** no bar, or something after it that is not a size such as 1x2: two numbers around an x (Spec50.v) *)
Definition no_size (t : str) : bool :=
  match after_bar t with
  | None => true
  | Some r => match at_x r with None => true | Some (w, h) => negb (numeral (strip w) && numeral (strip h)) end
  end.

(** in the text of a link: no image and no line break starts in [w], [t] is what follows *)
Fixpoint calm (w t : str) : bool :=
  match w with
  | [] => true
  | _ :: w' => negb (startswith ($ "{{") (w ++ t)) && negb (startswith [92; 92] (w ++ t)) && calm w' t
  end.

Fixpoint inl_ok (b : str) (i : inl) (t : str) {struct i} : bool :=
  match i with
  | IText w => truthy w && literals b w t
  | IEsc c => negb (is_space c) && negb (c =? 126) && negb (url_here b (126 :: c :: t))
  | IFace f body =>
    face_ends f (flat_map wr_inl body) && no_char [10] (flat_map wr_inl body) && negb (ends_in_break body) &&
    match f with Italic => negb (head_is (N.eqb 58) b) | _ => true end &&
    (fix go (b : str) (l : list inl) : bool :=
       match l with
       | [] => true
       | x :: r => inl_ok b x (flat_map wr_inl r) && go (rev (wr_inl x) ++ b) r
       end) [] body
  | ICode c => no_char [10] c && only_end ($ "}}}") c
  | ILink target text =>
    truthy target && no_char [10; 124; 93] target && negb (last_is is_space target) &&
    opt_ok (fun x => trimmed x && no_char [10; 93] x && negb (contains [123; 123] x) && negb (contains [92; 92] x)) text
  | IImage target title size =>
    trimmed target && no_char [10; 124; 125] target && negb (head_is (N.eqb 123) target) &&
    opt_ok (fun x => trimmed x && no_char [10; 125] x) title &&
    match size with
    | Some wh => (match title with None => no_char [34; 38; 60; 62] target | Some x => no_char [124] x end) && (N.of_nat (List.length (show_N (fst wh))) <=? 4300) && (N.of_nat (List.length (show_N (snd wh))) <=? 4300)
    | None => opt_ok no_size title
    end
  | IUrl u =>
    word_start b && existsb (fun p => startswith (p ++ $ "://") u && truthy (skipn (List.length p + 3) u)) protocols &&
    forallb (fun c => negb (is_space c) && negb (c =? 36)) u &&
    match t with [] => true | c :: _ => is_space c || (c =? 36) end
  | IBreak => true
  | IRich target body =>
    truthy target && no_char [10; 124; 93] target && negb (last_is is_space target) &&
    trimmed (flat_map wr_inl body) && no_char [10; 93] (flat_map wr_inl body) && negb (ends_in_break body) &&
    (fix go (l : list inl) : bool :=
       match l with
       | [] => true
       | x :: r =>
         match x with
         | IText w => truthy w && calm w (flat_map wr_inl r)
         | IImage _ _ _ => inl_ok [] x []
         | IBreak => true
         | _ => false
         end && go r
       end) body
  end.
Fixpoint inls_ok (b : str) (l : list inl) : bool :=
  match l with
  | [] => true
  | x :: r => inl_ok b x (wr_inls r) && inls_ok (rev (wr_inl x) ++ b) r
  end.
