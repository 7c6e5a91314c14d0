(** * Properties of creole2html on paragraphs, blocks and documents (C06-C15, C50-C54)

    Only statements, examples and assumptions; the vocabulary is in Spec4.v, Spec5.v, Spec6.v.
    Everywhere [blog], [v], [s] are any values of the parameters parser_kwargs
    blog_line_breaks, emitter_kwargs verbose and strict, and [md] is any macro dictionary with
    the history of its use, which stays as it was. *)
From Coq Require Import String List Arith NArith ZArith Bool Lia.
From Verif Require Import PyStr Utils Res DocTree HtmlEmitter Spec4 Spec5 Spec50 Spec54 Spec6 Spec53 DocParse HeadFar P4_Lemmas ImageSize.
Import ListNotations.
Open Scope N_scope.

Definition blog_mode := mkopts true (Some 1%Z) false.
Definition wiki_mode := mkopts false (Some 1%Z) false.

(** ** C06 *)
Theorem C06_plain_text : forall blog v s md lines, lines <> [] -> forallb plain_line lines = true ->
  creole2html (mkopts blog v s) md (lines_text lines) = (Ok ($ "<p>" ++ shown_lines blog lines ++ $ "</p>"), md).
Proof. exact lemma_C06. Qed.
Print Assumptions C06_plain_text.
Example C06_case : let l := [$ "a, b & c: 1/2 - [x] {y} <z>"; $ "-d e~"] in
  forallb plain_line [$ "a, b & c: 1/2 - [x] {y} <z>"; $ "-d e"] = true /\ forallb plain_line l = false /\
  fst (creole2html wiki_mode no_md (lines_text [$ "a, b & c: 1/2 - [x] {y} <z>"; $ "-d e"])) =
  Ok ($ "<p>a, b &amp; c: 1/2 - [x] {y} &lt;z&gt; -d e</p>").
Proof. vm_compute. auto. Qed.

(** ** C07 *)
Theorem C07_tilde : forall blog v s md w, truthy w = true -> no_char [10; 13; 126] w = true -> head_is is_space w = false ->
  creole2html (mkopts blog v s) md (tilded w) = (Ok ($ "<p>" ++ escape w ++ $ "</p>"), md).
Proof. exact lemma_C07. Qed.
Print Assumptions C07_tilde.
Example C07_case : let w := $ "= **a** [[http://b|c]] {{{<" in
  truthy w = true /\ no_char [10; 13; 126] w = true /\ head_is is_space w = false /\
  tilded ($ "**a b") = $ "~*~*~a ~b" /\
  fst (creole2html blog_mode no_md (tilded w)) = Ok ($ "<p>= **a** [[http://b|c]] {{{&lt;</p>").
Proof. vm_compute. repeat split. Qed.

(** ** C08 *)
Theorem C08_typefaces : forall blog v s md l, l <> [] -> forallb (typeface_ok []) l = true -> block_start (wr_inls l) = false ->
  creole2html (mkopts blog v s) md (wr_inls l) = (Ok ($ "<p>" ++ html_inls s br l ++ $ "</p>"), md).
Proof. exact lemma_C08. Qed.
Print Assumptions C08_typefaces.
(** every unambiguous line of inline elements *)
Theorem C08_inline : forall blog v s md l, line_ok l = true -> ends_in_break l = false ->
  creole2html (mkopts blog v s) md (wr_inls l) = (Ok ($ "<p>" ++ html_inls s br l ++ $ "</p>"), md).
Proof. exact one_line. Qed.
Print Assumptions C08_inline.
Example C08_case : let l := [IFace Bold [IText ($ "a"); IFace Italic [IText ($ "b"); IFace Del [IText ($ "c")]]]; IText ($ " d "); IFace Sub [IFace Bold [IText ($ "e")]]] in
  forallb (typeface_ok []) l = true /\ block_start (wr_inls l) = false /\
  wr_inls l = $ "**a//b~~c~~//** d ,,**e**,," /\
  fst (creole2html blog_mode no_md (wr_inls l)) = Ok ($ "<p><strong>a<i>b<del>c</del></i></strong> d <sub><strong>e</strong></sub></p>").
Proof. vm_compute. repeat split. Qed.
Example C08_inline_case : let l := [IFace Bold [IText ($ "see "); ILink ($ "t") (Some ($ "x")); IBreak; IEsc 42; IText ($ "z")]; IText ($ " "); IUrl ($ "http://u/~b")] in
  line_ok l = true /\ ends_in_break l = false /\ wr_inls l = $ "**see [[t|x]]\\~*z** http://u/~b" /\
  fst (creole2html blog_mode no_md (wr_inls l)) =
  Ok ($ "<p><strong>see <a href=""t"">x</a><br />" ++ [10] ++ $ "*z</strong> <a href=""http://u/~b"">http://u/~b</a></p>").
Proof. vm_compute. repeat split. Qed.
(** a link around an image, with a line break *)
Example C08_rich_case : let l := [IText ($ "a "); IRich ($ "t") [IImage ($ "i.png") (Some ($ "I")) None; IBreak; IText ($ "see **it**")]; IText ($ " b")] in
  line_ok l = true /\ ends_in_break l = false /\ wr_inls l = $ "a [[t|{{i.png|I}}\\see **it**]] b" /\
  fst (creole2html blog_mode no_md (wr_inls l)) =
  Ok ($ "<p>a <a href=""t""><img src=""i.png"" title=""I"" alt=""I"" /><br />" ++ [10] ++ $ "see **it**</a> b</p>").
Proof. vm_compute. repeat split. Qed.

(** ** C09 *)
Theorem C09_inline_code : forall blog v s md a t z, around_ok 123 a z = true -> no_char [10; 13] t = true -> only_end ($ "}}}") t = true ->
  head_is is_space a = false -> block_start (a ++ $ "{{{" ++ t ++ $ "}}}" ++ z) = false ->
  creole2html (mkopts blog v s) md (a ++ $ "{{{" ++ t ++ $ "}}}" ++ z) =
  (Ok ($ "<p>" ++ escape a ++ $ "<code>" ++ escape t ++ $ "</code>" ++ escape z ++ $ "</p>"), md).
Proof. exact lemma_C09. Qed.
Print Assumptions C09_inline_code.
Example C09_case : let a := $ "x " in let t := $ "**b** <<m>> ~}} [[c]]" in let z := $ "} y" in
  around_ok 123 a z = true /\ no_char [10; 13] t = true /\ only_end ($ "}}}") t = true /\ head_is is_space a = false /\
  block_start (a ++ $ "{{{" ++ t ++ $ "}}}" ++ z) = false /\
  fst (creole2html blog_mode no_md (a ++ $ "{{{" ++ t ++ $ "}}}" ++ z)) = Ok ($ "<p>x <code>**b** &lt;&lt;m&gt;&gt; ~}} [[c]]</code>} y</p>").
Proof. vm_compute. repeat split. Qed.

(** ** C10 *)
(** a line of preformatted text: no closing braces at its start; [~}}}] is an escape *)
Definition code_line (l : str) : bool := no_char [10; 13] l && negb (startswith ($ "}}}") l) && negb (contains ($ "~}}}") l).
Definition verbatim (o : opts) (md : mdict) (lines : list str) : Prop :=
  creole2html o md ($ "{{{" ++ [10] ++ lines_text lines ++ [10] ++ $ "}}}") =
  (Ok ($ "<pre>" ++ [10] ++ escape (lines_text lines) ++ [10] ++ $ "</pre>"), md).
Theorem C10_code_block : forall blog v s md lines, forallb code_line lines = true ->
  (exists l r, lines = l :: r /\ forallb is_space l = false) -> verbatim (mkopts blog v s) md lines.
Proof. exact lemma_C10. Qed.
Print Assumptions C10_code_block.
Example C10_case : let l := [$ "  **a** ~b"; $ ""; $ "= c <d>"; $ " }}} "] in
  forallb code_line l = true /\
  fst (creole2html blog_mode no_md ($ "{{{" ++ [10] ++ lines_text l ++ [10] ++ $ "}}}")) =
  Ok ($ "<pre>" ++ [10] ++ $ "  **a** ~b" ++ [10; 10] ++ $ "= c &lt;d&gt;" ++ [10] ++ $ " }}} " ++ [10] ++ $ "</pre>").
Proof. vm_compute. auto. Qed.

(** ** C11 *)
Theorem C11_leading_blank_refuted :
  ~ (forall blog v s md lines, lines <> [] -> forallb code_line lines = true -> verbatim (mkopts blog v s) md lines).
Proof.
  intro H. specialize (H true (Some 1%Z) false no_md [[]; $ "a"] ltac:(discriminate) eq_refl). revert H. vm_compute. discriminate.
Qed.
Print Assumptions C11_leading_blank_refuted.
Example C11_case : fst (creole2html blog_mode no_md ($ "{{{" ++ [10] ++ lines_text [[]; $ "a"] ++ [10] ++ $ "}}}")) =
  Ok ($ "<pre>" ++ [10] ++ $ "a" ++ [10] ++ $ "</pre>").
Proof. vm_compute. reflexivity. Qed.

(** ** C12 *)
Theorem C12_heading : forall blog v s md n sp t closing, (1 <= n)%nat -> forallb (fun c => (c =? 32) || (c =? 9)) sp = true ->
  trimmed t = true -> no_char [10; 13] t = true -> head_is (N.eqb 61) t = false -> last_is (N.eqb 61) t = false ->
  forallb (fun c => (c =? 61) || (c =? 32)) closing = true ->
  creole2html (mkopts blog v s) md (repeat 61 n ++ sp ++ t ++ closing) =
  (Ok ($ "<h" ++ show_nat n ++ $ ">" ++ escape t ++ $ "</h" ++ show_nat n ++ $ ">"), md).
Proof. exact lemma_C12. Qed.
Print Assumptions C12_heading.
Example C12_case : let t := $ "a = **b** [[c]]" in
  trimmed t = true /\ no_char [10; 13] t = true /\ head_is (N.eqb 61) t = false /\ last_is (N.eqb 61) t = false /\
  forallb (fun c => (c =? 61) || (c =? 32)) ($ " ====") = true /\
  fst (creole2html blog_mode no_md (repeat 61 3 ++ $ " " ++ t ++ $ " ====")) = Ok ($ "<h3>a = **b** [[c]]</h3>").
Proof. vm_compute. repeat split. Qed.

(** the white space between the equal signs and the text may be any, line ends and empty lines
    included: the document means the same *)
Theorem C12_white_space : forall blog v s md d d', doc_ok blog d = true -> Forall2 respaced d d' ->
  creole2html (mkopts blog v s) md (wr_doc d') = (Ok (html_doc blog s d), md).
Proof. exact far_spec. Qed.
Print Assumptions C12_white_space.
Example C12_far_case : let p t := BPara [[IText ($ t)]] in let d := [p "a"; BHead 2 ($ " ") ($ "b") ($ " =="); p "c"]%string in
  let d' := [p "a"; BHead 2 [10; 32; 10; 10; 9] ($ "b") ($ " =="); p "c"]%string in
  doc_ok true d = true /\ Forall2 respaced d d' /\
  wr_doc d' = lines_text [$ "a"; []; $ "=="; $ " "; []; 9 :: $ "b =="; []; $ "c"] /\
  fst (creole2html blog_mode no_md (wr_doc d')) = Ok (lines_text [$ "<p>a</p>"; []; $ "<h2>b</h2>"; []; $ "<p>c</p>"]).
Proof.
  split; [vm_compute; reflexivity|]. split; [|split; vm_compute; reflexivity]. constructor; [apply same_block|]. constructor; [|constructor; [apply same_block|constructor]].
  apply head_block; [vm_compute; reflexivity|]. intros H. cbn in H. intuition discriminate.
Qed.

(** ** C13 *)
Theorem C13_h7_refuted :
  ~ (forall o md markup html md' n t, creole2html o md markup = (Ok html, md') ->
       html = $ "<h" ++ show_nat n ++ $ ">" ++ t ++ $ "</h" ++ show_nat n ++ $ ">" -> (1 <= n <= 6)%nat).
Proof.
  intro H. pose proof (lemma_C12 true (Some 1%Z) false no_md 7 ($ " ") ($ "a") [] ltac:(lia) eq_refl eq_refl eq_refl eq_refl eq_refl eq_refl) as E.
  specialize (H _ _ _ _ _ 7%nat (escape ($ "a")) E eq_refl). lia.
Qed.
Print Assumptions C13_h7_refuted.
(** the level is the number of equal signs, without any bound *)
Theorem C13_level : forall blog v s md n, (1 <= n)%nat ->
  creole2html (mkopts blog v s) md (repeat 61 n ++ $ " a") = (Ok ($ "<h" ++ show_nat n ++ $ ">a</h" ++ show_nat n ++ $ ">"), md).
Proof.
  intros blog v s md n H. pose proof (lemma_C12 blog v s md n ($ " ") ($ "a") [] H eq_refl eq_refl eq_refl eq_refl eq_refl eq_refl) as E. exact E.
Qed.
Print Assumptions C13_level.
Example C13_case : fst (creole2html blog_mode no_md ($ "======= a")) = Ok ($ "<h7>a</h7>").
Proof. vm_compute. reflexivity. Qed.

(** ** C14 *)
Theorem C14_link : forall blog v s md a target text z, around_ok 91 a z = true ->
  truthy target = true -> no_char ($ "|]" ++ [10; 13]) target = true -> last_is is_space target = false ->
  opt_ok (fun x => trimmed x && no_char ($ "]" ++ [10; 13]) x && negb (contains ($ "{{") x) && negb (contains [92; 92] x)) text = true ->
  block_start (a ++ ($ "[[" ++ target ++ with_bar text ++ $ "]]") ++ z) = false ->
  creole2html (mkopts blog v s) md (a ++ ($ "[[" ++ target ++ with_bar text ++ $ "]]") ++ z) =
  (Ok ($ "<p>" ++ escape a ++ ($ "<a href=""" ++ attr_text target ++ $ """>" ++ escape (or_else text target) ++ $ "</a>") ++ escape z ++ $ "</p>"), md).
Proof. exact lemma_C14. Qed.
Print Assumptions C14_link.
Example C14_case : let a := $ "see " in let z := $ "." in
  around_ok 91 a z = true /\ no_char ($ "|]" ++ [10; 13]) ($ "http://u/?a=1&b=""2") = true /\
  opt_ok (fun x => trimmed x && no_char ($ "]" ++ [10; 13]) x && negb (contains ($ "{{") x) && negb (contains [92; 92] x)) (Some ($ "the **text** | <b>")) = true /\
  fst (creole2html blog_mode no_md (a ++ $ "[[http://u/?a=1&b=""2|the **text** | <b>]]" ++ z)) =
    Ok ($ "<p>see <a href=""http://u/?a=1&amp;b=&quot2"">the **text** | &lt;b&gt;</a>.</p>") /\
  fst (creole2html blog_mode no_md (a ++ $ "[[page]]" ++ z)) = Ok ($ "<p>see <a href=""page"">page</a>.</p>").
Proof. vm_compute. repeat split. Qed.

(** ** C15 *)
Definition image_tag (src title size : str) : str :=
  $ "<img src=""" ++ attr_text src ++ $ """ title=""" ++ attr_text title ++ $ """ alt=""" ++ attr_text title ++ $ """" ++ size ++ $ " />".
Definition src_ok (src : str) : bool := trimmed src && no_char ($ "|}" ++ [10; 13]) src && negb (head_is (N.eqb 123) src).
Definition title_ok (title : str) : bool := trimmed title && no_char ($ "}" ++ [10; 13]) title.
(** numbers of more than 4300 digits are not read by int() *)
Definition readable (n : N) : Prop := N.of_nat (List.length (show_N n)) <= 4300.
Theorem C15_sized : forall blog v s md a src title w h z, around_ok 123 a z = true -> src_ok src = true ->
  title_ok title = true -> no_char ($ "|") title = true -> readable w -> readable h ->
  let markup := a ++ ($ "{{" ++ src ++ $ "|" ++ title ++ $ "|" ++ show_N w ++ $ "x" ++ show_N h ++ $ "}}") ++ z in
  block_start markup = false ->
  creole2html (mkopts blog v s) md markup =
  (Ok ($ "<p>" ++ escape a ++
       (if s then image_tag src (title ++ $ "|" ++ show_N w ++ $ "x" ++ show_N h) []
        else image_tag src title ($ " width=""" ++ show_N w ++ $ """ height=""" ++ show_N h ++ $ """")) ++
       escape z ++ $ "</p>"), md).
Proof.
  intros blog v s md a src title w h z H1 H2 H3 H4 H5 H6 markup H7. unfold src_ok, title_ok in *. rewrite !andb_true_iff, ?negb_true_iff in *.
  assert (O : opt_ok (fun x => trimmed x && no_char ($ "}" ++ [10; 13]) x) (Some title) = true) by (cbn [opt_ok]; rewrite (proj1 H3), (proj2 H3); reflexivity).
  pose proof (image_line blog v s md a src (Some title) (Some (w, h)) z H1 (proj1 (proj1 H2)) (proj2 (proj1 H2)) (proj2 H2) O (conj H4 (conj H5 H6))) as K.
  unfold image_text, size_text, with_bar in K. cbn [fst snd] in K. rewrite <- !app_assoc in K. unfold markup in *. rewrite <- !app_assoc in *.
  rewrite (K H7). destruct s; reflexivity.
Qed.
Print Assumptions C15_sized.
(** without a size, or with something after the bar that is not a size *)
Theorem C15_title : forall blog v s md a src title z, around_ok 123 a z = true -> src_ok src = true ->
  title_ok title = true -> no_size title = true ->
  let markup := a ++ ($ "{{" ++ src ++ $ "|" ++ title ++ $ "}}") ++ z in
  block_start markup = false ->
  creole2html (mkopts blog v s) md markup = (Ok ($ "<p>" ++ escape a ++ image_tag src title [] ++ escape z ++ $ "</p>"), md).
Proof.
  intros blog v s md a src title z H1 H2 H3 H4 markup H7. unfold src_ok, title_ok in *. rewrite !andb_true_iff, ?negb_true_iff in *.
  assert (O : opt_ok (fun x => trimmed x && no_char ($ "}" ++ [10; 13]) x) (Some title) = true) by (cbn [opt_ok]; rewrite (proj1 H3), (proj2 H3); reflexivity).
  pose proof (image_line blog v s md a src (Some title) None z H1 (proj1 (proj1 H2)) (proj2 (proj1 H2)) (proj2 H2) O H4) as K.
  unfold image_text, with_bar in K. rewrite <- !app_assoc in K. unfold markup in *. rewrite <- !app_assoc in *. exact (K H7).
Qed.
Print Assumptions C15_title.
Theorem C15_bare : forall blog v s md a src z, around_ok 123 a z = true -> src_ok src = true ->
  let markup := a ++ ($ "{{" ++ src ++ $ "}}") ++ z in
  block_start markup = false ->
  creole2html (mkopts blog v s) md markup = (Ok ($ "<p>" ++ escape a ++ image_tag src src [] ++ escape z ++ $ "</p>"), md).
Proof.
  intros blog v s md a src z H1 H2 markup H7. unfold src_ok in *. rewrite !andb_true_iff, ?negb_true_iff in *.
  pose proof (image_line blog v s md a src None None z H1 (proj1 (proj1 H2)) (proj2 (proj1 H2)) (proj2 H2) eq_refl eq_refl) as K.
  exact (K H7).
Qed.
Print Assumptions C15_bare.
(** an empty title and a size: the address is the title (it is written as it is: C47, so here it
    has nothing to escape) *)
Theorem C15_untitled : forall blog v s md a src w h z, around_ok 123 a z = true -> src_ok src = true ->
  no_char ($ "&<>""") src = true -> readable w -> readable h ->
  let markup := a ++ ($ "{{" ++ src ++ $ "||" ++ show_N w ++ $ "x" ++ show_N h ++ $ "}}") ++ z in
  block_start markup = false ->
  creole2html (mkopts blog v s) md markup =
  (Ok ($ "<p>" ++ escape a ++
       (if s then image_tag src ($ "|" ++ show_N w ++ $ "x" ++ show_N h) []
        else image_tag src src ($ " width=""" ++ show_N w ++ $ """ height=""" ++ show_N h ++ $ """")) ++
       escape z ++ $ "</p>"), md).
Proof.
  intros blog v s md a src w h z H1 H2 H4 H5 H6 markup H7. unfold src_ok in *. rewrite !andb_true_iff, ?negb_true_iff in *.
  assert (H3 : no_char [34; 38; 60; 62] src = true) by (apply (no_char_sub ($ "&<>""") [34; 38; 60; 62]); [exact H4 | reflexivity]).
  pose proof (image_line blog v s md a src None (Some (w, h)) z H1 (proj1 (proj1 H2)) (proj2 (proj1 H2)) (proj2 H2) eq_refl (conj H3 (conj H5 H6))) as K.
  unfold image_text, size_text, with_bar in K. cbn [fst snd] in K. rewrite <- !app_assoc in K. unfold markup in *. rewrite <- !app_assoc in *.
  refine (eq_trans (K H7) _). destruct s; reflexivity.
Qed.
Print Assumptions C15_untitled.
Example C15_untitled_case : fst (creole2html blog_mode no_md ($ "see {{/a.png||20x30}}.")) =
  Ok ($ "<p>see <img src=""/a.png"" title=""/a.png"" alt=""/a.png"" width=""20"" height=""30"" />.</p>").
Proof. vm_compute. reflexivity. Qed.
(** the size may be written in any way that int() reads (Spec50.v): signs, underscores, the digits of
    any script, blanks around them; the numbers are shown in decimal notation (Spec54.v), negative ones too *)
Theorem C15_any_numbers : forall blog v s md src title ws hs w h, src_ok src = true -> title_ok title = true -> no_char ($ "|") title = true ->
  number (strip ws) w -> number (strip hs) h -> no_char [10; 13] ws = true -> no_char [10; 13] hs = true -> last_is is_space hs = false ->
  exists w_text h_text, decimal_of w_text w /\ decimal_of h_text h /\
  creole2html (mkopts blog v s) md ($ "{{" ++ src ++ $ "|" ++ title ++ $ "|" ++ ws ++ $ "x" ++ hs ++ $ "}}") =
  (Ok ($ "<p>" ++
       (if s then image_tag src (title ++ $ "|" ++ ws ++ $ "x" ++ hs) []
        else image_tag src title ($ " width=""" ++ w_text ++ $ """ height=""" ++ h_text ++ $ """")) ++ $ "</p>"), md).
Proof.
  intros blog v s md src title ws hs w h H1 H2 H3 H4 H5 H6 H7 H8. exists (show_Z w), (show_Z h). split; [apply show_Z_decimal|]. split; [apply show_Z_decimal|].
  unfold src_ok, title_ok in *. rewrite !andb_true_iff, ?negb_true_iff in *.
  exact (lone_sized blog v s md src title ws hs w h (proj1 (proj1 H1)) (proj2 (proj1 H1)) (proj2 H1) (proj1 H2) (proj2 H2) H3 H4 H5 H6 H7 H8).
Qed.
Print Assumptions C15_any_numbers.
Example C15_any_numbers_case : let ws := $ " +1_0 " in let hs := $ " -" ++ [1636; 1637] in
  number (strip ws) 10 /\ number (strip hs) (-45) /\ no_char [10; 13] ws = true /\ no_char [10; 13] hs = true /\ last_is is_space hs = false /\
  fst (creole2html blog_mode no_md ($ "{{/a.png|t|" ++ ws ++ $ "x" ++ hs ++ $ "}}")) =
    Ok ($ "<p><img src=""/a.png"" title=""t"" alt=""t"" width=""10"" height=""-45"" /></p>").
Proof. cbv zeta. split; [|split; [|vm_compute; auto]]; apply NumeralFacts.number_iff; vm_compute; reflexivity. Qed.
(** with an empty title every address, with whatever characters, is put into title and alt as it is (C47) *)
Theorem C15_raw_address_refuted : forall blog v md src ws hs w h, src_ok src = true ->
  number (strip ws) w -> number (strip hs) h -> no_char [10; 13] ws = true -> no_char [10; 13] hs = true -> last_is is_space hs = false ->
  exists w_text h_text, decimal_of w_text w /\ decimal_of h_text h /\
  creole2html (mkopts blog v false) md ($ "{{" ++ src ++ $ "||" ++ ws ++ $ "x" ++ hs ++ $ "}}") =
  (Ok ($ "<p><img src=""" ++ attr_text src ++ $ """ title=""" ++ src ++ $ """ alt=""" ++ src ++ $ """ width=""" ++ w_text ++ $ """ height=""" ++ h_text ++ $ """ /></p>"), md).
Proof.
  intros blog v md src ws hs w h H1 H4 H5 H6 H7 H8. exists (show_Z w), (show_Z h). split; [apply show_Z_decimal|]. split; [apply show_Z_decimal|].
  unfold src_ok in *. rewrite !andb_true_iff, ?negb_true_iff in *.
  exact (lone_untitled blog v md src ws hs w h (proj1 (proj1 H1)) (proj2 (proj1 H1)) (proj2 H1) H4 H5 H6 H7 H8).
Qed.
Print Assumptions C15_raw_address_refuted.
Example C15_raw_address_case : let src := $ "x"" onerror=""f()" in
  src_ok src = true /\ number (strip ($ "1")) 1 /\
  fst (creole2html blog_mode no_md ($ "{{" ++ src ++ $ "||1x1}}")) =
    Ok ($ "<p><img src=""x&quot onerror=&quotf()"" title=""x"" onerror=""f()"" alt=""x"" onerror=""f()"" width=""1"" height=""1"" /></p>").
Proof. cbv zeta. split; [vm_compute; reflexivity|]. split; [apply NumeralFacts.number_iff|]; vm_compute; reflexivity. Qed.
Example C15_case : let a := $ "see " in let z := $ "." in
  around_ok 123 a z = true /\ src_ok ($ "/a.png") = true /\ title_ok ($ "t|2 by 3 x") = true /\ no_size ($ "t|2 by 3 x") = true /\ no_size ($ "t|1__0x2") = true /\ no_size ($ "t|1_0 x " ++ [1636]) = false /\
  fst (creole2html blog_mode no_md (a ++ $ "{{/a.png|t|20x30}}" ++ z)) =
    Ok ($ "<p>see <img src=""/a.png"" title=""t"" alt=""t"" width=""20"" height=""30"" />.</p>") /\
  fst (creole2html (mkopts true None true) no_md (a ++ $ "{{/a.png|t|20x30}}" ++ z)) =
    Ok ($ "<p>see <img src=""/a.png"" title=""t|20x30"" alt=""t|20x30"" />.</p>") /\
  fst (creole2html blog_mode no_md (a ++ $ "{{/a.png|t|2 by 3 x}}" ++ z)) =
    Ok ($ "<p>see <img src=""/a.png"" title=""t|2 by 3 x"" alt=""t|2 by 3 x"" />.</p>").
Proof. vm_compute. repeat split. Qed.

(** ** C50 *)
Theorem C50_documents : forall blog v s md d, doc_ok blog d = true ->
  creole2html (mkopts blog v s) md (wr_doc d) = (Ok (html_doc blog s d), md).
Proof. exact document_spec. Qed.
Print Assumptions C50_documents.
Example C50_case :
  let d := [BHead 2 ($ " ") ($ "title") ($ " =="); BPara [[IText ($ "a "); IFace Bold [IText ($ "b")]]; [IText ($ "c")]]; BRule;
            BList false [LI [IText ($ "x")] true [LI [IText ($ "y")] false []]; LI [ICode ($ "z")] false []];
            BCode [$ "**k**"]; BTable [[mkcell true [IText ($ "h")]]; [mkcell false [ILink ($ "l") (Some ($ "m"))]]]] in
  doc_ok true d = true /\
  wr_doc d = lines_text [$ "== title =="; []; $ "a **b**"; $ "c"; []; $ "----"; []; $ "* x"; $ "*# y"; $ "* {{{z}}}"; [];
                         $ "{{{"; $ "**k**"; $ "}}}"; []; $ "|=h|"; $ "|[[l|m]]|"] /\
  fst (creole2html blog_mode no_md (wr_doc d)) = Ok (lines_text
    [$ "<h2>title</h2>"; []; $ "<p>a <strong>b</strong><br />"; $ "c</p>"; []; $ "<hr />"; [];
     $ "<ul>"; [9] ++ $ "<li>x"; [9] ++ $ "<ol>"; [9; 9] ++ $ "<li>y</li>"; [9] ++ $ "</ol></li>"; [9] ++ $ "<li><code>z</code></li>"; $ "</ul>";
     $ "<pre>"; $ "**k**"; $ "</pre>"; []; $ "<table>"; $ "<tr>"; [9] ++ $ "<th>h</th>"; $ "</tr>"; $ "<tr>"; [9] ++ $ "<td><a href=""l"">m</a></td>"; $ "</tr>"; $ "</table>"]).
Proof. vm_compute. repeat split. Qed.

(** ** C51 *)
(** two unambiguous blocks, an empty line between them *)
Definition compose (blog : bool) (b1 b2 : block) : Prop :=
  fst (creole2html (mkopts blog (Some 1%Z) false) no_md (wr_block b1 ++ [10; 10] ++ wr_block b2)) =
  Ok (html_block blog false b1 ++ gap b1 ++ html_block blog false b2).
Theorem C51_blog : forall b1 b2, block_ok true b1 = true -> block_ok true b2 = true -> compose true b1 b2.
Proof.
  intros b1 b2 H1 H2. unfold compose. pose proof (document_spec true (Some 1%Z) false no_md [b1; b2]) as K.
  unfold doc_ok in K. cbn [forallb tl after_blank orb andb] in K. rewrite H1, H2 in K. cbn [wr_doc html_doc] in K. rewrite K by reflexivity. reflexivity.
Qed.
Print Assumptions C51_blog.
Theorem C51_wiki_refuted :
  ~ (forall b1 b2, block_ok false b1 = true -> block_ok false b2 = true -> compose false b1 b2).
Proof.
  intro H. specialize (H (BPara [[IText ($ "a")]]) (BHead 1 ($ " ") ($ "b") []) eq_refl eq_refl). revert H. vm_compute. discriminate.
Qed.
Print Assumptions C51_wiki_refuted.
Theorem C51_wiki_code_refuted : exists b1 lines, block_ok false b1 = true /\ block_ok false (BCode lines) = true /\ ~ compose false b1 (BCode lines).
Proof. exists (BPara [[IText ($ "a")]]), [$ "b"]. split; [reflexivity|]. split; [reflexivity|]. vm_compute. discriminate. Qed.
Print Assumptions C51_wiki_code_refuted.
Example C51_case :
  fst (creole2html wiki_mode no_md (lines_text [$ "a"; []; $ "= b"])) = Ok (lines_text [$ "<p>a</p>"; []; $ "<p>= b</p>"]) /\
  fst (creole2html blog_mode no_md (lines_text [$ "a"; []; $ "= b"])) = Ok (lines_text [$ "<p>a</p>"; []; $ "<h1>b</h1>"]).
Proof. vm_compute. auto. Qed.

(** ** C52 *)
Theorem C52_lists : forall blog v s md o items, items <> [] -> forallb item_ok items = true ->
  creole2html (mkopts blog v s) md (lines_text (flat_map (wr_item [list_mark o]) items)) = (Ok (html_list s 0 o items), md).
Proof.
  intros blog v s md o items H1 H2. apply (one_block blog v s md (BList o items)). cbn [block_ok]. rewrite H2. destruct items; [contradiction|reflexivity].
Qed.
Print Assumptions C52_lists.
Example C52_case : let l := [LI [IFace Bold [IText ($ "a")]] true [LI [IText ($ "b")] false [LI [IText ($ "c")] false []]; LI [IText ($ "d")] false []]; LI [IText ($ "e")] false []] in
  forallb item_ok l = true /\
  lines_text (flat_map (wr_item [42]) l) = lines_text [$ "* **a**"; $ "*# b"; $ "*#* c"; $ "*# d"; $ "* e"] /\
  fst (creole2html wiki_mode no_md (lines_text (flat_map (wr_item [42]) l))) = Ok (lines_text
    [$ "<ul>"; [9] ++ $ "<li><strong>a</strong>"; [9] ++ $ "<ol>"; [9; 9] ++ $ "<li>b"; [9; 9] ++ $ "<ul>"; [9; 9; 9] ++ $ "<li>c</li>";
     [9; 9] ++ $ "</ul></li>"; [9; 9] ++ $ "<li>d</li>"; [9] ++ $ "</ol></li>"; [9] ++ $ "<li>e</li>"; $ "</ul>"]).
Proof. vm_compute. repeat split. Qed.

(** ** C53 *)
Theorem C53_tables : forall v s md rows, rows <> [] -> forallb (fun r => nonempty r && forallb cell_ok r) rows = true ->
  creole2html (mkopts true v s) md (lines_text (map wr_row rows)) =
  (Ok ($ "<table>" ++ [10] ++ flat_map (html_row s) rows ++ $ "</table>"), md).
Proof.
  intros v s md rows H1 H2. apply (one_block true v s md (BTable rows)). cbn [block_ok]. rewrite H2. destruct rows; [contradiction|reflexivity].
Qed.
Print Assumptions C53_tables.
Theorem C53_wiki_row : forall v s md r, r <> [] -> forallb cell_ok r = true ->
  creole2html (mkopts false v s) md (wr_row r) = (Ok ($ "<table>" ++ [10] ++ html_row s r ++ $ "</table>"), md).
Proof.
  intros v s md r H1 H2. pose proof (one_block false v s md (BTable [r])) as K. cbn [block_ok forallb wr_block map lines_text html_block flat_map] in K.
  rewrite H2, app_nil_r in K. apply K. destruct r; [contradiction|reflexivity].
Qed.
Print Assumptions C53_wiki_row.
(** without blog line breaks a second row is lost *)
Theorem C53_wiki_refuted : exists rows, forallb (fun r => nonempty r && forallb cell_ok r) rows = true /\
  fst (creole2html wiki_mode no_md (lines_text (map wr_row rows))) <>
  Ok ($ "<table>" ++ [10] ++ flat_map (html_row false) rows ++ $ "</table>").
Proof. exists [[mkcell false [IText ($ "a")]]; [mkcell false [IText ($ "b")]]]. split; [reflexivity|]. vm_compute. discriminate. Qed.
Print Assumptions C53_wiki_refuted.
Example C53_case : let r := [[mkcell true [IText ($ "a")]; mkcell false [IImage ($ "p") (Some ($ "q")) (Some (1, 2)); IText ($ " b")]]; [mkcell false [IFace Bold [IText ($ "c")]]]] in
  forallb (fun r => nonempty r && forallb cell_ok r) r = true /\ lines_text (map wr_row r) = lines_text [$ "|=a|{{p|q|1x2}} b|"; $ "|**c**|"] /\
  fst (creole2html blog_mode no_md (lines_text (map wr_row r))) = Ok (lines_text
   [$ "<table>"; $ "<tr>"; [9] ++ $ "<th>a</th>"; [9] ++ $ "<td><img src=""p"" title=""q"" alt=""q"" width=""1"" height=""2"" /> b</td>"; $ "</tr>";
    $ "<tr>"; [9] ++ $ "<td><strong>c</strong></td>"; $ "</tr>"; $ "</table>"]).
Proof. vm_compute. repeat split. Qed.
