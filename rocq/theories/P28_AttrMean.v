(** * What the attributes of links and images mean (C80)

    Only statements, examples and assumptions; the vocabulary is in Spec17.v, Spec29.v, Spec31.v
    and Spec32.v. *)
From Coq Require Import String List Arith NArith ZArith Bool Lia.
From Verif Require Import PyStr Utils Res HtmlTok HtmlBase Html2X Spec2 Spec10 Spec11 Spec17 Spec29 Spec31 Spec32 AttrMean.
Import ListNotations.
Open Scope N_scope.

(** ** C80: images *)
Theorem C80_creole_image : forall u strict a src t html, forallb attr_plain a = true -> image_html a html -> source ($ "src") a src -> ~ in_place src -> image_text a src t ->
  html2creole u strict html = Ok ($ "{{" ++ src ++ $ "|" ++ t ++ image_size strict a ++ $ "}}").
Proof. exact creole_image. Qed.
Print Assumptions C80_creole_image.
Theorem C80_textile_image : forall u a src t html, forallb attr_plain a = true -> image_html a html -> source ($ "src") a src -> ~ in_place src -> image_text a src t ->
  html2textile u html = Ok ($ "!" ++ src ++ $ "(" ++ t ++ $ ")!").
Proof. exact textile_image. Qed.
Print Assumptions C80_textile_image.
Theorem C80_markdown_image : forall u a ad html, forallb attr_plain a = true -> image_html a html -> addr_ok ad = true -> source ($ "src") a (show_addr ad) ->
  html2markdown u html = Ok ($ "![" ++ given ($ "alt") a ++ $ "](" ++ show_addr (quoted ad) ++ (if is_nil (given ($ "alt") a) then [] else quote_title (given ($ "title") a)) ++ $ ")").
Proof. exact markdown_image. Qed.
Print Assumptions C80_markdown_image.
Theorem C80_rest_image : forall u a src t html, forallb attr_plain a = true -> image_html a html -> source ($ "src") a src -> ~ in_place src -> image_text a src t -> tight src ->
  html2rest u html = Ok ($ "|" ++ t ++ $ "|" ++ [10; 10] ++ $ ".. |" ++ t ++ $ "| image:: " ++ src).
Proof. exact rest_image. Qed.
Print Assumptions C80_rest_image.
(** the text is there for every image *)
Theorem C80_image_text : forall a src, exists t, image_text a src t.
Proof. exact (fun a src => ex_intro _ _ (image_text_ex a src)). Qed.
Print Assumptions C80_image_text.
Theorem C80_in_place : forall u strict a src html, forallb attr_plain a = true -> image_html a html -> source ($ "src") a src -> in_place src ->
  html2creole u strict html = Ok [] /\ html2textile u html = Ok [] /\ html2rest u html = Ok [].
Proof. exact image_in_place. Qed.
Print Assumptions C80_in_place.
Theorem C80_no_source : forall u strict a html, forallb attr_plain a = true -> image_html a html -> absent ($ "src") a ->
  html2creole u strict html = Exc EKeyError /\ html2textile u html = Exc EKeyError /\ html2markdown u html = Exc EKeyError /\ html2rest u html = Exc EKeyError.
Proof. exact image_no_source. Qed.
Print Assumptions C80_no_source.

(** ** C80: links *)
Theorem C80_creole_link : forall u strict a ws html, forallb attr_plain a = true -> ws <> [] -> forallb word ws = true -> link_html a ws html ->
  (forall h, source ($ "href") a h -> html2creole u strict html = Ok (if str_eqb (words ws) h then $ "[[" ++ h ++ $ "]]" else $ "[[" ++ h ++ $ "|" ++ words ws ++ $ "]]")) /\
  (absent ($ "href") a -> html2creole u strict html = Ok (words ws)).
Proof. exact creole_link. Qed.
Print Assumptions C80_creole_link.
Theorem C80_textile_link : forall u a ws html, forallb attr_plain a = true -> ws <> [] -> forallb word ws = true -> link_html a ws html ->
  (forall h, source ($ "href") a h -> tight h -> html2textile u html = Ok ($ """" ++ words ws ++ $ """:" ++ h)) /\
  (absent ($ "href") a -> html2textile u html = Exc EKeyError).
Proof. exact textile_link. Qed.
Print Assumptions C80_textile_link.
Theorem C80_markdown_link : forall u a ws html, forallb attr_plain a = true -> ws <> [] -> forallb word ws = true -> link_html a ws html ->
  (forall ad, addr_ok ad = true -> source ($ "href") a (show_addr ad) ->
    html2markdown u html = Ok ($ "[" ++ words ws ++ $ "](" ++ show_addr (quoted ad) ++ quote_title (given ($ "title") a) ++ $ ")")) /\
  (absent ($ "href") a -> html2markdown u html = Exc EKeyError).
Proof. exact markdown_link. Qed.
Print Assumptions C80_markdown_link.
Theorem C80_rest_link : forall u a ws html, forallb attr_plain a = true -> ws <> [] -> forallb word ws = true -> link_html a ws html ->
  (forall h, source ($ "href") a h -> html2rest u html = Ok ($ "`" ++ words ws ++ $ " <" ++ h ++ $ ">`_")) /\
  (absent ($ "href") a -> html2rest u html = Exc EKeyError).
Proof. exact rest_link. Qed.
Print Assumptions C80_rest_link.

(** examples *)
Definition pic : attrs := [($ "border", VStr ($ "0")); ($ "src", VStr ($ "img/a b.png")); ($ "width", VStr ($ "3")); ($ "alt", VStr []); ($ "height", VStr ($ "4"))].
Definition pic_html : str := $ "<IMG border='0' SRC=""img/a b.png"" width=3 alt="""" height=""4"" />".
Ltac same := repeat (apply Forall2_cons; [first [left; reflexivity|right; split; reflexivity]|]); apply Forall2_nil.
Ltac nm := split; [same|first [discriminate|reflexivity]].
Ltac at_ i n j k w := apply (more_attrs _ _ (gap (S i) ++ n ++ gap j ++ $ "=" ++ gap k ++ w)); [exists i, n, j, k, w; split; [reflexivity|split; [same|]]|].
Example C80_pic : image_html pic pic_html /\ forallb attr_plain pic = true /\ source ($ "src") pic ($ "img/a b.png") /\ ~ in_place ($ "img/a b.png") /\ tight ($ "img/a b.png").
Proof.
  split; [|split; [vm_compute; reflexivity|split; [vm_compute; reflexivity|split; [intros [E|(r & E)]; discriminate E|exists ($ "img/a b.pn"), 103; split; reflexivity]]]].
  apply (single_written _ _ ($ "IMG") ($ " border='0' SRC=""img/a b.png"" width=3 alt="""" height=""4""") 1); [nm| |discriminate].
  at_ 0%nat ($ "border") 0%nat 0%nat ($ "'0'"); [apply (in_single ($ "0")); intros [X|[]]; discriminate X|].
  at_ 0%nat ($ "SRC") 0%nat 0%nat ($ """img/a b.png"""); [apply (in_double ($ "img/a b.png"))|]. at_ 0%nat ($ "width") 0%nat 0%nat ($ "3"); [apply in_none; reflexivity|].
  at_ 0%nat ($ "alt") 0%nat 0%nat ($ """"""); [apply (in_double [])|]. at_ 0%nat ($ "height") 0%nat 0%nat ($ """4"""); [apply (in_double ($ "4"))|constructor].
Qed.
Example C80_pic_text : image_text pic ($ "img/a b.png") ($ "a b.png").
Proof.
  split; [|split].
  - intros _ _. split; [cbn; intuition discriminate|]. exists ($ "img/"). split; [reflexivity|]. right. exists ($ "img"). reflexivity.
  - vm_compute. intro H. inversion H.
  - intros _ H. exfalso. apply H. reflexivity.
Qed.
Example C80_pic_creole : html2creole raise_unknown_node false pic_html = Ok ($ "{{img/a b.png|a b.png|4x3}}") /\ html2creole raise_unknown_node true pic_html = Ok ($ "{{img/a b.png|a b.png}}").
Proof. destruct C80_pic as (P1 & P2 & P3 & P4 & _). split; rewrite (C80_creole_image _ _ pic _ _ _ P2 P1 P3 P4 C80_pic_text); reflexivity. Qed.
Definition ref : attrs := [($ "title", VStr ($ "see ""it""")); ($ "href", VStr ($ "x y")); ($ "rel", VStr ($ "z"))].
Definition ref_html : str := $ "<a TITLE='see &quot;it&quot;' href=""x y"" rel = z >one two</A>".
Example C80_ref : link_html ref [$ "one"; $ "two"] ref_html /\ forallb attr_plain ref = true /\ source ($ "href") ref (show_addr (mkaddr None None ($ "x y") None None)) /\ addr_ok (mkaddr None None ($ "x y") None None) = true.
Proof.
  split; [|repeat split; vm_compute; reflexivity]. exists ($ "<a TITLE='see &quot;it&quot;' href=""x y"" rel = z >"), ($ "</A>"). split; [|split; [apply (close_written _ ($ "A") 0); nm|reflexivity]].
  apply (open_written _ _ ($ "a") ($ " TITLE='see &quot;it&quot;' href=""x y"" rel = z") 1); [nm|].
  at_ 0%nat ($ "TITLE") 0%nat 0%nat ($ "'see &quot;it&quot;'"); [apply (in_single ($ "see ""it""")); cbn; intuition discriminate|].
  at_ 0%nat ($ "href") 0%nat 0%nat ($ """x y"""); [apply (in_double ($ "x y"))|]. at_ 0%nat ($ "rel") 1%nat 1%nat ($ "z"); [apply in_none; reflexivity|constructor].
Qed.
Example C80_ref_markdown : html2markdown raise_unknown_node ref_html = Ok ($ "[one two](x%20y ""see ""it"""")").
Proof.
  destruct C80_ref as (P1 & P2 & P3 & P4). destruct (C80_markdown_link raise_unknown_node ref [$ "one"; $ "two"] ref_html P2 ltac:(discriminate) eq_refl P1) as [H _]. rewrite (H _ P4 P3). vm_compute. reflexivity.
Qed.

(** an attribute without a value is not the same as none: the word None (or the python text of no
    bytes) becomes the address, and an image of this kind makes the conversion fail *)
Theorem C80_bare_refuted : forall u strict,
  (html2creole u strict ($ "<a href>x</a>") = Ok ($ "[[None|x]]") /\ html2textile u ($ "<a href>x</a>") = Ok ($ """x"":None") /\
   html2markdown u ($ "<a href>x</a>") = Ok ($ "[x](b'')") /\ html2rest u ($ "<a href>x</a>") = Ok ($ "`x <None>`_")) /\
  (html2creole u strict ($ "<img src />") = Exc EAttributeError /\ html2textile u ($ "<img src />") = Exc EAttributeError /\
   html2markdown u ($ "<img src />") = Ok ($ "![](b'')") /\ html2rest u ($ "<img src />") = Exc EAttributeError).
Proof. intros u strict. repeat split; destruct strict; vm_compute; reflexivity. Qed.
Print Assumptions C80_bare_refuted.
