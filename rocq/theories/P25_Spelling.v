(** * Html in any spelling (C77)

    Only statements, examples and assumptions; the vocabulary is in Spec11.v and Spec29.v. *)
From Coq Require Import String List Arith NArith ZArith Bool Lia.
From Verif Require Import PyStr Utils Res HtmlTok HtmlBase Html2X Spec2 Spec10 Spec11 Spec16 Spec18 Spec19 Spec29 SpellDoc SpellOut.
Import ListNotations.
Open Scope N_scope.

(** ** C77 *)
Theorem C77_same_result : forall d html html' (u : unknown) (strict : bool), shape_doc d = true -> spelled d html -> spelled d html' ->
  html2creole u strict html = html2creole u strict html' /\ html2textile u html = html2textile u html' /\
  html2markdown u html = html2markdown u html' /\ html2rest u html = html2rest u html'.
Proof. exact spelled_results. Qed.
Print Assumptions C77_same_result.
(** the plain way of writing is one of the spellings *)
Theorem C77_written : forall d html, written d html -> spelled d html.
Proof. exact written_spelled. Qed.
Print Assumptions C77_written.
Theorem C77_creole : forall u strict d html, xdoc_ok d = true -> spelled d html -> html2creole u strict html = Ok (cre_doc d).
Proof. exact spelled_creole. Qed.
Print Assumptions C77_creole.
Theorem C77_textile : forall u d html, tex_doc_ok d = true -> spelled d html -> html2textile u html = Ok (tex_doc d).
Proof. exact spelled_textile. Qed.
Print Assumptions C77_textile.
Theorem C77_markdown : forall url u d html, md_doc_ok url d = true -> addresses url d -> spelled d html -> html2markdown u html = Ok (md_doc url d).
Proof. exact spelled_markdown. Qed.
Print Assumptions C77_markdown.
Theorem C77_rest : forall u d html, rst_doc_ok d = true -> spelled d html ->
  html2rest u html = match rst_doc d with Some t => Ok t | None => Exc ESubstitution end.
Proof. exact spelled_rest. Qed.
Print Assumptions C77_rest.

(** an example: letters in upper case, three kinds of quotes, spaces in the tags, <br> without
    a slash *)
Definition case_doc : list xblock :=
  [ XPara [XText ($ "see "); XLink ($ "a.html") [XFace ($ "b") [($ "class", VStr ($ "x")); ($ "id", VStr ($ "it's"))] [XText ($ "here")]]; XBreak; XText ($ "or "); XImage ($ "b.png") ($ "t") ($ "") ]; XRule ].
Definition case_html : str :=
  [10] ++ $ "<p  >" ++ [10] ++ $ "see " ++ $ "<A HREF = a.html >" ++ $ "<B Class='x' iD=""it's"">" ++ $ "here" ++ $ "</B >" ++ $ "</a>" ++ $ "<br>" ++ [32; 10] ++ $ "or " ++
  $ "<Img SRC=b.png title= 't' alt=""""/>" ++ $ "</p >" ++ $ "<hr  />" ++ [10].
Ltac same := repeat (apply Forall2_cons; [first [left; reflexivity|right; split; reflexivity]|]); apply Forall2_nil.
Ltac nm := split; [same|first [discriminate|reflexivity]].
Ltac at_ i n j k w := apply (more_attrs _ _ (gap (S i) ++ n ++ gap j ++ $ "=" ++ gap k ++ w)); [exists i, n, j, k, w; split; [reflexivity|split; [same|]]|].
Example C77_case_spelled : spelled case_doc case_html.
Proof.
  unfold spelled, case_doc, case_html. vm_compute tm_doc. cbn [fits_any].
  exists [10]. eexists. split; [reflexivity|]. split; [reflexivity|].
  eexists ($ "<p  >"), _. split; [apply (open_written _ _ ($ "p") [] 2); [nm|constructor]|]. split; [reflexivity|].
  exists [10]. eexists. split; [reflexivity|]. split; [reflexivity|].
  exists ($ "see "). eexists. split; [constructor|]. split; [reflexivity|].
  exists ($ "<A HREF = a.html >"). eexists. split.
  { apply (open_written _ _ ($ "A") ($ " HREF = a.html") 1); [nm|]. at_ 0%nat ($ "HREF") 1%nat 1%nat ($ "a.html"); [apply in_none; reflexivity|constructor]. }
  split; [reflexivity|].
  exists ($ "<B Class='x' iD=""it's"">"). eexists. split.
  { apply (open_written _ _ ($ "B") ($ " Class='x' iD=""it's""") 0); [nm|].
    at_ 0%nat ($ "Class") 0%nat 0%nat ($ "'x'"); [apply (in_single ($ "x")); intros [X|[]]; discriminate X|]. at_ 0%nat ($ "iD") 0%nat 0%nat ($ """it's"""); [apply (in_double ($ "it's"))|constructor]. }
  split; [reflexivity|].
  exists ($ "here"). eexists. split; [constructor|]. split; [reflexivity|].
  exists ($ "</B >"). eexists. split; [apply (close_written _ ($ "B") 1); nm|]. split; [reflexivity|].
  exists ($ "</a>"). eexists. split; [apply (close_written _ ($ "a") 0); nm|]. split; [reflexivity|].
  exists ($ "<br>"). eexists. split; [apply (break_written [] [] 0); constructor|]. split; [reflexivity|].
  exists [32; 10]. eexists. split; [reflexivity|]. split; [reflexivity|].
  exists ($ "or "). eexists. split; [constructor|]. split; [reflexivity|].
  exists ($ "<Img SRC=b.png title= 't' alt=""""/>"). eexists. split.
  { apply (single_written _ _ ($ "Img") ($ " SRC=b.png title= 't' alt=""""") 0); [nm| |intros _; exists ($ " SRC=b.png title= 't' alt="""); left; reflexivity].
    at_ 0%nat ($ "SRC") 0%nat 0%nat ($ "b.png"); [apply in_none; reflexivity|]. at_ 0%nat ($ "title") 0%nat 1%nat ($ "'t'"); [apply (in_single ($ "t")); intros [X|[]]; discriminate X|].
    at_ 0%nat ($ "alt") 0%nat 0%nat ($ """"""); [apply (in_double [])|constructor]. }
  split; [reflexivity|].
  exists ($ "</p >"). eexists. split; [apply (close_written _ ($ "p") 1); nm|]. split; [reflexivity|].
  exists []. eexists. split; [reflexivity|]. split; [reflexivity|].
  exists ($ "<hr  />"). eexists. split; [apply (single_written _ _ ($ "hr") [] 2); [nm|constructor|discriminate]|]. split; [reflexivity|].
  exists [10]. eexists. split; [reflexivity|]. split; reflexivity.
Qed.
Example C77_case_ok : xdoc_ok case_doc = true /\ shape_doc case_doc = true.
Proof. vm_compute. auto. Qed.
Example C77_case_creole : html2creole raise_unknown_node false case_html = Ok ($ "see [[a.html|**here**]]" ++ [10] ++ $ "or {{b.png|t}}" ++ [10; 10] ++ $ "----").
Proof. rewrite (C77_creole _ _ case_doc); [vm_compute; reflexivity|vm_compute; reflexivity|exact C77_case_spelled]. Qed.

(** what does matter: block elements in upper case keep the white space in them *)
Theorem C77_upper_block_refuted : ~ (forall t text, html2creole raise_unknown_node true ($ "<P>" ++ [32; 10] ++ text ++ $ "</P>" ++ t) = html2creole raise_unknown_node true ($ "<p>" ++ [32; 10] ++ text ++ $ "</p>" ++ t)).
Proof. intro H. specialize (H ($ " <P>b</P>") ($ "a")). vm_compute in H. discriminate H. Qed.
Print Assumptions C77_upper_block_refuted.
(** <br/> without the space is no line break to the white space rules *)
Theorem C77_tight_break_refuted : ~ (forall a b, html2creole raise_unknown_node true ($ "<p>" ++ a ++ $ "<br/>" ++ b ++ $ "</p>") = html2creole raise_unknown_node true ($ "<p>" ++ a ++ $ "<br />" ++ b ++ $ "</p>")).
Proof. intro H. specialize (H ($ "a") ($ " b")). vm_compute in H. discriminate H. Qed.
Print Assumptions C77_tight_break_refuted.
(** an image without the slash swallows the space after it *)
Theorem C77_open_image_refuted : ~ (forall src b, html2creole raise_unknown_node true ($ "<p>a <img src=""" ++ src ++ $ """>" ++ b ++ $ "</p>") = html2creole raise_unknown_node true ($ "<p>a <img src=""" ++ src ++ $ """ />" ++ b ++ $ "</p>")).
Proof. intro H. specialize (H ($ "x") ($ " b")). vm_compute in H. discriminate H. Qed.
Print Assumptions C77_open_image_refuted.
