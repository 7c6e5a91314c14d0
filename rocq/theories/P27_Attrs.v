(** * Attributes without a meaning, in html of any shape (C79)

    Only statements, examples and assumptions; the vocabulary is in Spec29.v and Spec31.v. *)
From Coq Require Import String List Arith NArith ZArith Bool Lia.
From Verif Require Import PyStr Utils Res HtmlTok HtmlBase Html2X Spec2 Spec10 Spec11 Spec29 Spec31 AttrSoup.
Import ListNotations.
Open Scope N_scope.

(** ** C79 *)
Theorem C79_creole : forall (u : unknown) (strict : bool) ps ps' html html',
  Forall2 (same_part (creole_uses strict)) ps ps' -> soup ps html -> soup ps' html' -> html2creole u strict html = html2creole u strict html'.
Proof. exact creole_attrs. Qed.
Print Assumptions C79_creole.
Theorem C79_textile : forall (u : unknown) ps ps' html html',
  Forall2 (same_part textile_uses) ps ps' -> soup ps html -> soup ps' html' -> html2textile u html = html2textile u html'.
Proof. exact textile_attrs. Qed.
Print Assumptions C79_textile.
Theorem C79_markdown : forall (u : unknown) ps ps' html html',
  Forall2 (same_part markdown_uses) ps ps' -> soup ps html -> soup ps' html' -> html2markdown u html = html2markdown u html'.
Proof. exact markdown_attrs. Qed.
Print Assumptions C79_markdown.
Theorem C79_rest : forall (u : unknown) ps ps' html html',
  Forall2 (same_part rest_uses) ps ps' -> soup ps html -> soup ps' html' -> html2rest u html = html2rest u html'.
Proof. exact rest_attrs. Qed.
Print Assumptions C79_rest.
(** the spelling of the tags makes no difference either, whatever the shape of the html *)
Theorem C79_spelling : forall (u : unknown) (strict : bool) ps html html', soup ps html -> soup ps html' ->
  html2creole u strict html = html2creole u strict html' /\ html2textile u html = html2textile u html' /\
  html2markdown u html = html2markdown u html' /\ html2rest u html = html2rest u html'.
Proof. exact soup_spelling. Qed.
Print Assumptions C79_spelling.
(** every sequence of plain parts can be written *)
Theorem C79_plain : forall ps, Forall part_plain ps -> soup ps (flat_map part_src ps).
Proof. exact soup_plain. Qed.
Print Assumptions C79_plain.

(** an example: tags that nobody closes, closing tags that nobody opened *)
Definition bare_soup : list part :=
  [ Open ($ "p") []; Txt ($ "a "); Open ($ "b") []; Txt ($ "c"); Close ($ "p"); Txt ($ " &amp; d"); Close ($ "li"); Single ($ "img") [($ "src", VStr ($ "i.png")); ($ "alt", VStr ($ "t"))];
    Open ($ "h2") []; Txt ($ "head"); Close ($ "h3"); Open ($ "a") [($ "href", VStr ($ "x"))]; Txt ($ "y"); Open ($ "center") [($ "id", VStr ($ "z"))] ].
Definition full_soup : list part :=
  [ Open ($ "p") [($ "class", VStr ($ "q")); ($ "style", VStr ($ "r"))]; Txt ($ "a "); Open ($ "b") [($ "id", VStr ($ "1"))]; Txt ($ "c"); Close ($ "p"); Txt ($ " &amp; d"); Close ($ "li");
    Single ($ "img") [($ "border", VStr ($ "0")); ($ "alt", VStr ($ "old")); ($ "src", VStr ($ "i.png")); ($ "alt", VStr ($ "t")); ($ "width", VStr ($ "3")); ($ "height", VStr ($ "4"))];
    Open ($ "h2") [($ "align", VStr ($ "left"))]; Txt ($ "head"); Close ($ "h3"); Open ($ "a") [($ "target", VStr ($ "new")); ($ "href", VStr ($ "x")); ($ "title", VStr ($ "t"))]; Txt ($ "y"); Open ($ "center") [($ "id", VStr ($ "z"))] ].
Ltac plain := repeat (apply Forall_cons; [cbn [part_plain]; first [split; vm_compute; reflexivity | vm_compute; reflexivity | apply readable_plain; vm_compute; reflexivity
  | apply read_char; [discriminate|discriminate|]; apply (read_name ($ "amp")); [vm_compute; reflexivity|]; apply readable_plain; vm_compute; reflexivity]|]); apply Forall_nil.
Example C79_bare : Forall part_plain bare_soup.
Proof. unfold bare_soup. plain. Qed.
Example C79_full : Forall part_plain full_soup.
Proof. unfold full_soup. plain. Qed.
Ltac alike := cbn [same_part]; first [reflexivity | split; [reflexivity|]; vm_compute; first [reflexivity | intros k I; repeat (destruct I as [<-|I]; [reflexivity|]); destruct I]].
Example C79_alike : Forall2 (same_part (creole_uses true)) bare_soup full_soup /\ Forall2 (same_part textile_uses) bare_soup full_soup /\ Forall2 (same_part rest_uses) bare_soup full_soup.
Proof. unfold bare_soup, full_soup. repeat split; repeat (apply Forall2_cons; [alike|]); apply Forall2_nil. Qed.
Example C79_example : html2creole escape_unknown_nodes true (flat_map part_src full_soup) =
  Ok ($ "a **c**& d" ++ [10; 10] ++ $ "{{i.png|t}}== head" ++ [10; 10] ++ $ "[[x|y&lt;center id=""z"" /&gt;]]").
Proof.
  rewrite <- (C79_creole escape_unknown_nodes true bare_soup full_soup _ _ (proj1 C79_alike) (C79_plain _ C79_bare) (C79_plain _ C79_full)). vm_compute. reflexivity.
Qed.
