(** * From creole to html and back (C40)

    Only statements, examples and assumptions; the vocabulary is in Spec4.v, Spec5.v, Spec11.v
    and Spec12.v. *)
From Coq Require Import String List Arith NArith ZArith Bool Lia.
From Verif Require Import PyStr Utils Res HtmlBase Html2X HtmlEmitter Spec4 Spec5 Spec11 Spec12 RoundTrip.
Import ListNotations.
Open Scope N_scope.

(** ** C40 *)
Theorem C40_round_trip : forall blog v s md u strict d, canonical blog d = true ->
  exists html, creole2html (mkopts blog v s) md (wr_doc d) = (Ok html, md) /\ html2creole u strict html = Ok (wr_doc d).
Proof. exact round_trip. Qed.
Print Assumptions C40_round_trip.
(** the other way: any html of such a document becomes the html that creole2html writes *)
Theorem C40_round_trip_html : forall blog v s md u strict d html, canonical blog d = true -> written (map to_xblock d) html ->
  exists t, html2creole u strict html = Ok t /\ creole2html (mkopts blog v s) md t = (Ok (html_doc blog s d), md).
Proof. exact round_trip_html. Qed.
Print Assumptions C40_round_trip_html.

Definition blog_mode := mkopts true (Some 1%Z) false.
Definition there_and_back (t : str) : res str :=
  match fst (creole2html blog_mode no_md t) with Ok html => html2creole transparent_unknown_nodes false html | Exc e => Exc e end.
Definition C40_doc : list block :=
  [ BHead 2 ($ " ") ($ "a & b") [];
    BPara [[IText ($ "x < y "); IFace Bold [IText ($ "b "); IFace Italic [IText ($ "i")]]; IText ($ ", z")]; [ILink ($ "http://x.org/?a&b") (Some ($ "t")); IText ($ " "); ILink ($ "here") None]];
    BList false [LI [IText ($ "one")] true [LI [IText ($ "in"); IBreak; IImage ($ "i.png") (Some ($ "pic")) None] false []]; LI [IFace Sub [IText ($ "2")]] false []];
    BRule;
    BPara [[IText ($ "end "); IRich ($ "home") [IImage ($ "h.png") (Some ($ "home")) None; IText ($ " ~*x*")]]];
    BList true [LI [IRich ($ "t") [IText ($ "one"); IBreak; IText ($ "two")]; IText ($ "!")] false []] ].
Example C40_case : canonical true C40_doc = true /\
  wr_doc C40_doc = lines_text [$ "== a & b"; []; $ "x < y **b //i//**, z"; $ "[[http://x.org/?a&b|t]] [[here]]"; []; $ "* one"; $ "*# in\\{{i.png|pic}}"; $ "* ,,2,,"; []; $ "----"; []; $ "end [[home|{{h.png|home}} ~*x*]]"; []; $ "# [[t|one\\two]]!"] /\
  there_and_back (wr_doc C40_doc) = Ok (wr_doc C40_doc).
Proof. vm_compute. auto. Qed.
(** the conditions are needed: unambiguous documents that are changed *)
Definition changed (d : list block) : Prop := doc_ok true d = true /\ there_and_back (wr_doc d) <> Ok (wr_doc d).
(** a list after a heading: two more empty lines *)
Theorem C40_list_after_heading_refuted : changed [BHead 1 ($ " ") ($ "h") []; BList false [LI [IText ($ "a")] false []]] /\
  there_and_back (lines_text [$ "= h"; []; $ "* a"]) = Ok (lines_text [$ "= h"; []; []; []; $ "* a"]).
Proof. split; [split; [reflexivity|vm_compute; discriminate]|vm_compute; reflexivity]. Qed.
Print Assumptions C40_list_after_heading_refuted.
(** a typeface at the end of an item with a nested list: a space is added *)
Theorem C40_nested_list_refuted : changed [BList false [LI [IFace Bold [IText ($ "a")]] false [LI [IText ($ "b")] false []]]] /\
  there_and_back (lines_text [$ "* **a**"; $ "** b"]) = Ok (lines_text [$ "* **a** "; $ "** b"]).
Proof. split; [split; [reflexivity|vm_compute; discriminate]|vm_compute; reflexivity]. Qed.
Print Assumptions C40_nested_list_refuted.
(** inline code: html2creole does not know the tag and keeps only the text *)
Theorem C40_inline_code_refuted : exists d, changed d /\ exists t, d = [BPara [[ICode t]]].
Proof. exists [BPara [[ICode ($ "x")]]]. split; [split; [reflexivity|vm_compute; discriminate]|]. exists ($ "x"). reflexivity. Qed.
Print Assumptions C40_inline_code_refuted.
(** two backslashes in a paragraph become a line break, tables are padded, escapes get lost *)
Theorem C40_others_refuted : changed [BPara [[IText ($ "a"); IBreak; IText ($ "b")]]] /\
  changed [BTable [[mkcell true [IText ($ "a")]; mkcell false [IText ($ "b")]]]] /\ changed [BPara [[IEsc 42; IText ($ "*")]]].
Proof. repeat split; vm_compute; discriminate. Qed.
Print Assumptions C40_others_refuted.
