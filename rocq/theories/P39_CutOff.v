(** * A page that breaks off (C93)

    Only statements, examples and assumptions; the vocabulary is in Spec31.v, Spec40.v and Spec42.v. *)
From Coq Require Import String List Arith NArith ZArith Bool Lia.
From Verif Require Import PyStr Utils Res HtmlTok HtmlBase Html2X Spec2 Spec10 Spec11 Spec29 Spec31 AttrSoup Spec40 Spec42 CutOut.
Import ListNotations.
Open Scope N_scope.

(** ** C93 *)
Theorem C93_same_result : forall X t (u : unknown) (strict : bool), page X -> X = [] \/ visible_end X -> cut_off t ->
  html2creole u strict (X ++ t) = html2creole u strict X /\ html2textile u (X ++ t) = html2textile u X /\
  html2markdown u (X ++ t) = html2markdown u X /\ html2rest u (X ++ t) = html2rest u X.
Proof. exact cut_results. Qed.
Print Assumptions C93_same_result.

(** so not every text is shown: what looks like the beginning of a reference is lost at the end of
    the page; and not everything that breaks off is left out: some make the conversion fail *)
Theorem C93_text_refuted :
  html2creole raise_unknown_node true ($ "<p>AT&T</p>") = Ok ($ "AT&T") /\ html2creole raise_unknown_node true ($ "AT&T") = Ok ($ "AT") /\
  html2creole raise_unknown_node true ($ "one<") = Ok ($ "one") /\ html2creole raise_unknown_node true ($ "one&") = Ok ($ "one").
Proof. repeat split; vm_compute; reflexivity. Qed.
Print Assumptions C93_text_refuted.
Theorem C93_section_refuted :
  html2creole raise_unknown_node true ($ "one<![") = Ok ($ "one") /\
  html2creole raise_unknown_node true ($ "one<![ ") = Ok ($ "one") /\
  html2creole raise_unknown_node true ($ "one<![[") = Exc EAssertion /\ html2creole raise_unknown_node true ($ "one<![two three") = Exc EAssertion.
Proof. repeat split; vm_compute; reflexivity. Qed.
Print Assumptions C93_section_refuted.

(** an example: the page ends in the middle of the value of an attribute, after which another tag
    seems to begin *)
Example C93_case : page ($ "<p>one <b>two</b>") /\ visible_end ($ "<p>one <b>two</b>") /\ cut_off ($ "<a" ++ [10] ++ $ "href='three" ++ [10] ++ $ "<b class='") /\
  html2creole raise_unknown_node true ($ "<p>one <b>two</b><a" ++ [10] ++ $ "href='three" ++ [10] ++ $ "<b class='") = Ok ($ "one **two**").
Proof.
  split; [|split; [|split]].
  - exists [Open ($ "p") []; Txt ($ "one "); Open ($ "b") []; Txt ($ "two"); Close ($ "b")]. apply soup_plain.
    repeat (apply Forall_cons; [first [exact (conj eq_refl eq_refl)|reflexivity|(apply readable_plain; reflexivity)]|]); apply Forall_nil.
  - exists ($ "<p>one <b>two</b"), 62. split; reflexivity.
  - apply (cut_opening 97 ([10] ++ $ "href='three" ++ [10] ++ $ "<b class='")); [reflexivity| |]; cbv; intuition discriminate.
  - vm_compute. reflexivity.
Qed.
Example C93_case_others : cut_off ($ "</b") /\ cut_off ($ "<!-- a comment") /\ cut_off ($ "<?php echo 1") /\ cut_off ($ "&nbsp") /\ cut_off ($ "&#160") /\ cut_off ($ "&#xa0").
Proof.
  split; [apply (cut_closing ($ "b")); cbv; intuition discriminate|]. split; [apply (cut_declaration ($ "-- a comment")); [cbv; intuition discriminate|discriminate]|].
  split; [apply (cut_instruction ($ "php echo 1")); cbv; intuition discriminate|]. split; [apply (cut_name 110 ($ "bsp")); reflexivity|]. split; [apply (cut_number ($ "160")); reflexivity|].
  apply (cut_hexadecimal 120 ($ "a0")); [auto|reflexivity].
Qed.
