(** * C16: text content is neither invented, duplicated nor reordered *)
From Coq Require Import String List NArith ZArith Bool.
From Verif Require Import PyStr DocTree CreoleParser HtmlEmitter Spec Spec13 TocFacts TextOrder TextShown.
Import ListNotations.
Open Scope N_scope.

(** the text of the document tree, in document order, is part of the markup, in the same order *)
Theorem C16_tree_text : forall (blog : bool) (markup : str) (n : node) (u : list str),
  parse blog markup = Some (n, u) -> subseq (visible (texts n)) (visible markup).
Proof. exact text_order. Qed.
Print Assumptions C16_tree_text.
Example C16_tree_case : exists n u,
  parse true ($ "= h =" ++ [10] ++ $ "a //b// [[x|c]] {{{d}}} ~*" ++ [10] ++ $ "* e" ++ [10] ++ $ "|f|g|") = Some (n, u) /\
  visible (texts n) = $ "habcd*efg".
Proof. eexists _, _. split; [vm_compute; reflexivity | vm_compute; reflexivity]. Qed.

(** what a browser shows of the html is part of the markup, in the same order *)
Theorem C16_displayed_text : forall (blog : bool) (markup : str), ~ uses_toc blog markup ->
  exists html, fst (creole2html (mkopts blog (Some 0%Z) true) no_md markup) = Ok html /\
    subseq (visible (displayed html)) (visible markup).
Proof. exact displayed_order. Qed.
Print Assumptions C16_displayed_text.
Example C16_displayed_case :
  ~ uses_toc false ($ "= <h> & =" ++ [10] ++ $ "a //b// [[x|c]] {{i|j}} <<m>>") /\
  exists html, fst (creole2html (mkopts false (Some 0%Z) true) no_md ($ "= <h> & =" ++ [10] ++ $ "a //b// [[x|c]] {{i|j}} <<m>>")) = Ok html /\
    visible (displayed html) = $ "<h>&abc".
Proof.
  split; [apply text_uses_toc; vm_compute; reflexivity|].
  eexists. split; [vm_compute; reflexivity | vm_compute; reflexivity].
Qed.

(** white space is not covered: in wiki mode joined lines get a space the markup does not have *)
Theorem C16_white_space_refuted : exists markup n u,
  parse false markup = Some (n, u) /\ In 32 (texts n) /\ ~ In 32 markup.
Proof.
  exists ($ "a" ++ [10] ++ $ "b"). eexists _, _. split; [vm_compute; reflexivity|]. split; vm_compute; intuition discriminate.
Qed.
Print Assumptions C16_white_space_refuted.
