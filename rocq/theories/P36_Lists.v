(** * Properties of creole lists of any shape (C90)

    Only statements, examples and assumptions; the vocabulary is in Spec39.v. *)
From Coq Require Import String List Arith NArith ZArith Bool Lia.
From Verif Require Import PyStr Utils Res CreoleParser HtmlEmitter Spec4 Spec5 Spec39 FreeList.
Import ListNotations.
Open Scope N_scope.

(** ** C90 *)
Theorem C90_lists_of_any_shape : forall blog verbose strict md d, fdoc_ok blog d = true ->
  creole2html (mkopts blog verbose strict) md (wr_fdoc d) = (Ok (html_fdoc blog strict d), md).
Proof. exact free_document_spec. Qed.
Print Assumptions C90_lists_of_any_shape.
(** lines that skip depths, come back to depths never used, and change the kind *)
Definition odd_list : list lline :=
  [ mkline ($ "*") [IText ($ "a")]; mkline ($ "***") [IText ($ "b")]; mkline ($ "*#") [IFace Bold [IText ($ "c")]];
    mkline ($ "##") [IText ($ "d"); IBreak; IText ($ "e")]; mkline ($ "#") [IText ($ "f")]; mkline ($ "##**") [IText ($ "<")]; mkline ($ "#") [IText ($ "g")] ].
Example C90_case : fdoc_ok true [FBlock BRule; FList odd_list; FBlock (BPara [[IText ($ "end")]])] = true /\
  html_fdoc true false [FBlock BRule; FList odd_list; FBlock (BPara [[IText ($ "end")]])] =
  $ "<hr />" ++ [10; 10] ++
  $ "<ul>" ++ [10] ++
  [9] ++ $ "<li>a" ++ [10] ++
  [9; 9] ++ $ "<ul>" ++ [10] ++
  [9; 9; 9] ++ $ "<li>b" ++ [10] ++
  [9] ++ $ "<ol>" ++ [10] ++
  [9; 9] ++ $ "<li><strong>c</strong></li>" ++ [10] ++
  [9; 9] ++ $ "<li>d<br />" ++ [10] ++ [9; 9] ++ $ "e" ++ [10] ++
  $ "<ol>" ++ [10] ++
  [9] ++ $ "<li>f" ++ [10] ++
  [9; 9; 9] ++ $ "<ul>" ++ [10] ++
  [9; 9; 9; 9] ++ $ "<li>&lt;</li>" ++ [10] ++
  [9; 9; 9] ++ $ "</ul></li>" ++ [10] ++
  [9] ++ $ "<li>g</li>" ++ [10] ++
  $ "</ol></li>" ++ [10] ++
  [9] ++ $ "</ol></li>" ++ [10] ++
  [9; 9] ++ $ "</ul></li>" ++ [10] ++
  $ "</ul>" ++ [10] ++
  $ "<p>end</p>".
Proof. split; reflexivity. Qed.

(** the number of bullets does not determine how deep an item is shown: with two bullets after
    three, the item is shown inside of the one with three *)
Theorem C90_fewer_bullets_refuted : forall strict md a b c, item_text_ok a = true -> item_text_ok b = true -> item_text_ok c = true ->
  creole2html (mkopts true None strict) md ($ "* " ++ wr_inls a ++ [10] ++ $ "*** " ++ wr_inls b ++ [10] ++ $ "** " ++ wr_inls c) =
  (Ok ($ "<ul>" ++ [10] ++ [9] ++ $ "<li>" ++ html_inls strict (br ++ [9]) a ++ [10] ++
       [9; 9] ++ $ "<ul>" ++ [10] ++ [9; 9; 9] ++ $ "<li>" ++ html_inls strict (br ++ [9; 9; 9]) b ++ [10] ++
       [9] ++ $ "<ul>" ++ [10] ++ [9; 9] ++ $ "<li>" ++ html_inls strict (br ++ [9; 9]) c ++ $ "</li>" ++ [10] ++ [9] ++ $ "</ul></li>" ++ [10] ++
       [9; 9] ++ $ "</ul></li>" ++ [10] ++ $ "</ul>"), md).
Proof.
  intros strict md a b c Ha Hb Hc. pose proof (C90_lists_of_any_shape true None strict md [FList [mkline ($ "*") a; mkline ($ "***") b; mkline ($ "**") c]]) as T.
  unfold fdoc_ok in T. cbn [forallb tl fblock_ok free_ok] in T. unfold line_fine in T. cbn [l_bullets l_text] in T. rewrite Ha, Hb, Hc in T. specialize (T eq_refl).
  exact T.
Qed.
Print Assumptions C90_fewer_bullets_refuted.
(** after an item of the other kind a list is not continued: the third item is shown inside of the second *)
Theorem C90_other_kind_refuted : forall strict md a b c, item_text_ok a = true -> item_text_ok b = true -> item_text_ok c = true ->
  creole2html (mkopts true None strict) md ($ "* " ++ wr_inls a ++ [10] ++ $ "# " ++ wr_inls b ++ [10] ++ $ "* " ++ wr_inls c) =
  (Ok ($ "<ul>" ++ [10] ++ [9] ++ $ "<li>" ++ html_inls strict (br ++ [9]) a ++ [10] ++
       $ "<ol>" ++ [10] ++ [9] ++ $ "<li>" ++ html_inls strict (br ++ [9]) b ++ [10] ++
       $ "<ul>" ++ [10] ++ [9] ++ $ "<li>" ++ html_inls strict (br ++ [9]) c ++ $ "</li>" ++ [10] ++ $ "</ul></li>" ++ [10] ++
       $ "</ol></li>" ++ [10] ++ $ "</ul>"), md).
Proof.
  intros strict md a b c Ha Hb Hc. pose proof (C90_lists_of_any_shape true None strict md [FList [mkline ($ "*") a; mkline ($ "#") b; mkline ($ "*") c]]) as T.
  unfold fdoc_ok in T. cbn [forallb tl fblock_ok free_ok] in T. unfold line_fine in T. cbn [l_bullets l_text] in T. rewrite Ha, Hb, Hc in T. specialize (T eq_refl).
  exact T.
Qed.
Print Assumptions C90_other_kind_refuted.
Example C90_texts : item_text_ok [IText ($ "a")] = true /\ item_text_ok [IFace Bold [IText ($ "b")]; IText ($ " x")] = true.
Proof. split; reflexivity. Qed.
