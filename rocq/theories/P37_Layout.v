(** * White space in html of any shape (C91)

    Only statements, examples and assumptions; the vocabulary is in Spec31.v and Spec40.v. *)
From Coq Require Import String List Arith NArith ZArith Bool Lia.
From Verif Require Import PyStr Utils Res HtmlTok HtmlBase Html2X Spec2 Spec10 Spec11 Spec29 Spec31 AttrSoup Spec40 Relaid.
Import ListNotations.
Open Scope N_scope.

(** ** C91 *)
Theorem C91_same_result : forall html html' (u : unknown) (strict : bool), relaid html html' ->
  html2creole u strict html = html2creole u strict html' /\ html2textile u html = html2textile u html' /\
  html2markdown u html = html2markdown u html' /\ html2rest u html = html2rest u html'.
Proof. exact relaid_results'. Qed.
Print Assumptions C91_same_result.

(** the white space of an html page may not be changed freely: tabs beside an inline tag are
    dropped, so that words join *)
Theorem C91_tabs_refuted : forall X v Y n (u : unknown) (strict : bool), page X -> page Y -> inline_tag v ->
  let joins html html' := html2creole u strict html = html2creole u strict html' /\ html2textile u html = html2textile u html' /\
                          html2markdown u html = html2markdown u html' /\ html2rest u html = html2rest u html' in
  (in_text X -> joins (X ++ repeat 9 n ++ v ++ Y) (X ++ v ++ Y)) /\ (visible Y -> joins (X ++ v ++ repeat 9 n ++ Y) (X ++ v ++ Y)).
Proof. exact tabs_join. Qed.
Print Assumptions C91_tabs_refuted.
Theorem C91_other_refuted :
  (exists html, html2creole raise_unknown_node true html = Ok ($ "one**two**three") /\ html = $ "<p>one" ++ [9] ++ $ "<b>two</b>" ++ [9] ++ $ "three</p>") /\
  (exists html, html2creole raise_unknown_node true html = Ok ($ "one  two") /\ html = $ "<p>one" ++ [10; 10] ++ $ "two</p>") /\
  (exists html, html2creole raise_unknown_node true html = Ok ($ "one" ++ [9] ++ $ "two") /\ html = $ "<p>one" ++ [9] ++ $ "two</p>") /\
  (exists html, html2creole raise_unknown_node true html = Ok ($ "* **one** " ++ [10] ++ $ "** two") /\ html = $ "<ul><li><b>one</b> <ul><li>two</li></ul></li></ul>") /\
  (exists html, html2creole raise_unknown_node true html = Ok ($ "one " ++ [10] ++ $ "two") /\ html = $ "<p>one<br/>" ++ [10] ++ $ "two</p>").
Proof. split; [|split; [|split; [|split]]]; (eexists; split; [|reflexivity]; vm_compute; reflexivity). Qed.
Print Assumptions C91_other_refuted.

(** an example: a page written in one line, and laid out over many *)
Definition flat : str := $ "<h1>Title</h1><p>one <b>two</b> three<br />four</p>".
Definition laid : str :=
  [10] ++ $ "<h1>" ++ [10; 9] ++ $ "Title" ++ [32; 10] ++ $ "</h1>" ++ [10; 10] ++ $ "<p>" ++ [10] ++ $ "   one" ++ [10] ++ $ "<b>" ++ [10] ++ $ "two</b>" ++ [32; 10; 9] ++ $ "three<br />" ++ [13; 10] ++ $ "four" ++ [10] ++ $ "</p>" ++ [10].
Example C91_case_same : html2creole raise_unknown_node true laid = Ok ($ "= Title" ++ [10; 10] ++ $ "one **two** three" ++ [10] ++ $ "four") /\
  html2creole raise_unknown_node true flat = html2creole raise_unknown_node true laid.
Proof. vm_compute. auto. Qed.
Ltac pg l := exists l; apply soup_plain; repeat (apply Forall_cons; [first [exact (conj eq_refl eq_refl)|reflexivity|(apply readable_plain; reflexivity)]|]); apply Forall_nil.
Ltac tag p := split; [first [exact (conj eq_refl eq_refl)|reflexivity]|apply (part_src_written p); first [exact (conj eq_refl eq_refl)|reflexivity]].
Ltac shows := eexists _, _; split; [reflexivity|reflexivity].
Ltac ends k := exists k; eexists; split; [reflexivity|split; [reflexivity|discriminate]].
Example C91_case : relaid laid flat.
Proof.
  pose (h1 := Open ($ "h1") []). pose (T := Txt ($ "Title")). pose (h2 := Close ($ "h1")). pose (p1 := Open ($ "p") []). pose (b1 := Open ($ "b") []). pose (b2 := Close ($ "b")). pose (br := Single ($ "br") []). pose (p2 := Close ($ "p")).
  (* the ends of the page *)
  refine (re_then _ _ _ (re_ends ($ "<h1>" ++ [10; 9] ++ $ "Title" ++ [32; 10] ++ $ "</h1>" ++ [10; 10] ++ $ "<p>" ++ [10] ++ $ "   one" ++ [10] ++ $ "<b>" ++ [10] ++ $ "two</b>" ++ [32; 10; 9] ++ $ "three<br />" ++ [13; 10] ++ $ "four" ++ [10] ++ $ "</p>") [10] [10] _ eq_refl eq_refl) _).
  { pg [h1; Txt ([10; 9] ++ $ "Title" ++ [32; 10]); h2; Txt [10; 10]; p1; Txt ([10] ++ $ "   one" ++ [10]); b1; Txt ([10] ++ $ "two"); b2; Txt ([32; 10; 9] ++ $ "three"); br; Txt ([13; 10] ++ $ "four" ++ [10]); p2]. }
  (* <h1> and what follows it *)
  refine (re_then _ _ _ (re_after_block [] ($ "<h1>") [10; 9] ($ "Title" ++ [32; 10] ++ $ "</h1>" ++ [10; 10] ++ $ "<p>" ++ [10] ++ $ "   one" ++ [10] ++ $ "<b>" ++ [10] ++ $ "two</b>" ++ [32; 10; 9] ++ $ "three<br />" ++ [13; 10] ++ $ "four" ++ [10] ++ $ "</p>") _ _ _ eq_refl) _).
  { pg (@nil part). }
  { pg [Txt ($ "Title" ++ [32; 10]); h2; Txt [10; 10]; p1; Txt ([10] ++ $ "   one" ++ [10]); b1; Txt ([10] ++ $ "two"); b2; Txt ([32; 10; 9] ++ $ "three"); br; Txt ([13; 10] ++ $ "four" ++ [10]); p2]. }
  { exists ($ "h1"), []. split; [reflexivity|]. left. tag h1. }
  (* before </h1> *)
  refine (re_then _ _ _ (re_before_block ($ "<h1>Title") ($ "</h1>") [32; 10] ([10; 10] ++ $ "<p>" ++ [10] ++ $ "   one" ++ [10] ++ $ "<b>" ++ [10] ++ $ "two</b>" ++ [32; 10; 9] ++ $ "three<br />" ++ [13; 10] ++ $ "four" ++ [10] ++ $ "</p>") _ _ _ _ eq_refl) _).
  { pg [h1; T]. }
  { ends ($ "<h1>Titl"). }
  { pg [Txt [10; 10]; p1; Txt ([10] ++ $ "   one" ++ [10]); b1; Txt ([10] ++ $ "two"); b2; Txt ([32; 10; 9] ++ $ "three"); br; Txt ([13; 10] ++ $ "four" ++ [10]); p2]. }
  { exists ($ "h1"), []. split; [reflexivity|]. right. left. tag h2. }
  refine (re_then _ _ _ (re_after_block ($ "<h1>Title") ($ "</h1>") [10; 10] ($ "<p>" ++ [10] ++ $ "   one" ++ [10] ++ $ "<b>" ++ [10] ++ $ "two</b>" ++ [32; 10; 9] ++ $ "three<br />" ++ [13; 10] ++ $ "four" ++ [10] ++ $ "</p>") _ _ _ eq_refl) _).
  { pg [h1; T]. }
  { pg [p1; Txt ([10] ++ $ "   one" ++ [10]); b1; Txt ([10] ++ $ "two"); b2; Txt ([32; 10; 9] ++ $ "three"); br; Txt ([13; 10] ++ $ "four" ++ [10]); p2]. }
  { exists ($ "h1"), []. split; [reflexivity|]. right. left. tag h2. }
  (* after <p> *)
  refine (re_then _ _ _ (re_after_block ($ "<h1>Title</h1>") ($ "<p>") [10; 32; 32; 32] ($ "one" ++ [10] ++ $ "<b>" ++ [10] ++ $ "two</b>" ++ [32; 10; 9] ++ $ "three<br />" ++ [13; 10] ++ $ "four" ++ [10] ++ $ "</p>") _ _ _ eq_refl) _).
  { pg [h1; T; h2]. }
  { pg [Txt ($ "one" ++ [10]); b1; Txt ([10] ++ $ "two"); b2; Txt ([32; 10; 9] ++ $ "three"); br; Txt ([13; 10] ++ $ "four" ++ [10]); p2]. }
  { exists ($ "p"), []. split; [reflexivity|]. left. tag p1. }
  (* around <b> *)
  refine (re_then _ _ _ (re_before_inline ($ "<h1>Title</h1><p>one") ($ "<b>") [10] ([10] ++ $ "two</b>" ++ [32; 10; 9] ++ $ "three<br />" ++ [13; 10] ++ $ "four" ++ [10] ++ $ "</p>") _ _ _ _ eq_refl) _).
  { pg [h1; T; h2; p1; Txt ($ "one")]. }
  { ends ($ "<h1>Title</h1><p>on"). }
  { pg [Txt ([10] ++ $ "two"); b2; Txt ([32; 10; 9] ++ $ "three"); br; Txt ([13; 10] ++ $ "four" ++ [10]); p2]. }
  { left. exists ($ "b"), []. split; [reflexivity|]. left. tag b1. }
  refine (re_then _ _ _ (re_after_inline ($ "<h1>Title</h1><p>one ") ($ "<b>") [10] ($ "two</b>" ++ [32; 10; 9] ++ $ "three<br />" ++ [13; 10] ++ $ "four" ++ [10] ++ $ "</p>") _ _ _ _ eq_refl) _).
  { pg [h1; T; h2; p1; Txt ($ "one ")]. }
  { pg [Txt ($ "two"); b2; Txt ([32; 10; 9] ++ $ "three"); br; Txt ([13; 10] ++ $ "four" ++ [10]); p2]. }
  { shows. }
  { left. exists ($ "b"), []. split; [reflexivity|]. left. tag b1. }
  refine (re_then _ _ _ (re_both ($ "<h1>Title</h1><p>one") ($ "<b>") ($ "two</b>" ++ [32; 10; 9] ++ $ "three<br />" ++ [13; 10] ++ $ "four" ++ [10] ++ $ "</p>") _ _ _ _ _) _).
  { pg [h1; T; h2; p1; Txt ($ "one")]. }
  { ends ($ "<h1>Title</h1><p>on"). }
  { pg [Txt ($ "two"); b2; Txt ([32; 10; 9] ++ $ "three"); br; Txt ([13; 10] ++ $ "four" ++ [10]); p2]. }
  { shows. }
  { exists ($ "b"), []. split; [reflexivity|]. left. tag b1. }
  refine (re_then _ _ _ (re_back _ _ (re_before_after ($ "<h1>Title</h1><p>one") ($ "<b>") ($ "two</b>" ++ [32; 10; 9] ++ $ "three<br />" ++ [13; 10] ++ $ "four" ++ [10] ++ $ "</p>") _ _ _ _ _)) _).
  { pg [h1; T; h2; p1; Txt ($ "one")]. }
  { ends ($ "<h1>Title</h1><p>on"). }
  { pg [Txt ($ "two"); b2; Txt ([32; 10; 9] ++ $ "three"); br; Txt ([13; 10] ++ $ "four" ++ [10]); p2]. }
  { shows. }
  { exists ($ "b"), []. split; [reflexivity|]. left. tag b1. }
  (* a new line before three *)
  refine (re_then _ _ _ (re_lines ($ "<h1>Title</h1><p>one <b>two</b>") [32; 10; 9] ($ "three<br />" ++ [13; 10] ++ $ "four" ++ [10] ++ $ "</p>") _ _ _ _ eq_refl eq_refl) _).
  { pg [h1; T; h2; p1; Txt ($ "one "); b1; Txt ($ "two"); b2]. }
  { exists ($ "<h1>Title</h1><p>one <b>two</b"), 62. split; reflexivity. }
  { pg [Txt ($ "three"); br; Txt ([13; 10] ++ $ "four" ++ [10]); p2]. }
  { shows. }
  (* beside <br /> and </p> *)
  refine (re_then _ _ _ (re_after_block ($ "<h1>Title</h1><p>one <b>two</b> three") ($ "<br />") [13; 10] ($ "four" ++ [10] ++ $ "</p>") _ _ _ eq_refl) _).
  { pg [h1; T; h2; p1; Txt ($ "one "); b1; Txt ($ "two"); b2; Txt ($ " three")]. }
  { pg [Txt ($ "four" ++ [10]); p2]. }
  { exists ($ "br"), []. split; [reflexivity|]. right. right. tag br. }
  refine (re_then _ _ _ (re_before_block ($ "<h1>Title</h1><p>one <b>two</b> three<br />four") ($ "</p>") [10] [] _ _ _ _ eq_refl) _).
  { pg [h1; T; h2; p1; Txt ($ "one "); b1; Txt ($ "two"); b2; Txt ($ " three"); br; Txt ($ "four")]. }
  { ends ($ "<h1>Title</h1><p>one <b>two</b> three<br />fou"). }
  { pg (@nil part). }
  { exists ($ "p"), []. split; [reflexivity|]. right. left. tag p2. }
  apply re_same.
Qed.
