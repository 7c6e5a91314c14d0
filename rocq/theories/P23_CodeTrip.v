(** * Creole documents with code blocks: to html and back (C75)

    Only statements, examples and assumptions; the vocabulary is in Spec26.v and Spec27.v. *)
From Coq Require Import String List Arith NArith ZArith Bool Lia.
From Verif Require Import PyStr Utils Res HtmlTok HtmlBase Html2X HtmlEmitter Spec2 Spec4 Spec5 Spec10 Spec11 Spec12 Spec26 Spec27 CodeTrip.
Import ListNotations.
Open Scope N_scope.

(** ** C75 *)
Theorem C75_code_trip : forall v s md u strict d, coded d = true -> countable (map to_part d) ->
  exists html, creole2html (mkopts true v s) md (wr_tight d) = (Ok html, md) /\ html2creole u strict html = Ok (wr_tight d).
Proof. exact code_trip. Qed.
Print Assumptions C75_code_trip.
(** with an empty line after a code block: the empty line is dropped *)
Theorem C75_empty_line : forall v s md u strict d, coded d = true -> countable (map to_part d) ->
  exists html, creole2html (mkopts true v s) md (wr_doc d) = (Ok html, md) /\ html2creole u strict html = Ok (wr_tight d).
Proof. exact code_loose. Qed.
Print Assumptions C75_empty_line.
(** from html, written in any way *)
Theorem C75_html_trip : forall v s md u strict d html, coded d = true -> countable (map to_part d) -> pwritten (map to_part d) html ->
  exists t, html2creole u strict html = Ok t /\ creole2html (mkopts true v s) md t = (Ok (html_tight s d), md).
Proof. exact code_html_trip. Qed.
Print Assumptions C75_html_trip.
(** the blocks may be any unambiguous ones if only html is asked for *)
Theorem C75_shown : forall v s md d, forallb (block_ok true) d = true -> creole2html (mkopts true v s) md (wr_tight d) = (Ok (html_tight s d), md).
Proof. exact tight_spec. Qed.
Print Assumptions C75_shown.

Definition nl : str := [10].
Definition case_doc : list block :=
  [ BHead 2 ($ " ") ($ "Code") []; BCode [$ "if a < b:"; []; $ "    **go** & [["; $ " }}}"]; BPara [[IText ($ "more")]]; BCode [$ "x"]; BCode [$ " y"]; BList true [LI [IText ($ "z")] false []] ].
Example C75_case : coded case_doc = true /\ wr_tight case_doc =
  $ "== Code" ++ nl ++ nl ++ $ "{{{" ++ nl ++ $ "if a < b:" ++ nl ++ nl ++ $ "    **go** & [[" ++ nl ++ $ " }}}" ++ nl ++ $ "}}}" ++ nl ++ $ "more" ++ nl ++ nl ++ $ "{{{" ++ nl ++ $ "x" ++ nl ++ $ "}}}" ++ nl ++
  $ "{{{" ++ nl ++ $ " y" ++ nl ++ $ "}}}" ++ nl ++ $ "# z".
Proof. split; vm_compute; reflexivity. Qed.
Example C75_case_countable : countable (map to_part case_doc).
Proof. intros i H. change (List.length (map to_part case_doc)) with 6%nat in H. do 6 (destruct i as [|i]; [vm_compute; discriminate|]). lia. Qed.
Example C75_case_html : html_tight true case_doc =
  $ "<h2>Code</h2>" ++ nl ++ nl ++ $ "<pre>" ++ nl ++ $ "if a &lt; b:" ++ nl ++ nl ++ $ "    **go** &amp; [[" ++ nl ++ $ " }}}" ++ nl ++ $ "</pre>" ++ nl ++ $ "<p>more</p>" ++ nl ++ nl ++ $ "<pre>" ++ nl ++ $ "x" ++ nl ++ $ "</pre>" ++ nl ++
  $ "<pre>" ++ nl ++ $ " y" ++ nl ++ $ "</pre>" ++ nl ++ $ "<ol>" ++ nl ++ [9] ++ $ "<li>z</li>" ++ nl ++ $ "</ol>".
Proof. vm_compute. reflexivity. Qed.
(** a blank first line is lost *)
Theorem C75_blank_line_refuted : ~ (forall lines t, forallb (fun l => no_char [10; 13; 123; 125] l) lines = true -> forallb decimal t = true -> t <> [] ->
  exists html, fst (creole2html default_opts no_md (wr_tight [BCode lines; BPara [[IText t]]])) = Ok html /\ html2creole raise_unknown_node true html = Ok (wr_tight [BCode lines; BPara [[IText t]]])).
Proof. intro H. destruct (H [$ " "; $ "a"] ($ "1") eq_refl eq_refl ltac:(discriminate)) as (html & E1 & E2). vm_compute in E1. injection E1 as <-. vm_compute in E2. discriminate E2. Qed.
Print Assumptions C75_blank_line_refuted.
(** in wiki mode a code block after an empty line is not recognised *)
Theorem C75_wiki_mode_refuted : fst (creole2html (mkopts false None false) no_md (wr_tight [BRule; BCode [$ "x"]])) <> Ok (html_tight false [BRule; BCode [$ "x"]]).
Proof. vm_compute. discriminate. Qed.
Print Assumptions C75_wiki_mode_refuted.
