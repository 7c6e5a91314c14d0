(** * The installed programs creole2html, html2creole, html2textile and html2rest (C95)

    Only statements, examples and assumptions; the vocabulary is in Spec44.v, Spec8.v and the
    files of the document properties. *)
From Coq Require Import String List Arith NArith ZArith Bool Lia.
From Verif Require Import PyStr Utils Res UrlQuote HtmlTok HtmlBase Html2X HtmlEmitter Cmdline CliArgs Spec2 Spec8 Spec4 Spec5 Spec6 Spec7 Spec20 Spec10 Spec11 Spec16 Spec19 Spec24 Spec44 Programs.
From Verif Require Spec31 Spec32 P4_Documents P14_CleanTextile P16_CleanRest P20_Unknown P28_AttrMean AttrMean CleanEmit.
Import ListNotations.
Open Scope N_scope.

(** ** C95: documents *)
Theorem C95_creole2html : forall w src dst e args f d, command src dst e args -> ready w src dst e f ->
  pieces_ok true d = true -> holds f src (wr_pieces d) -> forallb scalar (plain_html d) = true ->
  exists l, run_program w ($ "creole2html") args f = Some (CDone, l) /\ holds (final l f) dst (strip (plain_html d)).
Proof. exact creole2html_runs. Qed.
Print Assumptions C95_creole2html.
Theorem C95_html2creole : forall w src dst e args f d html, command src dst e args -> ready w src dst e f ->
  w_doc_ok bare bare_text d = true -> written d html -> holds f src html -> forallb scalar (w_doc bare d) = true ->
  exists l, run_program w ($ "html2creole") args f = Some (CDone, l) /\ holds (final l f) dst (w_doc bare d).
Proof. exact html2creole_runs. Qed.
Print Assumptions C95_html2creole.
Theorem C95_html2textile : forall w src dst e args f d html, command src dst e args -> ready w src dst e f ->
  tex_doc_ok d = true -> written d html -> holds f src html -> forallb scalar (tex_doc d) = true ->
  exists l, run_program w ($ "html2textile") args f = Some (CDone, l) /\ holds (final l f) dst (tex_doc d).
Proof. exact html2textile_runs. Qed.
Print Assumptions C95_html2textile.
(** a text for two addresses: the destination is left empty *)
Theorem C95_html2rest : forall w src dst e args f d html, command src dst e args -> ready w src dst e f ->
  rst_doc_ok d = true -> written d html -> holds f src html ->
  match rst_doc d with
  | Some t => forallb scalar t = true -> exists l, run_program w ($ "html2rest") args f = Some (CDone, l) /\ holds (final l f) dst t
  | None => exists x l, run_program w ($ "html2rest") args f = Some (CFail x, l) /\ contents (final l f) dst = Some []
  end.
Proof. exact html2rest_runs. Qed.
Print Assumptions C95_html2rest.
(** sizes of images are read and written (width and height are swapped on the way to creole) *)
Theorem C95_creole2html_size : forall w src dst e args f a pic title x y z, command src dst e args -> ready w src dst e f ->
  around_ok 123 a z = true -> P4_Documents.src_ok pic = true -> P4_Documents.title_ok title = true -> no_char ($ "|") title = true ->
  P4_Documents.readable x -> P4_Documents.readable y ->
  let markup := a ++ ($ "{{" ++ pic ++ $ "|" ++ title ++ $ "|" ++ show_N x ++ $ "x" ++ show_N y ++ $ "}}") ++ z in
  let html := $ "<p>" ++ escape a ++ P4_Documents.image_tag pic title ($ " width=""" ++ show_N x ++ $ """ height=""" ++ show_N y ++ $ """") ++ escape z ++ $ "</p>" in
  block_start markup = false -> holds f src markup -> forallb scalar html = true ->
  exists l, run_program w ($ "creole2html") args f = Some (CDone, l) /\ holds (final l f) dst html.
Proof. exact creole2html_size. Qed.
Print Assumptions C95_creole2html_size.
Theorem C95_html2creole_size : forall w src dst e args f a pic t html, command src dst e args -> ready w src dst e f ->
  forallb Spec31.attr_plain a = true -> Spec32.image_html a html -> Spec32.source ($ "src") a pic -> ~ Spec32.in_place pic -> Spec32.image_text a pic t ->
  holds f src html -> let creole := $ "{{" ++ pic ++ $ "|" ++ t ++ Spec32.image_size false a ++ $ "}}" in forallb scalar creole = true ->
  exists l, run_program w ($ "html2creole") args f = Some (CDone, l) /\ holds (final l f) dst creole.
Proof. exact html2creole_size. Qed.
Print Assumptions C95_html2creole_size.
(** a reference to half of a character is converted, but the result cannot be written: the
    destination is left empty *)
Theorem C95_half_character_refuted : forall name, In name [$ "html2creole"; $ "html2rest"; $ "html2textile"] ->
  forall w src dst e args f, command src dst e args -> ready w src dst e f -> holds f src ($ "<p>a &#55296; b</p>") ->
  exists x l, run_program w name args f = Some (CFail x, l) /\ contents (final l f) dst = Some [].
Proof. exact half_character. Qed.
Print Assumptions C95_half_character_refuted.

(** ** Examples *)
Definition one_file (t : str) : fs := mkfs (fun p => if str_eqb p ($ "in") then Some 0 else None) (fun _ => match utf8_encode t with Some b => b | None => [] end) 1.
Definition a_world : world := mkworld (fun _ => true) (fun _ => true) (fun e => if str_eqb e ($ "utf-8") || str_eqb e ($ "utf8") then Some utf8_codec else None) None.
Example C95_ready : forall t e, e = $ "utf-8" \/ e = $ "utf8" -> ready a_world ($ "in") ($ "out") e (one_file t).
Proof.
  intros t e He. constructor; [| | |intros r H; discriminate H..]; [|intros [H|[H _]]; discriminate H|reflexivity].
  constructor; [|discriminate|reflexivity|destruct He as [->| ->]; reflexivity|reflexivity].
  intros p i. cbn. destruct (str_eqb p ($ "in")); [injection 1 as <-; reflexivity|discriminate].
Qed.
Example C95_commands : let i := $ "in" in let o := $ "out" in
  command i o ($ "utf-8") [i; o] /\ command i o ($ "utf8") [$ "--encoding"; $ "utf8"; i; o] /\
  command i o ($ "utf8") [i; $ "--encoding=utf8"; o] /\ command i o ($ "utf8") [i; o; $ "--encoding"; $ "utf8"].
Proof.
  assert (T : codec_option ($ "utf8") [$ "--encoding"; $ "utf8"]) by (constructor; intros r H; discriminate H).
  assert (O : codec_option ($ "utf8") [$ "--encoding=utf8"]) by exact (option_one ($ "utf8")).
  cbn zeta. split; [constructor|]. split; [|split]; [exact (command_before ($ "in") ($ "out") _ _ T)|exact (command_between ($ "in") ($ "out") _ _ O)|exact (command_behind ($ "in") ($ "out") _ _ T)].
Qed.
Definition C95_doc : list piece :=
  [PBlock (BPara [[IText ($ "a < b")]; [IText [228; 8364]]]); PMacro (mkmc ($ "mine") [] ($ "x")); PBlock (BHead 2 ($ " ") ($ "Title") [])].
Example C95_doc_case : pieces_ok true C95_doc = true /\ holds (one_file (wr_pieces C95_doc)) ($ "in") (wr_pieces C95_doc) /\ forallb scalar (plain_html C95_doc) = true /\
  strip (plain_html C95_doc) = $ "<p>a &lt; b<br />" ++ [10] ++ [228; 8364] ++ $ "</p>" ++ [10; 10] ++ $ "[Error: Macro 'mine' doesn't exist]" ++ [10; 10] ++ $ "<h2>Title</h2>".
Proof. vm_compute. auto. Qed.
Example C95_creole_case : w_doc_ok bare bare_text P20_Unknown.case_doc = true /\ written P20_Unknown.case_doc P20_Unknown.case_html /\
  holds (one_file P20_Unknown.case_html) ($ "in") P20_Unknown.case_html /\ forallb scalar (w_doc bare P20_Unknown.case_doc) = true.
Proof. split; [vm_compute; reflexivity|]. split; [exact P20_Unknown.C72_case_written|]. vm_compute. auto. Qed.
Example C95_textile_case : tex_doc_ok P14_CleanTextile.case_doc = true /\ written P14_CleanTextile.case_doc P14_CleanTextile.case_html /\
  holds (one_file P14_CleanTextile.case_html) ($ "in") P14_CleanTextile.case_html /\ forallb scalar (tex_doc P14_CleanTextile.case_doc) = true.
Proof. split; [vm_compute; reflexivity|]. split; [exact P14_CleanTextile.C64_case_written|]. vm_compute. auto. Qed.
Example C95_rest_case : rst_doc_ok P16_CleanRest.case_doc = true /\ written P16_CleanRest.case_doc P16_CleanRest.case_html /\
  holds (one_file P16_CleanRest.case_html) ($ "in") P16_CleanRest.case_html /\ option_map (forallb scalar) (rst_doc P16_CleanRest.case_doc) = Some true /\
  rst_doc_ok P16_CleanRest.two_doc = true /\ rst_doc P16_CleanRest.two_doc = None.
Proof. split; [vm_compute; reflexivity|]. split; [exact P16_CleanRest.C67_case_written|]. vm_compute. auto. Qed.
Example C95_size_case : let a := $ "see " in let z := $ "." in around_ok 123 a z = true /\ P4_Documents.src_ok ($ "/a.png") = true /\ P4_Documents.title_ok ($ "t") = true /\
  no_char ($ "|") ($ "t") = true /\ P4_Documents.readable 20 /\ block_start (a ++ $ "{{/a.png|t|20x30}}" ++ z) = false /\
  match run_program a_world ($ "creole2html") [$ "in"; $ "out"] (one_file (a ++ $ "{{/a.png|t|20x30}}" ++ z)) with
  | Some (CDone, l) => contents (final l (one_file [])) ($ "out") = utf8_encode ($ "<p>see <img src=""/a.png"" title=""t"" alt=""t"" width=""20"" height=""30"" />.</p>")
  | _ => False
  end.
Proof. vm_compute. repeat split; intro H; discriminate H. Qed.
Example C95_size_back : let a := [($ "src", VStr ($ "a.png")); ($ "title", VStr ($ "t")); ($ "width", VStr ($ "20")); ($ "height", VStr ($ "30"))] in
  forallb Spec31.attr_plain a = true /\ Spec32.source ($ "src") a ($ "a.png") /\ ~ Spec32.in_place ($ "a.png") /\ Spec32.image_text a ($ "a.png") ($ "t") /\
  Spec32.image_size false a = $ "|30x20".
Proof. split; [reflexivity|]. split; [reflexivity|]. split; [intros [H|[r H]]; discriminate H|]. split; [|reflexivity]. apply AttrMean.image_text_ex. Qed.
