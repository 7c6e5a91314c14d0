(** * The installed programs: proofs *)
From Coq Require Import String List Arith NArith ZArith Bool Lia.
From Verif Require Import PyStr PyStrFacts Utils Res UrlQuote HtmlEmitter HtmlBase Html2X Cmdline CmdlineFacts CliArgs Spec2 Spec8 Spec4 Spec5 Spec6 Spec7 Spec20 Spec44 MacroDoc HtmlTok Spec10 Spec11 Spec16 Spec19 Spec24 MaskFacts.
From Verif Require Spec31 Spec32 P4_Documents AttrMean HtmlToolsFacts TextileEmit RestEmit CleanEmit.
Import ListNotations.
Open Scope N_scope.

Lemma no_hyphen_spec : forall s, no_hyphen s -> startswith ($ "-") s = false.
Proof.
  intros [|c r] H; [reflexivity|]. cbn -[N.eqb]. destruct (45 =? c) eqn:E; [|reflexivity]. apply N.eqb_eq in E. subst c. exfalso. exact (H r eq_refl).
Qed.
Lemma hyphen_other : forall s p, startswith ($ "-") s = false -> startswith ($ "-" ++ p) s = false.
Proof. intros [|c r] p H; [reflexivity|]. cbn -[N.eqb] in H |- *. destruct (45 =? c); [discriminate H|reflexivity]. Qed.
Lemma hyphen_neq : forall s p, startswith ($ "-") s = false -> str_eqb s ($ "-" ++ p) = false.
Proof. intros [|c r] p H; [reflexivity|]. cbn -[N.eqb] in H |- *. rewrite N.eqb_sym. destruct (45 =? c); [discriminate H|reflexivity]. Qed.
Lemma args_name : forall a t pos e, no_hyphen a -> parse_args (a :: t) pos e = parse_args t (pos ++ [a]) e.
Proof.
  intros a t pos e H. apply no_hyphen_spec in H. cbn [parse_args].
  rewrite (hyphen_neq a ($ "-encoding") H : str_eqb a ($ "--encoding") = false), (hyphen_other a ($ "-encoding=") H : startswith ($ "--encoding=") a = false), H. reflexivity.
Qed.
Lemma args_option : forall e o t pos e0, codec_option e o -> parse_args (o ++ t) pos e0 = parse_args t pos e.
Proof.
  intros e o t pos e0 [H|]; cbn [app parse_args].
  - rewrite (no_hyphen_spec e H). reflexivity.
  - replace (str_eqb ($ "--encoding=" ++ e) ($ "--encoding")) with false by reflexivity.
    replace (startswith ($ "--encoding=") ($ "--encoding=" ++ e)) with true by reflexivity. reflexivity.
Qed.
Lemma args_command : forall src dst e args, command src dst e args -> no_hyphen src -> no_hyphen dst ->
  parse_args args [] ($ "utf-8") = Some ([src; dst], e).
Proof.
  intros src dst e args C Hs Hd. destruct C as [|e o H|e o H|e o H].
  - rewrite !args_name by assumption. reflexivity.
  - rewrite (args_option e o _ _ _ H), !args_name by assumption. reflexivity.
  - change ([src] ++ o ++ [dst]) with (src :: (o ++ [dst])). rewrite args_name, (args_option e o _ _ _ H), args_name by assumption. reflexivity.
  - change ([src; dst] ++ o) with (src :: dst :: o). rewrite !args_name by assumption.
    rewrite <- (app_nil_r o), (args_option e o _ _ _ H). reflexivity.
Qed.
Lemma program_runs : forall w name conv src dst e args f, command src dst e args -> ready w src dst e f -> entry_point entry_points name = Some conv ->
  run_program w name args f = Some (convert w conv src dst e f).
Proof.
  intros w name conv src dst e args f C R E. unfold run_program, cli_main. rewrite E, (args_command src dst e args C (rd_src _ _ _ _ _ R) (rd_dst _ _ _ _ _ R)). reflexivity.
Qed.
Theorem program_converts : forall w name conv src dst e args f t u, entry_point entry_points name = Some conv ->
  command src dst e args -> ready w src dst e f -> holds f src t -> conv t = Ok u -> forallb scalar u = true ->
  exists l, run_program w name args f = Some (CDone, l) /\ holds (final l f) dst u.
Proof.
  intros w name conv src dst e args f t u E C R [T H] Ht U. rewrite (program_runs _ _ _ _ _ _ _ _ C R E).
  destruct (lemma_utf8_cli w conv src dst e f t u (rd_open _ _ _ _ _ R) (rd_two _ _ _ _ _ R) (rd_room _ _ _ _ _ R) T H Ht U) as (l & E1 & E2).
  exists l. rewrite E1. split; [reflexivity|]. split; assumption.
Qed.
Theorem program_fails : forall w name conv src dst e args f t, entry_point entry_points name = Some conv ->
  command src dst e args -> ready w src dst e f -> holds f src t -> (exists x, conv t = Exc x) \/ (exists u, conv t = Ok u /\ utf8_encode u = None) ->
  exists x l, run_program w name args f = Some (CFail x, l) /\ contents (final l f) dst = Some [].
Proof.
  intros w name conv src dst e args f t E C R [T H] Ht. rewrite (program_runs _ _ _ _ _ _ _ _ C R E).
  destruct (lemma_utf8 t T) as (bs & Eb & Db). rewrite Eb in H.
  destruct (lemma_failure w conv src dst e f utf8_codec bs (rd_open _ _ _ _ _ R) (rd_two _ _ _ _ _ R) H) as (x & l & E1 & E2).
  - right. exists t. split; [|exact Ht]. cbn [utf8_codec dec]. rewrite <- (app_nil_r bs), Db. cbn. rewrite app_nil_r. reflexivity.
  - exists x, l. rewrite E1. split; [reflexivity|exact E2].
Qed.

(** a document of blocks and macros that do not exist *)
Lemma plain_pieces : forall d kws, List.length kws = List.length (macros_of d) -> html_pieces true false 1 no_macros d kws [] = Some (plain_html d, []).
Proof.
  induction d as [|[b|m] r IH]; intros kws H; [reflexivity| |].
  - cbn [html_pieces plain_html]. rewrite (IH kws H). reflexivity.
  - destruct kws as [|kw kws]; [discriminate H|]. cbn [html_pieces plain_html macros_of List.length] in H |- *.
    unfold answer, called, complaint. cbn [no_macros u_has]. injection H as H. rewrite (IH kws H). cbn [Z.ltb Z.compare].
    f_equal. f_equal. repeat (rewrite <- ?app_assoc; cbn [app L]). reflexivity.
Qed.
Theorem plain_document : forall d, pieces_ok true d = true -> cli_creole2html (wr_pieces d) = Ok (strip (plain_html d)).
Proof.
  intros d H. destruct (pieces_spec true d H) as (kws & F & K). unfold cli_creole2html.
  rewrite (K None false no_md (plain_html d) []); [reflexivity|]. apply plain_pieces. clear K. induction F; [reflexivity|]. cbn [List.length]. f_equal. assumption.
Qed.

Lemma scalar_strip : forall t, forallb scalar t = true -> forallb scalar (strip t) = true.
Proof. intros t H. rewrite forallb_forall in *. intros c I. exact (H c (HtmlToolsFacts.strip_In c t I)). Qed.
Theorem creole2html_runs : forall w src dst e args f d, command src dst e args -> ready w src dst e f ->
  pieces_ok true d = true -> holds f src (wr_pieces d) -> forallb scalar (plain_html d) = true ->
  exists l, run_program w ($ "creole2html") args f = Some (CDone, l) /\ holds (final l f) dst (strip (plain_html d)).
Proof.
  intros w src dst e args f d C R K H U. refine (program_converts w _ _ src dst e args f _ _ _ C R H (plain_document d K) _); [reflexivity|]. exact (scalar_strip _ U).
Qed.
Theorem html2creole_runs : forall w src dst e args f d html, command src dst e args -> ready w src dst e f ->
  w_doc_ok bare bare_text d = true -> written d html -> holds f src html -> forallb scalar (w_doc bare d) = true ->
  exists l, run_program w ($ "html2creole") args f = Some (CDone, l) /\ holds (final l f) dst (w_doc bare d).
Proof.
  intros w src dst e args f d html C R K W H U. refine (program_converts w _ _ src dst e args f _ _ _ C R H (bare_creole false d html K W) U). reflexivity.
Qed.
Theorem html2textile_runs : forall w src dst e args f d html, command src dst e args -> ready w src dst e f ->
  tex_doc_ok d = true -> written d html -> holds f src html -> forallb scalar (tex_doc d) = true ->
  exists l, run_program w ($ "html2textile") args f = Some (CDone, l) /\ holds (final l f) dst (tex_doc d).
Proof.
  intros w src dst e args f d html C R K W H U. refine (program_converts w _ _ src dst e args f _ _ _ C R H (TextileEmit.clean_textile transparent_unknown_nodes d html K W) U). reflexivity.
Qed.
Theorem html2rest_runs : forall w src dst e args f d html, command src dst e args -> ready w src dst e f ->
  rst_doc_ok d = true -> written d html -> holds f src html ->
  match rst_doc d with
  | Some t => forallb scalar t = true -> exists l, run_program w ($ "html2rest") args f = Some (CDone, l) /\ holds (final l f) dst t
  | None => exists x l, run_program w ($ "html2rest") args f = Some (CFail x, l) /\ contents (final l f) dst = Some []
  end.
Proof.
  intros w src dst e args f d html C R K W H. pose proof (RestEmit.clean_rest transparent_unknown_nodes d html K W) as E. destruct (rst_doc d) as [t|].
  - intro U. refine (program_converts w _ _ src dst e args f _ _ _ C R H E U). reflexivity.
  - refine (program_fails w _ _ src dst e args f _ _ C R H (or_introl (ex_intro _ _ E))). reflexivity.
Qed.
Theorem creole2html_size : forall w src dst e args f a pic title x y z, command src dst e args -> ready w src dst e f ->
  around_ok 123 a z = true -> P4_Documents.src_ok pic = true -> P4_Documents.title_ok title = true -> no_char ($ "|") title = true ->
  P4_Documents.readable x -> P4_Documents.readable y ->
  let markup := a ++ ($ "{{" ++ pic ++ $ "|" ++ title ++ $ "|" ++ show_N x ++ $ "x" ++ show_N y ++ $ "}}") ++ z in
  let html := $ "<p>" ++ escape a ++ P4_Documents.image_tag pic title ($ " width=""" ++ show_N x ++ $ """ height=""" ++ show_N y ++ $ """") ++ escape z ++ $ "</p>" in
  block_start markup = false -> holds f src markup -> forallb scalar html = true ->
  exists l, run_program w ($ "creole2html") args f = Some (CDone, l) /\ holds (final l f) dst html.
Proof.
  intros w src dst e args f a pic title x y z C R H1 H2 H3 H4 H5 H6 markup html H7 H U. refine (program_converts w _ cli_creole2html src dst e args f _ _ _ C R H _ U); [reflexivity|].
  unfold cli_creole2html. pose proof (P4_Documents.C15_sized true None false no_md a pic title x y z H1 H2 H3 H4 H5 H6 H7) as E. cbn zeta in E. unfold markup. rewrite E. reflexivity.
Qed.
Theorem html2creole_size : forall w src dst e args f a pic t html, command src dst e args -> ready w src dst e f ->
  forallb Spec31.attr_plain a = true -> Spec32.image_html a html -> Spec32.source ($ "src") a pic -> ~ Spec32.in_place pic -> Spec32.image_text a pic t ->
  holds f src html -> let creole := $ "{{" ++ pic ++ $ "|" ++ t ++ Spec32.image_size false a ++ $ "}}" in forallb scalar creole = true ->
  exists l, run_program w ($ "html2creole") args f = Some (CDone, l) /\ holds (final l f) dst creole.
Proof.
  intros w src dst e args f a pic t html C R A I S P T H creole U. refine (program_converts w _ _ src dst e args f _ _ _ C R H (AttrMean.creole_image transparent_unknown_nodes false a pic t html A I S P T) U). reflexivity.
Qed.
Theorem half_character : forall name, In name [$ "html2creole"; $ "html2rest"; $ "html2textile"] ->
  forall w src dst e args f, command src dst e args -> ready w src dst e f -> holds f src ($ "<p>a &#55296; b</p>") ->
  exists x l, run_program w name args f = Some (CFail x, l) /\ contents (final l f) dst = Some [].
Proof.
  intros name N w src dst e args f C R H.
  destruct N as [<-|[<-|[<-|[]]]]; (refine (program_fails w _ _ src dst e args f _ _ C R H _); [reflexivity|]; right; eexists; split; [vm_compute; reflexivity|reflexivity]).
Qed.
