(** * Properties of the html tools, of tables and of the html tree builder (C25-C34, C48)

    Only statements, examples and assumptions; see Spec2.v for the vocabulary. *)
From Coq Require Import String List Arith NArith ZArith Bool.
From Verif Require Import PyStr Utils Res HtmlTools MarkupTable HtmlTok HtmlParser HtmlBase Html2X.
From Verif Require Import Spec2 Spec10 HtmlToolsFacts TableFacts TreeFacts TokRun P2_Lemmas.
Import ListNotations.
Open Scope N_scope.

(** ** C25 *)
Theorem C25_deentity_escape : forall t : str, replace_all (escape t) = Ok t.
Proof. exact replace_all_escape. Qed.
Print Assumptions C25_deentity_escape.
Example C25_case : escape ($ "a&lt;<b>&") = $ "a&amp;lt;&lt;b&gt;&amp;" /\
  replace_all ($ "a&amp;lt;&lt;b&gt;&amp;") = Ok ($ "a&lt;<b>&").
Proof. vm_compute. auto. Qed.

(** ** C26 *)
(** any text with references, decoded reference by reference *)
Theorem C26_references : forall l : list ent, Forall ent_ok l -> replace_all (flat_map write l) = meant_all l.
Proof. exact replace_all_spec. Qed.
Print Assumptions C26_references.
Theorem C26_decimal : forall n, n < 1114112 -> replace_all ($ "&#" ++ show_N n ++ $ ";") = Ok [n].
Proof. exact lemma_C26_dec. Qed.
Print Assumptions C26_decimal.
Example C26_case : let l := [Text ($ "x"); Dec ($ "8364"); Hex ($ "20aC"); Named ($ "nbsp"); Named ($ "auml")] in
  Forall ent_ok l /\ flat_map write l = $ "x&#8364;&#x20aC;&nbsp;&auml;" /\ meant_all l = Ok ($ "x" ++ [8364; 8364; 32; 228]).
Proof.
  split; [|split; vm_compute; reflexivity].
  repeat (apply Forall_cons; [vm_compute; intuition discriminate|]). constructor.
Qed.
Example C26_too_large : replace_all ($ "&#1114112;") = Exc EValueError /\ replace_all ($ "&#x80000000;") = Exc EOverflow.
Proof. vm_compute. auto. Qed.

(** ** C27 *)
Theorem C27_only_white_space : forall s : str, visible (strip_html s) = visible s.
Proof. exact strip_html_visible. Qed.
Print Assumptions C27_only_white_space.
Theorem C27_no_newline : forall s : str, ~ In 10 (strip_html s).
Proof. exact strip_html_no_newline. Qed.
Print Assumptions C27_no_newline.
Example C27_case : strip_html ($ " <p>a  b </p>" ++ [10; 10] ++ $ "  <b> c</b> ") = $ "<p>a  b</p> <b>c</b>".
Proof. vm_compute. reflexivity. Qed.

(** ** C28 *)
Theorem C28_clean_whitespace : forall s, exists a core z : str,
  s = a ++ core ++ z /\ forallb is_space a = true /\ forallb is_space z = true /\ (core = [] -> z = []) /\
  (forall c t, core = c :: t -> is_space c = false) /\ (forall c t, core = t ++ [c] -> is_space c = false) /\
  clean_whitespace s = (if contains [32] a then [32] else []) ++ core ++
    (if contains [10] z then [10] else if contains [32] z then [32] else z).
Proof. exact lemma_C28. Qed.
Print Assumptions C28_clean_whitespace.
Example C28_case : clean_whitespace ($ " a  b " ++ [10]) = $ " a  b" ++ [10] /\ clean_whitespace ([9] ++ $ "a" ++ [9]) = $ "a" ++ [9].
Proof. vm_compute. auto. Qed.

(** ** C29 *)
Theorem C29_tree : forall (bd : list str) (ds : list dom), Forall (dom_ok bd true) ds ->
  exists h, handle_all (flat_map dom_toks ds) (h_init bd) = Ok h /\
    root_of (cur h) = HN ($ "document") None [] None (flat_map (dom_tree bd 0) ds) /\ list_level h = 0%Z.
Proof. exact tree_of_dom. Qed.
Print Assumptions C29_tree.
Example C29_case :
  let li ks := DElem ($ "li") [] ks in
  let d := DElem ($ "ul") [] [li [DText ($ "a"); DElem ($ "ol") [] [li [DText ($ "b")]]]; li [DElem ($ "b") [] [DVoid ($ "br") []]]] in
  dom_ok [] true d /\ fst (tokens ($ "<ul><li>a<ol><li>b</li></ol></li><li><b><br></b></li></ul>")) = dom_toks d.
Proof.
  split; [|vm_compute; reflexivity].
  repeat first [ apply ok_text | apply ok_void; left; reflexivity | apply Forall_nil | apply Forall_cons
               | apply ok_elem; [discriminate|discriminate|discriminate|reflexivity || (intro; discriminate)|] ].
Qed.

(** the same from the text of the document: [HtmlParser().feed(html, preprocess=False)] *)
Theorem C29_document : forall ds : list dom, forallb dom_wf ds = true -> apart ds = true -> Forall (dom_ok [] true) ds ->
  strip (show_doms ds) = show_doms ds ->
  feed_raw (show_doms ds) = Ok (HN ($ "document") None [] None (flat_map (dom_tree [] 0) ds)).
Proof. exact lemma_C29_document. Qed.
Print Assumptions C29_document.
(** what html.parser makes of it, wherever it stands *)
Theorem C29_tokens : forall ds : list dom, forallb dom_wf ds = true -> apart ds = true ->
  tokens (show_doms ds) = (flat_map dom_toks ds, false).
Proof. exact document_run. Qed.
Print Assumptions C29_tokens.
Example C29_document_case :
  let d := DElem ($ "p") [($ "class", VStr ($ "a<""b"))] [DText ($ "x > "); DEnt ($ "amp"); DChar ($ "x41"); DSelf ($ "img") []; DElem ($ "h1") [] []] in
  show_doms [d] = ($ "<p class=""a&lt;&quot;b"">x > &amp;&#x41;<img /><h1></h1></p>") /\ dom_wf d = true /\ dom_ok [] true d /\
  strip (show_doms [d]) = show_doms [d].
Proof.
  repeat split; try (vm_compute; reflexivity).
  repeat first [ apply ok_text | apply ok_char | apply ok_ent | apply ok_self; discriminate | apply Forall_nil | apply Forall_cons
               | apply ok_elem; [discriminate|discriminate|discriminate|reflexivity || (intro; reflexivity)|] ].
Qed.

(** ** C30 *)
Theorem C30_refuted : html2creole transparent_unknown_nodes false ($ "<p>a</p></b><p>rest</p>") = Ok ($ "a").
Proof. vm_compute. reflexivity. Qed.
Print Assumptions C30_refuted.
(** nothing after an unmatched inline end tag gets into the tree *)
Theorem C30_rest_lost : forall (bd : list str) (ds : list dom) (tag : str) (rest : list tok) h,
  Forall (dom_ok bd true) ds ->
  tag <> $ "tbody" -> tag <> $ "br" -> in_names block_elements tag = false ->
  handle_all (flat_map dom_toks ds ++ TEnd tag :: rest) (h_init bd) = Ok h ->
  root_of (cur h) = HN ($ "document") None [] None (flat_map (dom_tree bd 0) ds).
Proof. exact lemma_C30_rest_lost. Qed.
Print Assumptions C30_rest_lost.

(** ** C31 *)
(** the areas are cut out of the text and numbered in the order of the stash ... *)
Theorem C31_areas : forall raw : str, exists p1 p2,
  flat_map piece_src p1 = strip raw /\ areas pre_block_area p1 /\
  flat_map piece_src p2 = stubbed true 0 p1 /\ areas pre_area p2 /\ none_left p2 /\
  preprocess raw = Ok (strip_html (stubbed false (List.length (cuts p1)) p2), cuts p1 ++ cuts p2).
Proof. exact preprocess_spec. Qed.
Print Assumptions C31_areas.
(** ... and a placeholder gives a node with the text of its number *)
Theorem C31_placeholder : forall (b : bool) (i : nat) (bd : list str) c ll,
  (i < List.length bd)%nat -> N.of_nat (List.length (show_nat i)) <= 4300 ->
  handle (TStartEnd (placeholder b) [($ "type", VStr ($ "pre")); ($ "id", VStr (show_nat i))]) (mkh c ll bd) =
  Ok (mkh (leaf (HN (placeholder b ++ $ "_pre") (Some (nth i bd [])) [] None []) c) ll bd).
Proof. exact handle_cut. Qed.
Print Assumptions C31_placeholder.
Example C31_case : preprocess ($ "a <pre>b  c</pre>" ++ [10] ++ $ "<pre>" ++ [10] ++ $ "d" ++ [10] ++ $ "</pre>") =
  Ok ($ "a <inlinedata type=""pre"" id=""1"" /> <blockdata type=""pre"" id=""0"" />", [[10] ++ $ "d" ++ [10]; $ "b  c"]).
Proof. vm_compute. reflexivity. Qed.
(** an area inside an area is not restored *)
Theorem C31_refuted : exists html r, html2creole transparent_unknown_nodes false html = Ok r /\
  contains ($ "visible") html = true /\ contains ($ "visible") r = false /\ contains ($ "blockdata") r = true.
Proof.
  exists ($ "x<pre>a" ++ [10] ++ $ "<pre>" ++ [10] ++ $ "visible" ++ [10] ++ $ "</pre>" ++ [10] ++ $ "</pre>").
  eexists. vm_compute. split; [reflexivity|auto].
Qed.
Print Assumptions C31_refuted.

(** ** C32, C33 *)
Theorem C32_cells : forall hp rs, rs <> [] -> clean hp -> Forall (Forall clean_cell) rs -> (0 < shortest rs)%nat ->
  let lines := lines_of (get_table_markup (filled hp true rs)) in
  map (fun l => map strip (cells_of l)) lines =
  map (fun r => map (fun c => strip (cell_src hp c)) (firstn (shortest rs) r)) rs /\
  exists len ws, Forall (fun l => List.length l = len /\ map (@List.length N) (cells_of l) = ws) lines.
Proof. exact table_cells. Qed.
Print Assumptions C32_cells.
Theorem C32_no_auto_width : forall hp rs, rs <> [] -> clean hp -> Forall (Forall clean_cell) rs -> (0 < shortest rs)%nat ->
  map cells_of (lines_of (get_table_markup (filled hp false rs))) = map (map (cell_src hp)) rs.
Proof. exact table_no_width. Qed.
Print Assumptions C32_no_auto_width.
Example C32_case : let rs := [[TH ($ "a"); TH ($ "b")]; [TD ($ "long"); TD ($ "")]] in
  shortest rs = 2%nat /\ lines_of (get_table_markup (filled ($ "= ") true rs)) = [$ "|= a   |= b |"; $ "| long |    |"].
Proof. vm_compute. auto. Qed.
Theorem C33_refuted : exists rs, In [TD ($ "lost"); TD ($ "b")] rs /\
  get_table_markup (filled ($ "= ") true rs) = $ "||" ++ [10] ++ $ "||".
Proof. exists [[]; [TD ($ "lost"); TD ($ "b")]]. vm_compute. auto. Qed.
Print Assumptions C33_refuted.
(** C32_cells says how many cells of a row are kept; with an empty row none is *)
Theorem C33_empty_row : forall hp rs, rs <> [] -> clean hp -> Forall (Forall clean_cell) rs -> shortest rs = 0%nat ->
  lines_of (get_table_markup (filled hp true rs)) = map (fun _ => $ "||") rs.
Proof. exact table_empty_row. Qed.
Print Assumptions C33_empty_row.
Example C33_case : shortest [[TD ($ "a"); TD ($ "b"); TD ($ "c")]; [TD ($ "d")]] = 1%nat /\
  lines_of (get_table_markup (filled [] true [[TD ($ "a"); TD ($ "b"); TD ($ "c")]; [TD ($ "d")]])) = [$ "| a |"; $ "| d |"].
Proof. vm_compute. auto. Qed.

(** ** C34 *)
Theorem C34_rest_grid : forall hp rs, rs <> [] -> clean hp -> Forall (Forall clean_cell) rs -> (0 < shortest rs)%nat ->
  let lines := lines_of (get_rest_table (filled hp true rs)) in
  exists ws, List.length ws = shortest rs /\
    List.length lines = (2 * List.length rs + 1)%nat /\
    (exists len, Forall (fun l => List.length l = len) lines) /\
    (forall i, (i <= List.length rs)%nat -> nth_error lines (2 * i) =
       Some (grid (if Nat.eqb i 1 && existsb (existsb is_th) rs && Nat.ltb i (List.length rs) then 61 else 45) ws)) /\
    (forall i r, nth_error rs i = Some r -> exists l, nth_error lines (2 * i + 1) = Some l /\
       map (@List.length N) (cells_of l) = ws /\
       map strip (cells_of l) = map (fun c => strip (cell_src hp c)) (firstn (shortest rs) r)).
Proof. exact rest_table. Qed.
Print Assumptions C34_rest_grid.
Example C34_case : let rs := [[TH ($ "a"); TH ($ "b")]; [TD ($ "long"); TD ($ "")]] in
  lines_of (get_rest_table (filled [] true rs)) =
  [$ "+------+---+"; $ "| a    | b |"; $ "+======+===+"; $ "| long |   |"; $ "+------+---+"].
Proof. vm_compute. reflexivity. Qed.

(** ** C48 *)
Theorem C48_markdown_table : forall r0 rs, Forall (Forall clean_cell) (r0 :: rs) -> (0 < shortest (r0 :: rs))%nat ->
  (forall j, (j < shortest (r0 :: rs))%nat -> exists r c, In r (r0 :: rs) /\ nth_error r j = Some c /\ strip (cell_src [] c) <> []) ->
  let lines := lines_of (get_markdown_table (filled [] true (r0 :: rs))) in
  exists ws first sep others,
    lines = first :: (if existsb (existsb is_th) (r0 :: rs) && negb (is_nil rs) then [sep] else []) ++ others /\
    map (fun l => map strip (cells_of l)) (first :: others) =
    map (fun r => map (fun c => strip (cell_src [] c)) (firstn (shortest (r0 :: rs)) r)) (r0 :: rs) /\
    (exists len, Forall (fun l => List.length l = len) (first :: sep :: others)) /\
    Forall (fun l => map (@List.length N) (cells_of l) = ws) (first :: sep :: others) /\
    List.length ws = shortest (r0 :: rs) /\
    Forall (fun c => exists n, strip c = repeat 45 (S n)) (cells_of sep).
Proof. exact markdown_table. Qed.
Print Assumptions C48_markdown_table.
Example C48_case : let rs := [[TH ($ "a"); TH ($ "b")]; [TD ($ "long"); TD ($ "")]] in
  lines_of (get_markdown_table (filled [] true rs)) = [$ "| a    | b |"; $ "| ---- | - |"; $ "| long |   |"].
Proof. vm_compute. reflexivity. Qed.
