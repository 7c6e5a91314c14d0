(** * Properties of the README tools (C42, C54-C57)

    Only statements, examples and assumptions; the vocabulary is in Spec8.v.  [renders] is the
    check of readme_renderer, [mtime] the time stamp. *)
From Coq Require Import String List Arith NArith ZArith Bool Lia.
From Verif Require Import PyStr Utils Res HtmlEmitter HtmlBase Html2X SetupUtils Spec4 Spec8 Spec48 SetupFacts LinesFacts.
Import ListNotations.
Open Scope N_scope.

Definition README := $ "README.creole".
Definition package (creole : str) (rst md : option str) : dir := fun n =>
  if str_eqb n README then Some creole else if str_eqb n ($ "README.rst") then rst else if str_eqb n ($ "README.md") then md else None.
Definition all_render : str -> bool := fun _ => true.
Definition when := $ "2022-08-17 10:00:00".

(** ** C42 *)
Theorem C42_written_passes : forall renders mtime d name d' rest,
  update_rst renders mtime d name = (SOk true, d') -> generate_rst renders d name = SOk rest ->
  with_suffix name ($ ".rst") <> name -> no_char [13] rest = true -> no_char [10; 13] mtime = true -> no_char [10; 13] name = true ->
  assert_rst renders d' name = (SOk tt, d').
Proof. exact lemma_C42. Qed.
Print Assumptions C42_written_passes.
Theorem C42_markdown : forall mtime d name d' m,
  update_md mtime d name = (SOk true, d') -> fst (generate_md d name) = SOk m ->
  with_suffix name ($ ".md") <> name -> with_suffix name ($ ".html") <> name ->
  no_char [13] m = true -> no_char [10; 13] mtime = true -> no_char [10; 13] name = true ->
  fst (assert_md d' name) = SOk tt /\ forall n, snd (assert_md d' name) n = d' n.
Proof. exact lemma_md. Qed.
Print Assumptions C42_markdown.
(** what it writes: the generated text and a note; no other file changes *)
Theorem C42_written_text : forall renders mtime d name d', update_rst renders mtime d name = (SOk true, d') ->
  exists rest, generate_rst renders d name = SOk rest /\
    d' (with_suffix name ($ ".rst")) = Some (rest ++ [10; 10] ++ $ "------------" ++ [10; 10] ++
      $ "``Note: this file is generated from " ++ name ++ $ " " ++ mtime ++ $ " with ""python-creole""``") /\
    forall n, n <> with_suffix name ($ ".rst") -> d' n = d n.
Proof. exact lemma_written_text. Qed.
Print Assumptions C42_written_text.
(** the line ends of the readme do not matter: [t] with \n, with \r\n or with \r is the same *)
Theorem C42_line_ends : forall renders d name t e, no_char [13] t = true -> e = [13; 10] \/ e = [13] ->
  generate_rst renders (write_file d name (with_ends e t)) name = generate_rst renders (write_file d name t) name /\
  fst (generate_md (write_file d name (with_ends e t)) name) = fst (generate_md (write_file d name t) name).
Proof. exact lemma_line_ends. Qed.
Print Assumptions C42_line_ends.
Example C42_line_ends_case : with_ends [13; 10] ($ "a" ++ [10; 10] ++ $ "b") = $ "a" ++ [13; 10; 13; 10] ++ $ "b" /\
  generate_rst all_render (package ($ "a" ++ [13; 10; 13; 10] ++ $ "b") None None) README = SOk ($ "a" ++ [10; 10] ++ $ "b").
Proof. vm_compute. auto. Qed.
(** it leaves the old file alone exactly when all lines both texts have are the same but for
    blanks at their end *)
Theorem C42_not_written : forall renders mtime d name rest old,
  d name <> None -> generate_rst renders d name = SOk rest -> read_text d (with_suffix name ($ ".rst")) = Some old ->
  (update_rst renders mtime d name = (SOk false, d) <-> lines_agree rest old).
Proof. exact lemma_C42_not_written. Qed.
Print Assumptions C42_not_written.
Theorem C42_not_written_markdown : forall mtime d name m d' old,
  d name <> None -> generate_md d name = (SOk m, d') -> read_text d (with_suffix name ($ ".md")) = Some old ->
  (update_md mtime d name = (SOk false, d') <-> lines_agree m old).
Proof. exact lemma_C42_not_written_md. Qed.
Print Assumptions C42_not_written_markdown.
(** the lines are those, and no others *)
Theorem C42_lines : forall s ls ls', (lines_of s ls -> lines_of s ls' -> ls = ls') /\ (read_lines_of s ls -> read_lines_of s ls' -> ls = ls').
Proof. intros. split; [apply lines_once|apply read_lines_once]. Qed.
Print Assumptions C42_lines.
Example C42_not_written_case : let d := package ($ "= a" ++ [10] ++ $ "* **b**") (Some ($ "= " ++ [10] ++ $ "a" ++ [10] ++ $ "=" ++ [10; 10] ++ $ "* **b** ")) None in
  d README <> None /\ generate_rst all_render d README = SOk ($ "=" ++ [10] ++ $ "a" ++ [10] ++ $ "=" ++ [10; 10] ++ $ "* **b**") /\
  fst (update_rst all_render when d README) = SOk false /\
  lines_of ($ "a" ++ [13; 10] ++ $ "b" ++ [12]) [$ "a"; $ "b"] /\ read_lines_of ($ "a" ++ [10] ++ $ "b") [$ "a" ++ [10]; $ "b"].
Proof.
  split; [discriminate|]. split; [vm_compute; reflexivity|]. split; [vm_compute; reflexivity|]. split.
  - apply (lo_crlf ($ "a") ($ "b" ++ [12])); [reflexivity|]. apply (lo_line ($ "b") 12 []); [reflexivity|cbn; tauto|intros [? _]; discriminate|apply lo_end].
  - apply (rl_line ($ "a") ($ "b")); [reflexivity|]. apply rl_last; [discriminate|reflexivity].
Qed.
(** a check that passes means: the file is the generated text, or that text, a newline and
    at most four lines *)
Theorem C42_check_sound : forall renders d name d', assert_rst renders d name = (SOk tt, d') ->
  exists rest content tail, generate_rst renders d name = SOk rest /\ read_text d (with_suffix name ($ ".rst")) = Some content /\ content <> [] /\
    content = rest ++ tail /\ (tail = [] \/ exists t, tail = 10 :: t) /\ (count_occ N.eq_dec tail 10%N <= 4)%nat.
Proof. exact lemma_check_sound. Qed.
Print Assumptions C42_check_sound.
(** the violation: an update that reports success, after which the check fails *)
Theorem C42_passes_refuted : ~ (forall mtime d name b d', update_rst all_render mtime d name = (SOk b, d') ->
  fst (assert_rst all_render d' name) = SOk tt).
Proof.
  intro H. specialize (H when (package ($ "text") (Some ($ "text" ++ [10; 10; 10; 10; 10] ++ $ "an old line")) None) README false _ eq_refl).
  vm_compute in H. discriminate H.
Qed.
Print Assumptions C42_passes_refuted.
Example C42_case : let d := package ($ "= a" ++ [10] ++ $ "* **b**") (Some ($ "x")) (Some ($ "x")) in
  fst (update_rst all_render when d README) = SOk true /\ fst (assert_rst all_render d README) = SErr SAssert /\
  with_suffix README ($ ".rst") = $ "README.rst" /\
  generate_rst all_render d README = SOk ($ "=" ++ [10] ++ $ "a" ++ [10] ++ $ "=" ++ [10; 10] ++ $ "* **b**") /\
  fst (update_md when d README) = SOk true /\ fst (generate_md d README) = SOk ($ "# a" ++ [10; 10; 10] ++ $ "* **b**") /\
  no_char [10; 13] when = true /\ no_char [10; 13] README = true.
Proof. vm_compute. repeat split. Qed.

(** ** C54 *)
Theorem C54_never_created : forall renders mtime d name,
  d (with_suffix name ($ ".rst")) = None \/ d (with_suffix name ($ ".rst")) = Some [] ->
  snd (update_rst renders mtime d name) = d /\ fst (update_rst renders mtime d name) <> SOk true /\ fst (assert_rst renders d name) <> SOk tt.
Proof. exact lemma_first. Qed.
Print Assumptions C54_never_created.
Example C54_case : fst (update_rst all_render when (package ($ "text") None None) README) = SErr SMissing /\
  fst (update_rst all_render when (package ($ "text") (Some []) None) README) = SOk false.
Proof. vm_compute. auto. Qed.

(** ** C55 *)
Theorem C55_second_update_changes_nothing : forall renders mtime mtime' d name d' rest,
  update_rst renders mtime d name = (SOk true, d') -> generate_rst renders d name = SOk rest ->
  with_suffix name ($ ".rst") <> name -> only_newlines rest = true ->
  update_rst renders mtime' d' name = (SOk false, d').
Proof. exact lemma_idempotent. Qed.
Print Assumptions C55_second_update_changes_nothing.
Example C55_case : let d := package ($ "= a" ++ [10] ++ $ "* **b**") (Some ($ "x")) None in
  fst (update_rst all_render when d README) = SOk true /\
  exists rest, generate_rst all_render d README = SOk rest /\ only_newlines rest = true.
Proof. cbv zeta. split; [vm_compute; reflexivity|]. exists ($ "=" ++ [10] ++ $ "a" ++ [10] ++ $ "=" ++ [10; 10] ++ $ "* **b**"). vm_compute. auto. Qed.
(** the violation: a line separator (U+2028) in the text, and every update writes again *)
Theorem C55_every_text_refuted : ~ (forall d d', update_rst all_render when d README = (SOk true, d') ->
  fst (update_rst all_render when d' README) = SOk false).
Proof. intro H. specialize (H (package ($ "a" ++ [8232] ++ $ "b") (Some ($ "x")) None) _ eq_refl). vm_compute in H. discriminate H. Qed.
Print Assumptions C55_every_text_refuted.

(** ** C56 *)
Theorem C56_rst_effects : forall renders mtime d name, snd (assert_rst renders d name) = d /\
  forall n, n <> with_suffix name ($ ".rst") -> snd (update_rst renders mtime d name) n = d n.
Proof. exact lemma_rst_effect. Qed.
Print Assumptions C56_rst_effects.
(** the violation: checking the markdown README writes an html file *)
Theorem C56_markdown_check_writes : forall d name creole h, read_text d name = Some creole -> default_html (strip creole) = Ok h ->
  snd (assert_md d name) (with_suffix name ($ ".html")) = Some h /\
  forall n, n <> with_suffix name ($ ".html") -> snd (assert_md d name) n = d n.
Proof. exact lemma_md_effect. Qed.
Print Assumptions C56_markdown_check_writes.
Theorem C56_check_changes_nothing_refuted : ~ (forall d name, snd (assert_md d name) = d).
Proof.
  intro H. specialize (H (package ($ "text") None None) README). apply (f_equal (fun d => d ($ "README.html"))) in H. vm_compute in H. discriminate H.
Qed.
Print Assumptions C56_check_changes_nothing_refuted.
Example C56_case : let d := package ($ "text") None None in read_text d README = Some ($ "text") /\ default_html (strip ($ "text")) = Ok ($ "<p>text</p>") /\
  with_suffix README ($ ".html") = $ "README.html".
Proof. vm_compute. auto. Qed.

(** ** C57 *)
Theorem C57_long_description_never_works : forall pypi show_exc file,
  (exists e, get_long_description pypi show_exc true file = SErr e) /\
  (exists e, get_long_description pypi show_exc false file =
     SOk ($ "[Error: " ++ show_exc e ++ $ "]" ++ [10] ++ match file with Some t => strip t | None => [] end)).
Proof. exact lemma_long. Qed.
Print Assumptions C57_long_description_never_works.
Example C57_case : get_long_description all_render (fun _ => $ "...") false (Some ($ "= README")) = SOk ($ "[Error: ...]" ++ [10] ++ $ "= README") /\
  default_html ($ "= README") = Ok ($ "<h1>README</h1>").
Proof. vm_compute. auto. Qed.
(** without the argument, the command line decides *)
Theorem C57_command_line : forall pypi show_exc argv file,
  let strict := List.length argv = 1%nat \/ exists a, In a [$ "check"; $ "register"; $ "sdist"; $ "bdist"; $ "upload"; $ "--long-description"; $ "--restructuredtext"] /\ In a argv in
  (strict -> exists e, get_long_description_default pypi show_exc argv file = SErr e) /\
  (~ strict -> exists t, get_long_description_default pypi show_exc argv file = SOk t).
Proof. exact lemma_long_args. Qed.
Print Assumptions C57_command_line.
Example C57_lines : (exists e, get_long_description_default all_render (fun _ => []) [$ "setup.py"] None = SErr e) /\
  (exists e, get_long_description_default all_render (fun _ => []) [$ "setup.py"; $ "sdist"] None = SErr e) /\
  (exists t, get_long_description_default all_render (fun _ => []) [$ "setup.py"; $ "install"] None = SOk t).
Proof. vm_compute. repeat split; eexists; reflexivity. Qed.
