(** * Properties of publishing and of the calls of docutils (C86, C87, C88)

    Only statements, examples and assumptions; the vocabulary is in Spec9.v and Spec37.v. *)
From Coq Require Import String List Arith NArith ZArith Bool Lia Permutation Sorted.
From Verif Require Import PyStr Utils Res HtmlEmitter HtmlBase Html2X Spec4 SetupUtils RestTools Spec9 Publish Spec37 PublishFacts.
Import ListNotations.
Open Scope N_scope.

(** ** C86 *)
Theorem C86_nothing_without_readme : forall renders style d o calls, publish renders style d = (o, calls) -> calls <> [] -> readme_current renders d.
Proof. exact publish_sound. Qed.
Print Assumptions C86_nothing_without_readme.
(** what is released are the files the successful style check has left, once *)
Theorem C86_released_files : forall renders style d o calls f, publish renders style d = (o, calls) -> In (CallRelease f) calls ->
  o = PubDone /\ style d = Some f /\ calls = [CallStyle; CallRelease f].
Proof. exact publish_files. Qed.
Print Assumptions C86_released_files.
(** an update of the README that has written is enough *)
Theorem C86_after_update : forall renders style mtime d d' rest, update_rst renders mtime d ($ "README.creole") = (SOk true, d') -> generate_rst renders d ($ "README.creole") = SOk rest ->
  no_char [13] rest = true -> no_char [10; 13] mtime = true ->
  publish renders style d' = match style d' with Some f => (PubDone, [CallStyle; CallRelease f]) | None => (PubStyle, [CallStyle]) end.
Proof. exact publish_after_update. Qed.
Print Assumptions C86_after_update.
Definition package (creole rst : str) : dir := fun n => if str_eqb n ($ "README.creole") then Some creole else if str_eqb n ($ "README.rst") then Some rst else None.
Definition all_render : str -> bool := fun _ => true.
Definition no_fix : dir -> option dir := fun d => Some d.
Example C86_case : let old := package ($ "= a" ++ [10] ++ $ "* **b**") ($ "x") in
  publish all_render no_fix old = (PubReadme SAssert, []) /\
  let '(r, new) := update_rst all_render ($ "now") old ($ "README.creole") in r = SOk true /\
    generate_rst all_render old ($ "README.creole") = SOk ($ "=" ++ [10] ++ $ "a" ++ [10] ++ $ "=" ++ [10; 10] ++ $ "* **b**") /\
    publish all_render no_fix new = (PubDone, [CallStyle; CallRelease new]) /\ publish all_render (fun _ => None) new = (PubStyle, [CallStyle]).
Proof.
  cbv zeta. split; [vm_compute; reflexivity|]. destruct (update_rst all_render ($ "now") (package ($ "= a" ++ [10] ++ $ "* **b**") ($ "x")) ($ "README.creole")) as [r new] eqn:E.
  assert (R : r = SOk true) by (apply (f_equal fst) in E; vm_compute in E; symmetry; exact E). subst r. split; [reflexivity|]. assert (G : generate_rst all_render (package ($ "= a" ++ [10] ++ $ "* **b**") ($ "x")) ($ "README.creole") = SOk ($ "=" ++ [10] ++ $ "a" ++ [10] ++ $ "=" ++ [10; 10] ++ $ "* **b**")) by (vm_compute; reflexivity).
  split; [exact G|]. split; (etransitivity; [exact (publish_after_update _ _ _ _ _ _ E G eq_refl eq_refl)|]); reflexivity.
Qed.
(** the violation: an older note, up to four lines long, is accepted whatever it says *)
Theorem C86_wrong_note_refuted : publish all_render no_fix (package ($ "a") ($ "a" ++ [10] ++ $ "not" ++ [10] ++ $ "in" ++ [10] ++ $ "the" ++ [10] ++ $ "source")) =
  (PubDone, [CallStyle; CallRelease (package ($ "a") ($ "a" ++ [10] ++ $ "not" ++ [10] ++ $ "in" ++ [10] ++ $ "the" ++ [10] ++ $ "source"))]).
Proof. unfold publish. replace (assert_rst all_render _ _) with (@SOk unit tt, package ($ "a") ($ "a" ++ [10] ++ $ "not" ++ [10] ++ $ "in" ++ [10] ++ $ "the" ++ [10] ++ $ "source")); [reflexivity|].
  unfold assert_rst. replace (generate_rst _ _ _) with (SOk ($ "a")) by (vm_compute; reflexivity). f_equal. Qed.
Print Assumptions C86_wrong_note_refuted.

(** ** C87 *)
Theorem C87_settings : forall publish_parts content kwargs, exists settings, rest2html publish_parts (Some content) kwargs = publish_parts content settings /\
  dict_get ($ "raw_enabled") settings = passed kwargs ($ "raw_enabled") (Some (VBool false)) /\
  dict_get ($ "file_insertion_enabled") settings = passed kwargs ($ "file_insertion_enabled") (Some (VBool false)) /\
  dict_get ($ "doctitle_xform") settings = passed kwargs ($ "doctitle_xform") (Some (VBool false)) /\
  dict_get ($ "input_encoding") settings = passed kwargs ($ "input_encoding") (Some (VStr ($ "unicode"))) /\
  forall k, ~ In k [$ "raw_enabled"; $ "file_insertion_enabled"; $ "doctitle_xform"; $ "input_encoding"] -> dict_get k settings = passed kwargs k None.
Proof. exact rest_call. Qed.
Print Assumptions C87_settings.
(** an object that is no text never gets to docutils *)
Theorem C87_not_text : forall publish_parts kwargs, rest2html publish_parts None kwargs = Exc EAssertion.
Proof. reflexivity. Qed.
Print Assumptions C87_not_text.
Example C87_case : passed [($ "traceback", VBool false)] ($ "raw_enabled") (Some (VBool false)) = Some (VBool false) /\
  passed [($ "traceback", VBool false); ($ "raw_enabled", VBool true)] ($ "raw_enabled") (Some (VBool false)) = Some (VBool true) /\
  rest2html (fun s d => match dict_get ($ "raw_enabled") d with Some (VBool false) => Ok s | _ => Exc EOther end) (Some ($ "x")) [($ "traceback", VBool false)] = Ok ($ "x").
Proof. vm_compute. auto. Qed.

(** ** C88 *)
Theorem C88_image_align : forall attval suffix attrs node body, (forall s, ~ In 62 (attval s)) ->
  Forall (fun a => snd a <> ANone /\ ~ In 62 (lower (fst a))) attrs -> ~ In 62 suffix ->
  exists shown tag, Permutation shown (filter shown_attr attrs) /\ Sorted by_name shown /\ starttag attval ($ "img") suffix true attrs = Ok tag /\
    tag = $ "<img" ++ flat_map (attr_shown attval) shown ++ $ " />" ++ suffix /\
    visit_image node (tag :: body) = ($ "<img" ++ flat_map (attr_shown attval) shown ++ align_shown node ++ $ " />" ++ suffix) :: body.
Proof. exact image_align. Qed.
Print Assumptions C88_image_align.
Theorem C88_objects_untouched : forall node b body, startswith ($ "<img") b = false -> visit_image node (b :: body) = b :: body.
Proof. intros node b body H. unfold visit_image. rewrite H. reflexivity. Qed.
Print Assumptions C88_objects_untouched.
Definition attval (s : str) : str := flat_map (fun c => if c =? 62 then $ "&gt;" else [c]) s.
Example C88_case : (forall s, ~ In 62 (attval s)) /\
  let img := mkimage None ($ "figure") (Some ($ "left")) in
  starttag attval ($ "img") [10] true [($ "src", AVal ($ "a /> b")); ($ "alt", AVal ($ " />"))] = Ok ($ "<img alt="" /&gt;"" src=""a /&gt; b"" />" ++ [10]) /\
  visit_image img [$ "<img alt="" /&gt;"" src=""a /&gt; b"" />" ++ [10]] = [$ "<img alt="" /&gt;"" src=""a /&gt; b"" align=""left"" />" ++ [10]] /\
  visit_image (mkimage (Some ($ "right")) ($ "figure") (Some ($ "left"))) [$ "<img />"] = [$ "<img align=""right"" />"] /\
  visit_image (mkimage None ($ "reference") (Some ($ "left"))) [$ "<img />"] = [$ "<img />"].
Proof.
  split; [|vm_compute; auto]. intros s I. unfold attval in I. apply in_flat_map in I as (c & _ & I). destruct (N.eqb_spec c 62) as [|H]; [cbn in I; intuition discriminate|]. destruct I as [I|[]]. congruence.
Qed.
(** the escaping of docutils is needed: otherwise the alignment is put into a value *)
Theorem C88_escaping_needed : visit_image (mkimage (Some ($ "left")) [] None) [$ "<img alt=""a /> b"" />"] = [$ "<img alt=""a align=""left"" /> b"" align=""left"" />"].
Proof. vm_compute. reflexivity. Qed.
Print Assumptions C88_escaping_needed.
