(** * Properties of the reStructuredText tools and of unified_diff (C45, C46, C61)

    Only statements, examples and assumptions; the vocabulary is in Spec9.v. *)
From Coq Require Import String List Arith NArith ZArith Bool Lia Permutation Sorted.
From Verif Require Import PyStr Utils Res RestTools Spec9 RestToolsFacts.
Import ListNotations.
Open Scope N_scope.

(** ** C45 *)
Theorem C45_accepted_means_allowed : forall nodes, pypi_check nodes = POk -> Forall allowed (links nodes).
Proof. exact lemma_C45_sound. Qed.
Print Assumptions C45_accepted_means_allowed.
(** brackets (of an IPv6 host) may be refused *)
Theorem C45_allowed_is_accepted : forall nodes, Forall allowed (links nodes) ->
  Forall (fun u => ~ In 91 u /\ ~ In 93 u) (links nodes) -> pypi_check nodes = POk.
Proof. exact lemma_C45_complete. Qed.
Print Assumptions C45_allowed_is_accepted.
Example C45_case : let nodes := [mkrnode true None None; mkrnode false (Some ($ " HTTPS://x.org/?a:b")) None; mkrnode false None (Some ($ "mailto:me"))] in
  pypi_check nodes = POk /\ Forall allowed (links nodes) /\ Forall (fun u => ~ In 91 u /\ ~ In 93 u) (links nodes) /\
  pypi_check [mkrnode false (Some ($ "javascript:x")) None] = PTransform /\ pypi_check [mkrnode false None (Some ($ "/relative"))] = PTransform /\
  pypi_check [mkrnode false (Some ($ "http://[x")) None] = PExc EValueError.
Proof.
  cbv zeta. split; [vm_compute; reflexivity|]. split; [apply lemma_C45_sound; vm_compute; reflexivity|]. split; [|vm_compute; auto].
  repeat constructor; vm_compute; intuition discriminate.
Qed.

(** ** C46 *)
Theorem C46_starttag : forall attval tag suffix empty attrs, tag <> $ "div" -> Forall (fun a => snd a <> ANone) attrs ->
  exists shown, Permutation shown (filter shown_attr attrs) /\ Sorted by_name shown /\
    starttag attval tag suffix empty attrs = Ok ($ "<" ++ tag ++ flat_map (attr_shown attval) shown ++ (if empty then $ " /" else []) ++ $ ">" ++ suffix).
Proof. exact lemma_C46. Qed.
Print Assumptions C46_starttag.
Theorem C46_div : forall attval suffix empty attrs, starttag attval ($ "div") suffix empty attrs = Ok [].
Proof. reflexivity. Qed.
Print Assumptions C46_div.
Theorem C46_none_value : forall attval tag suffix empty attrs, tag <> $ "div" -> Exists (fun a => snd a = ANone) attrs ->
  starttag attval tag suffix empty attrs = Exc EAssertion.
Proof. exact lemma_C46_none. Qed.
Print Assumptions C46_none_value.
Example C46_case : starttag (fun s => s) ($ "img") [10] true [($ "src", AVal ($ "x")); ($ "CLASS", AVal ($ "c")); ($ "ids", AList [$ "a"; $ "b"]); ($ "Alt", AVal ($ "y"))] =
  Ok ($ "<img alt=""y"" ids=""a b"" src=""x"" />" ++ [10]).
Proof. vm_compute. reflexivity. Qed.

(** ** C61 *)
Theorem C61_complete_lines : forall diff, Forall (fun l => endswith [10] l = true) diff -> diff_text diff = concat diff.
Proof. exact lemma_diff_ok. Qed.
Print Assumptions C61_complete_lines.
(** the violation: the mark for a missing newline is glued to the line, so the diff is that of
    another text *)
Theorem C61_ambiguous : forall pre line, line <> [] -> endswith [10] line = false ->
  diff_text (pre ++ [line]) = diff_text (pre ++ [line ++ $ "n\ No newline at end of file" ++ [10]]).
Proof. exact lemma_diff_glued. Qed.
Print Assumptions C61_ambiguous.
Example C61_case : diff_text [$ "-a" ++ [10]; $ "+a"] = $ "-a" ++ [10] ++ $ "+an\ No newline at end of file" ++ [10].
Proof. vm_compute. reflexivity. Qed.
