(** * Properties of the macro argument strings (C23, C24, C58)

    Only statements, examples and assumptions; the vocabulary is in Spec7.v. *)
From Coq Require Import String List Arith NArith ZArith Bool Lia.
From Verif Require Import PyStr Utils Spec4 Spec7 Spec50 NumeralFacts DictFacts.
Import ListNotations.
Open Scope N_scope.

(** ** C23 *)
Theorem C23_roundtrip : forall d, NoDup (map fst d) -> Forall (fun kv => plain_key (fst kv) = true /\ plain_value (snd kv)) d ->
  exists d', string2dict (dict2string d) = Some d' /\ same_dict d' d.
Proof. exact lemma_C23. Qed.
Print Assumptions C23_roundtrip.
(** every text with a letter that is not one of the three keywords qualifies *)
Theorem C23_words : forall s, has_letter s = true -> not_a_number s.
Proof. exact letter_number. Qed.
Print Assumptions C23_words.
Example C23_case : let d := [($ "title", VStr ($ "a ""b"" \ c='d'")); ($ "n", VInt (-12)%Z); ($ "e", VStr [])] in
  NoDup (map fst d) /\ Forall (fun kv => plain_key (fst kv) = true /\ plain_value (snd kv)) d /\
  dict2string d = $ "e="""" n=-12 title=""a \""b\"" \\ c='d'""" /\
  string2dict (dict2string d) = Some [($ "e", VStr []); ($ "n", VInt (-12)%Z); ($ "title", VStr ($ "a ""b"" \ c='d'"))].
Proof.
  cbv zeta. split; [|split; [|vm_compute; auto]].
  - repeat constructor; intros H; repeat (destruct H as [H|H]; [discriminate|]); exact H.
  - repeat (apply Forall_cons || apply Forall_nil); (split; [vm_compute; reflexivity|]).
    + split; [vm_compute; reflexivity|]. split; [vm_compute; reflexivity|]. refine (proj2 (no_number _) _). vm_compute. reflexivity.
    + vm_compute. discriminate.
    + split; [vm_compute; reflexivity|]. split; [vm_compute; reflexivity|]. refine (proj2 (no_number _) _). vm_compute. reflexivity.
Qed.

(** ** C24 *)
Theorem C24_everything_refuted : ~ (forall d, NoDup (map fst d) -> exists d', string2dict (dict2string d) = Some d' /\ same_dict d' d).
Proof.
  intro H. destruct (H [($ "a", VNone)]) as (d' & E & S); [constructor; [intros []|constructor]|].
  vm_compute in E. injection E as <-. specialize (S ($ "a")). vm_compute in S. discriminate S.
Qed.
Print Assumptions C24_everything_refuted.
Theorem C24_keywords : forall k b, plain_key k = true ->
  (exists d, string2dict (dict2string [(k, VBool b)]) = Some d /\ same_dict d [(k, VStr (if b then $ "true" else $ "false"))]) /\
  (exists d, string2dict (dict2string [(k, VNone)]) = Some d /\ same_dict d [(k, VStr ($ "null"))]).
Proof. exact lemma_C24. Qed.
Print Assumptions C24_keywords.
Theorem C24_numbers : forall k s z, plain_key k = true -> printable s = true -> keyword s = false ->
  number (strip_chars [39; 34] s) z ->
  exists d, string2dict (dict2string [(k, VStr s)]) = Some d /\ same_dict d [(k, VInt z)].
Proof. exact lemma_C24_numbers. Qed.
Print Assumptions C24_numbers.
(** every dict with plain keys is read again, and each of its values comes back as described in Spec7.v *)
Theorem C24_values : forall d, NoDup (map fst d) -> Forall (fun kv => plain_key (fst kv) = true /\ writable (snd kv)) d ->
  exists d', string2dict (dict2string d) = Some d' /\
  forall k, match dict_get k d with
            | Some v => exists t p, value_back v t /\ reads_as t p /\ dict_get k d' = Some p
            | None => dict_get k d' = None
            end.
Proof. exact lemma_C24_values. Qed.
Print Assumptions C24_values.
Example C24_values_case : let d := [($ "a", VStr [120; 12; 34; 8364; 128512; 7]); ($ "b", VStr ($ "12")); ($ "c", VBool true); ($ "d", VNone); ($ "e", VInt (-3)%Z)] in
  NoDup (map fst d) /\ Forall (fun kv => plain_key (fst kv) = true /\ writable (snd kv)) d /\
  string2dict (dict2string d) = Some [($ "a", VStr ($ "x\f""\u20ac\ud83d\ude00\u0007")); ($ "b", VInt 12%Z); ($ "c", VStr ($ "true")); ($ "d", VStr ($ "null")); ($ "e", VInt (-3)%Z)].
Proof.
  cbv zeta. split; [|split; [|vm_compute; reflexivity]].
  - repeat constructor; intros H; repeat (destruct H as [H|H]; [discriminate|]); exact H.
  - repeat (apply Forall_cons || apply Forall_nil); (split; [vm_compute; reflexivity|]); cbn [snd writable]; try exact I; try (intros c Hc; cbn [In] in Hc; lia); try (vm_compute; discriminate).
Qed.
(** a line break comes back as backslash and n, a letter outside ASCII as its escape, and a
    key with a blank raises ValueError *)
Theorem C24_escapes_refuted :
  string2dict (dict2string [($ "a", VStr [10])]) = Some [($ "a", VStr ($ "\n"))] /\
  string2dict (dict2string [($ "a", VStr [228])]) = Some [($ "a", VStr ($ "\u00e4"))] /\
  string2dict (dict2string [($ "a b", VInt 1)]) = None.
Proof. vm_compute. auto. Qed.
Print Assumptions C24_escapes_refuted.
Example C24_case : plain_key ($ "k") = true /\ printable ($ " 1_000 ") = true /\ keyword ($ " 1_000 ") = false /\
  number (strip_chars [39; 34] ($ " 1_000 ")) 1000%Z.
Proof. repeat split; try (vm_compute; reflexivity). apply number_iff. vm_compute. reflexivity. Qed.
(** digits of other scripts are digits: ARABIC-INDIC DIGIT FOUR, DEVANAGARI DIGIT TWO; a letter is none *)
Example C24_scripts : number [45; 1636; 2408] (-42)%Z /\ not_a_number [228] /\ not_a_number ($ "1__0") /\
  string2dict ($ "a=" ++ [45; 1636; 2408]) = Some [($ "a", VInt (-42)%Z)] /\ string2dict ($ "a=" ++ [228]) = Some [($ "a", VStr [228])].
Proof. split; [apply number_iff; vm_compute; reflexivity|]. split; [refine (proj2 (no_number _) _); vm_compute; reflexivity|]. split; [refine (proj2 (no_number _) _); vm_compute; reflexivity|]. vm_compute. auto. Qed.

(** ** C58 *)
Theorem C58_written_arguments : forall l, forallb arg_ok l = true -> exists d, string2dict (args_text l) = Some d /\
  forall k, match arg_value k l with
            | Some v => exists p, dict_get k d = Some p /\ reads_as v p
            | None => dict_get k d = None
            end.
Proof. exact lemma_C58. Qed.
Print Assumptions C58_written_arguments.
Example C58_case : let l := [mkarg ($ "ext") Double ($ "a 'py' = b"); mkarg ($ "n") Bare ($ "7"); mkarg ($ "s") Single ($ "True"); mkarg ($ "n") Single ($ "x \n ""y""")] in
  forallb arg_ok l = true /\ args_text l = $ "ext=""a 'py' = b"" n=7 s='True' n='x \n ""y""'" /\
  string2dict (args_text l) = Some [($ "ext", VStr ($ "a 'py' = b")); ($ "n", VStr ($ "x \n ""y""")); ($ "s", VBool true)].
Proof. vm_compute. auto. Qed.
