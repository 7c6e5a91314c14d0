(** * Properties of the command line tools (C43, C59, C60)

    Only statements, examples and assumptions; the vocabulary is in Spec8.v. *)
From Coq Require Import String List Arith NArith ZArith Bool Lia.
From Verif Require Import PyStr Utils Res UrlQuote Cmdline Spec8 CmdlineFacts.
Import ListNotations.
Open Scope N_scope.

(** the files a and b hold text, c is another name of a *)
Definition some_fs : fs :=
  mkfs (fun p => if str_eqb p ($ "a") || str_eqb p ($ "c") then Some 0 else if str_eqb p ($ "b") then Some 1 else None)
       (fun i => if i =? 0 then $ "<img>" else $ "old") 2.
Definition some_world : world := mkworld (fun _ => true) (fun _ => true) (fun e => if str_eqb e ($ "utf-8") then Some utf8_codec else None) None.
Lemma some_fs_ok : fs_ok some_fs.
Proof. intros p i. cbn. destruct (str_eqb p [97] || str_eqb p [99]); [injection 1 as <-; reflexivity|]. destruct (str_eqb p [98]); [injection 1 as <-; reflexivity|discriminate]. Qed.
Lemma some_open : forall s d, names some_fs s <> None -> can_open some_world s d ($ "utf-8") some_fs utf8_codec.
Proof. intros s d H. constructor; [apply some_fs_ok|exact H|reflexivity..]. Qed.

(** ** C43 *)
Theorem C43_success : forall w conv src dst encoding f c bs t u b,
  can_open w src dst encoding f c -> ~ same_file f src dst -> contents f src = Some bs ->
  dec c bs = Some t -> conv t = Ok u -> enc c u = Some b -> enough_room w b ->
  exists l, convert w conv src dst encoding f = (CDone, l) /\ contents (final l f) dst = Some b /\
    forall g, In g l -> contents g dst = contents f dst \/ exists n, contents g dst = Some (firstn n b).
Proof. exact lemma_success. Qed.
Print Assumptions C43_success.
Example C43_success_case : can_open some_world ($ "a") ($ "new") ($ "utf-8") some_fs utf8_codec /\ ~ same_file some_fs ($ "a") ($ "new") /\
  contents some_fs ($ "a") = Some ($ "<img>") /\ cli_creole2html ($ "<img>") = Ok ($ "<p>&lt;img&gt;</p>").
Proof.
  split; [apply some_open; discriminate|]. split; [intros [H|[H _]]; discriminate H|]. vm_compute. auto.
Qed.
(** whatever happens, and at every moment: no other file changes *)
Theorem C43_others_untouched : forall w conv src dst encoding f r l g p, fs_ok f ->
  convert w conv src dst encoding f = (r, l) -> In g l -> ~ same_file f p dst -> contents g p = contents f p.
Proof. exact lemma_others. Qed.
Print Assumptions C43_others_untouched.
Example C43_others_case : fs_ok some_fs /\ ~ same_file some_fs ($ "a") ($ "b") /\
  fst (convert some_world cli_html2creole ($ "a") ($ "b") ($ "utf-8") some_fs) = CFail (CConvert EKeyError).
Proof. split; [exact some_fs_ok|]. split; [intros [H|[H _]]; discriminate H|]. vm_compute. reflexivity. Qed.
(** a missing source, an unknown codec or an unwritable destination: nothing happens *)
Theorem C43_nothing_happens : forall w conv src dst encoding f,
  contents f src = None \/ readable w src = false \/ lookup w encoding = None \/ writable w dst = false ->
  exists e, convert w conv src dst encoding f = (CFail e, [f]).
Proof. exact lemma_nothing. Qed.
Print Assumptions C43_nothing_happens.
Example C43_nothing_case : contents some_fs ($ "missing") = None /\ lookup some_world ($ "utf8") = None.
Proof. vm_compute. auto. Qed.
(** the violation: undecodable text, a failing conversion or unencodable text empty the
    destination *)
Theorem C43_failure_empties_destination : forall w conv src dst encoding f c bs,
  can_open w src dst encoding f c -> ~ same_file f src dst -> contents f src = Some bs ->
  (dec c bs = None \/ (exists t, dec c bs = Some t /\ ((exists e, conv t = Exc e) \/ (exists u, conv t = Ok u /\ enc c u = None)))) ->
  exists e l, convert w conv src dst encoding f = (CFail e, l) /\ contents (final l f) dst = Some [].
Proof. exact lemma_failure. Qed.
Print Assumptions C43_failure_empties_destination.
Theorem C43_safe_refuted : ~ (forall w src dst encoding f e l, fs_ok f ->
  convert w cli_html2creole src dst encoding f = (CFail e, l) -> contents (final l f) dst = contents f dst).
Proof.
  intro H. specialize (H some_world ($ "a") ($ "b") ($ "utf-8") some_fs (CConvert EKeyError) _ some_fs_ok eq_refl).
  vm_compute in H. discriminate H.
Qed.
Print Assumptions C43_safe_refuted.
(** the violation: with one file as source and destination the result is the conversion of
    the empty text *)
Theorem C43_same_file_loses_the_source : forall w conv src dst encoding f c u b,
  can_open w src dst encoding f c -> same_file f src dst -> dec c [] = Some [] -> conv [] = Ok u -> enc c u = Some b -> enough_room w b ->
  exists l, convert w conv src dst encoding f = (CDone, l) /\ contents (final l f) src = Some b.
Proof. exact lemma_same. Qed.
Print Assumptions C43_same_file_loses_the_source.
Example C43_same_case : can_open some_world ($ "a") ($ "c") ($ "utf-8") some_fs utf8_codec /\ same_file some_fs ($ "a") ($ "c") /\
  dec utf8_codec [] = Some [] /\ map (fun f => f []) [cli_creole2html; cli_html2creole; cli_html2rest; cli_html2textile] = [Ok []; Ok []; Ok []; Ok []] /\
  enc utf8_codec [] = Some [].
Proof. split; [apply some_open; discriminate|]. split; [right; split; [reflexivity|discriminate]|]. vm_compute. auto. Qed.

(** ** C59 *)
Theorem C59_utf8 : forall w conv src dst encoding f t u,
  can_open w src dst encoding f utf8_codec -> ~ same_file f src dst -> room w = None ->
  forallb scalar t = true -> contents f src = utf8_encode t -> conv t = Ok u -> forallb scalar u = true ->
  exists l, convert w conv src dst encoding f = (CDone, l) /\ contents (final l f) dst = utf8_encode u.
Proof. exact lemma_utf8_cli. Qed.
Print Assumptions C59_utf8.
Theorem C59_utf8_roundtrip : forall t, forallb scalar t = true -> exists b, utf8_encode t = Some b /\
  forall r, utf8_decode (b ++ r) = option_map (app t) (utf8_decode r).
Proof. exact lemma_utf8. Qed.
Print Assumptions C59_utf8_roundtrip.
Example C59_case : let t := [228; 8364; 128512; 65] in forallb scalar t = true /\
  utf8_encode t = Some [195; 164; 226; 130; 172; 240; 159; 152; 128; 65] /\ utf8_encode [55296] = None /\ utf8_decode [192; 128] = None.
Proof. vm_compute. auto. Qed.

(** ** C60: a file cut inside its last character is accepted without that character *)
Theorem C60_truncated_character_lost : forall t c b a p q, forallb scalar t = true -> scalar c = true ->
  utf8_encode t = Some b -> utf8 c = Some a -> a = p ++ q -> q <> [] -> utf8_decode (b ++ p) = Some t.
Proof. exact lemma_utf8_truncated. Qed.
Print Assumptions C60_truncated_character_lost.
Example C60_case : utf8 8364 = Some ([226; 130] ++ [172]) /\ utf8_decode ($ "a" ++ [226; 130]) = Some ($ "a").
Proof. vm_compute. auto. Qed.
