(** * Proofs for P1_Creole2Html.v *)
From Coq Require Import String List Arith NArith ZArith Bool Lia.
From Verif Require Import PyStr PyStrFacts GNames Regex Rules DocTree Utils CreoleParser HtmlEmitter HtmlSpec Spec.
From Verif Require Import ParserFacts EmitterFacts UsedFacts TotalFacts Safety C2H TocFacts.
Import ListNotations.
Open Scope N_scope.

Lemma none_tame : forall v, tame v no_macros.
Proof. intro v. left. reflexivity. Qed.
Lemma none_results : forall r, ~ macro_result no_macros r.
Proof. intros r (l & name & kw & v & H & _). discriminate. Qed.

(** general form with [uses_toc] *)
Lemma doc_uses : forall (R : str -> Prop) (A : list (str * str) -> Prop) o md s,
  tame (eff_verbose o) (md_env md) -> ~ uses_toc (o_blog o) s ->
  (forall r, raw_piece (eff_verbose o) (md_env md) r -> R r) ->
  (forall c h ch t, strict c = o_strict o -> exists l, image_emit c t h ch = show (HVoid ($ "img") l) /\ A l) ->
  exists f md', creole2html o md s = (Ok (strip (show_all f)), md') /\ document R A f.
Proof.
  intros R A o md s Ht Hs HR HA. destruct (parse_wf (o_blog o) s) as (n & u & Hp & _).
  destruct (doc_general R A (fun _ => True) o md s n u) as (f & md' & E & _ & _ & HD); eauto.
  - intro Hin. apply Hs. exists n, u. auto.
  - apply everywhere_all. auto.
Qed.

Lemma lemma_C01b : forall (o : opts) (s : str), ~ uses_toc (o_blog o) s ->
  exists html md', creole2html o no_md s = (Ok html, md').
Proof.
  intros o s Hs. destruct (doc_uses (fun _ => True) img_shape o no_md s) as (f & md' & E & _); eauto.
  - apply none_tame.
  - intros. apply image_any.
Qed.
Lemma lemma_C01 : forall (o : opts) (s : str), contains ($ "toc") s = false ->
  exists html md', creole2html o no_md s = (Ok html, md').
Proof. intros o s H. apply lemma_C01b, text_uses_toc, H. Qed.

Lemma lemma_C02 : forall (blog : bool) (s : str), ~ uses_toc blog s ->
  exists f, fst (creole2html (mkopts blog (Some 0%Z) true) no_md s) = Ok (strip (show_all f)) /\
    document (fun _ => False) img_attrs f.
Proof.
  intros blog s Hs.
  destruct (doc_uses (fun _ => False) img_attrs (mkopts blog (Some 0%Z) true) no_md s) as (f & md' & E & HD); auto.
  - apply none_tame.
  - intros r [[H _]|H]; [cbn in H; lia | exact (none_results r H)].
  - intros. apply image_strict. assumption.
  - exists f. rewrite E. auto.
Qed.
Lemma lemma_C03 : forall (blog : bool) (v : option Z) (s : str), ~ uses_toc blog s ->
  exists f, fst (creole2html (mkopts blog v true) no_md s) = Ok (strip (show_all f)) /\
    document error_text img_attrs f.
Proof.
  intros blog v s Hs.
  destruct (doc_uses error_text img_attrs (mkopts blog v true) no_md s) as (f & md' & E & HD); auto.
  - apply none_tame.
  - intros r [[_ H]|H]; [exact H | exfalso; exact (none_results r H)].
  - intros. apply image_strict. assumption.
  - exists f. rewrite E. auto.
Qed.
Lemma lemma_C03_refuted : exists s html md',
  creole2html default_opts no_md s = (Ok html, md') /\ contains ($ "<script>alert(1)</script>") html = true.
Proof.
  exists ($ "<<foo <script>alert(1)</script> >>"). eexists _, _. split; [vm_compute; reflexivity | vm_compute; reflexivity].
Qed.
Lemma lemma_C04 : forall (o : opts) (md : mdict) (s : str),
  tame (eff_verbose o) (md_env md) -> ~ uses_toc (o_blog o) s ->
  exists f, fst (creole2html o md s) = Ok (strip (show_all f)) /\
    document (raw_piece (eff_verbose o) (md_env md)) img_shape f.
Proof.
  intros o md s Ht Hs.
  destruct (doc_uses (raw_piece (eff_verbose o) (md_env md)) img_shape o md s) as (f & md' & E & HD); auto.
  - intros. apply image_any.
  - exists f. rewrite E. auto.
Qed.
Lemma lemma_C05_case : let l := [($ "= a =", CRLF); ($ "* b", CR); ([], CRLF); ($ "c", LF)] in
  Forall (fun x => no_newline (fst x)) l /\ no_newline ($ "d") /\ unambiguous l.
Proof.
  assert (H : forall w, forallb (fun c => negb (c =? 10) && negb (c =? 13)) w = true -> no_newline w).
  { intros w Hw c Hc. rewrite forallb_forall in Hw. apply Hw in Hc. apply andb_true_iff in Hc as [H1 H2].
    apply negb_true_iff, N.eqb_neq in H1, H2. auto. }
  cbn zeta. split; [|split].
  - repeat (apply Forall_cons; [apply H; reflexivity|]). apply Forall_nil.
  - apply H; reflexivity.
  - cbn. repeat split; intros (A & B & C); discriminate.
Qed.
Lemma lemma_C17 : forall (o : opts) (md : mdict) (s : str),
  (eff_verbose o <= 2)%Z -> no_base (md_env md) -> ~ uses_toc (o_blog o) s ->
  exists html md', creole2html o md s = (Ok html, md').
Proof.
  intros o md s Hv Hb Hs. destruct (doc_uses (fun _ => True) img_shape o md s) as (f & md' & E & _); eauto.
  - right; auto.
  - intros. apply image_any.
Qed.
Lemma lemma_C17_quiet : forall (blog strict_ : bool) (md : mdict) (s : str),
  no_base (md_env md) -> ~ uses_toc blog s ->
  exists f, fst (creole2html (mkopts blog (Some 0%Z) strict_) md s) = Ok (strip (show_all f)) /\
    document (macro_result (md_env md)) img_shape f.
Proof.
  intros blog st md s Hb Hs.
  destruct (doc_uses (macro_result (md_env md)) img_shape (mkopts blog (Some 0%Z) st) md s) as (f & md' & E & HD); auto.
  - right. split; [cbn; lia | exact Hb].
  - intros r [[H _]|H]; [cbn in H; lia | exact H].
  - intros. apply image_any.
  - exists f. rewrite E. auto.
Qed.
Lemma lemma_C20_refuted : exists title html md',
  creole2html default_opts no_md ($ "= " ++ title ++ $ " =" ++ [10] ++ $ "<<toc>>") = (Ok html, md') /\
  contains title html = true /\ escape title <> title.
Proof.
  exists ($ "<script>"). eexists _, _. split; [vm_compute; reflexivity|].
  split; [vm_compute; reflexivity | vm_compute; discriminate].
Qed.
Lemma lemma_C21_case : stateless no_macros /\
  Forall (fun x : opts * str => ~ uses_toc (o_blog (fst x)) (snd x)) [(default_opts, $ "a <<b>>"); (default_opts, $ "= c")].
Proof. split; [intros l l' name kw; reflexivity|]. repeat (apply Forall_cons; [apply text_uses_toc; reflexivity|]). apply Forall_nil. Qed.
Lemma lemma_C21_refuted : exists docs o s, fst (creole2html o (after no_md docs) s) <> fst (creole2html o no_md s).
Proof.
  exists [(default_opts, $ "<<toc>>")], default_opts, ($ "<<toc>>"). vm_compute. discriminate.
Qed.
Lemma lemma_C22_refuted : exists s, fst (creole2html default_opts no_md s) = Exc ETypeError.
Proof. exists ($ "<<toc depth=abc>>" ++ [10] ++ $ "= a ="). vm_compute. reflexivity. Qed.
Lemma lemma_C22_total : forall (o : opts) (md : mdict) (s : str) n u,
  (eff_verbose o <= 2)%Z -> no_base (md_env md) -> md_toc md = TNone ->
  parse (o_blog o) s = Some (n, u) -> everywhere toc_args_ok n ->
  exists html md', creole2html o md s = (Ok html, md').
Proof. intros o md s n u Hv Hb Ht Hp Ha. eapply total_toc; eauto. rewrite Ht. exact I. Qed.
Lemma lemma_C22_case : exists n u,
  parse true ($ "== a" ++ [10] ++ $ "<<toc depth=1>>" ++ [10] ++ $ "= b" ++ [10] ++ $ "== c") = Some (n, u) /\
  In ($ "toc") u /\ everywhere toc_args_ok n /\ listed (events n) = [(2%nat, $ "a"); (1%nat, $ "b")].
Proof.
  eexists _, _. split; [vm_compute; reflexivity|].
  split; [left; reflexivity|]. split; [|vm_compute; reflexivity].
  cbn [everywhere]. unfold toc_args_ok. cbn [hk hmname hmargs mkn mkl].
  repeat split; try (intros; discriminate).
  intros _ _ kw E. vm_compute in E. inversion E; subst. intros v Hv. vm_compute in Hv. discriminate.
Qed.
Lemma lemma_C44 : forall (o : opts) (md : mdict) (s : str) html md',
  ~ uses_toc (o_blog o) s -> creole2html o md s = (Ok html, md') ->
  (forall c t, html = c :: t -> is_space c = false) /\ (forall c t, html = t ++ [c] -> is_space c = false).
Proof.
  intros o md s html md' Hs E. unfold creole2html in E.
  destruct (parse (o_blog o) s) as [[n u]|] eqn:Hp; [|discriminate].
  assert (Hu : ~ In ($ "toc") u) by (intro Hin; apply Hs; exists n, u; auto).
  rewrite (no_toc_init _ _ Hu) in E. unfold emit in E. cbn [use_toc] in E.
  destruct (emit_node _ _ n _) as [[a|e] s']; [|discriminate]. inversion E; subst.
  split; intros c t H.
  - eapply strip_by_head. exact H.
  - apply (strip_by_last _ a c (rev t)). unfold strip in H. rewrite H, rev_app_distr. reflexivity.
Qed.
Lemma lemma_C47_refuted : exists s html md',
  creole2html default_opts no_md s = (Ok html, md') /\ contains ($ """ onerror=""alert(1)""") html = true.
Proof.
  exists ($ "{{x"" onerror=""alert(1)||1x2}}"). eexists _, _. split; [vm_compute; reflexivity | vm_compute; reflexivity].
Qed.
Lemma lemma_C47 : forall (blog strict_ : bool) (s : str) n u,
  parse blog s = Some (n, u) -> ~ In ($ "toc") u -> everywhere titled n ->
  exists f, fst (creole2html (mkopts blog (Some 0%Z) strict_) no_md s) = Ok (strip (show_all f)) /\
    document (fun _ => False) img_attrs f.
Proof.
  intros blog st s n u Hp Hu HG.
  destruct (doc_general (fun _ => False) img_attrs titled (mkopts blog (Some 0%Z) st) no_md s n u)
    as (f & md' & E & _ & _ & HD); auto.
  - apply none_tame.
  - intros r [[H _]|H]; [cbn in H; lia | exact (none_results r H)].
  - intros c h ch t Hk _ Ht. apply image_titled, Ht, Hk.
  - exists f. rewrite E. auto.
Qed.
Lemma lemma_C47_case : exists n u, parse true ($ "{{a|b|1x2}}") = Some (n, u) /\ ~ In ($ "toc") u /\ everywhere titled n.
Proof.
  eexists _, _. split; [vm_compute; reflexivity|]. split; [intros []|].
  cbn [everywhere]. unfold titled. cbn. repeat split; intros; try discriminate.
Qed.
