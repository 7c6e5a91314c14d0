(** * Proofs for P44_BlockRules.v *)
From Coq Require Import String List Arith NArith ZArith Bool Lia.
From Verif Require Import PyStr PyStrFacts GNames Regex RegexFacts Rules DocTree Utils CreoleParser Res HtmlEmitter HtmlSpec Spec.
From Verif Require Import ParserFacts EmitterFacts UsedFacts TotalFacts Safety C2H TocFacts P1_Lemmas BlockRulesArg Spec47.
From Verif Require KindFacts.
Import ListNotations.
Open Scope N_scope.

(** ** Which handler is called *)
Lemma rules_capne : forall rs, capne (rules_re rs) G_head_head = true.
Proof.
  intro rs. unfold rules_re. induction rs as [|r rs IH]; [reflexivity|].
  assert (H : capne (rule_re r) G_head_head = true) by (destruct r as [| | | | | | |[]]; reflexivity).
  destruct rs as [|q rs]; [exact H|]. change (capne (rule_re r) G_head_head && capne (alts (map rule_re (q :: rs))) G_head_head = true).
  rewrite H. exact IH.
Qed.

Definition goes (x : mtch) (q : brule) : Prop := exists g, In g (rule_groups q) /\
  (forall rest, first_group (rule_groups q ++ rest) x = Some g) /\ block_case x g.
Definition skips (x : mtch) (q : brule) : Prop := forall rest, first_group (rule_groups q ++ rest) x = first_group rest x.

Section Match.
  Variables (rs : list brule) (raw : str) (x : mtch) (r : brule).
  Hypothesis H0 : In x (finditer (rules_re rs) raw).
  Hypothesis Hs : forall g, sets (rule_re r) g = true -> group g x <> None.
  Hypothesis Hm : forall g, may (rule_re r) g = false -> group g x = None.

  Ltac hit g :=
    exists g; split; [cbn [rule_groups In]; tauto|]; split;
    [ intro rest; cbn [rule_groups app first_group];
      repeat (rewrite Hm by reflexivity);
      let E := fresh "E" in
      assert (E : group g x <> None) by (apply Hs; reflexivity);
      apply group_some in E as [? E]; rewrite E; reflexivity
    | ].
  Ltac have g := let E := fresh "E" in assert (E : group g x <> None) by (apply Hs; reflexivity); apply group_some in E as [? E].

  Lemma self_goes : goes x r.
  Proof.
    destruct r as [| | | | | | |blog] eqn:Er.
    - hit G_macro_block. have G_macro_block_start. have G_macro_block_args. have G_macro_block_text. eapply BC_macro; eauto.
    - hit G_line. apply BC_line.
    - hit G_head. have G_head_text. have G_head_head. eapply BC_head; eauto. intros ->. revert E0.
      exact (finditer_capne _ _ _ G_head_head H0 (rules_capne rs)).
    - hit G_separator. apply BC_separator.
    - hit G_pre_block. have G_pre_block_text. eapply BC_pre; eauto.
    - hit G_list. have G_list. eapply BC_list; eauto.
    - hit G_table. have G_table. eapply BC_table; eauto.
    - destruct blog.
      + hit G_text. have G_text. eapply BC_text; eauto.
      + have G_text. destruct (group G_space x) eqn:Esp.
        * exists G_space. split; [left; reflexivity|]. split; [|eapply BC_text; eauto].
          intro rest. cbn [rule_groups app first_group]. rewrite Esp. reflexivity.
        * exists G_text. split; [right; left; reflexivity|]. split; [|eapply BC_text; eauto].
          intro rest. cbn [rule_groups app first_group]. rewrite Esp, E. reflexivity.
  Qed.

  Lemma other_goes : forall q, goes x q \/ skips x q.
  Proof.
    intro q.
    assert (D : (exists a b, q = B_text a /\ r = B_text b) \/ q = r \/ skips x q).
    { destruct q as [| | | | | | |a]; destruct r as [| | | | | | |b]; try (right; left; reflexivity); try (left; eauto; fail);
        right; right; intro rest; try destruct a; cbn [rule_groups app first_group];
        repeat (rewrite Hm by (try destruct b; reflexivity)); reflexivity. }
    destruct D as [(a & b & -> & Er)|[->|D]]; [|left; exact self_goes|right; exact D].
    left. destruct self_goes as (g & Hg & F & C). rewrite Er in Hg, F.
    assert (Et : exists t, group G_text x = Some t).
    { assert (E : group G_text x <> None) by (apply Hs; rewrite Er; destruct b; reflexivity). apply group_some in E. exact E. }
    destruct Et as [t Et]. destruct a.
    - exists G_text. split; [left; reflexivity|]. split; [|eapply BC_text; eauto].
      intro rest. cbn [rule_groups app first_group]. rewrite Et. reflexivity.
    - destruct (group G_space x) eqn:Esp.
      + exists G_space. split; [left; reflexivity|]. split; [|eapply BC_text; eauto].
        intro rest. cbn [rule_groups app first_group]. rewrite Esp. reflexivity.
      + exists G_text. split; [right; left; reflexivity|]. split; [|eapply BC_text; eauto].
        intro rest. cbn [rule_groups app first_group]. rewrite Esp, Et. reflexivity.
  Qed.

  Lemma some_goes : forall l, In r l -> exists g q, first_group (flat_map rule_groups l) x = Some g /\ block_case x g /\
    In q l /\ In g (rule_groups q).
  Proof.
    induction l as [|q l IH]; intro Hin; [destruct Hin|]. cbn [flat_map].
    assert (G : goes x q -> exists g q0, first_group (rule_groups q ++ flat_map rule_groups l) x = Some g /\ block_case x g /\
                              In q0 (q :: l) /\ In g (rule_groups q0)).
    { intros (g & Hg & F & C). exists g, q. rewrite F. split; [reflexivity|]. split; [exact C|]. split; [left; reflexivity | exact Hg]. }
    destruct Hin as [E|Hin]; [apply G; rewrite E; exact self_goes|].
    destruct (other_goes q) as [D|D]; [exact (G D)|]. rewrite D. destruct (IH Hin) as (g & q0 & F & C & Hq & Hg).
    exists g, q0. split; [exact F|]. split; [exact C|]. split; [right; exact Hq | exact Hg].
  Qed.
End Match.

Lemma rules_dispatch : forall rs raw x, In x (finditer (rules_re rs) raw) ->
  exists g q, first_group (rules_groups rs) x = Some g /\ block_case x g /\ In q rs /\ In g (rule_groups q).
Proof.
  intros rs raw x H. assert (H1 := H). apply finditer_alts in H1 as (re & Hr & Hs & Hm).
  apply in_map_iff in Hr as (r & <- & Hr). exact (some_goes rs raw x r H Hs Hm rs Hr).
Qed.

(** ** The document *)
Lemma rules_wf : forall rs raw, exists n u, parse_rules rs raw = Some (n, u) /\ wf_doc n = true.
Proof.
  intros rs raw. unfold parse_rules.
  assert (H : blk_state (fold_left (replace_ (rules_groups rs) block_handler)
                           (finditer (rules_re rs) (norm_newlines raw)) init_ps)).
  { apply fold_inv.
    - intros s x Hx Hs. unfold replace_. rewrite (bs_err _ Hs).
      destruct (rules_dispatch _ _ _ Hx) as (g & q & -> & Hc & _). apply block_case_ok; assumption.
    - constructor; auto. constructor. reflexivity. }
  set (s := fold_left _ _ _) in *. destruct H as [He Ht Hs]. unfold finish. rewrite He.
  destruct (pop_n_doc _ Hs) as (ch & E & Hc). unfold pop_to. simpl. rewrite E.
  eexists _, _. split; [reflexivity|]. simpl. rewrite forallb_rev. exact Hc.
Qed.

Lemma rules_registered : forall rs raw n u, parse_rules rs raw = Some (n, u) -> everywhere (registered u) n.
Proof.
  intros rs raw n u H. unfold parse_rules, finish in H.
  match type of H with context [perr ?s0] => assert (HJ : J s0) end.
  { apply fold_inv.
    - intros s x _ Hs. apply J_replace; [|exact Hs]. intros g Hg. apply J_block; exact Hg.
    - constructor; [|constructor]. split; [reflexivity | constructor]. }
  set (s := fold_left _ _ _) in *. clearbody s. destruct (perr s); [discriminate|].
  assert (HP := J_pop_to 1 _ HJ). unfold J in HP.
  destruct (stk (pop_to 1 s)) as [|[h ch] [|? ?]]; try discriminate. inversion H; subst.
  inversion HP as [|? ? [H1 H2] H3]; subst. apply close_ok; assumption.
Qed.

Lemma rules_no_toc : forall rs raw n u, contains ($ "toc") raw = false ->
  parse_rules rs raw = Some (n, u) -> ~ In ($ "toc") u.
Proof.
  intros rs raw n u Hc H. unfold parse_rules, finish in H.
  assert (Hs : tocsafe (norm_newlines raw)).
  { rewrite norm_unify. intro Hi. apply unify_infix in Hi.
    - apply contains_spec in Hi. congruence.
    - discriminate.
    - intros c Hin. cbn in Hin. repeat destruct Hin as [<-|Hin]; try destruct Hin; split; discriminate. }
  match type of H with context [perr ?s0] => assert (HV : V s0) end.
  { apply fold_inv; [|intros []].
    intros s x Hx H0. unfold replace_. destruct (perr s); [exact H0|].
    destruct (rules_dispatch _ _ _ Hx) as (g & q & -> & Hk & _). apply V_block_case; [exact Hk| |exact H0].
    intros g0 v E. eapply tocsafe_infix; [eapply caps_infix; eauto | exact Hs]. }
  set (s := fold_left _ _ _) in *. clearbody s. destruct (perr s); [discriminate|].
  destruct (stk (pop_to 1 s)) as [|[h ch] [|? ?]]; try discriminate. inversion H; subst. exact HV.
Qed.

(** the rule a kind of block needs *)
Definition rule_kinds (r : brule) : list kind :=
  match r with
  | B_macro => [KMacroBlock] | B_line => [KLine] | B_head => [KHeader] | B_separator => [KSeparator] | B_pre => [KPreBlock]
  | B_list => [KBulletList; KNumberList] | B_table => [KTable] | B_text _ => [KParagraph]
  end.
Definition allowed (rs : list brule) (k : kind) : Prop := KindFacts.free k = true \/ exists r, In r rs /\ In k (rule_kinds r).

Lemma rules_kinds : forall rs raw n u, parse_rules rs raw = Some (n, u) -> everywhere (KindFacts.kp (allowed rs)) n.
Proof.
  intros rs raw n u H. unfold parse_rules in H. eapply KindFacts.J_finish; [|exact H].
  apply fold_inv.
  - intros s x Hx Hs. unfold replace_. destruct (perr s); [exact Hs|].
    destruct (rules_dispatch _ _ _ Hx) as (g & q & -> & _ & Hq & Hg). apply KindFacts.J_block; [left; assumption| |exact Hs].
    intros k Hk. right. exists q. split; [exact Hq|].
    destruct q as [| | | | | | |[]]; cbn [rule_groups In] in Hg;
      repeat (destruct Hg as [Hg|Hg]; [subst g; exact Hk|]); destruct Hg.
  - apply KindFacts.J_init. left; assumption.
Qed.

(** ** The page *)
Section Made.
  Variable rs : list brule.
  Variable c : cfg.
  Variable R : str -> Prop.
  Variable A : list (str * str) -> Prop.
  Variable Inv : est -> Prop.
  Variable P : node -> Prop.
  Hypothesis Htoc : use_toc c = false.
  Hypothesis Hmacro : forall h ch s, (hk h = KMacroInline \/ hk h = KMacroBlock) ->
    P (Nd h ch) -> Inv s ->
    exists r s', macro_emit c h s = (Ok r, s') /\ Inv s' /\ (r = [] \/ R r).
  Hypothesis Himage : forall h ch t, hk h = KImage -> hcontent h = Some t -> P (Nd h ch) ->
    exists l, image_emit c t h ch = show (HVoid ($ "img") l) /\ A l.

  Definition top (h : html) : Prop := block R A h /\ (blank h \/ exists r, In r rs /\ made_by r h).

  Lemma top_nl : top (HText [10]).
  Proof. split; [apply bl_blank|left]; apply nl_blank. Qed.
  Lemma allowed_rule : forall k, allowed rs k -> KindFacts.free k = false -> exists r, In r rs /\ In k (rule_kinds r).
  Proof. intros k [H|H] Hk; [congruence | exact H]. Qed.

  Lemma block_made : forall n, wf_block n = true -> everywhere P n -> allowed rs (nkind n) -> forall par, emits c Inv top par n.
  Proof.
    intros [h ch] Hw He Ha par s Hs. assert (Hw0 := Hw). assert (He0 := He).
    rewrite emit_node_eq; cbn zeta. cbn [wf_block] in Hw. apply everywhere_kids in He. cbn [nkind] in Ha.
    assert (Hr : KindFacts.free (hk h) = false -> exists r, In r rs /\ In (hk h) (rule_kinds r)) by (intro; apply allowed_rule; assumption).
    clear Ha.
    Ltac rule Hr r := destruct (Hr eq_refl) as (r & Hin & Hr0); destruct r; cbn [rule_kinds In] in Hr0;
      try (exfalso; repeat destruct Hr0 as [Hr0|Hr0]; try discriminate; exact Hr0).
    destruct (hk h) eqn:Hk; try discriminate.
    - (* paragraph *) destruct (inls_emits c R A Inv P Hmacro Himage h ch s Hw He Hs) as (f & s' & -> & Hs' & F). cbn [wrap].
      exists [HEl ($ "p") [] f; HText [10]], s'. split; [|split; [exact Hs'|]].
      + rewrite <- nl_show. cbn [show show_attrs]. rewrite <- !app_assoc. reflexivity.
      + constructor; [|constructor; [exact top_nl|constructor]]. split; [apply bl_p; exact F|]. right. rule Hr r.
        exists (B_text blog). split; [exact Hin | constructor].
    - (* line *) exists [HText [10]], s. split; [reflexivity|]. split; [exact Hs|]. constructor; [exact top_nl | constructor].
    - (* separator *) exists [HVoid ($ "hr") []; HText [10]], s. split; [reflexivity|]. split; [exact Hs|].
      constructor; [|constructor; [exact top_nl|constructor]]. split; [apply bl_hr|]. right. rule Hr r.
      exists B_separator. split; [exact Hin | constructor].
    - (* header *) apply andb_true_iff in Hw as [Hw _]. apply andb_true_iff in Hw as [Hc _].
      unfold has_content in Hc. destruct (hcontent h) as [t|]; [|discriminate].
      unfold header_emit. rewrite Htoc.
      exists [HEl (($ "h") ++ show_nat (hlevel h)) [] [HText t]; HText [10]], s.
      split; [|split; [exact Hs|]].
      + rewrite <- nl_show. cbn [show show_attrs flat_map]. rewrite entity_esc, app_nil_r.
        rewrite <- !app_assoc. reflexivity.
      + constructor; [|constructor; [exact top_nl|constructor]]. split; [apply bl_head, numeral_show|]. right. rule Hr r.
        exists B_head. split; [exact Hin | constructor; apply numeral_show].
    - (* pre *) apply andb_true_iff in Hw as [Hc _].
      unfold has_content in Hc. destruct (hcontent h) as [t|]; [|discriminate].
      exists [HEl ($ "pre") [] [HText t]; HText [10]], s. split; [|split; [exact Hs|]].
      + rewrite <- nl_show. cbn [show show_attrs flat_map]. rewrite entity_esc, app_nil_r.
        rewrite <- !app_assoc. reflexivity.
      + constructor; [|constructor; [exact top_nl|constructor]]. split; [apply bl_pre|]. right. rule Hr r.
        exists B_pre. split; [exact Hin | constructor].
    - (* macro *) destruct (Hmacro h ch s) as (r & s' & -> & Hs' & HR); auto.
      { apply everywhere_here; exact He0. }
      destruct HR as [->|HR].
      + exists [], s'. split; [reflexivity|]. split; [exact Hs' | constructor].
      + exists [HRaw r], s'. rewrite show_all_one. split; [reflexivity|]. split; [exact Hs'|]. constructor; [|constructor].
        split; [apply bl_raw; exact HR|]. right. rule Hr q. exists B_macro. split; [exact Hin | constructor].
    - (* bullet list *)
      assert (HL : wf_list (Nd h ch) = true) by (cbn [wf_list]; rewrite Hk; exact Hw).
      destruct (proj2 (list_item_emits c R A Inv P Hmacro Himage (Nd h ch)) HL He0 par s Hs) as (f & s' & E & Hs' & F).
      rewrite emit_node_eq, Hk in E. cbn zeta in E. rewrite E. exists f, s'.
      split; [reflexivity|]. split; [exact Hs'|].
      eapply Forall_impl; [|exact F]. intros x Hx. inversion Hx as [? Hb|? Hl]; subst; [split; [apply bl_blank | left]; assumption|].
      split; [apply bl_list; exact Hl|]. right. rule Hr r. exists B_list. split; [exact Hin|]. inversion Hl; constructor; assumption.
    - assert (HL : wf_list (Nd h ch) = true) by (cbn [wf_list]; rewrite Hk; exact Hw).
      destruct (proj2 (list_item_emits c R A Inv P Hmacro Himage (Nd h ch)) HL He0 par s Hs) as (f & s' & E & Hs' & F).
      rewrite emit_node_eq, Hk in E. cbn zeta in E. rewrite E. exists f, s'.
      split; [reflexivity|]. split; [exact Hs'|].
      eapply Forall_impl; [|exact F]. intros x Hx. inversion Hx as [? Hb|? Hl]; subst; [split; [apply bl_blank | left]; assumption|].
      split; [apply bl_list; exact Hl|]. right. rule Hr r. exists B_list. split; [exact Hin|]. inversion Hl; constructor; assumption.
    - (* table *)
      assert (HC : exists f s', emit_children c h ch s = (Ok (show_all f), s') /\ Inv s' /\ Forall (hrow R A) f).
      { apply emits_children; [|exact Hs].
        rewrite forallb_forall in Hw. rewrite Forall_forall in *. intros y Hy. eapply row_emits; eauto. }
      destruct HC as (f & s' & -> & Hs' & F). cbn [wrap].
      exists [HEl ($ "table") [] ([HText [10]] ++ f); HText [10]], s'. split; [|split; [exact Hs'|]].
      + rewrite <- nl_show. cbn [show show_attrs]. fold (show_all ([HText [10]] ++ f)).
        rewrite show_all_app, show_all_one. cbn [show].
        rewrite <- !app_assoc. reflexivity.
      + constructor; [|constructor; [exact top_nl|constructor]]. split.
        * apply bl_table. constructor; [apply hr_blank, nl_blank | exact F].
        * right. rule Hr r. exists B_table. split; [exact Hin | constructor].
  Qed.

  Lemma doc_made : forall n s, wf_doc n = true -> everywhere P n -> everywhere (KindFacts.kp (allowed rs)) n -> Inv s ->
    exists f s', emit c n s = (Ok (strip (show_all f)), s') /\ Inv s' /\ Forall top f.
  Proof.
    intros [h ch] s Hw He Ha Hs. unfold emit. rewrite emit_node_eq; cbn zeta. cbn [wf_doc] in Hw.
    apply andb_true_iff in Hw as [Hk Hf]. apply kind_beq_eq in Hk. rewrite Hk.
    assert (HC : exists f s', emit_children c h ch s = (Ok (show_all f), s') /\ Inv s' /\ Forall top f).
    { apply emits_children; [|exact Hs]. apply everywhere_kids in He, Ha.
      rewrite forallb_forall in Hf. rewrite Forall_forall in *. intros y Hy. apply block_made; auto.
      apply Ha, everywhere_here in Hy. destruct y. exact Hy. }
    destruct HC as (f & s' & -> & Hs' & F). rewrite Htoc. eauto.
  Qed.
End Made.

Lemma nodup_app : forall (A : Type) (a b : list A), NoDup (a ++ b) <-> NoDup a /\ NoDup b /\ (forall x, In x a -> ~ In x b).
Proof.
  intros A a b. induction a as [|x a IH]; cbn [app].
  - split; [intro H; split; [constructor|]; split; [exact H | intros x []] | tauto].
  - split.
    + intro H. inversion H as [|? ? H1 H2]; subst. apply IH in H2 as (Ha & Hb & Hd). rewrite in_app_iff in H1.
      split; [constructor; tauto|]. split; [exact Hb|]. intros y [<-|Hy]; [tauto | apply Hd, Hy].
    + intros (Ha & Hb & Hd). inversion Ha as [|? ? H1 H2]; subst. constructor.
      * rewrite in_app_iff. intros [H|H]; [tauto | exact (Hd x (or_introl eq_refl) H)].
      * apply IH. split; [exact H2|]. split; [exact Hb|]. intros y Hy. apply Hd. right. exact Hy.
Qed.
Lemma once_names : forall rs, once rs <-> no_name_twice (rules_groups rs) = true.
Proof.
  assert (Sh : forall r q, (exists g, In g (rule_groups r) /\ In g (rule_groups q)) <-> same_rule r q).
  { intros r q. split.
    - intros (g & H1 & H2). destruct r as [| | | | | | |a], q as [| | | | | | |b]; try (left; reflexivity); try (right; eauto; fail);
        try destruct a; try destruct b; exfalso; cbn [rule_groups In] in H1, H2;
        repeat (destruct H1 as [H1|H1]; [subst g; repeat (destruct H2 as [H2|H2]; [discriminate|]); exact H2|]); exact H1.
    - intros [->|(x & y & -> & ->)].
      + destruct q as [| | | | | | |[]]; eexists; split; left; reflexivity.
      + exists G_text. destruct x, y; cbn; auto. }
  assert (Nd : forall l, no_name_twice l = true <-> NoDup l).
  { induction l as [|g l IH]; cbn [no_name_twice]; [split; [constructor | reflexivity]|].
    rewrite andb_true_iff, negb_true_iff, IH. split.
    - intros [H1 H2]. constructor; [|exact H2]. intro Hin. rewrite <- not_true_iff_false in H1. apply H1, existsb_exists.
      exists g. split; [exact Hin | apply gname_beq_refl].
    - intro H. inversion H as [|? ? H1 H2]; subst. split; [|exact H2]. apply not_true_iff_false. intro E.
      apply existsb_exists in E as (y & Hy & E). apply gname_beq_eq in E. subst y. contradiction. }
  intro rs. rewrite Nd. unfold rules_groups. induction rs as [|r rs IH]; cbn [once flat_map]; [split; [constructor | auto]|].
  assert (Hr : NoDup (rule_groups r)).
  { apply Nd. destruct r as [| | | | | | |[]]; reflexivity. }
  rewrite nodup_app, <- IH. split.
  - intros [H1 H2]. split; [exact Hr|]. split; [exact H2|]. intros g Hg Hg2. apply in_flat_map in Hg2 as (q & Hq & Hg2).
    apply (H1 q Hq), Sh. eauto.
  - intros (_ & H2 & H1). split; [|exact H2]. intros q Hq E. apply Sh in E as (g & Hg & Hg2).
    apply (H1 g Hg), in_flat_map. eauto.
Qed.

(** ** The results *)
Lemma rules_default : forall o blog md s,
  creole2html_rules o (standard blog) md s = creole2html (mkopts blog (o_verbose o) (o_strict o)) md s.
Proof. intros o [] md s; reflexivity. Qed.

Lemma rules_twice : forall o rs md s, ~ once rs -> creole2html_rules o rs md s = (Exc EOther, md).
Proof.
  intros o rs md s H. unfold creole2html_rules. destruct (no_name_twice (rules_groups rs)) eqn:E; [|reflexivity].
  exfalso. apply H, once_names, E.
Qed.

Lemma rules_page : forall (R : str -> Prop) (A : list (str * str) -> Prop) o rs md s,
  once rs -> tame (eff_verbose o) (md_env md) -> contains ($ "toc") s = false ->
  (forall r, raw_piece (eff_verbose o) (md_env md) r -> R r) ->
  (forall c h ch t, strict c = o_strict o -> exists l, image_emit c t h ch = show (HVoid ($ "img") l) /\ A l) ->
  exists f, fst (creole2html_rules o rs md s) = Ok (strip (show_all f)) /\ document R A f /\ only_from rs f.
Proof.
  intros R A o rs md s Ho Ht Hc HR HA. unfold creole2html_rules. rewrite (proj1 (once_names rs) Ho).
  destruct (rules_wf rs s) as (n & u & Hp & Hw). rewrite Hp.
  assert (Hu := rules_no_toc _ _ _ _ Hc Hp). rewrite (no_toc_init _ _ Hu).
  cbn zeta. fold (eff_verbose o). set (c := mkcfg _ _ _ _).
  destruct (doc_made rs c R A (fun e => toc e = md_toc md) (registered u)) with
    (n := n) (s := mkest (md_toc md) (md_log md)) as (f & s' & E & HI & HD).
  - reflexivity.
  - intros h ch s0 Hk Hreg HI.
    destruct (macro_emit_user c h s0) as (r & s' & E & Et & HRr).
    + exact Ht.
    + left. intro En. apply Hu. rewrite <- En. apply Hreg. destruct Hk as [-> | ->]; reflexivity.
    + exists r, s'. split; [exact E|]. split; [congruence|]. destruct HRr as [->|HRr]; [left; reflexivity|].
      right. apply HR. exact HRr.
  - intros h ch t Hk _ _. apply HA. reflexivity.
  - exact Hw.
  - eapply rules_registered; eauto.
  - eapply rules_kinds; eauto.
  - reflexivity.
  - rewrite E. exists f. split; [reflexivity|]. rewrite Forall_forall in HD. split.
    + apply Forall_forall. intros x Hx. apply HD, Hx.
    + intros x Hx. apply HD, Hx.
Qed.

Lemma rules_converts : forall o rs md s,
  once rs -> tame (eff_verbose o) (md_env md) -> contains ($ "toc") s = false ->
  exists f, fst (creole2html_rules o rs md s) = Ok (strip (show_all f)) /\
    document (raw_piece (eff_verbose o) (md_env md)) img_shape f /\ only_from rs f.
Proof. intros. apply rules_page; auto. intros. apply image_any. Qed.

Lemma rules_safe : forall blog rs s, once rs -> contains ($ "toc") s = false ->
  exists f, fst (creole2html_rules (mkopts blog (Some 0%Z) true) rs no_md s) = Ok (strip (show_all f)) /\
    document (fun _ => False) img_attrs f /\ only_from rs f.
Proof.
  intros blog rs s Ho Hs. apply rules_page; auto.
  - apply none_tame.
  - intros r [[H _]|H]; [cbn in H; lia | exact (none_results r H)].
  - intros. apply image_strict. assumption.
Qed.

(** the elements that only one rule can give *)
Lemma phrasing_names : forall R A h, phrasing R A h -> forall t, In t (names h) -> In t inline_names.
Proof.
  intros R A. fix IH 2. intros h H t Ht. destruct H as [w|w Hw| |l Hl|w|tag kids Htag Hk|href kids Ha Hk]; cbn [names flat_map In app] in Ht.
  - destruct Ht.
  - destruct Ht.
  - destruct Ht as [<-|[]]. left; reflexivity.
  - destruct Ht as [<-|[]]. right; left; reflexivity.
  - destruct Ht as [<-|[]]. do 2 right; left; reflexivity.
  - destruct Ht as [<-|Ht]; [do 4 right; exact Htag|]. clear Htag. induction Hk as [|x l Hx Hl IHl]; [destruct Ht|].
    cbn [flat_map] in Ht. apply in_app_iff in Ht as [Ht|Ht]; [exact (IH x Hx t Ht) | exact (IHl Ht)].
  - destruct Ht as [<-|Ht]; [do 3 right; left; reflexivity|]. apply in_flat_map in Ht as (x & Hx & Ht). rewrite Forall_forall in Hk.
    apply Hk in Hx. destruct Hx; cbn [names In] in Ht; [destruct Ht| |].
    + destruct Ht as [<-|[]]. left; reflexivity.
    + destruct Ht as [<-|[]]. right; left; reflexivity.
Qed.

Lemma list_names : forall R A h,
  (hlist R A h -> forall t, In t (names h) -> In t inline_names \/ element_of B_list t) /\
  (hitem R A h -> forall t, In t (names h) -> In t inline_names \/ element_of B_list t) /\
  (hsub R A h -> forall t, In t (names h) -> In t inline_names \/ element_of B_list t).
Proof.
  intros R A. fix IH 1. intro h.
  assert (Bl : forall t, blank h -> ~ In t (names h)) by (intros t (w & -> & _) []).
  assert (HL : hlist R A h -> forall t, In t (names h) -> In t inline_names \/ element_of B_list t).
  { intros H t Ht. destruct h as [w|w|tag l|tag l kids]; try (inversion H; fail). 
    assert (Hk : Forall (hitem R A) kids) by (inversion H; assumption).
    assert (Hg : tag = $ "ul" \/ tag = $ "ol") by (inversion H; assumption). clear H Bl.
    cbn [names] in Ht. destruct Ht as [<-|Ht].
    - right. constructor. destruct Hg as [->| ->]; cbn [In]; auto.
    - induction kids as [|x kids IHk]; [destruct Ht|]. inversion Hk; subst. cbn [flat_map] in Ht. apply in_app_iff in Ht as [Ht|Ht].
      + exact (proj1 (proj2 (IH x)) H1 t Ht).
      + exact (IHk Ht H2). }
  split; [exact HL|]. split.
  - intros H t Ht. destruct h as [w|w|tag l|tag l kids]; try (inversion H; subst; exfalso; eapply Bl; eassumption).
    assert (D : blank (HEl tag l kids) \/ tag = $ "li" /\ exists a b, kids = a ++ b /\ Forall (phrasing R A) a /\ Forall (hsub R A) b)
      by (inversion H; subst; [left; assumption | right; eauto 6]).
    destruct D as [D|(-> & a & b & E & Ha & Hb)]; [exfalso; exact (Bl t D Ht)|]. cbn [names] in Ht. destruct Ht as [<-|Ht].
    { right. constructor. cbn [In]. auto. }
    assert (Hk : Forall (fun x => phrasing R A x \/ hsub R A x) kids).
    { rewrite E. apply Forall_app. split; [eapply Forall_impl; [|exact Ha] | eapply Forall_impl; [|exact Hb]]; cbn; auto. }
    clear - IH Hk Ht. induction kids as [|x kids IHk]; [destruct Ht|]. inversion Hk as [|? ? [Hx|Hx] Hr]; subst; cbn [flat_map] in Ht;
      apply in_app_iff in Ht as [Ht|Ht]; try exact (IHk Ht Hr).
    + left. exact (phrasing_names R A x Hx t Ht).
    + exact (proj2 (proj2 (IH x)) Hx t Ht).
  - intros H t Ht. destruct H as [h Hb|h Hl]; [exfalso; exact (Bl t Hb Ht) | exact (HL Hl t Ht)].
Qed.

Lemma made_names : forall R A r h, block R A h -> made_by r h -> forall t, In t (names h) -> In t inline_names \/ element_of r t.
Proof.
  intros R A r h Hb Hm t Ht. destruct Hm as [w|n w Hn| |w|tag kids Hg|kids|blog kids]; cbn [names flat_map app In] in Ht.
  - destruct Ht.
  - destruct Ht as [<-|[]]. right. constructor. exact Hn.
  - destruct Ht as [<-|[]]. right. constructor.
  - destruct Ht as [<-|[]]. right. constructor.
  - assert (Hl : hlist R A (HEl tag [] kids)).
    { inversion Hb as [? (w & E & _)| |k Hk E1|n w Hn E1| |w E1|? Hl|k Hk E1]; subst; try discriminate; try assumption; exfalso.
      - destruct Hg; discriminate.
      - destruct Hg; discriminate.
      - destruct Hg; discriminate.
      - destruct Hg; discriminate. }
    exact (proj1 (list_names R A _) Hl t Ht).
  - destruct Ht as [<-|Ht]; [right; constructor; cbn [In]; auto|].
    assert (Hk : Forall (hrow R A) kids).
    { inversion Hb as [? (w & E & _)| | | | | |? Hl|k Hk]; subst; try discriminate; try assumption. inversion Hl as [? ? [E|E]]; discriminate. }
    apply in_flat_map in Ht as (x & Hx & Ht). rewrite Forall_forall in Hk. apply Hk in Hx.
    destruct Hx as [x (w & -> & _)|cells Hc]; [destruct Ht|]. cbn [names] in Ht. destruct Ht as [<-|Ht]; [right; constructor; cbn [In]; auto|].
    apply in_flat_map in Ht as (x & Hx & Ht). rewrite Forall_forall in Hc. apply Hc in Hx.
    destruct Hx as [x (w & -> & _)|tag ks Hg Hp]; [destruct Ht|]. cbn [names] in Ht.
    destruct Ht as [<-|Ht]; [right; constructor; destruct Hg as [->| ->]; cbn [In]; auto|].
    apply in_flat_map in Ht as (x & Hx & Ht). rewrite Forall_forall in Hp. left. exact (phrasing_names R A x (Hp x Hx) t Ht).
  - destruct Ht as [<-|Ht]; [right; constructor|].
    assert (Hp : Forall (phrasing R A) kids).
    { inversion Hb as [? (w & E & _)| | | | | |? Hl|k Hk]; subst; try discriminate; try assumption. inversion Hl as [? ? [E|E]]; discriminate. }
    apply in_flat_map in Ht as (x & Hx & Ht). rewrite Forall_forall in Hp. left. exact (phrasing_names R A x (Hp x Hx) t Ht).
Qed.

Lemma from_elements : forall R A rs f, document R A f -> only_from rs f -> elements_from rs f.
Proof.
  intros R A rs f Hd Ho t Ht. apply in_flat_map in Ht as (h & Hh & Ht). unfold document in Hd. rewrite Forall_forall in Hd.
  destruct (Ho h Hh) as [(w & -> & _)|(r & Hr & Hm)]; [destruct Ht|].
  destruct (made_names R A r h (Hd h Hh) Hm t Ht) as [H|H]; [left; exact H | right; eauto].
Qed.

Lemma rules_chosen : forall (o : opts) (rs : list brule) (md : mdict) (s : str),
  once rs -> tame (eff_verbose o) (md_env md) -> contains ($ "toc") s = false ->
  exists f, fst (creole2html_rules o rs md s) = Ok (strip (show_all f)) /\
    document (raw_piece (eff_verbose o) (md_env md)) img_shape f /\ only_from rs f /\ elements_from rs f.
Proof.
  intros o rs md s H1 H2 H3. destruct (rules_converts o rs md s H1 H2 H3) as (f & E & D & F).
  exists f. split; [exact E|]. split; [exact D|]. split; [exact F | exact (from_elements _ _ _ _ D F)].
Qed.
