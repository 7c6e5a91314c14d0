(** * The reports on stderr: silence by default, and the documents of Spec22.v *)
From Coq Require Import String List Arith NArith ZArith Bool Lia.
From Verif Require Import PyStr PyStrFacts Utils Res GNames DocTree CreoleParser HtmlEmitter ParserFacts EmitterFacts Spec14 TextKept Spec4 Spec5 Spec7 Spec20 Spec22 PartDoc MacroObj Spec46 MacroObjFacts.
Import ListNotations.
Open Scope N_scope.

(** ** nothing is written unless asked for *)
Theorem quiet : forall o m before markup, (match o_verbose o with None => 1 | Some v => v end <= 1)%Z -> m_err (snd (mcreole2html o m before markup)) = [].
Proof.
  intros o m before markup H. unfold mcreole2html. destruct (parse (o_blog o) markup) as [[root used]|]; [|reflexivity]. destruct (minit_toc used m) as [[ut t]|]; [|reflexivity].
  set (v := match o_verbose o with None => 1%Z | Some v => v end) in *. set (c := mkmcfg v (o_strict o) m ut). assert (V : (1 <? v)%Z = false) by (apply Z.ltb_ge; exact H).
  set (R := fun s1 s2 : mst => s1 = s2 /\ m_err s1 = []).
  assert (ER : forall text e s, m_err s = [] -> m_err (snd (merror c text e s)) = []).
  { intros text e s E. unfold merror. cbn [snd]. change (m_verbose c) with v. rewrite V. destruct e; exact E. }
  assert (TE : forall n msg s, m_err s = [] -> m_err (snd (mtype_error c n msg s)) = []).
  { intros n msg s E. unfold mtype_error. destruct (2 <? m_verbose c)%Z; [exact E|]. apply ER. exact E. }
  assert (RM : forall h s1 s2, R s1 s2 -> fst (mmacro_emit c h s1) = fst (mmacro_emit c h s2) /\ R (snd (mmacro_emit c h s1)) (snd (mmacro_emit c h s2))).
  { intros h s1 s2 [<- E]. split; [reflexivity|]. split; [reflexivity|]. unfold mmacro_emit. destruct (string2dict (hmargs h)) as [kw0|]; [|apply ER; exact E]. cbv zeta.
    destruct (lookup c (hmname h) s1) as [[|cls| |tc]|]; [apply ER; exact E|apply TE; exact E| | |apply ER; exact E].
    - destruct (mv_call _ _ _ _); [exact E|apply ER; exact E|apply TE; exact E|apply ER; exact E|exact E].
    - destruct (dict_get _ _); [apply TE; exact E|]. destruct (toc_call _ _). exact E. }
  assert (RH : forall h t s1 s2, R s1 s2 -> fst (mheader_emit c h t s1) = fst (mheader_emit c h t s2) /\ R (snd (mheader_emit c h t s1)) (snd (mheader_emit c h t s2))).
  { intros h x s1 s2 [<- E]. split; [reflexivity|]. split; [reflexivity|]. unfold mheader_emit. destruct (m_use_toc c); [|exact E]. destruct (m_toc s1) as [[| | |tc]|]; try exact E. destruct (add_headline _ _ _); exact E. }
  destruct (two_node c c R eq_refl RM RH root (mkn KDocument None) (mkmst t before []) (mkmst t before [])) as [_ [_ E]]; [split; reflexivity|].
  unfold memit. destruct (memit_node c (mkn KDocument None) root (mkmst t before [])) as [[a|e] s']; [|exact E]. cbn [snd] in E. destruct (m_use_toc c); [|exact E]. destruct (m_toc s') as [[| | |tc]|]; exact E.
Qed.

(** ** one request after the other *)
Lemma reports_app : forall v m a b l, reports v m (a ++ b) l =
  match reports v m a l with (l1, t1, Some e) => (l1, t1, Some e) | (l1, t1, None) => let '(l2, t2, e) := reports v m b l1 in (l2, t1 ++ t2, e) end.
Proof.
  intros v m. induction a as [|[n kw] a IH]; intros b l; cbn [app reports]; [destruct (reports v m b l) as [[l2 t2] e]; reflexivity|].
  destruct (report v m n kw l) as [[l1 t1] [e|]]; [reflexivity|]. rewrite IH. destruct (reports v m a l1) as [[l2 t2] [e|]]; [reflexivity|]. destruct (reports v m b l2) as [[l3 t3] e]. rewrite app_assoc. reflexivity.
Qed.
(** every property of sayings *)
Section Sayings.
Variables (blog strict : bool) (kw : request -> pydict) (P : (Z -> uenv -> say) -> list request -> Prop).
Hypothesis P_done : forall t, P (fun _ _ => done t) [].
Hypothesis P_then : forall A B a b, P A a -> P B b -> P (fun v e => andthen (A v e) (B v e)) (a ++ b).
Hypothesis P_ask : forall nl r, P (fun v e => ask v e nl (rq_name r) (kw r)) [r].
Lemma P_bit : forall b, P (fun v e => say_bit strict v e kw b) (bit_requests b).
Proof. intros [i|t|mc]; [apply P_done|exact (P_ask [] (of_tag t))|exact (P_ask [] (of_macro mc))]. Qed.
Lemma P_bits : forall l, P (fun v e => say_bits strict v e kw l) (flat_map bit_requests l).
Proof. induction l as [|b l IH]; [apply P_done|]. cbn [say_bits flat_map]. apply P_then; [apply P_bit|exact IH]. Qed.
Lemma P_lines : forall l, P (fun v e => say_lines blog strict v e kw l) (flat_map (flat_map bit_requests) l).
Proof.
  induction l as [|x l IH]; [apply P_done|]. cbn [flat_map]. destruct l as [|y l]; [cbn [say_lines flat_map]; rewrite app_nil_r; apply P_bits|].
  change (P (fun v e => andthen (say_bits strict v e kw x) (andthen (done (if bits_backslash x then [] else if blog then br else [32])) (say_lines blog strict v e kw (y :: l)))) (flat_map bit_requests x ++ ([] ++ flat_map (flat_map bit_requests) (y :: l)))).
  apply P_then; [apply P_bits|]. apply P_then; [apply P_done|exact IH].
Qed.
Lemma P_part : forall p, P (fun v e => say_part blog strict v e kw p) (part_requests p).
Proof.
  intros [b|mc|lines]; [apply P_done|exact (P_ask [10] (of_macro mc))|].
  change (P (fun v e => andthen (done ($ "<p>")) (andthen (say_lines blog strict v e kw lines) (done ($ "</p>" ++ [10])))) (part_requests (QPara lines))).
  rewrite <- (app_nil_r (part_requests (QPara lines))). change (part_requests (QPara lines) ++ []) with ([] ++ (part_requests (QPara lines) ++ [])). apply P_then; [apply P_done|]. apply P_then; [apply P_lines|apply P_done].
Qed.
Lemma P_parts : forall d, P (fun v e => say_parts blog strict v e kw d) (requests d).
Proof.
  induction d as [|p d IH]; [apply P_done|]. unfold requests. cbn [flat_map]. destruct d as [|q d]; [cbn [say_parts flat_map]; rewrite app_nil_r; apply P_part|].
  change (P (fun v e => andthen (say_part blog strict v e kw p) (andthen (done [10]) (say_parts blog strict v e kw (q :: d)))) (part_requests p ++ ([] ++ requests (q :: d)))).
  apply P_then; [apply P_part|]. apply P_then; [apply P_done|exact IH].
Qed.
End Sayings.
(** everything exists and answers nothing *)
Definition all_env : uenv := mkenv (fun _ => true) (fun _ _ _ => MRet []).
Definition asked (kw : request -> pydict) (rs : list request) : list (str * pydict) := map (fun r => (rq_name r, kw r)) rs.
Lemma say_all : forall blog strict kw d l, exists x, forall v, say_parts blog strict v all_env kw d l = Some (x, l ++ asked kw (requests d)).
Proof.
  intros blog strict kw d. apply (P_parts blog strict kw (fun A rs => forall l, exists x, forall v, A v all_env l = Some (x, l ++ asked kw rs))).
  - intros t l. exists t. intro v. unfold asked. cbn [map]. rewrite app_nil_r. reflexivity.
  - intros A B a b HA HB l. destruct (HA l) as (x & Hx). destruct (HB (l ++ asked kw a)) as (y & Hy). exists (x ++ y). intro v. unfold andthen. rewrite Hx, Hy. unfold asked. rewrite map_app, app_assoc. reflexivity.
  - intros nl r l. exists nl. intro v. reflexivity.
Qed.
Lemma real_in : forall m l, real_calls m (real_calls m l) = real_calls m l.
Proof. intros m l. unfold real_calls. induction l as [|c l IH]; [reflexivity|]. cbn [filter]. destruct (callable_in m (fst c)) eqn:E; [cbn [filter]; rewrite E, IH; reflexivity|exact IH]. Qed.
(** an exception of the reports is an answer that is not given *)
Lemma say_reports : forall blog strict kw m v d l,
  match reports v m (asked kw (requests d)) (real_calls m l) with
  | (_, _, Some _) => say_parts blog strict v (as_dict m) kw d l = None
  | (l', _, None) => exists x calls, say_parts blog strict v (as_dict m) kw d l = Some (x, calls) /\ l' = real_calls m calls
  end.
Proof.
  intros blog strict kw m v d. apply (P_parts blog strict kw (fun A rs => forall l, match reports v m (asked kw rs) (real_calls m l) with (_, _, Some _) => A v (as_dict m) l = None | (l', _, None) => exists x calls, A v (as_dict m) l = Some (x, calls) /\ l' = real_calls m calls end)).
  - intros t l. exists t, l. split; reflexivity.
  - intros A B a b HA HB l. unfold asked. rewrite map_app, reports_app. specialize (HA l). unfold asked in HA, HB. unfold andthen. destruct (reports v m (map _ a) (real_calls m l)) as [[l1 t1] [e|]]; [rewrite HA; reflexivity|].
    destruct HA as (x & c1 & -> & ->). specialize (HB c1). destruct (reports v m (map _ b) (real_calls m c1)) as [[l2 t2] [e|]]; [rewrite HB; reflexivity|]. destruct HB as (y & c2 & -> & ->). exists (x ++ y), c2. split; reflexivity.
  - intros nl r l. cbn [asked map reports]. unfold report, ask. cbn [as_dict u_has u_call]. unfold exists_in.
    assert (RA : callable_in m (rq_name r) = true -> real_calls m (l ++ [(rq_name r, kw r)]) = real_calls m l ++ [(rq_name r, kw r)]).
    { intro E. unfold real_calls. rewrite filter_app. cbn [filter fst]. rewrite E. reflexivity. }
    assert (RB : callable_in m (rq_name r) = false -> real_calls m (l ++ [(rq_name r, kw r)]) = real_calls m l).
    { intro E. unfold real_calls. rewrite filter_app. cbn [filter fst]. rewrite E. apply app_nil_r. }
    unfold callable_in in RA, RB. destruct (mv_get m (rq_name r)) as [[|cls| |t]|]; cbv zeta.
    + eexists; eexists; split; reflexivity.
    + destruct (2 <? v)%Z; [reflexivity|]. eexists; eexists; split; [reflexivity|]. symmetry. apply RB. reflexivity.
    + destruct (mv_call m (real_calls m l) (rq_name r) (kw r)); try reflexivity; try (eexists; eexists; split; [reflexivity|]; symmetry; apply RA; reflexivity).
      destruct (2 <? v)%Z; [reflexivity|]. eexists; eexists; split; [reflexivity|]. symmetry. apply RA. reflexivity.
    + destruct (mv_call m (real_calls m l) (rq_name r) (kw r)); try reflexivity; try (eexists; eexists; split; [reflexivity|]; symmetry; apply RA; reflexivity).
      destruct (2 <? v)%Z; [reflexivity|]. eexists; eexists; split; [reflexivity|]. symmetry. apply RA. reflexivity.
    + eexists; eexists; split; reflexivity.
Qed.

(** ** the tree *)
Definition nk (s : str) : nat := List.length (inked s).
Lemma nk_app : forall a b, nk (a ++ b) = (nk a + nk b)%nat.
Proof. intros. unfold nk, inked. rewrite filter_app, app_length. reflexivity. Qed.
Lemma unframe : forall f g, JFrame f = JFrame g -> f = g. Proof. intros f g H. injection H. auto. Qed.
Lemma frame_nk : forall strict par h ch f, job_of strict par h ch = JFrame f -> forall x, nk (f x) = (nk (f []) + nk x)%nat.
Proof.
  intros strict par h ch f H x. unfold job_of in H.
  assert (L0 : nk [] = 0%nat) by reflexivity.
  destruct (hk h); try discriminate H;
  first [ apply unframe in H; subst f; unfold list_emit, tag; cbv beta zeta; try (destruct (kind_beq (hk par) KDocument)); try (destruct (kind_beq (hk h) KListItem)); rewrite ?nk_app, ?L0; lia
        | destruct (hcontent h) as [t|]; [|discriminate H]; first [discriminate H|destruct ch; [discriminate H|]; apply unframe in H; subst f; cbv beta; rewrite ?nk_app, ?L0; lia] ].
Qed.
Definition behaves (c : mcfg) (tags : list (str * pydict)) (s : mst) (r : res str * mst) : Prop :=
  let '(l, t, e) := reports (m_verbose c) (m_macros c) tags (m_log s) in
  snd r = mkmst (m_toc s) l (m_err s ++ shown_reports (m_verbose c) t) /\ match e with Some e => fst r = Exc e | None => exists a, fst r = Ok a end.
Lemma mst_eta : forall s, s = mkmst (m_toc s) (m_log s) (m_err s). Proof. intros []. reflexivity. Qed.
Lemma shown_nil : forall v, shown_reports v [] = []. Proof. intro v. unfold shown_reports. destruct (1 <? v)%Z; reflexivity. Qed.
Lemma shown_app : forall v a b, shown_reports v (a ++ b) = shown_reports v a ++ shown_reports v b. Proof. intros v a b. unfold shown_reports. destruct (1 <? v)%Z; reflexivity. Qed.
Lemma behaves_nil : forall c s a, behaves c [] s (Ok a, s).
Proof. intros c s a. unfold behaves. cbn [reports fst snd]. rewrite shown_nil, app_nil_r. split; [apply mst_eta|eexists; reflexivity]. Qed.
Section Tree.
Variable st : bool.
Notation c0 := (mkcfg 0 st all_env false).
Notation c1 := (mkcfg 1 st all_env false).
Definition good (par : hdr) (t : node) : Prop := forall s0 s1 a0 a1 s0' s1',
  toc s0 = TNone -> toc s1 = TNone -> emit_node c0 par t s0 = (Ok a0, s0') -> emit_node c1 par t s1 = (Ok a1, s1') ->
  toc s0' = TNone /\ toc s1' = TNone /\ (nk a0 <= nk a1)%nat /\ (nk a0 = nk a1 -> exists tags, log s0' = log s0 ++ tags /\
    forall c s, m_strict c = st -> m_use_toc c = false -> (forall x, In x tags -> fst x <> $ "toc") -> behaves c tags s (memit_node c par t s)).
Definition goods (h : hdr) (ch : list node) : Prop := forall s0 s1 a0 a1 s0' s1',
  toc s0 = TNone -> toc s1 = TNone -> emit_children c0 h ch s0 = (Ok a0, s0') -> emit_children c1 h ch s1 = (Ok a1, s1') ->
  toc s0' = TNone /\ toc s1' = TNone /\ (nk a0 <= nk a1)%nat /\ (nk a0 = nk a1 -> exists tags, log s0' = log s0 ++ tags /\
    forall c s, m_strict c = st -> m_use_toc c = false -> (forall x, In x tags -> fst x <> $ "toc") -> behaves c tags s (memit_children c h ch s)).
Lemma all_goods : forall h ch, Forall (fun t => good h t) ch -> goods h ch.
Proof.
  intros h ch H. induction H as [|t ch Ht _ IH]; intros s0 s1 a0 a1 s0' s1' T0 T1 E0 E1; cbn [emit_children] in *.
  - injection E0 as <- <-. injection E1 as <- <-. repeat split; try assumption; [lia|]. intros _. exists []. split; [rewrite app_nil_r; reflexivity|]. intros. apply behaves_nil.
  - destruct (emit_node c0 h t s0) as [[x0|e] s0a] eqn:F0; [|discriminate]. destruct (emit_node c1 h t s1) as [[x1|e] s1a] eqn:F1; [|discriminate].
    destruct (emit_children c0 h ch s0a) as [[y0|e] s0b] eqn:G0; [|discriminate]. destruct (emit_children c1 h ch s1a) as [[y1|e] s1b] eqn:G1; [|discriminate].
    injection E0 as <- <-. injection E1 as <- <-. destruct (Ht _ _ _ _ _ _ T0 T1 F0 F1) as (A1 & A2 & A3 & A4). destruct (IH _ _ _ _ _ _ A1 A2 G0 G1) as (B1 & B2 & B3 & B4).
    rewrite !nk_app. split; [exact B1|]. split; [exact B2|]. split; [lia|]. intro E. destruct A4 as (ta & La & Ba); [lia|]. destruct B4 as (tb & Lb & Bb); [lia|]. exists (ta ++ tb). split; [rewrite Lb, La, app_assoc; reflexivity|].
    intros c s H1 H2 H3. cbn [memit_children]. specialize (Ba c s H1 H2 (fun x I => H3 x (in_or_app _ _ _ (or_introl I)))). unfold behaves in *. rewrite reports_app.
    destruct (reports (m_verbose c) (m_macros c) ta (m_log s)) as [[l1 t1] [e|]].
    + destruct (memit_node c h t s) as [r s']. cbn [fst snd] in Ba. destruct Ba as [-> ->]. split; reflexivity.
    + destruct (memit_node c h t s) as [r s']. cbn [fst snd] in Ba. destruct Ba as [-> (a & ->)]. specialize (Bb c (mkmst (m_toc s) l1 (m_err s ++ shown_reports (m_verbose c) t1)) H1 H2 (fun x I => H3 x (in_or_app _ _ _ (or_intror I)))). cbn [m_log m_toc m_err] in Bb.
      destruct (reports (m_verbose c) (m_macros c) tb l1) as [[l2 t2] e2]. destruct (memit_children c h ch _) as [r2 s2]. cbn [fst snd] in Bb. rewrite shown_app, app_assoc. destruct Bb as [-> Q]. destruct e2 as [e2|]; [rewrite Q; split; reflexivity|]. destruct Q as (b & ->). split; [reflexivity|]. eexists. reflexivity.
Qed.
Lemma all_good : forall t par, good par t.
Proof.
  induction t as [h ch IH] using node_ind'. intros par s0 s1 a0 a1 s0' s1' T0 T1 E0 E1.
  assert (G : goods h ch) by (apply all_goods; eapply Forall_impl; [|exact IH]; intros x Hx; apply Hx).
  rewrite emit_job in E0, E1. change (strict c0) with st in E0. change (strict c1) with st in E1.
  assert (M : forall c s, m_strict c = st -> memit_node c par (Nd h ch) s = match job_of st par h ch with
    | JFail => (Exc EAttributeError, s) | JText t => (Ok t, s) | JFrame f => mwrap f (memit_children c h ch s) | JHead t => mheader_emit c h t s | JMacro => mmacro_emit c h s end) by (intros c s <-; apply memit_job).
  destruct (job_of st par h ch) as [|x|f|x|] eqn:J; [discriminate| | | |].
  - injection E0 as <- <-. injection E1 as <- <-. repeat split; try assumption; [lia|]. intros _. exists []. split; [rewrite app_nil_r; reflexivity|]. intros c s H1 _ _. rewrite (M c s H1). apply behaves_nil.
  - unfold wrap in E0, E1. destruct (emit_children c0 h ch s0) as [[x0|e] s0a] eqn:F0; [|discriminate]. destruct (emit_children c1 h ch s1) as [[x1|e] s1a] eqn:F1; [|discriminate].
    injection E0 as <- <-. injection E1 as <- <-. destruct (G _ _ _ _ _ _ T0 T1 F0 F1) as (A1 & A2 & A3 & A4). split; [exact A1|]. split; [exact A2|]. rewrite (frame_nk _ _ _ _ _ J x0), (frame_nk _ _ _ _ _ J x1). split; [lia|].
    intro E. destruct A4 as (tags & La & Ba); [lia|]. exists tags. split; [exact La|]. intros c s H1 H2 H3. rewrite (M c s H1). specialize (Ba c s H1 H2 H3). unfold behaves in *. destruct (reports (m_verbose c) (m_macros c) tags (m_log s)) as [[l t] e].
    destruct (memit_children c h ch s) as [r s']. cbn [fst snd] in Ba. destruct Ba as [-> Q]. destruct e as [e|]; [rewrite Q; split; reflexivity|]. destruct Q as (b & ->). split; [reflexivity|]. eexists. reflexivity.
  - unfold header_emit in E0, E1. change (use_toc c0) with false in E0. change (use_toc c1) with false in E1. injection E0 as <- <-. injection E1 as <- <-. repeat split; try assumption; [lia|]. intros _. exists []. split; [rewrite app_nil_r; reflexivity|].
    intros c s H1 H2 _. rewrite (M c s H1). unfold mheader_emit. rewrite H2. apply behaves_nil.
  - unfold macro_emit in E0, E1. destruct (string2dict (hmargs h)) as [kw0|] eqn:SD.
    2: { injection E0 as <- <-. injection E1 as <- <-. split; [exact T0|]. split; [exact T1|]. change (error c0 _) with (@nil N). unfold error. change (0 <? verbose c1)%Z with true. cbv iota. rewrite nk_app. change (nk ($ "[Error: ")) with 7%nat. split; [change (nk []) with 0%nat; lia|]. change (nk []) with 0%nat. intro X. lia. }
    cbv zeta in E0, E1. rewrite T0 in E0. rewrite T1 in E1. set (kw := dict_set _ _ kw0) in *.
    assert (E0' : (Ok (if kind_beq (hk h) KMacroBlock then [10] else []), mkest TNone (log s0 ++ [(hmname h, kw)])) = (Ok a0, s0')) by (rewrite <- E0; destruct (str_eqb (hmname h) ($ "toc")); reflexivity).
    assert (E1' : (Ok (if kind_beq (hk h) KMacroBlock then [10] else []), mkest TNone (log s1 ++ [(hmname h, kw)])) = (Ok a1, s1')) by (rewrite <- E1; destruct (str_eqb (hmname h) ($ "toc")); reflexivity).
    clear E0 E1. injection E0' as <- <-. injection E1' as <- <-. split; [reflexivity|]. split; [reflexivity|]. split; [lia|]. intros _. exists [(hmname h, kw)]. split; [reflexivity|].
    intros c s H1 H2 H3. rewrite (M c s H1). specialize (H3 _ (or_introl eq_refl)). cbn [fst] in H3. unfold mmacro_emit. rewrite SD. cbv zeta. fold kw. unfold lookup. apply str_eqb_neq in H3. rewrite H3.
    unfold behaves. cbn [reports]. unfold report. cbv zeta. unfold merror, mtype_error, merror, shown_reports, cannot_call.
    destruct (mv_get (m_macros c) (hmname h)) as [[|cls| |tc]|]; try (destruct (mv_call (m_macros c) (m_log s) (hmname h) kw)); destruct (2 <? m_verbose c)%Z eqn:V2; try (assert (1 <? m_verbose c = true)%Z as -> by (apply Z.ltb_lt in V2; apply Z.ltb_lt; lia)); try destruct (1 <? m_verbose c)%Z;
      cbn [fst snd m_log m_toc m_err app]; rewrite ?app_nil_r; (split; [first [reflexivity|apply mst_eta]|]); try reflexivity; eexists; reflexivity.
Qed.
End Tree.

(** ** the documents *)
Lemma tag_name : forall t, tag_ok t = true -> tg_name t <> $ "toc".
Proof. intros t H. unfold tag_ok in H. rewrite !andb_true_iff in H. destruct H as [[[_ H] _] _]. apply negb_true_iff in H. apply str_eqb_neq. exact H. Qed.
Lemma macro_name : forall t, macro_ok t = true -> mc_name t <> $ "toc".
Proof. intros t H. unfold macro_ok in H. rewrite !andb_true_iff in H. destruct H as [[[[_ H] _] _] _]. apply negb_true_iff in H. apply str_eqb_neq. exact H. Qed.
Lemma bits_names : forall l b r, bits_ok b l = true -> In r (flat_map bit_requests l) -> rq_name r <> $ "toc".
Proof.
  induction l as [|x l IH]; intros b r H J; [destruct J|]. cbn [bits_ok flat_map] in *. apply andb_true_iff in H as [H1 H2]. apply in_app_or in J as [J|J]; [|eapply IH; eassumption].
  destruct x as [i|g|mc]; cbn [bit_requests] in J; [destruct J| |]; destruct J as [<-|[]]; cbn [bit_ok] in H1; apply andb_true_iff in H1 as [H1 _]; [apply tag_name|apply macro_name]; exact H1.
Qed.
Lemma blines_names : forall lines T r, blines_ok lines T = true -> In r (flat_map (flat_map bit_requests) lines) -> rq_name r <> $ "toc".
Proof.
  assert (G : forall l t r, bline_ok l t = true -> In r (flat_map bit_requests l) -> rq_name r <> $ "toc").
  { intros l t r H. unfold bline_ok in H. apply andb_true_iff in H as [_ H]. intro J. eapply bits_names; eassumption. }
  induction lines as [|l lines IH]; intros T r H J; [destruct J|]. cbn [flat_map] in J. cbn [blines_ok] in H. destruct lines as [|l2 lines]; apply andb_true_iff in H as [H1 H2]; apply in_app_or in J as [J|J].
  - eapply G; eassumption.
  - destruct J.
  - eapply G; eassumption.
  - eapply IH; eassumption.
Qed.
Lemma parts_names : forall blog fst d r, parts_ok_from blog fst d = true -> In r (requests d) -> rq_name r <> $ "toc".
Proof.
  intros blog fst d. revert fst. induction d as [|p d IH]; intros fst r H J; [destruct J|]. cbn [parts_ok_from] in H. apply andb_true_iff in H as [H H3]. apply andb_true_iff in H as [H1 _].
  unfold requests in J. cbn [flat_map] in J. apply in_app_or in J as [J|J]; [|eapply IH; eassumption]. destruct p as [b|mc|lines]; cbn [part_requests part_ok] in *.
  - destruct J.
  - destruct J as [<-|[]]. apply macro_name. exact H1.
  - eapply blines_names; eassumption.
Qed.
Theorem parts_reports : forall blog d, parts_ok blog d = true -> exists kw, (forall r, In r (requests d) -> request_means r (kw r)) /\
  forall verbose strict m before,
    let v := match verbose with None => 1%Z | Some v => v end in
    let r := mcreole2html (mkopts blog verbose strict) m (real_calls m before) (wr_parts d) in
    let '(calls, traces, e) := reports v m (map (fun r => (rq_name r, kw r)) (requests d)) (real_calls m before) in
    m_log (snd r) = calls /\ m_toc (snd r) = mv_get m ($ "toc") /\ m_err (snd r) = shown_reports v traces /\
    match e with
    | Some e => fst r = Exc e
    | None => exists html all, say_parts blog strict v (as_dict m) kw d before = Some (html, all) /\ fst r = Ok (strip html)
    end.
Proof.
  intros blog d H. destruct (parts_spec blog d H) as (kw & K1 & K2). exists kw. split; [exact K1|]. intros verbose st m before v. cbv zeta.
  destruct (say_all blog st kw d []) as (x & SA).
  (* the tree *)
  assert (P0 : forall vb t, creole2html (mkopts blog vb st) (mkmd all_env t []) (wr_parts d) = (Ok (strip x), mkmd all_env t (asked kw (requests d)))) by (intros vb t; exact (K2 vb st (mkmd all_env t []) x _ (SA _))).
  pose proof (P0 (Some 0%Z) TUser) as PU. pose proof (P0 (Some 0%Z) TNone) as PA. pose proof (P0 (Some 1%Z) TNone) as PB. clear P0 SA.
  unfold creole2html in PU, PA, PB. cbn [o_blog o_verbose o_strict md_env md_toc md_log] in PU, PA, PB.
  destruct (parse blog (wr_parts d)) as [[root used]|] eqn:PS; [|discriminate PU].
  assert (US : existsb (str_eqb ($ "toc")) used = false).
  { destruct (existsb (str_eqb ($ "toc")) used) eqn:US; [|reflexivity]. exfalso. unfold init_toc in PU. rewrite US in PU. unfold emit in PU. destruct (emit_node _ _ root _) as [[a|e] s']; [|discriminate PU]. cbn [use_toc] in PU. destruct (toc s') as [|t|] eqn:TS; try discriminate PU; try (rewrite TS in PU; discriminate PU). }
  unfold init_toc in PA, PB. rewrite US in PA, PB. unfold emit in PA, PB. cbn [use_toc] in PA, PB. clear PU.
  destruct (emit_node (mkcfg 0 st all_env false) (mkn KDocument None) root (mkest TNone [])) as [[a0|e] s0] eqn:F0; [|discriminate PA].
  destruct (emit_node (mkcfg 1 st all_env false) (mkn KDocument None) root (mkest TNone [])) as [[a1|e] s1] eqn:F1; [|discriminate PB].
  injection PA as EA TA LA. injection PB as EB TB LB.
  destruct (all_good st root (mkn KDocument None) (mkest TNone []) (mkest TNone []) _ _ _ _ eq_refl eq_refl F0 F1) as (_ & _ & _ & G).
  assert (NK : nk a0 = nk a1) by (unfold nk; rewrite <- (ink_strip a0), <- (ink_strip a1), EA, EB; reflexivity).
  destruct (G NK) as (tags & LT & BE). cbn [log app] in LT. rewrite LA in LT. subst tags. clear G NK EA EB TA TB LB F0 F1.
  assert (NT : forall y, In y (asked kw (requests d)) -> fst y <> $ "toc").
  { intros y I0. unfold asked in I0. apply in_map_iff in I0 as (r & <- & I0). cbn [fst]. eapply parts_names; eassumption. }
  specialize (BE (mkmcfg v st m false) (mkmst (mv_get m ($ "toc")) (real_calls m before) []) eq_refl eq_refl NT).
  (* the answers *)
  pose proof (say_reports blog st kw m v d before) as SR. unfold behaves in BE. cbn [m_verbose m_macros m_log m_toc m_err app] in BE. unfold asked in *.
  destruct (any_as_dict_if (mkopts blog verbose st) m before (wr_parts d)) as (AD & _). { right. intros root' used' X. cbn [o_blog] in X. rewrite PS in X. injection X as <- <-. exact US. }
  assert (RUN : mcreole2html (mkopts blog verbose st) m (real_calls m before) (wr_parts d) = memit (mkmcfg v st m false) root (mkmst (mv_get m ($ "toc")) (real_calls m before) [])).
  { unfold mcreole2html. cbn [o_blog o_verbose o_strict]. rewrite PS. unfold minit_toc. rewrite US. reflexivity. }
  destruct (reports v m (map _ (requests d)) (real_calls m before)) as [[calls traces] e].
  assert (SND : snd (mcreole2html (mkopts blog verbose st) m (real_calls m before) (wr_parts d)) = mkmst (mv_get m ($ "toc")) calls (shown_reports v traces)).
  { rewrite RUN. unfold memit. destruct (memit_node _ _ root _) as [r s']. cbn [fst snd] in BE. destruct BE as [-> BE]. destruct r; reflexivity. }
  rewrite SND. split; [reflexivity|]. split; [reflexivity|]. split; [reflexivity|]. destruct e as [e|].
  - rewrite RUN. unfold memit. destruct (memit_node _ _ root _) as [r s']. cbn [fst snd] in BE. destruct BE as [_ ->]. reflexivity.
  - destruct SR as (html & all & S1 & _). exists html, all. split; [exact S1|]. rewrite AD. rewrite (K2 verbose st (mkmd (as_dict m) (as_toc (mv_get m ($ "toc"))) before) html all S1). reflexivity.
Qed.

(** ** how much is said does not matter for what is done, up to level 2 *)
Section Levels.
Variables (v1 v2 : Z) (st ut : bool) (m : mval).
Let c1 := mkmcfg v1 st m ut.
Let c2 := mkmcfg v2 st m ut.
Hypothesis V1 : (v1 <= 2)%Z.
Hypothesis V2 : (v2 <= 2)%Z.
Definition level (r1 r2 : res str * mst) : Prop := same_end (fst r1) (fst r2) /\ m_toc (snd r1) = m_toc (snd r2) /\ m_log (snd r1) = m_log (snd r2).
Definition lev (s1 s2 : mst) : Prop := m_toc s1 = m_toc s2 /\ m_log s1 = m_log s2.
Lemma merror_level : forall t1 t2 e s1 s2, lev s1 s2 -> level (merror c1 t1 e s1) (merror c2 t2 e s2).
Proof. intros t1 t2 e s1 s2 [H1 H2]. unfold merror, level. cbn [fst snd same_end]. split; [exact Logic.I|]. destruct e as [t|]; [|split; assumption]. destruct (1 <? m_verbose c1)%Z, (1 <? m_verbose c2)%Z; split; assumption. Qed.
Lemma mtype_level : forall n msg s1 s2, lev s1 s2 -> level (mtype_error c1 n msg s1) (mtype_error c2 n msg s2).
Proof. intros n msg s1 s2 H. unfold mtype_error. change (m_verbose c1) with v1. change (m_verbose c2) with v2. rewrite (proj2 (Z.ltb_ge 2 v1) V1), (proj2 (Z.ltb_ge 2 v2) V2). apply merror_level. exact H. Qed.
Lemma macro_level : forall h s1 s2, lev s1 s2 -> level (mmacro_emit c1 h s1) (mmacro_emit c2 h s2).
Proof.
  intros h s1 s2 H. unfold mmacro_emit. destruct (string2dict (hmargs h)) as [kw0|]; [|apply merror_level; exact H]. cbv zeta. set (kw := dict_set _ _ kw0). pose proof H as [H1 H2].
  assert (L0 : lookup c1 (hmname h) s1 = lookup c2 (hmname h) s2) by (unfold lookup; rewrite H1; reflexivity). rewrite L0. change (m_macros c1) with m. change (m_macros c2) with m. rewrite H2.
  assert (G : lev (mkmst (m_toc s1) (m_log s2 ++ [(hmname h, kw)]) (m_err s1)) (mkmst (m_toc s2) (m_log s2 ++ [(hmname h, kw)]) (m_err s2))) by (split; [exact H1|reflexivity]).
  destruct (lookup c2 (hmname h) s2) as [[|cls| |t]|]; [apply merror_level; exact H|apply mtype_level; exact H| | |apply merror_level; exact H].
  - destruct (mv_call m (m_log s2) (hmname h) kw); [|apply merror_level; exact G|apply mtype_level; exact G|apply merror_level; exact G|]; (split; [exact Logic.I || reflexivity|exact G]).
  - destruct (dict_get _ _); [apply mtype_level; exact H|]. destruct (toc_call kw t). split; [exact Logic.I|]. split; reflexivity.
Qed.
Lemma head_level : forall h t s1 s2, lev s1 s2 -> level (mheader_emit c1 h t s1) (mheader_emit c2 h t s2).
Proof.
  intros h t s1 s2 H. unfold mheader_emit. change (m_use_toc c1) with ut. change (m_use_toc c2) with ut. destruct ut; [|split; [exact Logic.I|exact H]]. pose proof H as [H1 H2]. rewrite H1.
  destruct (m_toc s2) as [[| | |tc]|]; try (split; [reflexivity|exact H]). destruct (add_headline _ _ _); [|split; [reflexivity|exact H]]. split; [exact Logic.I|]. split; [reflexivity|exact H2].
Qed.
Lemma node_level : forall n par s1 s2, lev s1 s2 -> level (memit_node c1 par n s1) (memit_node c2 par n s2).
Proof.
  induction n as [h ch IH] using node_ind'. intros par s1 s2 H. rewrite !memit_job. change (m_strict c1) with st. change (m_strict c2) with st.
  assert (K : level (memit_children c1 h ch s1) (memit_children c2 h ch s2)).
  { revert s1 s2 H. induction IH as [|x ch Hx _ IHc]; intros s1 s2 H; [split; [exact Logic.I|exact H]|]. cbn [memit_children]. destruct (Hx h s1 s2 H) as [E1 E2].
    destruct (memit_node c1 h x s1) as [r1 s1'], (memit_node c2 h x s2) as [r2 s2']. cbn [fst snd] in *. destruct r1 as [a|e], r2 as [b|e2]; try destruct E1; [|split; [reflexivity|exact E2]].
    destruct (IHc s1' s2' E2) as [E3 E4]. destruct (memit_children c1 h ch s1') as [r3 s3], (memit_children c2 h ch s2') as [r4 s4]. cbn [fst snd] in *. destruct r3, r4; try destruct E3; (split; [exact Logic.I || reflexivity|exact E4]). }
  destruct (job_of st par h ch) as [|t|f|t|].
  - split; [reflexivity|exact H].
  - split; [exact Logic.I|exact H].
  - destruct (memit_children c1 h ch s1) as [r1 s1'], (memit_children c2 h ch s2) as [r2 s2']. destruct K as [E1 E2]. cbn [fst snd] in *. destruct r1, r2; try destruct E1; (split; [exact Logic.I || reflexivity|exact E2]).
  - apply head_level. exact H.
  - apply macro_level. exact H.
Qed.
End Levels.
Definition volume (o : opts) : Z := match o_verbose o with None => 1%Z | Some v => v end.
Theorem levels : forall o1 o2 m before markup, o_blog o1 = o_blog o2 -> o_strict o1 = o_strict o2 -> (match o_verbose o1 with None => 1 | Some v => v end <= 2)%Z -> (match o_verbose o2 with None => 1 | Some v => v end <= 2)%Z ->
  let r1 := mcreole2html o1 m before markup in let r2 := mcreole2html o2 m before markup in
  same_end (fst r1) (fst r2) /\ m_toc (snd r1) = m_toc (snd r2) /\ m_log (snd r1) = m_log (snd r2).
Proof.
  intros o1 o2 m before markup HB HS V1 V2. cbv zeta. unfold mcreole2html. rewrite HB, HS. destruct (parse (o_blog o2) markup) as [[root used]|]; [|split; [reflexivity|split; reflexivity]]. destruct (minit_toc used m) as [[ut t]|]; [|split; [reflexivity|split; reflexivity]].
  set (v1 := match o_verbose o1 with None => 1%Z | Some v => v end) in *. set (v2 := match o_verbose o2 with None => 1%Z | Some v => v end) in *.
  destruct (node_level v1 v2 (o_strict o2) ut m V1 V2 root (mkn KDocument None) (mkmst t before []) (mkmst t before [])) as (E1 & E2 & E3); [split; reflexivity|].
  unfold memit. destruct (memit_node (mkmcfg v1 _ m ut) _ root _) as [r1 s1], (memit_node (mkmcfg v2 _ m ut) _ root _) as [r2 s2]. cbn [fst snd m_use_toc] in *. destruct r1, r2; try destruct E1; [|split; [reflexivity|split; assumption]].
  destruct ut; [|split; [exact Logic.I|split; assumption]]. rewrite <- E2. destruct (m_toc s1) as [[| | |tc]|] eqn:M; cbn [fst snd]; rewrite ?M; (split; [exact Logic.I || reflexivity|split; assumption]).
Qed.

(** ** above level 2 a TypeError is let through; nothing else changes *)
Section Above.
Variables (v : Z) (st ut : bool) (m : mval).
Let c3 := mkmcfg v st m ut.
Let c2 := mkmcfg 2 st m ut.
Hypothesis V : (2 < v)%Z.
Definition above (r3 r2 : res str * mst) : Prop := r3 = r2 \/ fst r3 = Exc ETypeError.
Lemma merror_above : forall t e s, merror c3 t e s = merror c2 t e s.
Proof. intros t e s. unfold merror. change (m_verbose c3) with v. change (m_verbose c2) with 2%Z. rewrite (proj2 (Z.ltb_lt 0 v)) by lia. rewrite (proj2 (Z.ltb_lt 1 v)) by lia. reflexivity. Qed.
Lemma mtype_above : forall n msg s, above (mtype_error c3 n msg s) (mtype_error c2 n msg s).
Proof. intros n msg s. right. unfold mtype_error. change (m_verbose c3) with v. rewrite (proj2 (Z.ltb_lt 2 v)) by lia. reflexivity. Qed.
Lemma node_above : forall n par s, above (memit_node c3 par n s) (memit_node c2 par n s).
Proof.
  induction n as [h ch IH] using node_ind'. intros par s. rewrite !memit_job. change (m_strict c3) with st. change (m_strict c2) with st.
  assert (K : above (memit_children c3 h ch s) (memit_children c2 h ch s)).
  { revert s. induction IH as [|x ch Hx _ IHc]; intros s; [left; reflexivity|]. cbn [memit_children]. destruct (Hx h s) as [->|E].
    - destruct (memit_node c2 h x s) as [[a|e] s']; [|left; reflexivity]. destruct (IHc s') as [->|E]; [left; reflexivity|]. right. destruct (memit_children c3 h ch s') as [r s'']. cbn [fst] in E. subst r. reflexivity.
    - right. destruct (memit_node c3 h x s) as [r s']. cbn [fst] in E. subst r. reflexivity. }
  destruct (job_of st par h ch) as [|t|f|t|]; [left; reflexivity|left; reflexivity| |left; reflexivity|].
  - destruct K as [->|E]; [left; reflexivity|]. right. destruct (memit_children c3 h ch s) as [r s']. cbn [fst] in E. subst r. reflexivity.
  - unfold mmacro_emit. destruct (string2dict (hmargs h)) as [kw0|]; [|left; apply merror_above]. cbv zeta. change (lookup c3) with (lookup c2). change (m_macros c3) with m. change (m_macros c2) with m.
    destruct (lookup c2 (hmname h) s) as [[|cls| |t]|]; [left; apply merror_above|apply mtype_above| | |left; apply merror_above].
    + destruct (mv_call m (m_log s) (hmname h) _); [left; reflexivity| |apply mtype_above|left; apply merror_above|left; reflexivity]. left. change (m_verbose c3) with v. change (m_verbose c2) with 2%Z. rewrite (proj2 (Z.ltb_lt 1 v)) by lia. apply merror_above.
    + destruct (dict_get _ _); [apply mtype_above|]. left. reflexivity.
Qed.
End Above.
Theorem above_two : forall blog strict v m before markup, (2 < v)%Z ->
  let r3 := mcreole2html (mkopts blog (Some v) strict) m before markup in
  r3 = mcreole2html (mkopts blog (Some 2%Z) strict) m before markup \/ fst r3 = Exc ETypeError.
Proof.
  intros blog st v m before markup V. cbv zeta. unfold mcreole2html. cbn [o_blog o_verbose o_strict]. destruct (parse blog markup) as [[root used]|]; [|left; reflexivity]. destruct (minit_toc used m) as [[ut t]|]; [|left; reflexivity].
  unfold memit. destruct (node_above v st ut m V root (mkn KDocument None) (mkmst t before [])) as [->|E]; [left; reflexivity|]. right. destruct (memit_node (mkmcfg v st m ut) _ root _) as [r s']. cbn [fst] in E. subst r. reflexivity.
Qed.

(** ** an object that takes no attribute, macros that can be called *)
Theorem frozen : forall o g call before markup,
  let r := mcreole2html o (mkmv (InObject false) g call) before markup in
  r = mcreole2html o (mkmv (InObject true) g call) before markup \/
  fst r = Exc EAttributeError /\ m_log (snd r) = before /\ m_err (snd r) = [] /\ g ($ "toc") = None.
Proof.
  intros o g call before markup. cbv zeta. unfold mcreole2html. destruct (parse (o_blog o) markup) as [[root used]|]; [|left; reflexivity].
  assert (E : minit_toc used (mkmv (InObject false) g call) = minit_toc used (mkmv (InObject true) g call) \/ minit_toc used (mkmv (InObject false) g call) = None /\ g ($ "toc") = None).
  { unfold minit_toc. cbn [mv_get mv_holder]. destruct (existsb (str_eqb ($ "toc")) used); [|left; reflexivity]. destruct (g ($ "toc")) as [[]|]; [left; reflexivity ..|]. right. split; reflexivity. }
  destruct E as [->|[-> G]]; [|right; repeat split; exact G]. destruct (minit_toc used (mkmv (InObject true) g call)) as [[ut t]|]; [|left; reflexivity]. left. set (v := match o_verbose o with None => 1%Z | Some v => v end).
  set (ca := mkmcfg v (o_strict o) (mkmv (InObject false) g call) ut). set (cb := mkmcfg v (o_strict o) (mkmv (InObject true) g call) ut).
  assert (N0 : fst (memit_node ca (mkn KDocument None) root (mkmst t before [])) = fst (memit_node cb (mkn KDocument None) root (mkmst t before [])) /\ snd (memit_node ca (mkn KDocument None) root (mkmst t before [])) = snd (memit_node cb (mkn KDocument None) root (mkmst t before []))).
  { apply (two_node ca cb (fun a b => a = b) eq_refl); [| |reflexivity]; intros; subst; split; reflexivity. }
  destruct N0 as [N1 N2]. unfold memit. destruct (memit_node ca (mkn KDocument None) root (mkmst t before [])), (memit_node cb (mkn KDocument None) root (mkmst t before [])). cbn [fst snd] in *. subst. reflexivity.
Qed.
Theorem callable_refused : forall o m before markup, fst (creole2html_any o true m before markup) = Exc ETypeError /\ snd (creole2html_any o true m before markup) = mkmst (mv_get m ($ "toc")) before [].
Proof. intros o m before markup. unfold creole2html_any. destruct (parse (o_blog o) markup) as [[root used]|] eqn:E; [split; reflexivity|]. destruct (parse_wf (o_blog o) markup) as (n & u & E2 & _). rewrite E in E2. discriminate E2. Qed.
