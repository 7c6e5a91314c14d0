(** * The HTML emitter on well-formed documents *)
From Coq Require Import String List Arith NArith ZArith Bool Lia.
From Verif Require Import PyStr PyStrFacts GNames Regex RegexFacts Rules DocTree Utils CreoleParser ParserFacts HtmlEmitter HtmlSpec Spec.
Import ListNotations.
Open Scope N_scope.

Lemma entity_esc : forall t, flat_map entity t = escape t.
Proof. intro t. rewrite escape_esc. reflexivity. Qed.

(** ** Attribute escaping is safe *)
Lemma attr_safe_app : forall a b, attr_safe a -> attr_safe b -> attr_safe (a ++ b).
Proof. intros a b Ha Hb c Hc. apply in_app_iff in Hc as [Hc|Hc]; auto. Qed.
Lemma attr_safe_app_l : forall a b, attr_safe (a ++ b) -> attr_safe a.
Proof. intros a b H c Hc. apply H, in_app_iff. left; exact Hc. Qed.
Lemma attr_safe_app_r : forall a b, attr_safe (a ++ b) -> attr_safe b.
Proof. intros a b H c Hc. apply H, in_app_iff. right; exact Hc. Qed.

Lemma attr_escape_safe : forall t, attr_safe (attr_escape t).
Proof.
  intro t. unfold attr_escape. rewrite replace_single, escape_esc. unfold esc.
  rewrite flat_map_flat_map. induction t as [|x t IH]; [intros c []|].
  cbn [flat_map]. apply attr_safe_app; [|exact IH]. unfold esc_char.
  destruct (x =? 38) eqn:E1; [|destruct (x =? 60) eqn:E2; [|destruct (x =? 62) eqn:E3]].
  - intros c Hc. cbn in Hc. repeat destruct Hc as [<-|Hc]; try (destruct Hc); repeat split; discriminate.
  - intros c Hc. cbn in Hc. repeat destruct Hc as [<-|Hc]; try (destruct Hc); repeat split; discriminate.
  - intros c Hc. cbn in Hc. repeat destruct Hc as [<-|Hc]; try (destruct Hc); repeat split; discriminate.
  - cbn [flat_map]. rewrite app_nil_r. unfold sub1. destruct (34 =? x) eqn:E4.
    + intros c Hc. cbn in Hc. repeat destruct Hc as [<-|Hc]; try (destruct Hc); repeat split; discriminate.
    + intros c [<-|[]]. apply N.eqb_neq in E2, E3, E4. auto.
Qed.

Lemma split1_parts : forall c s a b, split1 c s = Some (a, b) -> s = a ++ c :: b.
Proof.
  induction s as [|x s IH]; simpl; intros a b H; [discriminate|].
  destruct (x =? c) eqn:E.
  - apply N.eqb_eq in E. inversion H; subst. reflexivity.
  - destruct (split1 c s) as [[a' b']|]; [|discriminate]. inversion H; subst.
    simpl. rewrite (IH a' b eq_refl). reflexivity.
Qed.

Lemma show_Z_safe : forall z, attr_safe (show_Z z).
Proof.
  assert (HN : forall n, attr_safe (show_N n)).
  { intros n c Hc. assert (H := show_N_digits n). rewrite forallb_forall in H. apply H in Hc.
    apply andb_true_iff in Hc as [H1 H2]. apply N.leb_le in H1, H2. lia. }
  intros [|p|p]; [intros c [<-|[]]; lia | apply HN |].
  intros c [<-|Hc]; [lia | exact (HN _ c Hc)].
Qed.

(** ** Emitting the children *)
Lemma emit_node_eq : forall c par h ch s, emit_node c par (Nd h ch) s =
    let with_content (f : str -> res str * est) : res str * est :=
      match hcontent h with Some t => f t | None => (Exc EAttributeError, s) end in
    match hk h with
    | KDocument => emit_children c h ch s
    | KText => with_content (fun t => (Ok (escape t), s))
    | KSeparator => (Ok ($ "<hr />" ++ [10]), s)
    | KParagraph => wrap (fun x => $ "<p>" ++ x ++ $ "</p>" ++ [10]) (emit_children c h ch s)
    | KBulletList => wrap (list_emit par h ($ "ul")) (emit_children c h ch s)
    | KNumberList => wrap (list_emit par h ($ "ol")) (emit_children c h ch s)
    | KListItem => wrap (list_emit par h ($ "li")) (emit_children c h ch s)
    | KTable => wrap (fun x => $ "<table>" ++ [10] ++ x ++ $ "</table>" ++ [10]) (emit_children c h ch s)
    | KTableRow => wrap (fun x => $ "<tr>" ++ [10] ++ x ++ $ "</tr>" ++ [10]) (emit_children c h ch s)
    | KTableCell => wrap (fun x => [9] ++ $ "<td>" ++ x ++ $ "</td>" ++ [10]) (emit_children c h ch s)
    | KTableHead => wrap (fun x => [9] ++ $ "<th>" ++ x ++ $ "</th>" ++ [10]) (emit_children c h ch s)
    | KEmphasis => wrap (tag ($ "i")) (emit_children c h ch s)
    | KStrong => wrap (tag ($ "strong")) (emit_children c h ch s)
    | KMonospace => wrap (tag ($ "tt")) (emit_children c h ch s)
    | KSuperscript => wrap (tag ($ "sup")) (emit_children c h ch s)
    | KSubscript => wrap (tag ($ "sub")) (emit_children c h ch s)
    | KUnderline => wrap (tag ($ "u")) (emit_children c h ch s)
    | KSmall => wrap (tag ($ "small")) (emit_children c h ch s)
    | KDelete => wrap (tag ($ "del")) (emit_children c h ch s)
    | KHeader => with_content (fun t => header_emit c h t s)
    | KLink =>
      with_content (fun target =>
        wrap (fun inside => $ "<a href=""" ++ attr_escape target ++ $ """>" ++ inside ++ $ "</a>")
             (match ch with
              | [] => (Ok (escape target), s)
              | _ => emit_children c h ch s
              end))
    | KImage => with_content (fun target => (Ok (image_emit c target h ch), s))
    | KMacroInline | KMacroBlock => macro_emit c h s
    | KBreak => (Ok (break_emit par), s)
    | KLine => (Ok [10], s)
    | KPreBlock => with_content (fun t => (Ok ($ "<pre>" ++ escape t ++ $ "</pre>" ++ [10]), s))
    | KPreInline => with_content (fun t => (Ok ($ "<code>" ++ escape t ++ $ "</code>"), s))
    end.
Proof.
  intros c par h ch s. cbn [emit_node].
  match goal with |- context [(?f ch s)] =>
    assert (E : forall l s, f l s = emit_children c h l s) end.
  { induction l as [|x l IH]; intro s0; [reflexivity|]. cbn [emit_children].
    destruct (emit_node c h x s0) as [[a|e] s1]; [|reflexivity]. rewrite IH. reflexivity. }
  rewrite <- (E ch s).
  destruct (hk h); reflexivity.
Qed.

Lemma everywhere_here : forall P n, everywhere P n -> P n.
Proof. intros P [h ch] [H _]. exact H. Qed.
Lemma everywhere_kids : forall P h ch, everywhere P (Nd h ch) -> Forall (everywhere P) ch.
Proof.
  intros P h ch [_ H]. induction ch as [|x ch IH]; [constructor|].
  destruct H as [H1 H2]. constructor; auto.
Qed.
Lemma everywhere_intro : forall (P : node -> Prop) h ch, P (Nd h ch) -> Forall (everywhere P) ch -> everywhere P (Nd h ch).
Proof.
  intros P h ch H1 H2. split; [exact H1|]. clear H1. induction H2; [exact I | split; auto].
Qed.
Lemma everywhere_impl : forall (P Q : node -> Prop), (forall n, P n -> Q n) ->
  forall n, everywhere P n -> everywhere Q n.
Proof.
  intros P Q H. induction n using node_ind'. intro Hn.
  apply everywhere_intro; [apply H, everywhere_here; exact Hn|].
  apply everywhere_kids in Hn. rewrite Forall_forall in *. intros x Hx. apply H0; auto.
Qed.

Lemma show_all_app : forall a b, show_all (a ++ b) = show_all a ++ show_all b.
Proof. intros. apply flat_map_app. Qed.
Lemma show_all_one : forall a, show_all [a] = show a.
Proof. intros. unfold show_all. simpl. apply app_nil_r. Qed.

Section Emit.
  Variable c : cfg.
  Variable R : str -> Prop.
  Variable A : list (str * str) -> Prop.
  Variable Inv : est -> Prop.
  Variable P : node -> Prop.
  Hypothesis Htoc : use_toc c = false.
  (** macros return, and what they return is empty or allowed *)
  Hypothesis Hmacro : forall h ch s, (hk h = KMacroInline \/ hk h = KMacroBlock) ->
    P (Nd h ch) -> Inv s ->
    exists r s', macro_emit c h s = (Ok r, s') /\ Inv s' /\ (r = [] \/ R r).
  (** images have safe attributes *)
  Hypothesis Himage : forall h ch t, hk h = KImage -> hcontent h = Some t -> P (Nd h ch) ->
    exists l, image_emit c t h ch = show (HVoid ($ "img") l) /\ A l.

  Definition emits (Q : html -> Prop) (par : hdr) (n : node) : Prop :=
    forall s, Inv s -> exists f s', emit_node c par n s = (Ok (show_all f), s') /\ Inv s' /\ Forall Q f.

  Lemma emits_children : forall Q h l, Forall (emits Q h) l ->
    forall s, Inv s -> exists f s', emit_children c h l s = (Ok (show_all f), s') /\ Inv s' /\ Forall Q f.
  Proof.
    intros Q h l H. induction H as [|x l Hx _ IH]; intros s Hs.
    - exists [], s. repeat split; auto.
    - cbn [emit_children]. destruct (Hx s Hs) as (f1 & s1 & E1 & H1 & F1). rewrite E1.
      destruct (IH s1 H1) as (f2 & s2 & E2 & H2 & F2). rewrite E2.
      exists (f1 ++ f2), s2. rewrite show_all_app. repeat split; auto. apply Forall_app; auto.
  Qed.

  Lemma emit_children_app : forall h a b s, emit_children c h (a ++ b) s =
    match emit_children c h a s with
    | (Ok x, s1) => match emit_children c h b s1 with
                    | (Ok y, s2) => (Ok (x ++ y), s2)
                    | (Exc e, s2) => (Exc e, s2)
                    end
    | (Exc e, s1) => (Exc e, s1)
    end.
  Proof.
    induction a as [|x a IH]; intros b s; cbn [emit_children app].
    - destruct (emit_children c h b s) as [[y|e] s2]; reflexivity.
    - destruct (emit_node c h x s) as [[u|e] s1]; [|reflexivity]. rewrite IH.
      destruct (emit_children c h a s1) as [[v|e] s2]; [|reflexivity].
      destruct (emit_children c h b s2) as [[y|e] s3]; [|reflexivity].
      rewrite app_assoc. reflexivity.
  Qed.

  Lemma blank_ws : forall w, forallb (fun c => (c =? 9) || (c =? 10)) w = true ->
    blank (HText w) /\ show (HText w) = w.
  Proof.
    intros w H. rewrite forallb_forall in H.
    assert (H' : forall c, In c w -> c = 9 \/ c = 10).
    { intros x Hx. apply H in Hx. apply orb_true_iff in Hx as [E|E]; apply N.eqb_eq in E; auto. }
    split; [exists w; auto|]. cbn [show]. apply flat_map_id. intros x Hx.
    destruct (H' x Hx) as [->| ->]; reflexivity.
  Qed.

  Lemma tabs_ws : forall n, forallb (fun c => (c =? 9) || (c =? 10)) (repeat 9 n) = true.
  Proof. induction n; [reflexivity|]. simpl. exact IHn. Qed.

  (** text with a line break of some indentation *)
  Lemma break_show : forall par, exists w, break_emit par = show_all [HVoid ($ "br") []; HText w].
  Proof.
    intro par. unfold break_emit.
    assert (E : forall w, forallb (fun c => (c =? 9) || (c =? 10)) w = true ->
              $ "<br />" ++ w = show_all [HVoid ($ "br") []; HText w]).
    { intros w Hw. unfold show_all. cbn [flat_map]. rewrite (proj2 (blank_ws w Hw)), app_nil_r. reflexivity. }
    destruct (hk par);
      try (exists [10]; apply (E [10]); reflexivity);
      try (exists [10; 9; 9]; apply (E [10; 9; 9]); reflexivity).
    exists ([10] ++ repeat 9 (hlevel par)). apply E. simpl. apply tabs_ws.
  Qed.

  Lemma lnk_emits : forall n, wf_lnk n = true -> everywhere P n ->
    forall par, emits (link_content A) par n.
  Proof.
    intros [h ch] Hw He par s Hs. unfold wf_lnk in Hw. rewrite emit_node_eq. cbn zeta.
    apply orb_true_iff in Hw as [Hw|Hw]; [apply orb_true_iff in Hw as [Hw|Hw]|].
    - simpl in Hw. apply andb_true_iff in Hw as [Hw _]. apply andb_true_iff in Hw as [Hk Hc].
      apply kind_beq_eq in Hk. rewrite Hk. unfold has_content in Hc.
      destruct (hcontent h) as [t|]; [|discriminate].
      exists [HText t], s. rewrite show_all_one. cbn [show]. rewrite entity_esc.
      repeat split; auto. constructor; [constructor | constructor].
    - simpl in Hw. apply andb_true_iff in Hw as [Hk _]. apply kind_beq_eq in Hk. rewrite Hk.
      destruct (break_show par) as [w ->]. eexists _, s. split; [reflexivity|]. split; [exact Hs|].
      repeat constructor.
    - assert (Hw' := Hw). simpl in Hw. destruct ch as [|t [|? ?]]; try discriminate.
      apply andb_true_iff in Hw as [Hw _]. apply andb_true_iff in Hw as [Hk Hc].
      apply kind_beq_eq in Hk. rewrite Hk. unfold has_content in Hc.
      destruct (hcontent h) as [tt|] eqn:Et; [|discriminate].
      destruct (Himage _ _ _ Hk Et (everywhere_here _ _ He)) as (l & -> & Hl).
      exists [HVoid ($ "img") l], s. rewrite show_all_one. repeat split; auto.
      constructor; [constructor; exact Hl | constructor].
  Qed.

  Lemma macro_forest : forall r, r = [] \/ R r -> exists f, show_all f = r /\ Forall (phrasing R A) f /\ Forall (block R A) f.
  Proof.
    intros r [->|H].
    - exists []. repeat split; constructor.
    - exists [HRaw r]. rewrite show_all_one. repeat split; (constructor; [constructor; exact H | constructor]).
  Qed.

  Lemma face_show : forall t f, tag t (show_all f) = show_all [HEl t [] f].
  Proof. intros. rewrite show_all_one. reflexivity. Qed.

  Lemma inl_emits : forall n, wf_inl n = true -> everywhere P n ->
    forall par, emits (phrasing R A) par n.
  Proof.
    induction n as [h ch IH] using node_ind'. intros Hw He par s Hs.
    rewrite emit_node_eq. cbn zeta. cbn [wf_inl] in Hw.
    assert (HC : forallb wf_inl ch = true -> exists f s', emit_children c h ch s = (Ok (show_all f), s') /\
              Inv s' /\ Forall (phrasing R A) f).
    { intro Hf. apply emits_children; [|exact Hs]. apply everywhere_kids in He.
      rewrite forallb_forall in Hf. rewrite Forall_forall in *. intros x Hx. apply IH; auto. }
    destruct (hk h) eqn:Hk; try discriminate.
    - (* text *) apply andb_true_iff in Hw as [Hc _]. unfold has_content in Hc.
      destruct (hcontent h) as [t|]; [|discriminate].
      exists [HText t], s. rewrite show_all_one. cbn [show]. rewrite entity_esc.
      repeat split; auto. constructor; [constructor | constructor].
    - destruct (break_show par) as [w ->]. eexists _, s. split; [reflexivity|]. split; [exact Hs|].
      repeat constructor.
    - (* pre_inline *) apply andb_true_iff in Hw as [Hc _]. unfold has_content in Hc.
      destruct (hcontent h) as [t|]; [|discriminate].
      exists [HEl ($ "code") [] [HText t]], s. rewrite show_all_one. cbn [show flat_map].
      rewrite entity_esc, app_nil_r. repeat split; auto. repeat constructor.
    - (* link *) apply andb_true_iff in Hw as [Hc Hl]. unfold has_content in Hc.
      destruct (hcontent h) as [t|]; [|discriminate].
      assert (HL : exists f s', match ch with [] => (Ok (escape t), s) | _ => emit_children c h ch s end
                     = (Ok (show_all f), s') /\ Inv s' /\ Forall (link_content A) f).
      { destruct ch as [|x ch].
        - exists [HText t], s. rewrite show_all_one. cbn [show]. rewrite entity_esc.
          repeat split; auto. repeat constructor.
        - apply emits_children; [|exact Hs]. apply everywhere_kids in He.
          rewrite forallb_forall in Hl. rewrite Forall_forall in *. intros y Hy. apply lnk_emits; auto. }
      destruct HL as (f & s' & -> & Hs' & Hf).
      exists [HEl ($ "a") [($ "href", attr_escape t)] f], s'. split; [|split; [exact Hs'|]].
      + rewrite show_all_one. cbn [wrap show show_attrs flat_map]. unfold show_attr. cbn [fst snd].
        rewrite app_nil_r, <- !app_assoc. reflexivity.
      + constructor; [|constructor]. apply ph_a; [apply attr_escape_safe | exact Hf].
    - (* image *) destruct ch as [|t [|? ?]]; try discriminate.
      unfold wf_image in Hw. apply andb_true_iff in Hw as [Hw _]. apply andb_true_iff in Hw as [_ Hc].
      unfold has_content in Hc. destruct (hcontent h) as [tt|] eqn:Et; [|discriminate].
      destruct (Himage _ _ _ Hk Et (everywhere_here _ _ He)) as (l & -> & Hl).
      exists [HVoid ($ "img") l], s. rewrite show_all_one. repeat split; auto.
      constructor; [constructor; exact Hl | constructor].
    - (* macro *) destruct (Hmacro h ch s) as (r & s' & -> & Hs' & Hr); auto.
      { apply everywhere_here; exact He. }
      destruct (macro_forest r Hr) as (f & <- & Hf & _). eauto.
    - destruct (HC Hw) as (f & s' & -> & Hs' & Hf). cbn [wrap]. rewrite face_show.
      eexists _, s'. split; [reflexivity|]. split; [exact Hs'|]. constructor; [|constructor].
      apply ph_face; [|exact Hf]. simpl; tauto.
    - destruct (HC Hw) as (f & s' & -> & Hs' & Hf). cbn [wrap]. rewrite face_show.
      eexists _, s'. split; [reflexivity|]. split; [exact Hs'|]. constructor; [|constructor].
      apply ph_face; [|exact Hf]. simpl; tauto.
    - destruct (HC Hw) as (f & s' & -> & Hs' & Hf). cbn [wrap]. rewrite face_show.
      eexists _, s'. split; [reflexivity|]. split; [exact Hs'|]. constructor; [|constructor].
      apply ph_face; [|exact Hf]. simpl; tauto.
    - destruct (HC Hw) as (f & s' & -> & Hs' & Hf). cbn [wrap]. rewrite face_show.
      eexists _, s'. split; [reflexivity|]. split; [exact Hs'|]. constructor; [|constructor].
      apply ph_face; [|exact Hf]. simpl; tauto.
    - destruct (HC Hw) as (f & s' & -> & Hs' & Hf). cbn [wrap]. rewrite face_show.
      eexists _, s'. split; [reflexivity|]. split; [exact Hs'|]. constructor; [|constructor].
      apply ph_face; [|exact Hf]. simpl; tauto.
    - destruct (HC Hw) as (f & s' & -> & Hs' & Hf). cbn [wrap]. rewrite face_show.
      eexists _, s'. split; [reflexivity|]. split; [exact Hs'|]. constructor; [|constructor].
      apply ph_face; [|exact Hf]. simpl; tauto.
    - destruct (HC Hw) as (f & s' & -> & Hs' & Hf). cbn [wrap]. rewrite face_show.
      eexists _, s'. split; [reflexivity|]. split; [exact Hs'|]. constructor; [|constructor].
      apply ph_face; [|exact Hf]. simpl; tauto.
    - destruct (HC Hw) as (f & s' & -> & Hs' & Hf). cbn [wrap]. rewrite face_show.
      eexists _, s'. split; [reflexivity|]. split; [exact Hs'|]. constructor; [|constructor].
      apply ph_face; [|exact Hf]. simpl; tauto.
  Qed.

  Lemma inls_emits : forall h l s, forallb wf_inl l = true -> Forall (everywhere P) l -> Inv s ->
    exists f s', emit_children c h l s = (Ok (show_all f), s') /\ Inv s' /\ Forall (phrasing R A) f.
  Proof.
    intros h l s Hf He Hs. apply emits_children; [|exact Hs].
    rewrite forallb_forall in Hf. rewrite Forall_forall in *. intros y Hy. apply inl_emits; auto.
  Qed.

  (** indentation before a list or item *)
  Lemma lead_ws : forall par n, exists w, blank (HText w) /\
    show (HText w) = (if kind_beq (hk par) KDocument then [] else [10]) ++ repeat 9 n.
  Proof.
    intros par n. exists ((if kind_beq (hk par) KDocument then [] else [10]) ++ repeat 9 n).
    apply blank_ws. rewrite forallb_app, tabs_ws. destruct (kind_beq (hk par) KDocument); reflexivity.
  Qed.

  Lemma list_item_emits : forall n,
    (wf_item n = true -> everywhere P n -> forall par, emits (hitem R A) par n) /\
    (wf_list n = true -> everywhere P n -> forall par, emits (hsub R A) par n).
  Proof.
    induction n as [h ch IH] using node_ind'. split; intros Hw He par s Hs; rewrite emit_node_eq; cbn zeta.
    - apply wf_item_inv in Hw as (Hk & a & b & -> & Ha & Hb). rewrite Hk.
      apply everywhere_kids in He. apply Forall_app in He as [Ea Eb].
      apply Forall_app in IH as [_ IH].
      rewrite emit_children_app.
      destruct (inls_emits h a s Ha Ea Hs) as (f1 & s1 & -> & Hs1 & F1).
      assert (HB : exists f s', emit_children c h b s1 = (Ok (show_all f), s') /\ Inv s' /\ Forall (hsub R A) f).
      { apply emits_children; [|exact Hs1]. rewrite forallb_forall in Hb. rewrite Forall_forall in *.
        intros y Hy. apply IH; auto. }
      destruct HB as (f2 & s2 & -> & Hs2 & F2). cbn [wrap]. unfold list_emit. rewrite Hk. cbn [kind_beq].
      destruct (lead_ws par (hlevel h)) as (w & Hw & Ew).
      exists [HText w; HEl ($ "li") [] (f1 ++ f2)], s2. split; [|split; [exact Hs2|]].
      + rewrite <- show_all_app. unfold show_all at 2. cbn [flat_map]. rewrite Ew, app_nil_r.
        rewrite <- app_assoc. reflexivity.
      + constructor; [apply hi_blank; exact Hw|]. constructor; [|constructor]. apply hi_li; assumption.
    - cbn [wf_list] in Hw. apply andb_true_iff in Hw as [Hk Hf].
      assert (HC : exists f s', emit_children c h ch s = (Ok (show_all f), s') /\ Inv s' /\ Forall (hitem R A) f).
      { apply emits_children; [|exact Hs]. apply everywhere_kids in He.
        rewrite forallb_forall in Hf. rewrite Forall_forall in *. intros y Hy. apply IH; auto. }
      destruct HC as (f & s' & -> & Hs' & F).
      destruct (lead_ws par (hlevel h)) as (w & Hw & Ew).
      assert (Hz : forallb (fun c => (c =? 9) || (c =? 10)) ([10] ++ repeat 9 (hlevel h)) = true)
        by (simpl; apply tabs_ws).
      destruct (blank_ws _ Hz) as (Bz & Ez).
      assert (HE : forall t, t = $ "ul" \/ t = $ "ol" ->
                exists g, Ok (list_emit par h t (show_all f)) = Ok (show_all g) /\ Forall (hsub R A) g).
      { intros t Ht. exists [HText w; HEl t [] (f ++ [HText ([10] ++ repeat 9 (hlevel h))])]. split.
        - unfold list_emit. destruct (kind_beq (hk h) KListItem) eqn:E.
          { apply kind_beq_eq in E. rewrite E in Hk. discriminate. }
          unfold show_all at 2. cbn [flat_map]. rewrite Ew, app_nil_r.
          change (show (HEl t [] (f ++ [HText ([10] ++ repeat 9 (hlevel h))])))
            with ($ "<" ++ t ++ $ ">" ++ show_all (f ++ [HText ([10] ++ repeat 9 (hlevel h))]) ++ $ "</" ++ t ++ $ ">").
          rewrite show_all_app, show_all_one, Ez. rewrite <- !app_assoc. reflexivity.
        - constructor; [apply hs_blank; exact Hw|]. constructor; [|constructor]. apply hs_list.
          constructor; [exact Ht|]. apply Forall_app; split; [exact F|]. constructor; [|constructor].
          apply hi_blank. exact Bz. }
      destruct (hk h); try discriminate; cbn [wrap];
        [destruct (HE ($ "ul")) as (g & -> & Hg) | destruct (HE ($ "ol")) as (g & -> & Hg)]; auto;
        exists g, s'; auto.
  Qed.

  (** an element followed by a newline *)
  Lemma nl_show : forall x, show x ++ [10] = show_all [x; HText [10]].
  Proof. intro x. reflexivity. Qed.
  Lemma nl_blank : blank (HText [10]).
  Proof. exists [10]. split; [reflexivity|]. intros c0 [<-|[]]. right; reflexivity. Qed.

  Lemma cell_emits : forall n, wf_cell n = true -> everywhere P n -> forall par, emits (hcell R A) par n.
  Proof.
    intros [h ch] Hw He par s Hs. rewrite emit_node_eq; cbn zeta. cbn [wf_cell] in Hw.
    apply andb_true_iff in Hw as [Hk Hf]. apply everywhere_kids in He.
    destruct (inls_emits h ch s Hf He Hs) as (f & s' & -> & Hs' & F).
    assert (Bt : blank (HText [9])).
    { exists [9]. split; [reflexivity|]. intros c0 [<-|[]]. left; reflexivity. }
    apply orb_true_iff in Hk as [Hk|Hk]; apply kind_beq_eq in Hk; rewrite Hk; cbn [wrap].
    - exists [HText [9]; HEl ($ "td") [] f; HText [10]], s'. split; [|split; [exact Hs'|]].
      + unfold show_all at 2. cbn [flat_map show show_attrs]. rewrite app_nil_r, <- !app_assoc. reflexivity.
      + constructor; [apply hc_blank; exact Bt|]. constructor; [apply hc_cell; auto|].
        constructor; [apply hc_blank, nl_blank | constructor].
    - exists [HText [9]; HEl ($ "th") [] f; HText [10]], s'. split; [|split; [exact Hs'|]].
      + unfold show_all at 2. cbn [flat_map show show_attrs]. rewrite app_nil_r, <- !app_assoc. reflexivity.
      + constructor; [apply hc_blank; exact Bt|]. constructor; [apply hc_cell; auto|].
        constructor; [apply hc_blank, nl_blank | constructor].
  Qed.

  Lemma row_emits : forall n, wf_row n = true -> everywhere P n -> forall par, emits (hrow R A) par n.
  Proof.
    intros [h ch] Hw He par s Hs. rewrite emit_node_eq; cbn zeta. cbn [wf_row] in Hw.
    apply andb_true_iff in Hw as [Hk Hf]. apply kind_beq_eq in Hk. rewrite Hk.
    assert (HC : exists f s', emit_children c h ch s = (Ok (show_all f), s') /\ Inv s' /\ Forall (hcell R A) f).
    { apply emits_children; [|exact Hs]. apply everywhere_kids in He.
      rewrite forallb_forall in Hf. rewrite Forall_forall in *. intros y Hy. apply cell_emits; auto. }
    destruct HC as (f & s' & -> & Hs' & F). cbn [wrap].
    exists [HEl ($ "tr") [] ([HText [10]] ++ f); HText [10]], s'. split; [|split; [exact Hs'|]].
    - rewrite <- nl_show. cbn [show show_attrs]. fold (show_all ([HText [10]] ++ f)). rewrite show_all_app, show_all_one. cbn [show].
      rewrite <- !app_assoc. reflexivity.
    - constructor; [|constructor; [apply hr_blank, nl_blank | constructor]].
      apply hr_row. constructor; [apply hc_blank, nl_blank | exact F].
  Qed.

  Lemma numeral_show : forall n, is_numeral (show_nat n).
  Proof.
    intro n. split.
    - unfold show_nat, show_N. cbn [digits_go]. destruct (N.of_nat n <? 10); [discriminate|].
      assert (H : forall f m a, a <> [] -> digits_go f m a <> []).
      { induction f; intros m0 a Ha; cbn [digits_go]; [exact Ha|].
        destruct (m0 <? 10); [discriminate|]. apply IHf. discriminate. }
      apply H. discriminate.
    - intros c0 Hc. assert (H := show_N_digits (N.of_nat n)). rewrite forallb_forall in H.
      apply H in Hc. apply andb_true_iff in Hc as [H1 H2]. apply N.leb_le in H1, H2. auto.
  Qed.

  Lemma block_emits : forall n, wf_block n = true -> everywhere P n -> forall par, emits (block R A) par n.
  Proof.
    intros [h ch] Hw He par s Hs. assert (Hw0 := Hw). assert (He0 := He).
    rewrite emit_node_eq; cbn zeta. cbn [wf_block] in Hw. apply everywhere_kids in He.
    destruct (hk h) eqn:Hk; try discriminate.
    - (* paragraph *) destruct (inls_emits h ch s Hw He Hs) as (f & s' & -> & Hs' & F). cbn [wrap].
      exists [HEl ($ "p") [] f; HText [10]], s'. split; [|split; [exact Hs'|]].
      + rewrite <- nl_show. cbn [show show_attrs]. rewrite <- !app_assoc. reflexivity.
      + constructor; [apply bl_p; exact F|]. constructor; [apply bl_blank, nl_blank | constructor].
    - (* line *) exists [HText [10]], s. split; [reflexivity|]. split; [exact Hs|].
      constructor; [apply bl_blank, nl_blank | constructor].
    - (* separator *) exists [HVoid ($ "hr") []; HText [10]], s. split; [reflexivity|]. split; [exact Hs|].
      constructor; [apply bl_hr|]. constructor; [apply bl_blank, nl_blank | constructor].
    - (* header *) apply andb_true_iff in Hw as [Hw _]. apply andb_true_iff in Hw as [Hc _].
      unfold has_content in Hc. destruct (hcontent h) as [t|]; [|discriminate].
      unfold header_emit. rewrite Htoc.
      exists [HEl (($ "h") ++ show_nat (hlevel h)) [] [HText t]; HText [10]], s.
      split; [|split; [exact Hs|]].
      + rewrite <- nl_show. cbn [show show_attrs flat_map]. rewrite entity_esc, app_nil_r.
        rewrite <- !app_assoc. reflexivity.
      + constructor; [apply bl_head, numeral_show|]. constructor; [apply bl_blank, nl_blank | constructor].
    - (* pre *) apply andb_true_iff in Hw as [Hc _].
      unfold has_content in Hc. destruct (hcontent h) as [t|]; [|discriminate].
      exists [HEl ($ "pre") [] [HText t]; HText [10]], s. split; [|split; [exact Hs|]].
      + rewrite <- nl_show. cbn [show show_attrs flat_map]. rewrite entity_esc, app_nil_r.
        rewrite <- !app_assoc. reflexivity.
      + constructor; [apply bl_pre|]. constructor; [apply bl_blank, nl_blank | constructor].
    - (* macro *) destruct (Hmacro h ch s) as (r & s' & -> & Hs' & Hr); auto.
      { apply everywhere_here; exact He0. }
      destruct (macro_forest r Hr) as (f & <- & _ & Hf). eauto.
    - (* bullet list *)
      assert (HL : wf_list (Nd h ch) = true) by (cbn [wf_list]; rewrite Hk; exact Hw).
      destruct (proj2 (list_item_emits (Nd h ch)) HL He0 par s Hs) as (f & s' & E & Hs' & F).
      rewrite emit_node_eq, Hk in E. cbn zeta in E. rewrite E. exists f, s'.
      split; [reflexivity|]. split; [exact Hs'|].
      eapply Forall_impl; [|exact F]. intros x Hx. inversion Hx; subst; [apply bl_blank | apply bl_list]; assumption.
    - assert (HL : wf_list (Nd h ch) = true) by (cbn [wf_list]; rewrite Hk; exact Hw).
      destruct (proj2 (list_item_emits (Nd h ch)) HL He0 par s Hs) as (f & s' & E & Hs' & F).
      rewrite emit_node_eq, Hk in E. cbn zeta in E. rewrite E. exists f, s'.
      split; [reflexivity|]. split; [exact Hs'|].
      eapply Forall_impl; [|exact F]. intros x Hx. inversion Hx; subst; [apply bl_blank | apply bl_list]; assumption.
    - (* table *)
      assert (HC : exists f s', emit_children c h ch s = (Ok (show_all f), s') /\ Inv s' /\ Forall (hrow R A) f).
      { apply emits_children; [|exact Hs].
        rewrite forallb_forall in Hw. rewrite Forall_forall in *. intros y Hy. apply row_emits; auto. }
      destruct HC as (f & s' & -> & Hs' & F). cbn [wrap].
      exists [HEl ($ "table") [] ([HText [10]] ++ f); HText [10]], s'. split; [|split; [exact Hs'|]].
      + rewrite <- nl_show. cbn [show show_attrs]. fold (show_all ([HText [10]] ++ f)).
        rewrite show_all_app, show_all_one. cbn [show].
        rewrite <- !app_assoc. reflexivity.
      + constructor; [|constructor; [apply bl_blank, nl_blank | constructor]].
        apply bl_table. constructor; [apply hr_blank, nl_blank | exact F].
  Qed.

  Lemma doc_emits : forall n s, wf_doc n = true -> everywhere P n -> Inv s ->
    exists f s', emit c n s = (Ok (strip (show_all f)), s') /\ Inv s' /\ document R A f.
  Proof.
    intros [h ch] s Hw He Hs. unfold emit. rewrite emit_node_eq; cbn zeta. cbn [wf_doc] in Hw.
    apply andb_true_iff in Hw as [Hk Hf]. apply kind_beq_eq in Hk. rewrite Hk.
    assert (HC : exists f s', emit_children c h ch s = (Ok (show_all f), s') /\ Inv s' /\ Forall (block R A) f).
    { apply emits_children; [|exact Hs]. apply everywhere_kids in He.
      rewrite forallb_forall in Hf. rewrite Forall_forall in *. intros y Hy. apply block_emits; auto. }
    destruct HC as (f & s' & -> & Hs' & F). rewrite Htoc. eauto.
  Qed.
End Emit.
