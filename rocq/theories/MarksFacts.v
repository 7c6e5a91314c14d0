(** * Elements need their marks: matches, nodes and the emitted text *)
From Coq Require Import String List Arith NArith ZArith Bool Lia.
From Verif Require Import PyStr PyStrFacts GNames Regex RegexFacts Rules DocTree Utils CreoleParser ParserFacts HtmlEmitter HtmlSpec EmitterFacts Safety C2H TocHtml Spec Spec49.
Import ListNotations.
Open Scope N_scope.

(** ** Words that every match has *)
Fixpoint must (w : str) (r : regex) : Prop :=
  r = lit w \/ match r with
               | RSeq a b => must w a \/ must w b
               | RGrp _ r => must w r
               | RAlt a b => must w a /\ must w b
               | _ => False
               end.
Lemma seq_inv : forall a b s s2, Mt (RSeq a b) s s2 -> exists s1, Mt a s s1 /\ Mt b s1 s2.
Proof. intros a b s s2 H. inversion H; subst. eauto. Qed.
Lemma alt_inv : forall a b s s2, Mt (RAlt a b) s s2 -> Mt a s s2 \/ Mt b s s2.
Proof. intros a b s s2 H. inversion H; subst; auto. Qed.
Lemma grp_inv : forall g r s s2, Mt (RGrp g r) s s2 -> exists s1, Mt r s s1 /\ rest s2 = rest s1.
Proof. intros g r s s2 H. inversion H; subst. eauto. Qed.
Lemma Mt_lit : forall w s s', Mt (lit w) s s' -> rest s = w ++ rest s'.
Proof.
  assert (H1 : forall c s s', Mt (c1 c) s s' -> rest s = c :: rest s').
  { intros c s s' H. inversion H as [|p b d u cs E| | | | | | | | | | | |]; subst. apply N.eqb_eq in E. subst. reflexivity. }
  induction w as [|c w IH]; intros s s' H; [inversion H; reflexivity|].
  destruct w as [|d w]; [exact (H1 _ _ _ H)|].
  change (lit (c :: d :: w)) with (RSeq (c1 c) (lit (d :: w))) in H. apply seq_inv in H as (s1 & Ha & Hb).
  apply H1 in Ha. apply IH in Hb. rewrite Ha, Hb. reflexivity.
Qed.
Lemma Mt_must : forall w r s s', Mt r s s' -> must w r -> exists v, rest s = v ++ rest s' /\ infix w v.
Proof.
  intros w r. assert (HL : forall s s', Mt (lit w) s s' -> exists v, rest s = v ++ rest s' /\ infix w v)
    by (intros s s' H; exists w; split; [apply Mt_lit, H | apply infix_refl]).
  induction r; intros s s' H [E0|Hm]; try (destruct Hm; fail); try (rewrite E0 in H; exact (HL _ _ H)).
  - apply seq_inv in H as (s1 & Ha & Hb). destruct Hm as [Hm|Hm].
    + destruct (IHr1 _ _ Ha Hm) as (v & E & Hi). destruct (Mt_ext _ _ _ Hb) as (u & cs & A & _).
      exists (v ++ u). split; [rewrite E, A, app_assoc; reflexivity | apply infix_app_r, Hi].
    + destruct (IHr2 _ _ Hb Hm) as (v & E & Hi). destruct (Mt_ext _ _ _ Ha) as (u & cs & A & _).
      exists (u ++ v). split; [rewrite A, E, app_assoc; reflexivity | apply infix_app_l, Hi].
  - destruct Hm as [Ha Hb]. apply alt_inv in H as [H|H]; auto.
  - apply grp_inv in H as (s1 & H & E1). destruct (IHr _ _ H Hm) as (v & E & Hi). exists v. rewrite E1. auto.
Qed.

(** ** Conditions on captures *)
Fixpoint capsat (g : gname) (Q : str -> Prop) (r : regex) : Prop :=
  match r with
  | RSeq a b | RAlt a b => capsat g Q a /\ capsat g Q b
  | RStar _ r => capsat g Q r
  | RGrp h r => (if gname_beq g h then forall s s' v, Mt r s s' -> rest s = v ++ rest s' -> Q v else True) /\ capsat g Q r
  | _ => True
  end.
Lemma eat_caps : forall w s s', eat w s = Some s' -> caps s' = caps s.
Proof. intros w s s' H. apply eat_ext in H as (_ & _ & H & _). exact H. Qed.
Lemma Mt_capsat : forall g Q r s s', Mt r s s' -> capsat g Q r ->
  (forall v, cap g (caps s) = Some v -> Q v) -> forall v, cap g (caps s') = Some v -> Q v.
Proof.
  intros g Q r s s' H. induction H; cbn [capsat]; intros Hc Hv; auto; try (destruct Hc; auto; fail).
  - destruct Hc as [C1 C2]. intros v. cbn [caps cap]. destruct (gname_beq g g0); [|apply IHMt; assumption].
    intro E. injection E as E. subst v. destruct (Mt_ext _ _ _ H) as (u & cs & A & _).
    rewrite A at 2. rewrite A at 1. rewrite firstn_app_exact. eapply C1; eauto.
  - intros v E. rewrite (eat_caps _ _ _ H0) in E. auto.
Qed.
Lemma finditer_capsat : forall g Q r t x v, In x (finditer r t) -> capsat g Q r -> group g x = Some v -> Q v.
Proof.
  intros g Q r t x v H Hc Hg. apply finditer_In in H as (adv & b' & t' & H & ->).
  apply try_at_Mt in H as (s' & M & _ & _ & E & _). unfold group in Hg. rewrite E in Hg.
  eapply Mt_capsat; eauto. intros w Hw. discriminate.
Qed.
Lemma must_cap : forall w r s s' v, must w r -> Mt r s s' -> rest s = v ++ rest s' -> infix w v.
Proof.
  intros w r s s' v Hm H E. destruct (Mt_must _ _ _ _ H Hm) as (u & E2 & Hi). rewrite E2 in E.
  apply app_inv_tail in E. subst v. exact Hi.
Qed.

(** ** The marks of the groups *)
Definition group_mark (g : gname) : str :=
  match g with
  | G_link => $ "[[" | G_macro_inline | G_macro_tag | G_macro_block => $ "<<"
  | G_pre_inline | G_pre_block => $ "{{{" | G_image => $ "{{"
  | G_strong => $ "**" | G_emphasis => $ "//" | G_monospace => $ "##" | G_underline => $ "__"
  | G_superscript => $ "^^" | G_subscript => $ ",," | G_small => $ "--" | G_delete => $ "~~"
  | G_separator => $ "----" | G_table => $ "|" | G_head => $ "="
  | _ => []
  end.
Lemma must_here : forall w b, must w (RSeq (lit w) b).
Proof. intros. cbn [must]. right. left. destruct (lit w) eqn:E; left; auto. Qed.
Lemma must_next : forall w a b, must w b -> must w (RSeq a b).
Proof. intros. cbn [must]. auto. Qed.
Lemma must_last : forall w, must w (lit w).
Proof. intros. destruct (lit w) eqn:E; left; auto. Qed.
Ltac capmust := cbn -[lit must]; repeat split; try exact I; intros; eapply must_cap; [|eassumption|eassumption];
  first [ apply must_here | apply must_next, must_here | apply must_next, must_next, must_here | apply must_next, must_next, must_last ].

Lemma first_some : forall x gs g, first_group gs x = Some g -> exists v, group g x = Some v.
Proof.
  induction gs as [|h l IH]; cbn [first_group]; intros g; [discriminate|].
  destruct (group h x) as [v|] eqn:E; [intro H; injection H as <-; eauto | apply IH].
Qed.
Lemma inline_marks : forall raw x g, In x (finditer inline_re raw) -> first_group inline_groups x = Some g ->
  In g [G_link; G_macro_inline; G_macro_tag; G_pre_inline; G_image; G_strong; G_emphasis; G_monospace; G_underline;
        G_superscript; G_subscript; G_small; G_delete] ->
  infix (group_mark g) raw.
Proof.
  intros raw x g Hx Hg Hin.
  destruct (first_some _ _ _ Hg) as [v HG]. eapply infix_trans; [|eapply caps_infix; eauto].
  eapply (finditer_capsat g (infix (group_mark g))); [exact Hx| |exact HG].
  cbn [In] in Hin. repeat destruct Hin as [<-|Hin]; [.. | destruct Hin].
  all: capmust.
Qed.
Lemma link_marks : forall raw x, In x (finditer link_re raw) -> first_group link_groups x = Some G_image -> infix ($ "{{") raw.
Proof.
  intros raw x Hx Hg.
  destruct (first_some _ _ _ Hg) as [v HG]. eapply infix_trans; [|eapply caps_infix; eauto].
  eapply (finditer_capsat G_image (infix ($ "{{"))); [exact Hx| |exact HG]. capmust.
Qed.
Lemma block_marks : forall blog raw x g, In x (finditer (block_re blog) raw) -> first_group (block_groups blog) x = Some g ->
  In g [G_macro_block; G_separator; G_pre_block; G_table] -> infix (group_mark g) raw.
Proof.
  intros blog raw x g Hx Hg Hin.
  destruct (first_some _ _ _ Hg) as [v HG]. eapply infix_trans; [|eapply caps_infix; eauto].
  eapply (finditer_capsat g (infix (group_mark g))); [exact Hx| |exact HG].
  cbn [In] in Hin. repeat destruct Hin as [<-|Hin]; [.. | destruct Hin]; destruct blog.
  all: capmust.
Qed.
Lemma cell_marks : forall raw x v, In x (finditer cell_re raw) -> group G_head x = Some v -> infix ($ "=") raw.
Proof.
  intros raw x v Hx HG. eapply infix_trans; [|eapply caps_infix; eauto].
  eapply (finditer_capsat G_head (infix ($ "="))); [exact Hx| |exact HG]. capmust.
Qed.

(** repeated characters *)
Lemma star_chars : forall g p s s', Mt (RStar g (RChr p)) s s' -> exists v, rest s = v ++ rest s' /\ forallb p v = true.
Proof.
  intros g p s s' H. remember (RStar g (RChr p)) as r eqn:Er. induction H; try discriminate.
  - exists []. split; reflexivity.
  - injection Er as -> ->. destruct (IHMt2 eq_refl) as (v & E & Hv).
    inversion H as [|q b d u cs Hd| | | | | | | | | | | |]; subst. cbn [rest] in *. exists (d :: v). rewrite E. cbn [forallb]. rewrite Hd. auto.
Qed.
Lemma plus_chars : forall g p s s' v, Mt (RPlus g (RChr p)) s s' -> rest s = v ++ rest s' -> v <> [] /\ forallb p v = true.
Proof.
  intros g p s s' v H E. apply seq_inv in H as (s1 & Ha & Hb). apply star_chars in Hb as (u & E2 & Hu).
  inversion Ha as [|q b d w cs Hd| | | | | | | | | | | |]; subst. cbn [rest] in *. rewrite E2 in E.
  change (d :: u ++ rest s') with ((d :: u) ++ rest s') in E. apply app_inv_tail in E. subst v.
  split; [discriminate|]. cbn [forallb]. rewrite Hd. exact Hu.
Qed.
Lemma head_level : forall blog raw x v, In x (finditer (block_re blog) raw) -> group G_head_head x = Some v ->
  v <> [] /\ v = repeat 61 (List.length v).
Proof.
  intros blog raw x v Hx HG.
  assert (HQ : v <> [] /\ forallb (N.eqb 61) v = true).
  { eapply (finditer_capsat G_head_head (fun v => v <> [] /\ forallb (N.eqb 61) v = true)); [exact Hx| |exact HG].
    destruct blog; cbn -[lit RPlus]; repeat split; try exact I; try (eapply plus_chars; eassumption). }
  destruct HQ as [H1 H2]. split; [exact H1|]. clear - H2. induction v as [|c v IH]; [reflexivity|].
  cbn [forallb] in H2. apply andb_true_iff in H2 as [Hc Hv]. apply N.eqb_eq in Hc. subst c.
  cbn [List.length repeat]. rewrite <- (IH Hv). reflexivity.
Qed.
Lemma item_bullets : forall raw x v, In x (finditer item_re raw) -> group G_item_head x = Some v -> forallb is_bullet v = true.
Proof.
  intros raw x v Hx HG.
  eapply (finditer_capsat G_item_head (fun v => forallb is_bullet v = true)); [exact Hx| |exact HG].
  cbn -[lit RPlus is_bullet]; repeat split; try exact I; try (eapply plus_chars; eassumption).
Qed.
Lemma url_parts : forall raw x v, In x (finditer inline_re raw) -> group G_url_target x = Some v ->
  exists p r, In p protocols /\ v = p ++ $ "://" ++ r.
Proof.
  intros raw x v Hx HG.
  eapply (finditer_capsat G_url_target (fun v => exists p r, In p protocols /\ v = p ++ $ "://" ++ r)); [exact Hx| |exact HG].
  cbn -[lit RPlus proto protocols]; repeat split; try exact I. intros s s' w H E.
  apply seq_inv in H as (s1 & H1 & H). apply seq_inv in H as (s2 & H2 & H3).
  apply grp_inv in H1 as (s0 & H1 & E1). apply Mt_alts in H1 as (r & Hr & H1).
  apply in_map_iff in Hr as (p & <- & Hp). apply Mt_lit in H1. apply Mt_lit in H2.
  destruct (Mt_ext _ _ _ H3) as (u & cs & A & _). exists p, u. split; [exact Hp|].
  rewrite <- E1, H2, A in H1. rewrite H1 in E. rewrite !app_assoc in E. apply app_inv_tail in E. subst w.
  symmetry. exact (app_assoc p ($ "://") u).
Qed.

(** ** The nodes of a document *)
Section Marks.
Variable t : str.
Hypothesis no_macro : ~ infix ($ "<<") t.

Definition hdr_ok (h : hdr) : Prop :=
  match hk h with
  | KStrong => infix ($ "**") t
  | KEmphasis => infix ($ "//") t
  | KMonospace => infix ($ "##") t
  | KUnderline => infix ($ "__") t
  | KSuperscript => infix ($ "^^") t
  | KSubscript => infix ($ ",,") t
  | KSmall => infix ($ "--") t
  | KDelete => infix ($ "~~") t
  | KImage => infix ($ "{{") t /\ forall w, hcontent h = Some w -> In 60 w -> infix [60] t
  | KPreInline | KPreBlock => infix ($ "{{{") t
  | KSeparator => infix ($ "----") t
  | KBulletList => infix ($ "*") t
  | KNumberList => infix ($ "#") t
  | KListItem => infix ($ "*") t \/ infix ($ "#") t
  | KTable | KTableRow | KTableCell => infix ($ "|") t
  | KTableHead => infix ($ "|") t /\ infix ($ "=") t
  | KHeader => (1 <= hlevel h)%nat /\ infix (repeat 61 (hlevel h)) t
  | KLink => infix ($ "[[") t \/
             exists p r, In p protocols /\ infix (p ++ $ "://") t /\ hcontent h = Some (p ++ $ "://" ++ r)
  | KMacroInline | KMacroBlock => False
  | KDocument | KText | KParagraph | KBreak | KLine => True
  end.
Definition nd_ok (n : node) : Prop := match n with Nd h _ => hdr_ok h end.
Definition frames_ok (k : list frame) : Prop :=
  Forall (fun fr : frame => hdr_ok (fst fr) /\ Forall (everywhere nd_ok) (snd fr)) k.
Definition J (s : ps) : Prop := frames_ok (stk s) /\ used s = [].
(** a piece of the text *)
Definition fr (w : str) : Prop := forall m, m <> [] -> ~ In 32 m -> infix m w -> infix m t.
Lemma fr_infix : forall v w, infix v w -> fr w -> fr v.
Proof. intros v w H Hw m H1 H2 H3. apply Hw; auto. eapply infix_trans; eauto. Qed.
Lemma fr_space : forall w, fr w -> fr (32 :: w).
Proof.
  intros w H m H1 H2 (a & b & E). apply H; auto. destruct a as [|x a].
  - exfalso. destruct m as [|y m]; [congruence|]. injection E as E _. apply H2. left. auto.
  - injection E as _ E. exists a, b. exact E.
Qed.

Lemma J_raise : forall s, J s -> J (raise_ s).
Proof. intros s H. exact H. Qed.
Lemma J_settxt : forall b s, J s -> J (set_txt b s).
Proof. intros b s H. exact H. Qed.
Lemma J_append : forall n s, everywhere nd_ok n -> J s -> J (append_child n s).
Proof.
  intros n s Hn [H HU]. split; [|rewrite used_append; exact HU]. unfold append_child.
  destruct (stk s) as [|[h ch] up] eqn:E; [cbn [raise_ stk]; rewrite E; exact H|].
  cbn [stk set_stk]. inversion H as [|? ? [H1 H2] H3]; subst. constructor; [|exact H3]. split; [exact H1|].
  cbn [snd] in *. constructor; assumption.
Qed.
Lemma J_open : forall h s, hdr_ok h -> J s -> J (open_ h s).
Proof. intros h s Hh [H HU]. split; [|exact HU]. constructor; [|exact H]. split; [exact Hh | constructor]. Qed.
Lemma close_ok : forall h ch, hdr_ok h -> Forall (everywhere nd_ok) ch -> everywhere nd_ok (Nd h (rev ch)).
Proof. intros h ch Hh Hc. apply everywhere_intro; [exact Hh|]. apply Forall_rev. exact Hc. Qed.
Lemma F_pop1 : forall k, frames_ok k -> frames_ok (pop1 k).
Proof.
  intros k H. destruct k as [|[h ch] [|[h' ch'] up]]; try exact H. cbn [pop1].
  inversion H as [|? ? [H1 H2] H3]; subst. inversion H3 as [|? ? [H4 H5] H6]; subst.
  constructor; [|exact H6]. split; [exact H4|]. cbn [fst snd] in *. constructor; [|exact H5].
  apply close_ok; assumption.
Qed.
Lemma F_pop_n : forall n k, frames_ok k -> frames_ok (pop_n n k).
Proof. induction n; intros k H; [exact H|]. simpl. apply IHn, F_pop1, H. Qed.
Lemma J_pop_to : forall d s, J s -> J (pop_to d s).
Proof. intros d s [H HU]. split; [|exact HU]. apply F_pop_n. exact H. Qed.
Lemma J_set_stk : forall k s, frames_ok k -> J s -> J (set_stk k s).
Proof. intros k s H [_ HU]. split; assumption. Qed.
Lemma F_upto_loop : forall kinds up h ch, frames_ok ((h, ch) :: up) -> frames_ok (upto_loop kinds h ch up).
Proof.
  induction up as [|[h' ch'] up IH]; intros h ch H; [exact H|]. cbn [upto_loop].
  destruct (kind_in (hk h) kinds); [exact H|]. apply IH. apply (F_pop1 _ H).
Qed.
Lemma J_cleanup : forall s, J s -> J (cleanup_break s).
Proof.
  intros s [H HU]. split; [|rewrite used_cleanup; exact HU]. unfold cleanup_break.
  destruct (stk s) as [|[h [|n ch]] up] eqn:E; try (rewrite E; exact H).
  destruct (kind_beq (nkind n) KBreak); [|rewrite E; exact H]. cbn [stk set_stk].
  inversion H as [|? ? [H1 H2] H3]; subst. constructor; [|exact H3]. split; [exact H1|]. inversion H2; assumption.
Qed.
Lemma J_upto : forall kinds s, J s -> J (upto kinds s).
Proof.
  intros kinds s H. unfold upto. apply J_cleanup in H. set (s' := cleanup_break s) in *. clearbody s'.
  destruct (stk s') as [|[h ch] up] eqn:E; [exact H|]. apply J_set_stk; [|exact H]. apply F_upto_loop.
  destruct H as [H _]. rewrite E in H. exact H.
Qed.
Lemma leaf_ok : forall k c, hdr_ok (mkn k c) -> everywhere nd_ok (Nd (mkn k c) []).
Proof. intros k c Hk. apply everywhere_intro; [exact Hk | constructor]. Qed.
Lemma pair_ok : forall k c d, hdr_ok (mkn k c) -> everywhere nd_ok (Nd (mkn k c) [Nd (mkn KText d) []]).
Proof. intros k c d Hk. apply everywhere_intro; [exact Hk|]. constructor; [|constructor]. apply leaf_ok. exact I. Qed.
Lemma fr_char : forall w c, fr w -> c <> 32 -> In c w -> infix [c] t.
Proof.
  intros w c H Hc Hin. apply H; [discriminate | intros [E|[]]; congruence|].
  apply in_split in Hin as (a & b & ->). exists a, b. reflexivity.
Qed.
Lemma J_add_text : forall w s, fr w -> J s -> J (add_text w s).
Proof.
  intros w s Hw H. unfold add_text. destruct (txt s); [|apply J_settxt, J_append; [apply leaf_ok; exact I | exact H]].
  destruct H as [H HU].
  destruct (stk s) as [|[h [|[th tch] ch]] up] eqn:E; try (split; [cbn [raise_ stk]; rewrite E; exact H | exact HU]).
  destruct (hcontent th) eqn:Et; [|split; [cbn [raise_ stk]; rewrite E; exact H | exact HU]].
  split; [|exact HU]. cbn [stk set_stk].
  inversion H as [|? ? [H1 H2] H3]; subst. constructor; [|exact H3]. split; [exact H1|]. cbn [snd] in *.
  inversion H2 as [|? ? H4 H5]; subst. constructor; [|exact H5].
  apply everywhere_intro; [|apply everywhere_kids in H4; exact H4]. apply everywhere_here in H4.
  unfold nd_ok, hdr_ok in *. cbn [hk hlevel hcontent]. destruct (hk th); try exact H4.
  2:{ destruct H4 as [H4 H6]. split; [exact H4|]. intros v Ev. injection Ev as <-. intro Hin. apply in_app_iff in Hin as [Hin|Hin].
      - apply (H6 _ Et Hin).
      - exact (fr_char _ 60 Hw ltac:(discriminate) Hin). }
  destruct H4 as [H4|(p & r & A & B & C)]; [left; exact H4|]. right. exists p, (r ++ w). repeat split; auto.
  rewrite Et in C. injection C as ->. rewrite <- !app_assoc. reflexivity.
Qed.
Lemma J_need : forall g x s f, J s -> (forall v, group g x = Some v -> J (f v)) -> J (need g x s f).
Proof. intros g x s f H Hf. unfold need. destruct (group g x); auto. Qed.
Lemma J_if : forall (b : bool) s1 s2, J s1 -> J s2 -> J (if b then s1 else s2).
Proof. intros [] s1 s2 H1 H2; assumption. Qed.

Lemma J_image : forall x s, (forall g v, group g x = Some v -> fr v) -> infix ($ "{{") t -> J s -> J (image_repl x s).
Proof.
  intros x s Hf Hi H. unfold image_repl. apply J_need; [exact H|]. intros v Ev. apply J_settxt, J_append; [|exact H]. apply pair_ok.
  split; [exact Hi|]. intros w Ew. injection Ew as <-. apply fr_char; [|discriminate].
  eapply fr_infix; [apply strip_by_infix | eapply Hf; eauto].
Qed.
Lemma J_linebreak : forall s, J s -> J (linebreak_repl s).
Proof. intros s H. apply J_settxt, J_append; [|exact H]. apply leaf_ok. exact I. Qed.
Lemma J_char : forall x s, (forall g v, group g x = Some v -> fr v) -> J s -> J (char_repl x s).
Proof. intros x s Hf H. unfold char_repl. apply J_need; [exact H|]. intros v Ev. apply J_add_text; eauto. Qed.
Lemma J_link : forall raw x s, In x (finditer inline_re raw) -> fr raw -> infix ($ "[[") t -> J s -> J (link_repl x s).
Proof.
  intros raw x s Hx Hr Hm H. unfold link_repl. apply J_need; [exact H|]. intros v _. apply J_settxt, J_pop_to.
  apply fold_inv; [|apply J_settxt, J_open; [left; exact Hm | exact H]].
  intros s0 y Hy H0. unfold replace_. destruct (perr s0); [exact H0|].
  assert (Hf : fr (strip (group0 G_link_text x))).
  { eapply fr_infix; [apply strip_by_infix|]. unfold group0. destruct (group G_link_text x) eqn:E.
    - eapply fr_infix; [exact (caps_infix _ _ _ _ _ Hx E) | exact Hr].
    - intros m H1 _ (a & b & E2). destruct a, m; discriminate || congruence. }
  assert (Hfy : forall g v, group g y = Some v -> fr v) by (intros g u E; eapply fr_infix; [exact (caps_infix _ _ _ _ _ Hy E) | exact Hf]).
  destruct (link_dispatch _ _ Hy) as [[E _]|[E|[E _]]]; rewrite E; cbn [link_text_handler].
  - apply J_image; [exact Hfy| |exact H0]. apply Hf; [discriminate | cbn; intuition discriminate | eapply link_marks; eauto].
  - apply J_linebreak, H0.
  - apply J_char; assumption.
Qed.
Lemma J_mark : forall pi k gt x s, (forall w s, group gt x = Some w -> J s -> J (pi w s)) -> hdr_ok (mkn k None) ->
  J s -> J (inline_mark pi k gt x s).
Proof.
  intros pi k gt x s Hpi Hk H. unfold inline_mark.
  assert (H1 : J (set_txt false (open_ (mkn k None) s))) by (apply J_settxt, J_open; auto).
  apply J_need; [exact H1|]. intros v Ev. apply J_settxt.
  assert (H2 : J (upto [k] (pi v (set_txt false (open_ (mkn k None) s))))) by (apply J_upto, Hpi; assumption).
  apply J_set_stk; [|exact H2]. apply F_pop1, H2.
Qed.

Lemma J_inline_f : forall fuel raw s, fr raw -> J s -> J (parse_inline_f fuel raw s).
Proof.
  induction fuel; intros raw s Hr H; [exact H|].
  change (parse_inline_f (S fuel) raw s) with
    (fold_left (replace_ inline_groups (inline_handler (parse_inline_f fuel))) (finditer inline_re raw) s).
  revert s H. apply fold_inv. intros s x Hx H. unfold replace_. destruct (perr s); [exact H|].
  destruct (inline_dispatch _ _ Hx) as (g & Eg & Hc). rewrite Eg.
  assert (HM := inline_marks _ _ _ Hx Eg).
  assert (HI : forall m, infix m raw -> m <> [] -> ~ In 32 m -> infix m t) by (intros; apply Hr; auto).
  assert (Hcap : forall g v, group g x = Some v -> fr v) by (intros g0 v E; eapply fr_infix; [exact (caps_infix _ _ _ _ _ Hx E) | exact Hr]).
  destruct Hc as [v Ev|v Ev|n a w En Ea Et|n a En Ea|v Ev|v Ev|g k gt v Em Ev| |v Ev|v Ev].
  - cbn [inline_handler]. eapply J_link; eauto. apply HI; [apply HM; cbn; tauto | discriminate | cbn; intuition discriminate].
  - cbn [inline_handler]. unfold url_repl. apply J_need; [exact H|]. intros u Eu. destruct (truthy _); [apply J_add_text; eauto|].
    apply J_settxt, J_append; [|exact H]. apply pair_ok. right. destruct (url_parts _ _ _ Hx Eu) as (p & r & Hp & ->).
    exists p, r. split; [exact Hp|]. split; [|reflexivity]. apply HI.
    + eapply infix_trans; [|exact (caps_infix _ _ _ _ _ Hx Eu)]. exists [], r. exact (app_assoc p ($ "://") r).
    + destruct p; discriminate.
    + clear - Hp. cbn [In protocols] in Hp. repeat destruct Hp as [<-|Hp]; [.. | destruct Hp]; cbn; intuition discriminate.
  - exfalso. apply no_macro. apply HI; [apply HM; cbn; tauto | discriminate | cbn; intuition discriminate].
  - exfalso. apply no_macro. apply HI; [apply HM; cbn; tauto | discriminate | cbn; intuition discriminate].
  - cbn [inline_handler]. unfold pre_inline_repl. apply J_need; [exact H|]. intros u _. apply J_settxt, J_append; [|exact H]. apply leaf_ok.
    apply HI; [apply HM; cbn; tauto | discriminate | cbn; intuition discriminate].
  - cbn [inline_handler]. apply J_image; [exact Hcap| |exact H]. apply HI; [apply HM; cbn; tauto | discriminate | cbn; intuition discriminate].
  - rewrite (mark_handler _ _ _ _ _ _ Em). apply J_mark; [| |exact H].
    + intros w s1 Ew H1. apply IHfuel; [|exact H1]. eapply fr_infix; [eapply caps_infix; eauto | exact Hr].
    + destruct g; try discriminate; injection Em as <- <-;
        (apply HI; [apply HM; cbn; tauto | discriminate | cbn; intuition discriminate]).
  - apply J_linebreak, H.
  - cbn [inline_handler]. unfold escape_repl. apply J_need; [exact H|]. intros u Eu. apply J_add_text; eauto.
  - apply J_char; assumption.
Qed.
Lemma J_inline : forall raw s, fr raw -> J s -> J (parse_inline raw s).
Proof. intros. apply J_inline_f; assumption. Qed.

Lemma J_item : forall l x s, In x (finditer item_re l) -> fr l -> J s -> J (item_repl x s).
Proof.
  intros l x s Hx Hl H. unfold item_repl. apply J_need; [exact H|]. intros b Eb. apply J_need; [exact H|]. intros w Ew.
  destruct (rev b) as [|b0 br] eqn:Er; [apply J_raise; exact H|].
  assert (Hb0 : infix [b0] t /\ is_bullet b0 = true).
  { assert (E2 : b = rev br ++ [b0]) by (rewrite <- (rev_involutive b), Er; reflexivity).
    assert (HB := item_bullets _ _ _ Hx Eb). rewrite E2, forallb_app in HB. apply andb_true_iff in HB as [_ HB].
    cbn [forallb] in HB. rewrite andb_true_r in HB. split; [|exact HB].
    apply Hl; [discriminate | | eapply infix_trans; [|exact (caps_infix _ _ _ _ _ Hx Eb)]; exists (rev br), []; exact E2].
    intros [E3|[]]. rewrite E3 in HB. discriminate. }
  destruct Hb0 as [Hb0 Hb1].
  assert (Hli : infix ($ "*") t \/ infix ($ "#") t).
  { unfold is_bullet in Hb1. apply orb_true_iff in Hb1 as [E|E]; apply N.eqb_eq in E; subst b0; auto. }
  apply J_settxt, J_inline; [eapply fr_infix; [exact (caps_infix _ _ _ _ _ Hx Ew) | exact Hl]|].
  apply J_open; [exact Hli|].
  assert (HF : J (open_ (mkl (if b0 =? 35 then KNumberList else KBulletList) None (List.length b - 1))
                        (upto [KListItem; KDocument] s))).
  { apply J_open; [|apply J_upto; exact H]. destruct (b0 =? 35) eqn:E.
    - apply N.eqb_eq in E. subst b0. exact Hb0.
    - unfold is_bullet in Hb1. rewrite E, orb_false_r in Hb1. apply N.eqb_eq in Hb1. subst b0. exact Hb0. }
  destruct (find_list _ 0 (stk s)) as [[n h]|]; [|exact HF].
  destruct (kind_beq _ _); [|exact HF]. apply J_set_stk; [|exact H]. apply F_pop_n, H.
Qed.

Lemma J_cell : forall row d x s, In x (finditer cell_re row) -> fr row -> infix ($ "|") t -> J s -> J (cell_step d s x).
Proof.
  intros row d x s Hx Hl Hb H. unfold cell_step. destruct (perr s); [exact H|]. cbn zeta.
  assert (HQ := J_pop_to d s H).
  destruct (truthy (group0 G_cell x)) eqn:E.
  - apply J_inline; [|apply J_settxt, J_open; [exact Hb | exact HQ]]. eapply fr_infix; [apply strip_by_infix|].
    unfold group0 in *. destruct (group G_cell x) eqn:EG; [|discriminate].
    eapply fr_infix; [eapply caps_infix; eauto | exact Hl].
  - apply J_need; [exact HQ|]. intros v Ev.
    apply J_inline.
    + eapply fr_infix; [apply strip_by_infix|]. eapply fr_infix; [eapply caps_infix; eauto | exact Hl].
    + apply J_settxt, J_append; [apply leaf_ok; exact I|]. apply J_open; [|exact HQ]. split; [exact Hb|].
      apply Hl; [discriminate | cbn; intuition discriminate | eapply cell_marks; eauto].
Qed.

Lemma J_block : forall blog raw x s, In x (finditer (block_re blog) raw) -> fr raw -> J s ->
  J (replace_ (block_groups blog) block_handler s x).
Proof.
  intros blog raw x s Hx Hr H. unfold replace_. destruct (perr s); [exact H|].
  destruct (block_dispatch _ _ _ Hx) as (g & Eg & Hc). rewrite Eg.
  assert (HM := block_marks _ _ _ _ Hx Eg).
  assert (HI : forall m, infix m raw -> m <> [] -> ~ In 32 m -> infix m t) by (intros; apply Hr; auto).
  assert (Hcap : forall g v, group g x = Some v -> fr v) by (intros g0 v E; eapply fr_infix; [eapply caps_infix; eauto | exact Hr]).
  assert (HU := J_upto [KDocument] s H).
  destruct Hc as [n a w En Ea Et| |w h Et Eh Hne| |w Et|l El|w Et|w g Et Hg]; cbn [block_handler].
  - exfalso. apply no_macro. apply HI; [apply HM; cbn; tauto | discriminate | cbn; intuition discriminate].
  - apply J_append; [apply leaf_ok; exact I | exact HU].
  - unfold head_repl. apply J_need; [exact HU|]. intros u _. apply J_need; [exact HU|]. intros v Ev.
    apply J_settxt, J_append; [|exact HU]. apply everywhere_intro; [|constructor].
    destruct (head_level _ _ _ _ Hx Ev) as [H1 H2]. split; cbn [hlevel mkl].
    + destruct v; [congruence | cbn [List.length]; lia].
    + rewrite <- H2. apply HI; [eapply caps_infix; eauto | exact H1|]. rewrite H2. intro K. apply repeat_spec in K. discriminate.
  - apply J_append; [|exact HU]. apply leaf_ok. apply HI; [apply HM; cbn; tauto | discriminate | cbn; intuition discriminate].
  - unfold pre_block_repl. apply J_need; [exact HU|]. intros u _. apply J_settxt, J_append; [|exact HU]. apply leaf_ok.
    apply HI; [apply HM; cbn; tauto | discriminate | cbn; intuition discriminate].
  - unfold list_repl. apply J_need; [exact H|]. intros u Eu. clear HU. revert s H.
    apply fold_inv. intros s y Hy H. unfold replace_. destruct (perr s); [exact H|].
    destruct (item_dispatch _ _ Hy) as (-> & _). cbn [item_handler]. eapply J_item; eauto.
  - assert (Hb : infix ($ "|") t) by (apply HI; [apply HM; cbn; tauto | discriminate | cbn; intuition discriminate]).
    unfold table_repl. apply J_need; [exact H|]. intros u Eu. apply J_settxt, J_pop_to.
    apply fold_inv.
    + intros s0 y Hy H0. eapply J_cell; eauto. eapply fr_infix; [apply strip_by_infix | eauto].
    + apply J_open; [exact Hb|]. apply J_if; [|apply J_open; [exact Hb|]]; apply J_upto; exact H.
  - assert (J (text_repl x s)) as HT; [|destruct Hg as [->| ->]; exact HT].
    unfold text_repl.
    assert (H1 : J (if kind_in (cur_kind s) [KTable; KTableRow; KBulletList; KNumberList] then upto_block s else s))
      by (apply J_if; assumption).
    set (s1 := if kind_in (cur_kind s) _ then _ else _) in *. clearbody s1.
    assert (H2 : J (if kind_in (cur_kind s1) [KDocument] then open_ (mkn KParagraph None) s1 else s1))
      by (apply J_if; [apply J_open; [exact I | exact H1] | exact H1]).
    set (s2 := if kind_in (cur_kind s1) _ then _ else _) in *. clearbody s2.
    apply J_need; [exact H2|]. intros v Ev. apply J_settxt, J_if; [apply J_append; [apply leaf_ok; exact I|]|];
      (apply J_inline; [|exact H2]); destruct (_ && _); try apply fr_space; eauto.
Qed.

Lemma J_parse : forall blog n u,
  finish (parse_block blog t init_ps) = Some (n, u) -> everywhere nd_ok n /\ u = [].
Proof.
  intros blog n u H.
  assert (HJ : J (parse_block blog t init_ps)).
  { unfold parse_block. apply fold_inv.
    - intros s x Hx H0. eapply J_block; eauto. intros m _ _ Hm. exact Hm.
    - split; [|reflexivity]. constructor; [|constructor]. split; [exact I | constructor]. }
  unfold finish in H. destruct (perr _); [discriminate|].
  destruct HJ as [HF HU]. assert (HP := J_pop_to 1 _ (conj HF HU)). destruct HP as [HP _].
  destruct (stk (pop_to 1 (parse_block blog t init_ps))) as [|[h ch] [|? ?]]; try discriminate. inversion H; subst.
  inversion HP as [|? ? [H1 H2] H3]; subst. split; [apply close_ok; assumption | exact HU].
Qed.
End Marks.

(** the marks survive the change of line ends *)
Lemma hdr_ok_mono : forall t u h, (forall m, m <> [] -> (forall c, In c m -> c <> 13 /\ c <> 10) -> infix m t -> infix m u) ->
  hdr_ok t h -> hdr_ok u h.
Proof.
  intros t u h H. assert (HL : forall m, m <> [] -> forallb (fun c => negb (c =? 13) && negb (c =? 10)) m = true -> infix m t -> infix m u).
  { intros m H1 H2. apply H; [exact H1|]. intros c Hc. rewrite forallb_forall in H2. apply H2, andb_true_iff in Hc as [A B].
    apply negb_true_iff, N.eqb_neq in A, B. auto. }
  unfold hdr_ok. destruct (hk h); try (apply HL; [discriminate | reflexivity]); try (intro K; exact K).
  all: try (intros [A B]; split; (apply HL; [discriminate | reflexivity | assumption]) || idtac).
  all: try (intros [A|A]; [left|right]; apply HL; try discriminate; try reflexivity; exact A).
  - exact A.
  - apply H; [|intros c Hc; apply repeat_spec in Hc; subst c; split; discriminate | exact B]. destruct (hlevel h); [lia | discriminate].
  - intros [A|(p & r & A & B & C)]; [left; apply HL; [discriminate | reflexivity | exact A]|]. right. exists p, r.
    split; [exact A|]. split; [|exact C]. apply HL; [destruct p; discriminate | | exact B].
    clear - A. cbn [In protocols] in A. repeat destruct A as [<-|A]; [.. | destruct A]; reflexivity.
  - intros w E Hin. apply HL; [discriminate | reflexivity|]. eauto.
Qed.

(** ** The emitted text *)
Section Emitted.
Variable s : str.
Notation good := (tags_from s).
Lemma good_none : forall x, ~ In 60 x -> good x.
Proof. intros x H a b E. exfalso. apply H. rewrite E. apply in_app_iff. right. left. reflexivity. Qed.
Lemma good_app : forall x y, good x -> good y -> good (x ++ y).
Proof.
  intros x. induction x as [|c x IH]; intros y Hx Hy; [exact Hy|]. intros a b E. destruct a as [|d a].
  - injection E as -> E. destruct (Hx [] x eq_refl) as (t & u & Ht & Eu). exists t, (u ++ y). split; [exact Ht|].
    rewrite <- E, Eu, app_assoc. reflexivity.
  - injection E as _ E. refine (IH y _ Hy a b E). intros a' b' E'. apply (Hx (c :: a')). rewrite E'. reflexivity.
Qed.
Lemma good_tag : forall t u, may_follow s t -> ~ In 60 (t ++ u) -> good (60 :: t ++ u).
Proof.
  intros t u Ht Hn a b E. destruct a as [|c a].
  - injection E as E. exists t, u. rewrite <- E. auto.
  - exfalso. apply Hn. injection E as _ E. rewrite E. apply in_app_iff. right. left. reflexivity.
Qed.
Lemma good_tag0 : forall t, may_follow s t -> ~ In 60 t -> good (60 :: t).
Proof. intros t Ht Hn. rewrite <- (app_nil_r t). apply good_tag; [exact Ht | rewrite app_nil_r; exact Hn]. Qed.
Lemma good_strip : forall x, (forall t, may_follow s t -> exists u c, t = u ++ [c] /\ is_space c = false) -> good x -> good (strip x).
Proof.
  intros x HL H. unfold strip. destruct (strip_split is_space x) as (l & r & E & _ & Hr). set (y := strip_by is_space x) in *. clearbody y.
  intros a b Ey. destruct (H (l ++ a) (b ++ r)) as (t & u & Ht & Eb).
  { rewrite E, Ey, <- !app_assoc. reflexivity. }
  assert (K : exists v, b = t ++ v \/ (t = b ++ v /\ v <> [] /\ r = v ++ u)).
  { clear - Eb. revert t Eb. induction b as [|c b IH]; intros t Eb.
    - destruct t as [|d t]; [exists []; left; reflexivity|]. exists (d :: t). right. repeat split; [discriminate | exact Eb].
    - destruct t as [|d t]; [exists (c :: b); left; reflexivity|]. injection Eb as -> Eb. destruct (IH t Eb) as (v & [->|(-> & Hv & ->)]).
      + exists v. left. reflexivity.
      + exists v. right. repeat split; assumption. }
  destruct K as (v & [K|(K & Hv & Er)]); [exists t, v; auto|]. exfalso.
  destruct (HL t Ht) as (w & c & Et & Hc). assert (In c v).
  { destruct (exists_last Hv) as (v' & d & ->). rewrite K, app_assoc in Et. apply app_inj_tail in Et as [_ ->].
    apply in_app_iff. right. left. reflexivity. }
  rewrite Er, forallb_app in Hr. apply andb_true_iff in Hr as [Hr _]. rewrite forallb_forall in Hr. rewrite (Hr c) in Hc by assumption. discriminate.
Qed.
Lemma follow_last : forall t, may_follow s t -> exists u c, t = u ++ [c] /\ is_space c = false.
Proof.
  assert (HB : forall t, negb (is_space (last t 32)) = true -> exists u c, t = u ++ [c] /\ is_space c = false).
  { intros t H. destruct t as [|d t]; [discriminate|]. exists (removelast (d :: t)), (last (d :: t) 32).
    split; [apply app_removelast_last; discriminate | apply negb_true_iff, H]. }
  assert (HA : forall l t, forallb (fun t => negb (is_space (last t 32))) l = true -> In t l -> exists u c, t = u ++ [c] /\ is_space c = false).
  { intros l t H Hin. rewrite forallb_forall in H. apply HB, H, Hin. }
  intros t H. destruct H as [t H|m l t H _ Hin|n _ _|n _ _|t _ _ H|p H _|p H _].
  - revert H. apply HA. reflexivity.
  - revert Hin. apply HA. clear - H. cbn [In marked_tags] in H. repeat destruct H as [H|H]; [.. | destruct H]; injection H as <- <-; reflexivity.
  - exists ($ "h" ++ show_nat n), 62. split; [rewrite <- app_assoc; reflexivity | reflexivity].
  - exists ($ "/h" ++ show_nat n), 62. split; [rewrite <- app_assoc; reflexivity | reflexivity].
  - apply HB. destruct H as [->| ->]; reflexivity.
  - exists ($ "a href=""" ++ p ++ $ ":/"), 47. split; [rewrite <- !app_assoc; reflexivity | reflexivity].
  - apply HB. reflexivity.
Qed.

Ltac no60 := cbn; intuition discriminate.
Lemma by_table : forall m t, existsb (fun ml => str_eqb (fst ml) m && existsb (str_eqb t) (snd ml)) marked_tags = true ->
  occurs m s -> may_follow s t.
Proof.
  intros m t H Ho. apply existsb_exists in H as ([m' l] & Hin & H). apply andb_true_iff in H as [H1 H2]. cbn [fst snd] in *.
  apply str_eqb_eq in H1. subst m'. apply existsb_exists in H2 as (t' & Ht & H2). apply str_eqb_eq in H2. subst t'.
  exact (mf_mark s m l t Hin Ho Ht).
Qed.
Ltac by_mark m := apply (by_table m); [reflexivity | assumption].
Lemma good_el : forall t x, may_follow s (t ++ $ ">") -> may_follow s ($ "/" ++ t ++ $ ">") -> ~ In 60 t -> good x -> good (tag t x).
Proof.
  intros t x H1 H2 Hn Hx. unfold tag. assert (Hn2 : ~ In 60 (t ++ $ ">")) by (rewrite in_app_iff; cbn; intuition discriminate).
  change ($ "<" ++ t ++ $ ">" ++ x ++ $ "</" ++ t ++ $ ">") with (60 :: t ++ ($ ">" ++ x ++ $ "</" ++ t ++ $ ">")).
  replace (60 :: t ++ ($ ">" ++ x ++ $ "</" ++ t ++ $ ">")) with ((60 :: t ++ $ ">") ++ x ++ (60 :: $ "/" ++ t ++ $ ">"))
    by (cbn [app]; rewrite <- !app_assoc; reflexivity).
  apply good_app; [apply good_tag0; assumption|]. apply good_app; [exact Hx|]. apply good_tag0; [exact H2|].
  intros [K|K]; [discriminate | exact (Hn2 K)].
Qed.

Lemma good_list : forall par h t x, may_follow s (t ++ $ ">") -> may_follow s ($ "/" ++ t ++ $ ">") -> ~ In 60 t -> good x ->
  good (list_emit par h t x).
Proof.
  intros par h t x H1 H2 Hn Hx. unfold list_emit.
  assert (HR : ~ In 60 (repeat 9 (hlevel h))) by (intro K; apply repeat_spec in K; discriminate).
  apply good_app; [destruct (kind_beq _ _); apply good_none; no60|].
  destruct (kind_beq (hk h) KListItem).
  - apply good_app; [apply good_none, HR | apply good_el; assumption].
  - apply good_app; [apply good_none, HR|].
    assert (Hn2 : ~ In 60 (t ++ $ ">")) by (rewrite in_app_iff; cbn; intuition discriminate).
    replace ($ "<" ++ t ++ $ ">" ++ x ++ [10] ++ repeat 9 (hlevel h) ++ $ "</" ++ t ++ $ ">")
      with ((60 :: t ++ $ ">") ++ x ++ ([10] ++ repeat 9 (hlevel h)) ++ (60 :: $ "/" ++ t ++ $ ">"))
      by (cbn [app]; rewrite <- !app_assoc; reflexivity).
    apply good_app; [apply good_tag0; assumption|]. apply good_app; [exact Hx|].
    apply good_app; [apply good_none; intros [K|K]; [discriminate | exact (HR K)]|].
    apply good_tag0; [exact H2|]. intros [K|K]; [discriminate | exact (Hn2 K)].
Qed.
Lemma attr_lt : forall t, ~ In 60 (attr_escape t).
Proof. exact attr_text_lt. Qed.
Lemma attr_proto : forall p r, In p protocols -> attr_escape (p ++ $ "://" ++ r) = p ++ $ "://" ++ attr_escape r.
Proof.
  intros p r Hp. unfold attr_escape. rewrite !replace_single, !escape_esc. unfold esc. rewrite !flat_map_app.
  cbn [In protocols] in Hp. repeat destruct Hp as [<-|Hp]; [.. | destruct Hp]; reflexivity.
Qed.
Lemma good_image : forall c t h ch, occurs ($ "{{") s -> (strict c = true \/ ~ In 60 t) -> good (image_emit c t h ch).
Proof.
  intros c t h ch Hm Hs. assert (HF : may_follow s ($ "img src=""")) by by_mark ($ "{{"). unfold image_emit.
  assert (HA := attr_lt t). assert (HB := attr_lt (get_text h ch)). set (w := attr_escape (get_text h ch)) in *. clearbody w.
  remember (image_sized t w) as IS eqn:EI. unfold image_sized in EI. set (A := attr_escape t) in *. clearbody A.
  assert (HP : good ($ "<img src=""" ++ A ++ $ """ title=""" ++ w ++ $ """ alt=""" ++ w ++ $ """ />")).
  { apply (good_tag ($ "img src=""")); [exact HF|]. rewrite !in_app_iff. cbn. intuition discriminate. }
  destruct (if strict c then None else IS) as [r|] eqn:E; [|exact HP].
  destruct (strict c); [discriminate|]. destruct Hs as [Hs|Hs]; [discriminate|]. rewrite EI in E. clear IS EI.
  destruct (split1 124 w) as [[title size]|] eqn:E1; [|discriminate].
  destruct (split1 120 size) as [[ws hs]|]; [|discriminate].
  destruct (py_int (strip ws)) as [x|]; [|discriminate]. destruct (py_int (strip hs)) as [y|]; [|discriminate]. injection E as <-.
  apply split1_parts in E1. assert (HT : ~ In 60 (if truthy title then title else t)).
  { destruct (truthy title); [|exact Hs]. intro K. apply HB. rewrite E1. apply in_app_iff. left. exact K. }
  assert (HZ : forall z, ~ In 60 (show_Z z)) by (intros z K; apply show_Z_safe in K; intuition congruence).
  assert (HX := HZ x). assert (HY := HZ y). set (T := if truthy title then title else t) in *. assert (HT2 : ~ In 60 T) by exact HT. clearbody T.
  set (X := show_Z x) in *. set (Y := show_Z y) in *. clearbody X Y.
  apply (good_tag ($ "img src=""")); [exact HF|]. repeat (rewrite in_app_iff; cbn). intuition discriminate.
Qed.

Lemma ok_inj : forall (a b : str) (u v : est), (@Ok str a, u) = (Ok b, v) -> b = a.
Proof. intros a b u v H. injection H as H _. auto. Qed.
Lemma emit_good : forall c, use_toc c = false -> (strict c = true \/ ~ occurs ($ "{{") s \/ ~ occurs ($ "<") s) ->
  forall n, everywhere (nd_ok s) n -> forall par st x st', emit_node c par n st = (Ok x, st') -> good x.
Proof.
  intros c Hu Hi n. induction n as [h ch IH] using node_ind'. intros He par st x st' H.
  rewrite emit_node_eq in H. cbn zeta in H.
  assert (Hh := everywhere_here _ _ He). apply everywhere_kids in He. cbn [nd_ok] in Hh. unfold hdr_ok in Hh.
  assert (HC : forall st x st', emit_children c h ch st = (Ok x, st') -> good x).
  { clear - IH He. induction ch as [|n ch IHc]; intros st x st' E; cbn [emit_children] in E.
    - apply ok_inj in E; subst x. apply good_none. no60.
    - inversion IH as [|? ? H1 H2]; subst. inversion He as [|? ? H3 H4]; subst.
      destruct (emit_node c h n st) as [[a|e] s1] eqn:E1; [|discriminate].
      destruct (emit_children c h ch s1) as [[b|e] s2] eqn:E2; [|discriminate]. apply ok_inj in E; subst x.
      apply good_app; [exact (H1 H3 _ _ _ _ E1) | exact (IHc H2 H4 _ _ _ E2)]. }
  assert (HW : forall f, (forall a, good a -> good (f a)) -> wrap f (emit_children c h ch st) = (Ok x, st') -> good x).
  { intros f Hf E. unfold wrap in E. destruct (emit_children c h ch st) as [[a|e] s1] eqn:E1; [|discriminate].
    apply ok_inj in E; subst x. apply Hf. exact (HC _ _ _ E1). }
  assert (HO : forall t a u, may_follow s (t ++ $ ">") -> may_follow s ($ "/" ++ t ++ $ ">") -> ~ In 60 t -> ~ In 60 u -> good a ->
            good (60 :: (t ++ $ ">") ++ u ++ a ++ (60 :: $ "/" ++ t ++ $ ">") ++ [10])).
  { intros t a u H1 H2 H3 H4 H5. assert (Hn2 : ~ In 60 (t ++ $ ">")) by (rewrite in_app_iff; cbn; intuition discriminate).
    apply (good_app (60 :: t ++ $ ">")); [apply good_tag0; assumption|]. apply good_app; [apply good_none, H4|].
    apply good_app; [exact H5|]. apply good_app; [|apply good_none; no60]. apply good_tag0; [exact H2|].
    intros [K|K]; [discriminate | exact (Hn2 K)]. }
  destruct (hk h) eqn:Hk.
  - exact (HC _ _ _ H).
  - revert H; apply HW; intros a Ha; apply (HO ($ "p") a []); try no60; try exact Ha; apply mf_plain; cbn; tauto.
  - destruct (hcontent h); [|discriminate]. apply ok_inj in H; subst x. apply good_none, escape_lt.
  - apply ok_inj in H; subst x. assert (HB : forall w, ~ In 60 w -> good ($ "<br />" ++ w)).
    { intros w Hw. apply good_app; [|apply good_none, Hw]. apply good_tag0; [apply mf_plain; cbn; tauto | no60]. }
    unfold break_emit. destruct (hk par); apply HB; try no60. intros [K|K]; [discriminate|]. apply repeat_spec in K. discriminate.
  - apply ok_inj in H; subst x. apply good_none. no60.
  - apply ok_inj in H; subst x. apply good_app; [|apply good_none; no60]. apply good_tag0; [by_mark ($ "----") | no60].
  - destruct (hcontent h) as [t|]; [|discriminate]. unfold header_emit in H. rewrite Hu in H. apply ok_inj in H; subst x.
    destruct Hh as [H1 H2]. apply good_app; [|apply good_none; no60].
    assert (HD : ~ In 60 (show_nat (hlevel h))).
    { intro K. unfold show_nat in K. assert (KD := show_N_digits (N.of_nat (hlevel h))). rewrite forallb_forall in KD. apply KD in K. discriminate. }
    change (good (tag ($ "h" ++ show_nat (hlevel h)) (escape t))). apply good_el.
    + rewrite <- app_assoc. apply mf_head; assumption.
    + rewrite <- app_assoc. apply mf_head_end; assumption.
    + intros [K|K]; [discriminate | exact (HD K)].
    + apply good_none, escape_lt.
  - destruct (hcontent h) as [t|]; [|discriminate]. apply ok_inj in H; subst x.
    apply (HO ($ "pre") (escape t) []); [by_mark ($ "{{{") | by_mark ($ "{{{") | no60 | no60 | apply good_none, escape_lt].
  - destruct (hcontent h) as [t|]; [|discriminate]. apply ok_inj in H; subst x.
    apply (good_el ($ "code")); [by_mark ($ "{{{") | by_mark ($ "{{{") | no60 | apply good_none, escape_lt].
  - destruct (hcontent h) as [t|] eqn:Ec; [|discriminate].
    assert (HI : exists a, good a /\ x = $ "<a href=""" ++ attr_escape t ++ $ """>" ++ a ++ $ "</a>").
    { destruct ch as [|n0 ch0] eqn:Ech; [apply ok_inj in H; subst x; exists (escape t); split; [apply good_none, escape_lt | reflexivity]|].
      rewrite <- Ech in *. unfold wrap in H. destruct (emit_children c h ch st) as [[a|e] s1] eqn:E1; [|discriminate].
      apply ok_inj in H; subst x. exists a. split; [exact (HC _ _ _ E1) | reflexivity]. }
    destruct HI as (a & Ha & ->). destruct Hh as [Hh|(p & r & Hp & Ho & Et)].
    + apply good_app; [apply good_tag0; [by_mark ($ "[[") | no60]|]. apply good_app; [apply good_none, attr_lt|].
      apply good_app; [apply good_none; no60|]. apply good_app; [exact Ha|]. apply good_tag0; [by_mark ($ "[[") | no60].
    + assert (E2 : t = p ++ $ "://" ++ r) by congruence. rewrite E2, (attr_proto _ _ Hp).
      replace ($ "<a href=""" ++ (p ++ $ "://" ++ attr_escape r) ++ $ """>" ++ a ++ $ "</a>")
        with ((60 :: ($ "a href=""" ++ p ++ $ "://") ++ (attr_escape r ++ $ """>")) ++ a ++ $ "</a>")
        by (cbn [app]; rewrite <- !app_assoc; reflexivity).
      apply good_app.
      * apply good_tag; [apply mf_url; assumption|]. assert (HA := attr_lt r). set (A := attr_escape r) in *. clearbody A.
        assert (HP : ~ In 60 p) by (clear - Hp; cbn [In protocols] in Hp; repeat destruct Hp as [<-|Hp]; [.. | destruct Hp]; no60).
        rewrite !in_app_iff. cbn. intuition discriminate.
      * apply good_app; [exact Ha|]. apply good_tag0; [eapply mf_url_end; eassumption | no60].
  - destruct (hcontent h) as [t|] eqn:Ec; [|discriminate]. apply ok_inj in H; subst x. destruct Hh as [Hh1 Hh2].
    apply good_image; [exact Hh1|]. destruct Hi as [Hi|[Hi|Hi]]; [left; exact Hi | exfalso; exact (Hi Hh1)|].
    right. intro K. apply Hi. exact (Hh2 _ eq_refl K).
  - destruct Hh.
  - destruct Hh.
  - revert H; apply HW; intros a Ha; apply good_list; [by_mark ($ "*") | by_mark ($ "*") | no60 | exact Ha].
  - revert H; apply HW; intros a Ha; apply good_list; [by_mark ($ "#") | by_mark ($ "#") | no60 | exact Ha].
  - destruct Hh as [Hh|Hh].
    + revert H; apply HW; intros a Ha; apply good_list; [by_mark ($ "*") | by_mark ($ "*") | no60 | exact Ha].
    + revert H; apply HW; intros a Ha; apply good_list; [by_mark ($ "#") | by_mark ($ "#") | no60 | exact Ha].
  - revert H; apply HW; intros a Ha; apply (HO ($ "table") a [10]); [by_mark ($ "|") | by_mark ($ "|") | no60 | no60 | exact Ha].
  - revert H; apply HW; intros a Ha; apply (HO ($ "tr") a [10]); [by_mark ($ "|") | by_mark ($ "|") | no60 | no60 | exact Ha].
  - revert H; apply HW; intros a Ha; apply (good_app [9]); [apply good_none; no60|]; apply (HO ($ "td") a []); [by_mark ($ "|") | by_mark ($ "|") | no60 | no60 | exact Ha].
  - destruct Hh as [Hh1 Hh2].
    revert H; apply HW; intros a Ha; apply (good_app [9]); [apply good_none; no60|]; apply (HO ($ "th") a []); [apply mf_th; auto | apply mf_th; auto | no60 | no60 | exact Ha].
  - revert H; apply HW; intros a Ha; apply good_el; [by_mark ($ "**") | by_mark ($ "**") | no60 | exact Ha].
  - revert H; apply HW; intros a Ha; apply good_el; [by_mark ($ "//") | by_mark ($ "//") | no60 | exact Ha].
  - revert H; apply HW; intros a Ha; apply good_el; [by_mark ($ "##") | by_mark ($ "##") | no60 | exact Ha].
  - revert H; apply HW; intros a Ha; apply good_el; [by_mark ($ "__") | by_mark ($ "__") | no60 | exact Ha].
  - revert H; apply HW; intros a Ha; apply good_el; [by_mark ($ "^^") | by_mark ($ "^^") | no60 | exact Ha].
  - revert H; apply HW; intros a Ha; apply good_el; [by_mark ($ ",,") | by_mark ($ ",,") | no60 | exact Ha].
  - revert H; apply HW; intros a Ha; apply good_el; [by_mark ($ "--") | by_mark ($ "--") | no60 | exact Ha].
  - revert H; apply HW; intros a Ha; apply good_el; [by_mark ($ "~~") | by_mark ($ "~~") | no60 | exact Ha].
Qed.
End Emitted.

Theorem marks_needed : forall o md s html,
  ~ occurs ($ "<<") s -> (o_strict o = true \/ ~ occurs ($ "{{") s \/ ~ occurs ($ "<") s) ->
  fst (creole2html o md s) = Ok html -> tags_from s html.
Proof.
  intros o md s html Hm Hi H. unfold creole2html in H.
  assert (HU : forall m, m <> [] -> (forall c, In c m -> c <> 13 /\ c <> 10) -> infix m (norm_newlines s) -> infix m s)
    by (intros m H1 H2 H3; rewrite norm_unify in H3; exact (unify_infix _ _ H1 H2 H3)).
  assert (Hm2 : ~ infix ($ "<<") (norm_newlines s)).
  { intro K. apply Hm. apply HU in K; [exact K | discriminate|]. intros c [<-|[<-|[]]]; split; discriminate. }
  destruct (parse (o_blog o) s) as [[root u]|] eqn:E; [|discriminate].
  destruct (J_parse _ Hm2 _ _ _ E) as [HE ->]. unfold init_toc in H. cbn [existsb] in H.
  set (c := mkcfg _ _ _ _) in *. unfold emit in H.
  destruct (emit_node c (mkn KDocument None) root (mkest (md_toc md) (md_log md))) as [[a|e] s'] eqn:Ee; [|discriminate].
  cbn [use_toc c] in H. injection H as <-. apply good_strip; [apply follow_last|].
  refine (emit_good s c eq_refl Hi root _ _ _ _ _ Ee).
  revert HE. apply everywhere_impl. intros [h ch] Hn. exact (hdr_ok_mono _ _ _ HU Hn).
Qed.

(** ** Consequences *)
Lemma plain_page : forall o md s html,
  ~ occurs ($ "<<") s -> (forall m l, In (m, l) marked_tags -> ~ occurs m s) -> ~ occurs ($ "=") s -> ~ occurs ($ "://") s ->
  fst (creole2html o md s) = Ok html ->
  forall a b, html = a ++ 60 :: b -> exists t u, In t plain_tags /\ b = t ++ u.
Proof.
  intros o md s html H1 H2 H3 H4 H a b E.
  assert (Hi : ~ occurs ($ "{{") s) by (apply (H2 _ [ $ "img src=""" ]); cbn [In marked_tags]; do 8 right; left; reflexivity).
  destruct (marks_needed o md s html H1 (or_intror (or_introl Hi)) H a b E) as (t & u & Ht & Eb). exists t, u. split; [|exact Eb].
  destruct Ht as [t Ht|m l t Hm Ho _|n Hn Ho|n Hn Ho|t _ Ho _|p _ Ho|p _ Ho]; [exact Ht | exfalso; exact (H2 _ _ Hm Ho) | exfalso..].
  - apply H3. destruct n; [lia|]. destruct Ho as (x & y & ->). exists x, (repeat 61 n ++ y). reflexivity.
  - apply H3. destruct n; [lia|]. destruct Ho as (x & y & ->). exists x, (repeat 61 n ++ y). reflexivity.
  - exact (H3 Ho).
  - apply H4. destruct Ho as (x & y & ->). exists (x ++ p), y. rewrite <- !app_assoc. reflexivity.
  - apply H4. destruct Ho as (x & y & ->). exists (x ++ p), y. rewrite <- !app_assoc. reflexivity.
Qed.
Lemma addresses : forall o md s html,
  ~ occurs ($ "<<") s -> (o_strict o = true \/ ~ occurs ($ "{{") s \/ ~ occurs ($ "<") s) -> ~ occurs ($ "[[") s ->
  fst (creole2html o md s) = Ok html ->
  forall a b, html = a ++ $ "<a " ++ b ->
  exists p u, In p protocols /\ occurs (p ++ $ "://") s /\ b = $ "href=""" ++ p ++ $ "://" ++ u.
Proof.
  intros o md s html H1 Hi H2 H a b E.
  destruct (marks_needed o md s html H1 Hi H a ($ "a " ++ b) E) as (t & u & Ht & Eb).
  destruct Ht as [t Ht|m l t Hm Ho Hl|n Hn Ho|n Hn Ho|t _ _ Ht|p Hp Ho|p Hp Ho].
  - exfalso. cbn [In plain_tags] in Ht. repeat destruct Ht as [<-|Ht]; [.. | destruct Ht]; discriminate.
  - cbn [In marked_tags] in Hm. repeat destruct Hm as [Hm|Hm]; [.. | destruct Hm]; injection Hm as <- <-;
      try (exfalso; exact (H2 Ho)); exfalso; cbn [In] in Hl; repeat destruct Hl as [<-|Hl]; try destruct Hl; discriminate.
  - discriminate.
  - discriminate.
  - exfalso. destruct Ht as [->| ->]; discriminate.
  - exists p, u. split; [exact Hp|]. split; [exact Ho|]. rewrite <- !app_assoc in Eb. injection Eb as Eb. rewrite Eb. reflexivity.
  - discriminate.
Qed.

Lemma not_occurs : forall m s, contains m s = false -> ~ occurs m s.
Proof. intros m s H K. apply contains_spec in K. congruence. Qed.
Lemma no_marks : forall s, forallb (fun ml => negb (contains (fst ml) s)) marked_tags = true ->
  forall m l, In (m, l) marked_tags -> ~ occurs m s.
Proof. intros s H m l Hin. rewrite forallb_forall in H. apply H in Hin. apply not_occurs, negb_true_iff, Hin. Qed.
