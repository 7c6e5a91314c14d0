(** * Lemmas on publishing, the settings for docutils and aligned images *)
From Coq Require Import String List Arith NArith ZArith Bool Lia Permutation Sorted.
From Verif Require Import PyStr PyStrFacts Utils Res HtmlEmitter HtmlBase Html2X Spec4 SetupUtils SetupFacts RestTools RestToolsFacts Spec9 Publish Spec37.
Import ListNotations.
Open Scope N_scope.

Lemma publish_sound : forall renders style d o calls, publish renders style d = (o, calls) -> calls <> [] -> readme_current renders d.
Proof.
  intros renders style d o calls H Hc. unfold publish in H. destruct (assert_rst renders d ($ "README.creole")) as [[[]|e] d1] eqn:E; [|injection H as _ <-; congruence].
  destruct (lemma_check_sound renders d _ d1 E) as (rest & content & tail & G & R & Hn & Ec & Ht & Hk).
  unfold generate_rst in G. destruct (read_text d ($ "README.creole")) as [creole|] eqn:ER; [|discriminate G]. unfold default_html in G.
  destruct (fst (creole2html (mkopts true None false) no_md (strip creole))) as [html|] eqn:EH; [|discriminate G]. cbn [bind] in G.
  destruct (html2rest raise_unknown_node html) as [rst|] eqn:EX; [|discriminate G]. destruct (renders rst) eqn:EN; [|discriminate G]. injection G as <-.
  exists creole, html, rst, content, tail. repeat (split; [assumption|]). assumption.
Qed.
Lemma publish_files : forall renders style d o calls f, publish renders style d = (o, calls) -> In (CallRelease f) calls -> o = PubDone /\ style d = Some f /\ calls = [CallStyle; CallRelease f].
Proof.
  intros renders style d o calls f H I. unfold publish in H. destruct (assert_rst renders d ($ "README.creole")) as [[[]|e] d1] eqn:E; [|injection H as _ <-; destruct I].
  assert (d1 = d) as ->. { unfold assert_rst in E. destruct (generate_rst renders d ($ "README.creole")); injection E as _ <-; reflexivity. }
  destruct (style d) as [d2|] eqn:ES; injection H as <- <-; [|destruct I as [I|[]]; discriminate I]. destruct I as [I|[I|[]]]; [discriminate I|]. injection I as ->. auto.
Qed.
Lemma publish_after_update : forall renders style mtime d d' rest, update_rst renders mtime d ($ "README.creole") = (SOk true, d') -> generate_rst renders d ($ "README.creole") = SOk rest ->
  no_char [13] rest = true -> no_char [10; 13] mtime = true -> publish renders style d' = match style d' with Some f => (PubDone, [CallStyle; CallRelease f]) | None => (PubStyle, [CallStyle]) end.
Proof.
  intros renders style mtime d d' rest H G H1 H2. unfold publish. rewrite (lemma_C42 renders mtime d ($ "README.creole") d' rest H G ltac:(vm_compute; discriminate) H1 H2 eq_refl). destruct (style d'); reflexivity.
Qed.

Lemma dict_set_get : forall k k' v d, dict_get k (dict_set k' v d) = if str_eqb k k' then Some v else dict_get k d.
Proof.
  intros k k' v. induction d as [|[a x] d IH]; cbn [dict_set dict_get]; [reflexivity|]. destruct (str_eqb k' a) eqn:E.
  - apply str_eqb_eq in E. subst a. cbn [dict_get]. destruct (str_eqb k k'); reflexivity.
  - cbn [dict_get]. rewrite IH. destruct (str_eqb k a) eqn:E2; [|reflexivity]. apply str_eqb_eq in E2. subst a. destruct (str_eqb k k') eqn:E3; [|reflexivity]. apply str_eqb_eq in E3. subst. rewrite str_eqb_refl in E. discriminate E.
Qed.
Lemma dict_get_app : forall k a b, dict_get k (a ++ b) = match dict_get k a with Some v => Some v | None => dict_get k b end.
Proof. intros k. induction a as [|[x v] a IH]; intro b; cbn [app dict_get]; [reflexivity|]. destruct (str_eqb k x); [reflexivity|apply IH]. Qed.
Lemma update_get : forall kwargs d k, dict_get k (dict_update d kwargs) = passed kwargs k (dict_get k d).
Proof.
  unfold passed. induction kwargs as [|[a v] kw IH]; intros d k; [reflexivity|]. cbn [dict_update fold_left fst snd]. change (fold_left _ kw ?d) with (dict_update d kw). rewrite IH, dict_set_get. cbn [rev]. rewrite dict_get_app. cbn [dict_get].
  destruct (dict_get k (rev kw)); [reflexivity|]. destruct (str_eqb k a); reflexivity.
Qed.
Lemma rest_call : forall publish_parts content kwargs, exists settings, rest2html publish_parts (Some content) kwargs = publish_parts content settings /\
  dict_get ($ "raw_enabled") settings = passed kwargs ($ "raw_enabled") (Some (VBool false)) /\
  dict_get ($ "file_insertion_enabled") settings = passed kwargs ($ "file_insertion_enabled") (Some (VBool false)) /\
  dict_get ($ "doctitle_xform") settings = passed kwargs ($ "doctitle_xform") (Some (VBool false)) /\
  dict_get ($ "input_encoding") settings = passed kwargs ($ "input_encoding") (Some (VStr ($ "unicode"))) /\
  forall k, ~ In k [$ "raw_enabled"; $ "file_insertion_enabled"; $ "doctitle_xform"; $ "input_encoding"] -> dict_get k settings = passed kwargs k None.
Proof.
  intros pp content kwargs. exists (rest_settings kwargs). split; [reflexivity|]. unfold rest_settings. repeat (split; [rewrite update_get; reflexivity|]). intros k Hk. rewrite update_get. f_equal. cbn [dict_get].
  assert (N : forall x, In x [$ "raw_enabled"; $ "file_insertion_enabled"; $ "doctitle_xform"; $ "input_encoding"] -> str_eqb k x = false) by (intros x I; apply str_eqb_neq; intros ->; exact (Hk I)).
  rewrite (N ($ "input_encoding")), (N ($ "doctitle_xform")), (N ($ "file_insertion_enabled")), (N ($ "raw_enabled")); [reflexivity| | | |]; cbn [In]; auto.
Qed.

Lemma replace_none : forall new z, ~ In 62 z -> replace_go [32; 47; 62] new 0 z = z.
Proof.
  intros new. induction z as [|c z IH]; intro H; [reflexivity|]. assert (E : startswith [32; 47; 62] (c :: z) = false).
  { destruct z as [|d [|e z]]; cbn [startswith]; rewrite ?andb_false_r; try reflexivity. destruct (N.eqb_spec 62 e) as [<-|]; [exfalso; apply H; right; right; left; reflexivity|]. rewrite !andb_false_r. reflexivity. }
  cbn [replace_go]. rewrite E. rewrite IH; [reflexivity|]. intro I. apply H. right. exact I.
Qed.
Lemma replace_end : forall new w z, ~ In 62 w -> ~ In 62 z -> replace_go [32; 47; 62] new 0 (w ++ [32; 47; 62] ++ z) = w ++ new ++ z.
Proof.
  intros new. induction w as [|c w IH]; intros z Hw Hz.
  - cbn [app]. cbn [replace_go startswith List.length pred]. change (32 =? 32) with true. change (47 =? 47) with true. change (62 =? 62) with true. cbv iota beta. cbn [andb]. rewrite replace_none by exact Hz. reflexivity.
  - assert (E : startswith [32; 47; 62] ((c :: w) ++ [32; 47; 62] ++ z) = false).
    { destruct w as [|d [|e w]]; cbn [app startswith].
      - change (47 =? 32) with false. rewrite andb_false_l, andb_false_r. reflexivity.
      - change (62 =? 32) with false. rewrite andb_false_l, !andb_false_r. reflexivity.
      - destruct (N.eqb_spec 62 e) as [<-|]; [exfalso; apply Hw; right; right; left; reflexivity|]. rewrite andb_false_l, !andb_false_r. reflexivity. }
    cbn [app]. cbn [app] in E. cbn [replace_go]. rewrite E. f_equal. apply IH; [|exact Hz]. intro I. apply Hw. right. exact I.
Qed.
Lemma image_align : forall attval suffix attrs node body, (forall s, ~ In 62 (attval s)) -> Forall (fun a => snd a <> ANone /\ ~ In 62 (lower (fst a))) attrs -> ~ In 62 suffix ->
  exists shown tag, Permutation shown (filter shown_attr attrs) /\ Sorted by_name shown /\ starttag attval ($ "img") suffix true attrs = Ok tag /\
    tag = $ "<img" ++ flat_map (attr_shown attval) shown ++ $ " />" ++ suffix /\
    visit_image node (tag :: body) = ($ "<img" ++ flat_map (attr_shown attval) shown ++ align_shown node ++ $ " />" ++ suffix) :: body.
Proof.
  intros attval suffix attrs node body HA HF HS.
  assert (HN : Forall (fun a => snd a <> ANone) attrs) by (eapply Forall_impl; [|exact HF]; intros a [H _]; exact H).
  destruct (lemma_C46 attval ($ "img") suffix true attrs ltac:(discriminate) HN) as (shown & P & S1 & E). exists shown, ($ "<img" ++ flat_map (attr_shown attval) shown ++ $ " />" ++ suffix). split; [exact P|]. split; [exact S1|]. split; [|split; [reflexivity|]].
  - rewrite E. f_equal.
  - assert (HW : ~ In 62 ($ "<img" ++ flat_map (attr_shown attval) shown)).
    { intro I. apply in_app_or in I as [I|I]; [cbn in I; intuition discriminate|]. apply in_flat_map in I as (a & I & J).
      assert (Q : In a attrs) by (apply (Permutation_in _ P) in I; apply filter_In in I as [I _]; exact I). rewrite Forall_forall in HF. destruct (HF a Q) as [_ HL]. unfold attr_shown in J.
      apply in_app_or in J as [J|J]; [cbn in J; intuition discriminate|]. apply in_app_or in J as [J|J]; [exact (HL J)|]. apply in_app_or in J as [J|J]; [cbn in J; intuition discriminate|].
      apply in_app_or in J as [J|J]; [exact (HA _ J)|cbn in J; intuition discriminate]. }
    unfold visit_image, align_shown, alignment. set (t := $ "<img" ++ flat_map (attr_shown attval) shown ++ $ " />" ++ suffix).
    assert (ST : startswith ($ "<img") t = true) by (unfold t; reflexivity). rewrite ST.
    assert (EA : match i_align node with Some a => a | None => if str_eqb (i_parent node) ($ "figure") then match i_parent_align node with Some a => a | None => [] end else [] end =
      match i_align node, i_parent_align node with Some a, _ => a | None, Some a => if str_eqb (i_parent node) ($ "figure") then a else [] | None, None => [] end).
    { destruct (i_align node), (i_parent_align node); try reflexivity. destruct (str_eqb (i_parent node) ($ "figure")); reflexivity. }
    rewrite EA. destruct (match i_align node, i_parent_align node with Some a, _ => a | None, Some a => if str_eqb (i_parent node) ($ "figure") then a else [] | None, None => [] end) as [|x al].
    + reflexivity.
    + change (truthy (x :: al)) with true. cbv iota. f_equal. unfold t, replace. rewrite app_assoc. change ($ " />") with [32; 47; 62]. rewrite (replace_end _ _ suffix HW HS). repeat (rewrite <- ?app_assoc; cbn [app]). reflexivity.
Qed.
