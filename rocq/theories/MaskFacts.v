(** * The four ways of unknown_tags.py to treat unknown tags *)
From Coq Require Import String List Arith NArith ZArith Bool Lia.
From Verif Require Import PyStr PyStrFacts Utils Res Entities HtmlTools HtmlToolsFacts HtmlTok HtmlParser HtmlBase Html2X HtmlEmitter EmitterFacts.
From Verif Require Import Spec2 Spec10 Spec11 CleanRun CleanDoc Spec24 CleanEmit.
Import ListNotations.
Open Scope N_scope.

Lemma by_name_sort : forall a, by_name a = sort_items a.
Proof. reflexivity. Qed.
Lemma once_distinct : forall l seen, distinct l = true -> (forall x, In x l -> existsb (str_eqb x) seen = false) -> once seen l = l.
Proof.
  induction l as [|x l IH]; intros seen D H; [reflexivity|]. cbn [distinct] in D. apply andb_true_iff in D as [D1 D2]. apply negb_true_iff in D1. cbn [once].
  rewrite (H x (or_introl eq_refl)). f_equal. apply IH; [exact D2|]. intros y I. cbn [existsb]. rewrite (H y (or_intror I)), orb_false_r.
  destruct (str_eqb y x) eqn:E; [|reflexivity]. apply str_eqb_eq in E. subst y. rewrite <- D1. symmetry. apply existsb_exists. exists x. split; [exact I|apply str_eqb_refl].
Qed.
Lemma last_absent : forall a k v, existsb (str_eqb k) (map fst a) = false -> fold_left (fun v (kv : str * pyval) => if str_eqb (fst kv) k then snd kv else v) a v = v.
Proof.
  induction a as [|[x y] a IH]; intros k v H; [reflexivity|]. cbn [map fst existsb] in H. apply orb_false_iff in H as [H1 H2]. cbn [fold_left fst snd].
  destruct (str_eqb x k) eqn:E; [apply str_eqb_eq in E; subst x; rewrite str_eqb_refl in H1; discriminate H1|]. apply IH. exact H2.
Qed.
Lemma last_one : forall a k v, distinct (map fst a) = true -> In (k, v) a -> forall v0, fold_left (fun v (kv : str * pyval) => if str_eqb (fst kv) k then snd kv else v) a v0 = v.
Proof.
  induction a as [|[x y] a IH]; intros k v D I v0; [destruct I|]. cbn [map fst distinct] in D. apply andb_true_iff in D as [D1 D2]. apply negb_true_iff in D1. cbn [fold_left fst snd]. destruct I as [I|I].
  - injection I as -> ->. rewrite str_eqb_refl. apply last_absent. exact D1.
  - apply IH; assumption.
Qed.
Lemma attr_dict_distinct : forall a, distinct (map fst a) = true -> attr_dict a = a.
Proof.
  intros a D. unfold attr_dict. rewrite once_distinct; [|exact D|reflexivity]. rewrite map_map. transitivity (map (fun x : str * pyval => x) a); [|apply map_id].
  apply map_ext_in. intros [k v] I. cbn [fst]. unfold last_value. rewrite (last_one a k v D I). reflexivity.
Qed.
Lemma json_plain : forall v, plain_value v = true -> json_str v = $ """" ++ v ++ $ """".
Proof.
  intros v H. unfold json_str. assert (E : flat_map json_char v = v); [|rewrite E; reflexivity]. induction v as [|c v IH]; [reflexivity|]. unfold plain_value in H. cbn [forallb] in H. apply andb_true_iff in H as [H1 H2].
  cbn [flat_map]. rewrite (IH H2). rewrite !andb_true_iff, negb_true_iff, orb_false_iff in H1. destruct H1 as [[H3 H4] [H5 H6]]. unfold json_char. rewrite H5, H6, H3, H4. reflexivity.
Qed.
Lemma put_all : forall (P : str * pyval -> bool) e l, P e = true -> forallb P l = true -> forallb P (put_attr e l) = true.
Proof.
  intros P e l He. induction l as [|h l IH]; intro H; [cbn [put_attr forallb]; rewrite He; reflexivity|]. cbn [put_attr]. destruct (name_before (fst e) (fst h)); cbn [forallb].
  - rewrite He. exact H.
  - cbn [forallb] in H. apply andb_true_iff in H as [H1 H2]. rewrite H1, (IH H2). reflexivity.
Qed.
Lemma sorted_all : forall (P : str * pyval -> bool) a, forallb P a = true -> forallb P (by_name a) = true.
Proof.
  intros P a. induction a as [|e a IH]; intro H; [reflexivity|]. cbn [forallb] in H. apply andb_true_iff in H as [H1 H2]. apply put_all; [exact H1|exact (IH H2)].
Qed.
Lemma attr_part_fine : forall a, attrs_fine a = true -> attr_part (attr_dict a) = attrs_text a.
Proof.
  intros a H. unfold attrs_fine in H. apply andb_true_iff in H as [H1 H2]. rewrite (attr_dict_distinct a H1). unfold attr_part, dict2string, attrs_text. rewrite <- by_name_sort.
  pose proof (sorted_all _ a H2) as S. clear H1 H2.
  assert (E : forall l, forallb (fun kv : str * pyval => match snd kv with VStr v => plain_value v | _ => false end) l = true -> l <> [] ->
    $ " " ++ join [32] (map (fun kv => fst kv ++ [61] ++ json_dumps (snd kv)) l) = flat_map (fun kv : str * pyval => $ " " ++ fst kv ++ $ "=""" ++ attr_value (snd kv) ++ $ """") l).
  { induction l as [|[k v] l IH]; intros F NE; [congruence|]. cbn [forallb snd] in F. apply andb_true_iff in F as [F1 F2]. destruct v as [v|z|b|]; try discriminate F1. cbn [map flat_map fst snd json_dumps attr_value]. rewrite (json_plain v F1).
    destruct l as [|e l]; [cbn [map join flat_map]; rewrite app_nil_r; reflexivity|]. rewrite join_cons by discriminate. rewrite <- (IH F2) by discriminate. rewrite <- !app_assoc. reflexivity. }
  destruct (by_name a) as [|e l] eqn:EB; [reflexivity|]. specialize (E (e :: l) S ltac:(discriminate)). rewrite <- E.
  destruct (join [32] (map (fun kv => fst kv ++ [61] ++ json_dumps (snd kv)) (e :: l))) eqn:J; [|reflexivity].
  exfalso. destruct e as [k v]. cbn [map fst snd] in J. destruct l as [|y r]; [cbn [map join] in J|cbn [map] in J; rewrite join_cons in J by discriminate]; apply (f_equal (@List.length N)) in J; rewrite !app_length in J; cbn [List.length] in J; lia.
Qed.
Lemma mask_mode : forall m t a c, inline_tag t = true -> any_text t a c = true -> mask_content m t (attr_dict a) c = Ok (masked m t a c).
Proof.
  intros m t a c _ H. unfold mask_content, masked, in_macro. rewrite (attr_part_fine a H). f_equal. destruct c as [|x c]; cbv zeta; rewrite <- ?app_assoc; reflexivity.
Qed.
Lemma escape_no_markup : forall s, escape s = no_markup s.
Proof.
  intro s. rewrite <- entity_esc. unfold no_markup. apply flat_map_ext. intro c. reflexivity.
Qed.
Lemma no_markup_app : forall a b, no_markup (a ++ b) = no_markup a ++ no_markup b.
Proof. intros. apply flat_map_app. Qed.
Lemma no_markup_name : forall t, name_ok t = true -> no_markup t = t.
Proof.
  intros t H. assert (F : forallb name_char t = true).
  { destruct t as [|c t]; [reflexivity|]. cbn [name_ok] in H. apply andb_true_iff in H as [H1 H2]. cbn [forallb]. unfold name_char at 1. rewrite H1. exact H2. }
  clear H. induction t as [|c t IH]; [reflexivity|]. cbn [forallb] in F. apply andb_true_iff in F as [F1 F2]. unfold no_markup in *. cbn [flat_map]. rewrite (IH F2).
  destruct (N.eqb_spec c 38); [subst c; discriminate F1|]. destruct (N.eqb_spec c 60); [subst c; discriminate F1|]. destruct (N.eqb_spec c 62); [subst c; discriminate F1|]. reflexivity.
Qed.
Lemma escape_mode : forall t a c, inline_tag t = true -> any_text t a c = true -> escape_unknown_nodes t (attr_dict a) c = Ok (spelled t a c).
Proof.
  intros t a c HI H. destruct (inline_parts t HI) as (N & _). unfold escape_unknown_nodes, spelled. rewrite (attr_part_fine a H), !escape_no_markup, !no_markup_app, (no_markup_name t N).
  f_equal. destruct c as [|x c]; rewrite <- ?app_assoc; reflexivity.
Qed.
Lemma transparent_mode : forall t a c, inline_tag t = true -> bare_text t a c = true -> transparent_unknown_nodes t (attr_dict a) c = Ok (bare t a c).
Proof.
  intros t a c H S. unfold transparent_unknown_nodes, content_text, bare. rewrite (span_kept c S). destruct (inline_parts t H) as (_ & _ & H3 & _).
  change (in_list BLOCK_TAGS t) with (in_names block_elements t). rewrite H3. reflexivity.
Qed.

(** ** for whole documents *)
Lemma masked_creole : forall (m : str) (u : unknown) strict d html, (forall t a c, u t a c = mask_content m t a c) ->
  w_doc_ok (masked m) any_text d = true -> written d html -> html2creole u strict html = Ok (w_doc (masked m) d).
Proof. intros m u strict d html E O W. apply (mask_creole (masked m) any_text u strict d html); [|exact O|exact W]. intros t a c I F. rewrite E. apply mask_mode; assumption. Qed.
Lemma html_creole : forall strict d html, w_doc_ok (masked ($ "html")) any_text d = true -> written d html ->
  html2creole use_html_macro strict html = Ok (w_doc (masked ($ "html")) d).
Proof. intros strict d html. apply masked_creole. reflexivity. Qed.
Lemma pre_creole : forall strict d html, w_doc_ok (masked ($ "pre")) any_text d = true -> written d html ->
  html2creole preformat_unknown_nodes strict html = Ok (w_doc (masked ($ "pre")) d).
Proof. intros strict d html. apply masked_creole. reflexivity. Qed.
Lemma escape_creole : forall strict d html, w_doc_ok spelled any_text d = true -> written d html ->
  html2creole escape_unknown_nodes strict html = Ok (w_doc spelled d).
Proof. intros strict d html O W. apply (mask_creole spelled any_text _ strict d html); [exact escape_mode|exact O|exact W]. Qed.
Lemma bare_creole : forall strict d html, w_doc_ok bare bare_text d = true -> written d html ->
  html2creole transparent_unknown_nodes strict html = Ok (w_doc bare d).
Proof. intros strict d html O W. apply (mask_creole bare bare_text _ strict d html); [exact transparent_mode|exact O|exact W]. Qed.
