(** * Links and images with character references in their attributes *)
From Coq Require Import String List Arith NArith ZArith Bool Lia.
From Verif Require Import PyStr PyStrFacts Utils Res Entities HtmlTok HtmlBase Html2X Spec2 Spec10 Spec11 Spec17 Spec29 Spec31 Spec32 AttrMean Spec41 Coded.
Import ListNotations.
Open Scope N_scope.

Lemma cased_refl : forall n, cased n n.
Proof. induction n; constructor; auto. Qed.
Lemma coded_link_html : forall v w ws, coded v w -> ~ In 34 w -> link_html [($ "href", VStr v)] ws ($ "<a href=""" ++ w ++ $ """>" ++ words ws ++ $ "</a>").
Proof.
  intros v w ws C Q. exists ($ "<a href=""" ++ w ++ $ """>"), ($ "</a>"). split; [|split; [apply (close_written ($ "a") ($ "a") 0); split; [apply cased_refl|reflexivity]|rewrite <- ?app_assoc; reflexivity]].
  pose proof (open_written ($ "a") [($ "href", VStr v)] ($ "a") ((gap 1 ++ $ "href" ++ gap 0 ++ $ "=" ++ gap 0 ++ $ """" ++ w ++ $ """") ++ []) 0) as O.
  rewrite app_nil_r in O. replace ($ "<a href=""" ++ w ++ $ """>") with ($ "<" ++ $ "a" ++ (gap 1 ++ $ "href" ++ gap 0 ++ $ "=" ++ gap 0 ++ $ """" ++ w ++ $ """") ++ gap 0 ++ $ ">").
  - apply O; [split; [apply cased_refl|reflexivity]|]. rewrite <- (app_nil_r (gap 1 ++ _)). apply more_attrs; [|constructor].
    exists 0%nat, ($ "href"), 0%nat, 0%nat, ($ """" ++ w ++ $ """"). split; [reflexivity|]. split; [apply cased_refl|]. apply coded_double; assumption.
  - cbn [gap repeat app L]. repeat (rewrite <- ?app_assoc; cbn [app]). reflexivity.
Qed.
Lemma plain1 : forall k v, name_ok k = true -> one_line v = true -> attr_plain (k, VStr v) = true.
Proof. intros k v K V. unfold attr_plain, attr_ok. cbn [fst snd value_of]. rewrite K, V. reflexivity. Qed.
Lemma coded_link : forall (u : unknown) strict v w ws, coded v w -> ~ In 34 w -> one_line v = true -> ws <> [] -> forallb word ws = true ->
  let html := $ "<a href=""" ++ w ++ $ """>" ++ words ws ++ $ "</a>" in
  html2creole u strict html = Ok (if str_eqb (words ws) v then $ "[[" ++ v ++ $ "]]" else $ "[[" ++ v ++ $ "|" ++ words ws ++ $ "]]") /\
  (tight v -> html2textile u html = Ok ($ """" ++ words ws ++ $ """:" ++ v)) /\
  (forall ad, addr_ok ad = true -> v = show_addr ad -> html2markdown u html = Ok ($ "[" ++ words ws ++ $ "](" ++ show_addr (quoted ad) ++ $ ")")) /\
  html2rest u html = Ok ($ "`" ++ words ws ++ $ " <" ++ v ++ $ ">`_").
Proof.
  intros u strict v w ws C Q O W1 W2 html. pose proof (coded_link_html v w ws C Q) as X. set (a := [($ "href", VStr v)]) in *.
  assert (A : forallb attr_plain a = true) by (unfold a; cbn [forallb]; rewrite plain1 by (auto); reflexivity).
  assert (SR : source ($ "href") a v) by reflexivity.
  split; [|split; [|split]].
  - exact (proj1 (creole_link u strict a ws html A W1 W2 X) v SR).
  - exact (proj1 (textile_link u a ws html A W1 W2 X) v SR).
  - intros ad Had Ev. subst v. exact (proj1 (markdown_link u a ws html A W1 W2 X) ad Had SR).
  - exact (proj1 (rest_link u a ws html A W1 W2 X) v SR).
Qed.
Lemma coded_image_html : forall v w alt x, coded v w -> ~ In 34 w -> coded alt x -> ~ In 34 x ->
  image_html [($ "src", VStr v); ($ "alt", VStr alt)] ($ "<img src=""" ++ w ++ $ """ alt=""" ++ x ++ $ """ />").
Proof.
  intros v w alt x C Q D R. unfold image_html.
  pose proof (single_written ($ "img") [($ "src", VStr v); ($ "alt", VStr alt)] ($ "img")
    ((gap 1 ++ $ "src" ++ gap 0 ++ $ "=" ++ gap 0 ++ $ """" ++ w ++ $ """") ++ (gap 1 ++ $ "alt" ++ gap 0 ++ $ "=" ++ gap 0 ++ $ """" ++ x ++ $ """") ++ []) 1) as O.
  match type of O with _ -> _ -> _ -> part_written _ ?t => replace ($ "<img src=""" ++ w ++ $ """ alt=""" ++ x ++ $ """ />") with t end.
  - apply O; [split; [apply cased_refl|discriminate]| |discriminate].
    apply more_attrs; [|apply more_attrs; [|constructor]].
    + exists 0%nat, ($ "src"), 0%nat, 0%nat, ($ """" ++ w ++ $ """"). split; [reflexivity|]. split; [apply cased_refl|]. apply coded_double; assumption.
    + exists 0%nat, ($ "alt"), 0%nat, 0%nat, ($ """" ++ x ++ $ """"). split; [reflexivity|]. split; [apply cased_refl|]. apply coded_double; assumption.
  - cbn [gap repeat app L]. repeat (rewrite <- ?app_assoc; cbn [app]). reflexivity.
Qed.
Lemma coded_image : forall (u : unknown) strict v w alt x, coded v w -> ~ In 34 w -> coded alt x -> ~ In 34 x -> one_line v = true -> one_line alt = true -> alt <> [] -> ~ in_place v ->
  let html := $ "<img src=""" ++ w ++ $ """ alt=""" ++ x ++ $ """ />" in
  html2creole u strict html = Ok ($ "{{" ++ v ++ $ "|" ++ alt ++ $ "}}") /\
  html2textile u html = Ok ($ "!" ++ v ++ $ "(" ++ alt ++ $ ")!") /\
  (forall ad, addr_ok ad = true -> v = show_addr ad -> html2markdown u html = Ok ($ "![" ++ alt ++ $ "](" ++ show_addr (quoted ad) ++ $ ")")) /\
  (tight v -> html2rest u html = Ok ($ "|" ++ alt ++ $ "|" ++ [10; 10] ++ $ ".. |" ++ alt ++ $ "| image:: " ++ v)).
Proof.
  intros u strict v w alt x C Q D R O1 O2 NE IP html. pose proof (coded_image_html v w alt x C Q D R) as X. set (a := [($ "src", VStr v); ($ "alt", VStr alt)]) in *.
  assert (A : forallb attr_plain a = true) by (unfold a; cbn [forallb]; rewrite !plain1 by auto; reflexivity).
  assert (SR : source ($ "src") a v) by reflexivity.
  assert (G1 : given ($ "title") a = []) by reflexivity. assert (G2 : given ($ "alt") a = alt) by reflexivity.
  assert (T : image_text a v alt).
  { unfold image_text. rewrite G1, G2. split; [intros _ E; contradiction|]. split; [reflexivity|]. intros _ E. contradiction. }
  split; [|split; [|split]].
  - rewrite (creole_image u strict a v alt html A X SR IP T). unfold image_size. replace (given ($ "width") a) with (@nil N) by reflexivity. cbn [is_nil]. rewrite orb_true_r. reflexivity.
  - exact (textile_image u a v alt html A X SR IP T).
  - intros ad Had Ev. subst v. rewrite (markdown_image u a ad html A X Had SR). rewrite G1, G2. destruct (is_nil alt); reflexivity.
  - intro Ti. exact (rest_image u a v alt html A X SR IP T Ti).
Qed.
