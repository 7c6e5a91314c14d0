(** * Character references in attribute values (C92)

    Only statements, examples and assumptions; the vocabulary is in Spec41.v and Spec32.v. *)
From Coq Require Import String List Arith NArith ZArith Bool Lia.
From Verif Require Import PyStr PyStrFacts Utils Res Entities HtmlTok HtmlBase Html2X Spec2 Spec10 Spec11 Spec17 Spec29 Spec31 Spec32 Spec41 CodedOut.
Import ListNotations.
Open Scope N_scope.

(** ** C92 *)
Theorem C92_value : forall v w, coded v w -> unescape w = v.
Proof. exact Coded.unescape_coded. Qed.
Print Assumptions C92_value.
(** the address of a link, in every language *)
Theorem C92_link : forall (u : unknown) strict v w ws, coded v w -> ~ In 34 w -> one_line v = true -> ws <> [] -> forallb word ws = true ->
  let html := $ "<a href=""" ++ w ++ $ """>" ++ words ws ++ $ "</a>" in
  html2creole u strict html = Ok (if str_eqb (words ws) v then $ "[[" ++ v ++ $ "]]" else $ "[[" ++ v ++ $ "|" ++ words ws ++ $ "]]") /\
  (tight v -> html2textile u html = Ok ($ """" ++ words ws ++ $ """:" ++ v)) /\
  (forall ad, addr_ok ad = true -> v = show_addr ad -> html2markdown u html = Ok ($ "[" ++ words ws ++ $ "](" ++ show_addr (quoted ad) ++ $ ")")) /\
  html2rest u html = Ok ($ "`" ++ words ws ++ $ " <" ++ v ++ $ ">`_").
Proof. exact coded_link. Qed.
Print Assumptions C92_link.
(** the address and the alternative text of an image *)
Theorem C92_image : forall (u : unknown) strict v w alt x, coded v w -> ~ In 34 w -> coded alt x -> ~ In 34 x -> one_line v = true -> one_line alt = true -> alt <> [] -> ~ in_place v ->
  let html := $ "<img src=""" ++ w ++ $ """ alt=""" ++ x ++ $ """ />" in
  html2creole u strict html = Ok ($ "{{" ++ v ++ $ "|" ++ alt ++ $ "}}") /\
  html2textile u html = Ok ($ "!" ++ v ++ $ "(" ++ alt ++ $ ")!") /\
  (forall ad, addr_ok ad = true -> v = show_addr ad -> html2markdown u html = Ok ($ "![" ++ alt ++ $ "](" ++ show_addr (quoted ad) ++ $ ")")) /\
  (tight v -> html2rest u html = Ok ($ "|" ++ alt ++ $ "|" ++ [10; 10] ++ $ ".. |" ++ alt ++ $ "| image:: " ++ v)).
Proof. exact coded_image. Qed.
Print Assumptions C92_image.

(** an address with all kinds of references; the plain ampersand in front of [b] is kept *)
Definition case_value : str := $ "/?a=1&b=" ++ [228; 8364; 66; 65533] ++ $ "<& c".
Definition case_text : str := $ "/?a=1&b=&auml;&#128;&#x42;&#0;&lt;& c".
Example C92_case : coded case_value case_text /\ ~ In 34 case_text /\ one_line case_value = true /\ tight case_value.
Proof.
  split; [|split; [vm_compute; intuition discriminate|split; [reflexivity|exists ($ "/?a=1&b=" ++ [228; 8364; 66; 65533] ++ $ "<& "), 99; split; reflexivity]]].
  unfold case_value, case_text. cbn [app L].
  do 5 (apply coded_char; [reflexivity|]).
  apply (coded_amp ($ "b=") _ ($ "&auml;&#128;&#x42;&#0;&lt;& c")).
  { split; [reflexivity|]. split; [vm_compute; intuition discriminate|]. split; [cbn; lia|]. split; [split; [reflexivity|split; discriminate]|].
    intros k x H. assert (K : forallb (fun e => negb (startswith (L (fst e)) ($ "b="))) html5_tab = true) by (vm_compute; reflexivity).
    apply negb_true_iff. exact (proj1 (forallb_forall _ _) K _ H). }
  apply (coded_name ($ "auml") [228] _ ($ "&#128;&#x42;&#0;&lt;& c")).
  { exists "auml;"%string. split; [|reflexivity]. assert (K : existsb (fun e => (fst e =? "auml;")%string && str_eqb (snd e) [228]) html5_tab = true) by (vm_compute; reflexivity).
    apply existsb_exists in K as ([k x] & H & E). apply andb_true_iff in E as [E1 E2]. apply String.eqb_eq in E1. apply str_eqb_eq in E2. cbn [fst snd] in *. subst. exact H. }
  apply (coded_dec ($ "128") _ ($ "&#x42;&#0;&lt;& c")); [reflexivity|vm_compute; discriminate|].
  apply (coded_hex 120 ($ "42") _ ($ "&#0;&lt;& c")); [left; reflexivity|reflexivity|].
  apply (coded_dec ($ "0") _ ($ "&lt;& c")); [reflexivity|vm_compute; discriminate|].
  apply (coded_name ($ "lt") [60] _ ($ "& c")).
  { exists "lt;"%string. split; [|reflexivity]. assert (K : existsb (fun e => (fst e =? "lt;")%string && str_eqb (snd e) [60]) html5_tab = true) by (vm_compute; reflexivity).
    apply existsb_exists in K as ([k x] & H & E). apply andb_true_iff in E as [E1 E2]. apply String.eqb_eq in E1. apply str_eqb_eq in E2. cbn [fst snd] in *. subst. exact H. }
  apply (coded_amp [] _ ($ " c")).
  { split; [reflexivity|]. split; [intros []|]. split; [cbn; lia|]. split; [split; [reflexivity|split; discriminate]|].
    intros k x H. assert (K : forallb (fun e => negb (startswith (L (fst e)) [])) html5_tab = true) by (vm_compute; reflexivity).
    apply negb_true_iff. exact (proj1 (forallb_forall _ _) K _ H). }
  do 2 (apply coded_char; [reflexivity|]). apply coded_nil.
Qed.
Example C92_case_creole : html2creole raise_unknown_node false ($ "<a href=""" ++ case_text ++ $ """>" ++ $ "x y" ++ $ "</a>") = Ok ($ "[[" ++ case_value ++ $ "|x y]]").
Proof. destruct C92_case as (P1 & P2 & P3 & _). destruct (C92_link raise_unknown_node false _ _ [$ "x"; $ "y"] P1 P2 P3 ltac:(discriminate) eq_refl) as [H _]. exact H. Qed.

(** the last condition of [no_reference] cannot be left out: an ampersand in a query may begin
    the name of a character *)
Theorem C92_query_refuted : ~ (forall (u : unknown) key, key <> [] -> forallb lower_letter key = true ->
  html2creole u false ($ "<a href=""x?a=1&" ++ key ++ $ "=2"">y</a>") = Ok ($ "[[x?a=1&" ++ key ++ $ "=2|y]]")).
Proof. intro H. specialize (H raise_unknown_node ($ "copy") ltac:(discriminate) eq_refl). vm_compute in H. discriminate H. Qed.
Print Assumptions C92_query_refuted.
