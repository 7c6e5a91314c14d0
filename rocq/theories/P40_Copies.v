(** * Tags of the parser in a page (C94)

    Only statements, examples and assumptions; the vocabulary is in Spec31.v, Spec40.v and Spec43.v. *)
From Coq Require Import String List Arith NArith ZArith Bool Lia.
From Verif Require Import PyStr Utils Res HtmlTok HtmlBase Html2X Spec2 Spec7 Spec10 Spec11 Spec26 Spec29 Spec31 Spec32 Spec40 Spec43 AttrSoup Sheet.
Import ListNotations.
Open Scope N_scope.

Theorem C94_areas_copied : forall (u : unknown) (strict : bool) l l' html html',
  Forall2 (written_out (areas l)) l l' -> few l -> sheet l html -> sheet l' html' ->
  html2creole u strict html = html2creole u strict html' /\ html2textile u html = html2textile u html' /\
  html2markdown u html = html2markdown u html' /\ html2rest u html = html2rest u html'.
Proof. exact written_out_results. Qed.
Print Assumptions C94_areas_copied.
Theorem C94_nothing_raises : forall (u : unknown) (strict : bool) l html t a,
  sheet l html -> In (Piece (Single t a)) l -> reserved t -> refers_to_nothing (List.length (areas l)) a ->
  (exists e, html2creole u strict html = Exc e) /\ (exists e, html2textile u html = Exc e) /\
  (exists e, html2markdown u html = Exc e) /\ (exists e, html2rest u html = Exc e).
Proof. exact nothing_results. Qed.
Print Assumptions C94_nothing_raises.

(** A page with two areas and two tags that refer to them. *)
Definition tag_of_id (s : string) : attrs := [($ "type", VStr ($ "pre")); ($ "id", VStr ($ s))].
Definition page_with_tags : list item :=
  [Piece (Open ($ "p") []); Area ($ "x  y"); Piece (Txt ($ " and ")); Piece (Single ($ "inlinedata") (tag_of_id "-2")); Area ($ "z"); Piece (Single ($ "inlinedata") (tag_of_id "1")); Piece (Close ($ "p"))].
Definition page_in_full : list item :=
  [Piece (Open ($ "p") []); Area ($ "x  y"); Piece (Txt ($ " and ")); Area ($ "x  y"); Area ($ "z"); Area ($ "z"); Piece (Close ($ "p"))].
Example C94_case : exists html html', Forall2 (written_out (areas page_with_tags)) page_with_tags page_in_full /\ few page_with_tags /\ sheet page_with_tags html /\ sheet page_in_full html' /\
  html = $ "<p><pre>x  y</pre> and <inlinedata type=""pre"" id=""-2"" /><pre>z</pre><inlinedata type=""pre"" id=""1"" /></p>" /\
  html2creole transparent_unknown_nodes false html' = Ok ($ "{{{x  y}}} and {{{x  y}}}{{{z}}}{{{z}}}").
Proof.
  exists (flat_map item_src page_with_tags), (flat_map item_src page_in_full). split; [|split; [|split; [|split; [|split; vm_compute; reflexivity]]]].
  - assert (NR : forall p, match p with Single _ _ => false | _ => true end = true -> not_reserved p) by (intros p H t a ->; discriminate H).
    repeat apply Forall2_cons; try apply Forall2_nil; try apply out_area; try (apply out_piece; apply NR; reflexivity).
    + apply (out_tag _ _ (-2)%Z); [reflexivity|reflexivity|discriminate|]. exists 0%nat. split; [reflexivity|right; reflexivity].
    + apply (out_tag _ _ 1%Z); [reflexivity|reflexivity|discriminate|]. exists 1%nat. split; [reflexivity|left; reflexivity].
  - intros i H. cbn in H. do 7 (destruct i as [|i]; [discriminate|]). exfalso. lia.
  - apply sheet_plain; [|eexists _, _; split; reflexivity|].
    + repeat apply Forall_cons; try apply Forall_nil; try (split; reflexivity); try reflexivity; try (apply readable_plain; reflexivity); (split; [cbn; intuition discriminate|reflexivity]).
    + eexists (removelast (flat_map item_src page_with_tags)), 62. split; vm_compute; reflexivity.
  - apply sheet_plain; [|eexists _, _; split; reflexivity|].
    + repeat apply Forall_cons; try apply Forall_nil; try (split; reflexivity); try reflexivity; try (apply readable_plain; reflexivity); (split; [cbn; intuition discriminate|reflexivity]).
    + eexists (removelast (flat_map item_src page_in_full)), 62. split; vm_compute; reflexivity.
Qed.

Definition page_without (t : string) (a : attrs) : list item := [Piece (Open ($ "p") []); Area ($ "x"); Piece (Single ($ t) a); Piece (Close ($ "p"))].
Example C94_case_nothing : forall t a, In (t, a) [("inlinedata"%string, tag_of_id "-2"); ("blockdata"%string, tag_of_id "1"); ("blockdata"%string, tag_of_id "x"); ("inlinedata"%string, [($ "id", VStr ($ "0"))]); ("blockdata"%string, [])] ->
  In (Piece (Single ($ t) a)) (page_without t a) /\ reserved ($ t) /\ refers_to_nothing (List.length (areas (page_without t a))) a /\ exists html, sheet (page_without t a) html.
Proof.
  assert (SH : forall t a, part_plain (Single ($ t) a) -> exists html, sheet (page_without t a) html).
  { intros t a P. exists (flat_map item_src (page_without t a)). apply sheet_plain.
    - repeat apply Forall_cons; try apply Forall_nil; try exact P; try (split; reflexivity); try reflexivity. split; [cbn; intuition discriminate|reflexivity].
    - eexists _, _; split; reflexivity.
    - unfold page_without. cbn [flat_map item_src]. exists ($ "<p><pre>x</pre>" ++ part_src (Single ($ t) a) ++ $ "</p"), 62. split; [|reflexivity]. rewrite <- !app_assoc. reflexivity. }
  intros t a H. split; [right; right; left; reflexivity|]. cbn [In] in H. destruct H as [E|[E|[E|[E|[E|[]]]]]]; injection E as <- <-; (split; [first [left; reflexivity|right; reflexivity]|split; [|apply SH; split; reflexivity]]).
  - apply (no_area _ _ (-2)%Z); [reflexivity|discriminate|left; reflexivity].
  - apply (no_area _ _ 1%Z); [reflexivity|discriminate|right; discriminate].
  - apply (no_number _ _ ($ "x")); reflexivity.
  - apply no_type. intros v [E|[]]. discriminate E.
  - apply no_id. intros v [].
Qed.
