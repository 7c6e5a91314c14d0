(** * Properties of documents with tables of contents that share a dictionary of macros (C83)

    Only statements, examples and assumptions; the vocabulary is in Spec23.v and Spec35.v. *)
From Coq Require Import String List Arith NArith ZArith Bool Lia.
From Verif Require Import PyStr Utils Res HtmlEmitter Spec4 Spec5 Spec7 Spec20 Spec22 Spec23 Spec35 TocTurns.
Import ListNotations.
Open Scope N_scope.

(** ** C83 *)
Theorem C83_documents_in_turn : forall env log calls, Forall (fun x => titems_ok (o_blog (fst x)) (snd x) = true) calls ->
  in_turn (mkmd env TNone log) (written_calls calls) = map Ok (shown_in_turn false calls).
Proof. exact toc_in_turn. Qed.
Print Assumptions C83_documents_in_turn.
Definition turn_a : list titem := [TToc (Some 1); TBlock (BHead 1 ($ " ") ($ "A") [])].
Definition turn_b : list titem := [TBlock (BHead 2 ($ " ") ($ "B") [])].
Definition turn_c : list titem := [TBlock (BHead 2 ($ " ") ($ "C") []); TToc None].
Example C83_case : let calls := [(default_opts, turn_b); (default_opts, turn_a); (mkopts true None true, turn_b); (default_opts, turn_c)] in
  Forall (fun x => titems_ok (o_blog (fst x)) (snd x) = true) calls /\
  shown_in_turn false calls =
    [ $ "<h2>B</h2>";
      $ "<ul>" ++ [10; 9] ++ $ "<li><a href=""#A"">A</a></li>" ++ [10] ++ $ "</ul>" ++ [10; 10] ++ $ "<a name=""A""><h1>A</h1></a>";
      $ "<h2>B</h2>";
      $ "<a name=""C""><h2>C</h2></a>" ++ [10; 10] ++ $ "<p>&lt;&lt;toc&gt;&gt;</p>" ].
Proof. split; [repeat constructor|vm_compute; reflexivity]. Qed.
(** the second document has no table of contents, though it has one when it is converted alone *)
Theorem C83_second_table_refuted : exists d s, in_turn no_md [(default_opts, d); (default_opts, s)] <> in_turn no_md [(default_opts, d)] ++ in_turn no_md [(default_opts, s)].
Proof. exists ($ "<<toc>>"), ($ "<<toc>>" ++ [10; 10] ++ $ "= b"). vm_compute. discriminate. Qed.
Print Assumptions C83_second_table_refuted.
