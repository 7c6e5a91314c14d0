(** * Properties of macros inside of paragraphs (C70)

    Only statements, examples and assumptions; the vocabulary is in Spec22.v. *)
From Coq Require Import String List Arith NArith ZArith Bool Lia.
From Verif Require Import PyStr Utils Res HtmlEmitter Spec4 Spec5 Spec7 Spec20 Spec22 PartDoc.
Import ListNotations.
Open Scope N_scope.

(** ** C70 *)
Theorem C70_macros_in_paragraphs : forall blog d, parts_ok blog d = true -> exists kw, (forall r, In r (requests d) -> request_means r (kw r)) /\
  forall verbose strict md html calls,
    say_parts blog strict (match verbose with None => 1%Z | Some v => v end) (md_env md) kw d (md_log md) = Some (html, calls) ->
    creole2html (mkopts blog verbose strict) md (wr_parts d) = (Ok (strip html), mkmd (md_env md) (md_toc md) calls).
Proof. exact parts_spec. Qed.
Print Assumptions C70_macros_in_paragraphs.
(** [m] answers with the number of the call and its text *)
Definition C70_env : uenv := mkenv (fun n => str_eqb n ($ "m") || str_eqb n ($ "k")) (fun before _ kw =>
  match dict_get ($ "text") kw with
  | Some (VStr t) => MRet ($ "<" ++ show_nat (List.length before) ++ $ ">" ++ t)
  | Some VNone => MRet ($ "<" ++ show_nat (List.length before) ++ $ " />")
  | _ => MBase
  end).
Definition C70_doc : list part2 :=
  [ QPara [[Tag (mktag ($ "m") [mkarg ($ "n") Bare ($ "7")] false); Plain (IText ($ " then ")); Plain (IFace Bold [IText ($ "b")]); Tag (mktag ($ "m") [] true)];
           [Plain (IText ($ "and ")); Around (mkmc ($ "k") [] ($ " x **y** ")); Plain (IText ($ " and ")); Tag (mktag ($ "nope") [] false)]];
    QBlock (BHead 2 ($ " ") ($ "Title") []);
    QPara [[Plain (IText ($ "end "))]; [Tag (mktag ($ "m") [] false)]] ].
Example C70_case : parts_ok true C70_doc = true /\ parts_ok false [nth 0 C70_doc (QPara []); nth 2 C70_doc (QPara [])] = true /\
  wr_parts C70_doc = $ "<<m n=7>> then **b**<<m />>" ++ [10] ++ $ "and <<k>> x **y** <</k>> and <<nope>>" ++ [10; 10] ++ $ "== Title" ++ [10; 10] ++ $ "end " ++ [10] ++ $ "<<m>>" /\
  let kw := fun r => match rq_args r with [] => [($ "text", match rq_text r with Some t => VStr (strip t) | None => VNone end)] | _ => [($ "n", VInt 7); ($ "text", VNone)] end in
  exists html calls, say_parts true false 1 C70_env kw C70_doc [] = Some (html, calls) /\ List.length calls = 4%nat /\
   strip html = $ "<p><0 /> then <strong>b</strong><1 /><br />" ++ [10] ++ $ "and <2>x **y** and [Error: Macro 'nope' doesn't exist]" ++ [10] ++ $ "</p>" ++ [10; 10] ++
     $ "<h2>Title</h2>" ++ [10; 10] ++ $ "<p>end <br />" ++ [10] ++ $ "<3 /></p>" /\
   creole2html default_opts (mkmd C70_env TNone []) (wr_parts C70_doc) = (Ok (strip html), mkmd C70_env TNone calls).
Proof. vm_compute. repeat (split; [reflexivity|]). do 2 eexists. repeat (split; [reflexivity|]). reflexivity. Qed.
(** a tag is taken for the start of a macro around a text if anywhere in the rest of the
    document there is the end tag of a macro whose name is a first part of its own: what is
    between them is lost *)
Theorem C70_closed_refuted : fst (creole2html default_opts (mkmd C70_env TNone []) ($ "<<mine>> **b**" ++ [10; 10] ++ $ "== Title" ++ [10; 10] ++ $ "x <</m>> y")) =
  Ok ($ "[Error: Wrong macro arguments: ""ine"" for macro 'm' (maybe wrong macro tag syntax?)]" ++ [10] ++ $ "<p> y</p>").
Proof. vm_compute. reflexivity. Qed.
Print Assumptions C70_closed_refuted.
(** a macro around a text at the start of a line is a block of its own: the paragraph ends *)
Theorem C70_line_start_refuted : fst (creole2html default_opts (mkmd C70_env TNone []) ($ "a" ++ [10] ++ $ "<<m>>x<</m>> b")) =
  Ok ($ "<p>a</p>" ++ [10] ++ $ "<0>x" ++ [10] ++ $ "<p> b</p>").
Proof. vm_compute. reflexivity. Qed.
Print Assumptions C70_line_start_refuted.
