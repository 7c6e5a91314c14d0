(** * Chosen block rules (C99)

    [creole2html_rules o rs md s] is [creole2html(s, block_rules=b, ...)] with an object [b]
    whose [rules] are [rs] (BlockRulesArg.v); the vocabulary is in Spec47.v and HtmlSpec.v. *)
From Coq Require Import String List NArith ZArith Bool Lia.
From Verif Require Import PyStr Res HtmlEmitter HtmlSpec Spec BlockRulesArg Spec47 RulesArgFacts.
Import ListNotations.
Open Scope N_scope.

(** the rules that [BlockRules(blog_line_breaks=b)] has are the default for [b], whatever
    [blog_line_breaks] says *)
Theorem C99_default : forall (o : opts) (blog : bool) (md : mdict) (s : str),
  creole2html_rules o (standard blog) md s = creole2html (mkopts blog (o_verbose o) (o_strict o)) md s.
Proof. exact rules_default. Qed.
Print Assumptions C99_default.
Example C99_default_case :
  fst (creole2html_rules (mkopts true None false) (standard false) no_md ($ "a" ++ [10] ++ $ "b")) = Ok ($ "<p>a b</p>").
Proof. vm_compute. reflexivity. Qed.

(** any choice of the rules in any order converts every markup, and gives a page whose
    elements all belong to a chosen rule *)
Theorem C99_chosen : forall (o : opts) (rs : list brule) (md : mdict) (s : str),
  once rs -> tame (eff_verbose o) (md_env md) -> contains ($ "toc") s = false ->
  exists f, fst (creole2html_rules o rs md s) = Ok (strip (show_all f)) /\
    document (raw_piece (eff_verbose o) (md_env md)) img_shape f /\ only_from rs f /\ elements_from rs f.
Proof. exact rules_chosen. Qed.
Print Assumptions C99_chosen.
Definition example_page : str := $ "= a" ++ [10] ++ $ "* b" ++ [10; 10] ++ $ "|c|" ++ [10; 10] ++ $ "----".
Example C99_chosen_case : once [B_text true; B_table; B_line] /\ tame 1 no_macros /\ contains ($ "toc") example_page = false /\
  fst (creole2html_rules default_opts [B_line; B_table; B_text true] no_md example_page) =
    Ok ($ "<p>= a<br />" ++ [10] ++ $ "* b</p>" ++ [10; 10] ++ $ "<table>" ++ [10] ++ $ "<tr>" ++ [10; 9] ++ $ "<td>c</td>" ++ [10] ++
        $ "</tr>" ++ [10] ++ $ "</table>" ++ [10; 10] ++ $ "<p>----</p>").
Proof.
  split; [|split; [left; reflexivity | split; vm_compute; reflexivity]].
  cbn [once In]. repeat split; intros q Hq E; repeat (destruct Hq as [<-|Hq]; [destruct E as [E|(x & y & E1 & E2)]; discriminate|]); destruct Hq.
Qed.

(** with images made strict and no error texts nothing of the markup is left unescaped *)
Theorem C99_safe : forall (blog : bool) (rs : list brule) (s : str), once rs -> contains ($ "toc") s = false ->
  exists f, fst (creole2html_rules (mkopts blog (Some 0%Z) true) rs no_md s) = Ok (strip (show_all f)) /\
    document (fun _ => False) img_attrs f /\ only_from rs f.
Proof. exact rules_safe. Qed.
Print Assumptions C99_safe.
Example C99_safe_case : fst (creole2html_rules (mkopts true (Some 0%Z) true) [B_head] no_md ($ "x" ++ [10] ++ $ "= <b>")) = Ok ($ "<h1>&lt;b&gt;</h1>").
Proof. vm_compute. reflexivity. Qed.

(** a rule that stands twice is refused before the markup is read *)
Theorem C99_twice : forall (o : opts) (rs : list brule) (md : mdict) (s : str), ~ once rs ->
  creole2html_rules o rs md s = (Exc EOther, md).
Proof. exact rules_twice. Qed.
Print Assumptions C99_twice.
Example C99_twice_case : ~ once [B_text true; B_head; B_text false].
Proof. cbn [once]. intros [H _]. apply (H (B_text false)); [right; left; reflexivity | right; eauto]. Qed.

(** the order matters: with the text rule before the others a heading is a paragraph *)
Theorem C99_order_refuted : ~ (forall rs rs' s, (forall r, In r rs <-> In r rs') -> once rs -> once rs' ->
  fst (creole2html_rules default_opts rs no_md s) = fst (creole2html_rules default_opts rs' no_md s)).
Proof.
  intro H. specialize (H [B_head; B_text true] [B_text true; B_head] ($ "= a")).
  assert (E : fst (creole2html_rules default_opts [B_head; B_text true] no_md ($ "= a")) =
              fst (creole2html_rules default_opts [B_text true; B_head] no_md ($ "= a"))).
  { apply H.
    - intro r. cbn [In]. tauto.
    - cbn [once In]. repeat split; intros q Hq E; repeat (destruct Hq as [<-|Hq]; [destruct E as [E|(x & y & E1 & E2)]; discriminate|]); destruct Hq.
    - cbn [once In]. repeat split; intros q Hq E; repeat (destruct Hq as [<-|Hq]; [destruct E as [E|(x & y & E1 & E2)]; discriminate|]); destruct Hq. }
  vm_compute in E. discriminate.
Qed.
Print Assumptions C99_order_refuted.
