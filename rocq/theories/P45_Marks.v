(** * Elements need their marks (C100)

    [creole2html o md s] is [creole2html(s, ...)] (HtmlEmitter.v); the table of marks and tags
    is in Spec49.v. *)
From Coq Require Import String List NArith ZArith Bool Lia.
From Verif Require Import PyStr Res HtmlEmitter Spec49 MarksFacts.
Import ListNotations.
Open Scope N_scope.

(** in a page without macros every [<] belongs to a tag whose mark is in the markup *)
Theorem C100_marks : forall (o : opts) (md : mdict) (s html : str),
  ~ occurs ($ "<<") s -> (o_strict o = true \/ ~ occurs ($ "{{") s \/ ~ occurs ($ "<") s) ->
  fst (creole2html o md s) = Ok html -> tags_from s html.
Proof. exact marks_needed. Qed.
Print Assumptions C100_marks.
Definition marks_text : str := $ "== a" ++ [13; 10] ++ $ "* http://x **b** <i>".
Example C100_marks_case : ~ occurs ($ "<<") marks_text /\ ~ occurs ($ "{{") marks_text /\
  fst (creole2html default_opts no_md marks_text) =
    Ok ($ "<h2>a</h2>" ++ [10] ++ $ "<ul>" ++ [10; 9] ++ $ "<li><a href=""http://x"">http://x</a> <strong>b</strong> &lt;i&gt;</li>" ++ [10] ++ $ "</ul>").
Proof. split; [|split]; [apply not_occurs; reflexivity.. | vm_compute; reflexivity]. Qed.

(** a markup without marks gives paragraphs and line breaks only *)
Theorem C100_plain : forall (o : opts) (md : mdict) (s html : str),
  ~ occurs ($ "<<") s -> (forall m l, In (m, l) marked_tags -> ~ occurs m s) -> ~ occurs ($ "=") s -> ~ occurs ($ "://") s ->
  fst (creole2html o md s) = Ok html ->
  forall a b, html = a ++ 60 :: b -> exists t u, In t plain_tags /\ b = t ++ u.
Proof. exact plain_page. Qed.
Print Assumptions C100_plain.
Definition plain_text : str := $ "a <b> javascript:x" ++ [10] ++ $ "[c] - ~d /e/ {f}".
Example C100_plain_case : ~ occurs ($ "<<") plain_text /\ (forall m l, In (m, l) marked_tags -> ~ occurs m plain_text) /\
  ~ occurs ($ "=") plain_text /\ ~ occurs ($ "://") plain_text /\
  fst (creole2html default_opts no_md plain_text) =
    Ok ($ "<p>a &lt;b&gt; javascript:x<br />" ++ [10] ++ $ "[c] - d /e/ {f}</p>").
Proof.
  split; [apply not_occurs; reflexivity|]. split; [apply no_marks; reflexivity|].
  split; [apply not_occurs; reflexivity|]. split; [apply not_occurs; reflexivity | vm_compute; reflexivity].
Qed.

(** without [[[] every link goes to an address that stands in the markup with one of the nine protocols *)
Theorem C100_addresses : forall (o : opts) (md : mdict) (s html : str),
  ~ occurs ($ "<<") s -> (o_strict o = true \/ ~ occurs ($ "{{") s \/ ~ occurs ($ "<") s) -> ~ occurs ($ "[[") s ->
  fst (creole2html o md s) = Ok html ->
  forall a b, html = a ++ $ "<a " ++ b ->
  exists p u, In p protocols /\ occurs (p ++ $ "://") s /\ b = $ "href=""" ++ p ++ $ "://" ++ u.
Proof. exact addresses. Qed.
Print Assumptions C100_addresses.
Example C100_addresses_case : ~ occurs ($ "<<") ($ "javascript://x ftp://y") /\ ~ occurs ($ "{{") ($ "javascript://x ftp://y") /\
  ~ occurs ($ "[[") ($ "javascript://x ftp://y") /\
  fst (creole2html default_opts no_md ($ "javascript://x ftp://y")) =
  Ok ($ "<p>javascript://x <a href=""ftp://y"">ftp://y</a></p>").
Proof. split; [|split; [|split]]; [apply not_occurs; reflexivity.. | vm_compute; reflexivity]. Qed.

(** in brackets every address is taken, scripts too *)
Theorem C100_scripts_refuted : ~ (forall o md s html a b,
  ~ occurs ($ "<<") s -> fst (creole2html o md s) = Ok html -> html = a ++ $ "<a href=""" ++ b ->
  startswith ($ "javascript:") b = false).
Proof.
  intro H. specialize (H default_opts no_md ($ "[[javascript:x|y]]") ($ "<p><a href=""javascript:x"">y</a></p>") ($ "<p>") ($ "javascript:x"">y</a></p>")).
  assert (startswith ($ "javascript:") ($ "javascript:x"">y</a></p>") = false); [|discriminate]. apply H.
  - intros (a & b & E). repeat (destruct a as [|? a]; [discriminate | injection E as _ E]). destruct a; discriminate.
  - vm_compute. reflexivity.
  - reflexivity.
Qed.
Print Assumptions C100_scripts_refuted.

(** the condition on images is needed: an image with a size and no title shows its address
    unescaped *)
Theorem C100_title_refuted : ~ (forall o md s html, ~ occurs ($ "<<") s -> fst (creole2html o md s) = Ok html -> tags_from s html).
Proof.
  intro H. specialize (H default_opts no_md ($ "{{<b>||1x1}}") ($ "<p><img src=""&lt;b&gt;"" title=""<b>"" alt=""<b>"" width=""1"" height=""1"" /></p>")).
  destruct (H ltac:(intros (a & b & E); repeat (destruct a as [|? a]; [discriminate | injection E as _ E]); destruct a; discriminate)
              ltac:(vm_compute; reflexivity) ($ "<p><img src=""&lt;b&gt;"" title=""") ($ "b>"" alt=""<b>"" width=""1"" height=""1"" /></p>") eq_refl)
    as (t & u & Ht & E).
  destruct Ht as [t Ht|m l t Hm _ Hl|n Hn _|n Hn _|t _ _ Ht|p Hp _|p Hp _]; try discriminate.
  - cbn [In plain_tags] in Ht. repeat destruct Ht as [<-|Ht]; [.. | destruct Ht]; discriminate.
  - cbn [In marked_tags] in Hm. repeat destruct Hm as [Hm|Hm]; [.. | destruct Hm]; injection Hm as <- <-;
      cbn [In] in Hl; repeat destruct Hl as [<-|Hl]; try destruct Hl; discriminate.
  - destruct Ht as [->| ->]; discriminate.
Qed.
Print Assumptions C100_title_refuted.
