(** * Macros in dicts, modules and other objects (C97), and the reports on stderr (C98)

    Only statements, examples and assumptions; the vocabulary is in Spec22.v and Spec46.v. *)
From Coq Require Import String List Arith NArith ZArith Bool Lia.
From Verif Require Import PyStr Utils Res HtmlEmitter MacroObj Spec4 Spec5 Spec7 Spec20 Spec22 Spec46 MacroObjFacts StderrFacts.
From Verif Require P18_Tags.
Import ListNotations.
Open Scope N_scope.

(** ** C97: whatever [macros] is, the page is the one that a dict of functions gives *)
Theorem C97_as_dict : forall o m before markup, toc_fits m ->
  let r := mcreole2html o m (real_calls m before) markup in
  let r1 := creole2html o (mkmd (as_dict m) (as_toc (mv_get m ($ "toc"))) before) markup in
  fst r = fst r1 /\ as_toc (m_toc (snd r)) = md_toc (snd r1) /\ m_log (snd r) = real_calls m (md_log (snd r1)).
Proof. exact any_as_dict. Qed.
Print Assumptions C97_as_dict.
(** the other way round: what is said elsewhere about dicts holds here *)
Theorem C97_dict : forall o d markup, dict_ok d ->
  let r := mcreole2html o (of_dict d) (md_log d) markup in
  let r1 := creole2html o d markup in
  fst r = fst r1 /\ as_toc (m_toc (snd r)) = md_toc (snd r1) /\ m_log (snd r) = md_log (snd r1).
Proof. exact dict_is_any. Qed.
Print Assumptions C97_dict.
(** a module or another object is as good as a dict *)
Theorem C97_object : forall o m before markup, mv_holder m = InDict ->
  let r1 := mcreole2html o m before markup in
  let r2 := mcreole2html o (in_object m) before markup in
  fst r1 = fst r2 /\ m_toc (snd r1) = m_toc (snd r2) /\ m_log (snd r1) = m_log (snd r2) /\ map as_attribute (m_err (snd r1)) = m_err (snd r2).
Proof. exact object_as_dict. Qed.
Print Assumptions C97_object.
(** None is as good as nothing, but for stderr *)
Theorem C97_none : forall o m n before markup, n <> $ "toc" ->
  let r1 := mcreole2html o (with_entry n None m) before markup in
  let r2 := mcreole2html o (with_entry n (Some VoidEntry) m) before markup in
  fst r1 = fst r2 /\ m_toc (snd r1) = m_toc (snd r2) /\ m_log (snd r1) = m_log (snd r2) /\ filter (fun t => negb (about n t)) (m_err (snd r1)) = m_err (snd r2).
Proof. exact none_is_missing. Qed.
Print Assumptions C97_none.
(** an object that takes no attribute: nothing is different, or [<<toc>>] cannot be added *)
Theorem C97_frozen : forall o get call before markup,
  let r := mcreole2html o (mkmv (InObject false) get call) before markup in
  r = mcreole2html o (mkmv (InObject true) get call) before markup \/
  fst r = Exc EAttributeError /\ m_log (snd r) = before /\ m_err (snd r) = [] /\ get ($ "toc") = None.
Proof. exact frozen. Qed.
Print Assumptions C97_frozen.
(** one function for all macros is refused with every page *)
Theorem C97_callable : forall o m before markup,
  fst (creole2html_any o true m before markup) = Exc ETypeError /\ snd (creole2html_any o true m before markup) = mkmst (mv_get m ($ "toc")) before [].
Proof. exact callable_refused. Qed.
Print Assumptions C97_callable.

(** [hi] answers, [version] is a text, [nothing] is None *)
Definition C97_module (h : holder) : mval := mkmv h
  (fun n => if str_eqb n ($ "hi") then Some CallEntry else if str_eqb n ($ "version") then Some (PlainEntry ($ "str")) else if str_eqb n ($ "nothing") then Some VoidEntry else None)
  (fun before _ kw => match dict_get ($ "text") kw with Some (VStr t) => MRet ($ "<b>" ++ t ++ $ "</b>") | _ => MException ($ "no text") end).
Definition C97_page : str := $ "= H" ++ [10; 10] ++ $ "<<hi>>x<</hi>>" ++ [10; 10] ++ $ "a <<version>><<nothing>><<gone>><<hi>> <<hi x>>" ++ [10; 10] ++ $ "<<toc>>".
Example C97_case : toc_fits (C97_module InDict) /\ mv_holder (C97_module InDict) = InDict /\
  let r h v := mcreole2html (mkopts true (Some v) false) (C97_module h) [] C97_page in
  fst (r InDict 1%Z) = Ok ($ "<a name=""H""><h1>H</h1></a>" ++ [10; 10] ++ $ "<b>x</b>" ++ [10; 10] ++
    $ "<p>a [Error: Macro 'version' error: 'str' object is not callable]" ++ [10] ++ $ "[Error: Macro 'nothing' doesn't exist]" ++ [10] ++ $ "[Error: Macro 'gone' doesn't exist]" ++ [10] ++
    $ "[Error: Macro 'hi' error: no text]" ++ [10] ++ $ " [Error: Wrong macro arguments: ""x"" for macro 'hi' (maybe wrong macro tag syntax?)]" ++ [10] ++ $ "</p>" ++ [10; 10] ++
    $ "<ul>" ++ [10; 9] ++ $ "<li><a href=""#H"">H</a></li>" ++ [10] ++ $ "</ul>") /\
  m_err (snd (r InDict 1%Z)) = [] /\ fst (r (InObject true) 1%Z) = fst (r InDict 1%Z) /\
  m_err (snd (r InDict 2%Z)) = [TrType ($ "version") ($ "'str' object is not callable"); TrKey ($ "gone"); TrOther ($ "hi") ($ "no text"); TrValue ($ "x")] /\
  m_err (snd (r (InObject true) 2%Z)) = [TrType ($ "version") ($ "'str' object is not callable"); TrAttr ($ "gone"); TrOther ($ "hi") ($ "no text"); TrValue ($ "x")] /\
  fst (r InDict 3%Z) = Exc ETypeError /\ fst (r (InObject false) 1%Z) = Exc EAttributeError /\
  List.length (m_log (snd (r InDict 1%Z))) = 2%nat.
Proof. split; [vm_compute; discriminate|]. vm_compute. repeat split. Qed.
Example C97_dict_case : dict_ok (mkmd P18_Tags.C70_env TNone []) /\ fst (mcreole2html default_opts (of_dict (mkmd P18_Tags.C70_env TNone [])) [] ($ "<<m>> <<no>>")) = Ok ($ "<p><0 /> [Error: Macro 'no' doesn't exist]" ++ [10] ++ $ "</p>").
Proof. split; [split; intro H; discriminate H|vm_compute; reflexivity]. Qed.
(** None under the name [toc]: there is no table of contents, and no fresh one is made *)
Example C97_toc_none : let m := with_entry ($ "toc") (Some VoidEntry) (C97_module InDict) in
  fst (mcreole2html default_opts m [] ($ "= H" ++ [10; 10] ++ $ "<<toc>>")) = Ok ($ "<h1>H</h1>" ++ [10; 10] ++ $ "<p>[Error: Macro 'toc' doesn't exist]" ++ [10] ++ $ "</p>").
Proof. vm_compute. reflexivity. Qed.

(** ** C98: nothing is written to stderr unless asked for *)
Theorem C98_quiet : forall o m before markup, (match o_verbose o with None => 1 | Some v => v end <= 1)%Z ->
  m_err (snd (mcreole2html o m before markup)) = [].
Proof. exact quiet. Qed.
Print Assumptions C98_quiet.
(** up to level 2 it makes no difference to what is called and to how it ends *)
Theorem C98_levels : forall o1 o2 m before markup, o_blog o1 = o_blog o2 -> o_strict o1 = o_strict o2 ->
  (match o_verbose o1 with None => 1 | Some v => v end <= 2)%Z -> (match o_verbose o2 with None => 1 | Some v => v end <= 2)%Z ->
  let r1 := mcreole2html o1 m before markup in
  let r2 := mcreole2html o2 m before markup in
  same_end (fst r1) (fst r2) /\ m_toc (snd r1) = m_toc (snd r2) /\ m_log (snd r1) = m_log (snd r2).
Proof. exact levels. Qed.
Print Assumptions C98_levels.
(** above level 2 all is as with level 2, or a TypeError is let through *)
Theorem C98_above : forall blog strict v m before markup, (2 < v)%Z ->
  let r3 := mcreole2html (mkopts blog (Some v) strict) m before markup in
  r3 = mcreole2html (mkopts blog (Some 2%Z) strict) m before markup \/ fst r3 = Exc ETypeError.
Proof. exact above_two. Qed.
Print Assumptions C98_above.
(** documents with macros: the reports, the calls and the end are those of the macros, one after
    the other *)
Theorem C98_reports : forall blog d, parts_ok blog d = true -> exists kw, (forall r, In r (requests d) -> request_means r (kw r)) /\
  forall verbose strict m before,
    let v := match verbose with None => 1%Z | Some v => v end in
    let r := mcreole2html (mkopts blog verbose strict) m (real_calls m before) (wr_parts d) in
    let '(calls, traces, e) := reports v m (map (fun r => (rq_name r, kw r)) (requests d)) (real_calls m before) in
    m_log (snd r) = calls /\ m_toc (snd r) = mv_get m ($ "toc") /\ m_err (snd r) = shown_reports v traces /\
    match e with
    | Some e => fst r = Exc e
    | None => exists html all, say_parts blog strict v (as_dict m) kw d before = Some (html, all) /\ fst r = Ok (strip html)
    end.
Proof. exact parts_reports. Qed.
Print Assumptions C98_reports.
Definition C98_doc : list part2 :=
  [ QPara [[Plain (IText ($ "a ")); Tag (mktag ($ "gone") [] false); Around (mkmc ($ "hi") [] ($ "t")); Tag (mktag ($ "hi") [] false)]]; QBlock (BHead 1 ($ " ") ($ "T") []); QMacro (mkmc ($ "version") [] ($ "z")) ].
Example C98_case : parts_ok true C98_doc = true /\ wr_parts C98_doc = $ "a <<gone>><<hi>>t<</hi>><<hi>>" ++ [10; 10] ++ $ "= T" ++ [10; 10] ++ $ "<<version>>z<</version>>" /\
  let kw := fun r => [($ "text", match rq_text r with Some t => VStr (strip t) | None => VNone end)] in
  reports 2 (C97_module (InObject true)) (map (fun r => (rq_name r, kw r)) (requests C98_doc)) [] =
    ([($ "hi", [($ "text", VStr ($ "t"))]); ($ "hi", [($ "text", VNone)])], [TrAttr ($ "gone"); TrOther ($ "hi") ($ "no text"); TrType ($ "version") ($ "'str' object is not callable")], None) /\
  snd (mcreole2html (mkopts true (Some 2%Z) false) (C97_module (InObject true)) [] (wr_parts C98_doc)) =
    mkmst None [($ "hi", [($ "text", VStr ($ "t"))]); ($ "hi", [($ "text", VNone)])] [TrAttr ($ "gone"); TrOther ($ "hi") ($ "no text"); TrType ($ "version") ($ "'str' object is not callable")] /\
  snd (reports 3 (C97_module (InObject true)) (map (fun r => (rq_name r, kw r)) (requests C98_doc)) []) = Some ETypeError.
Proof. vm_compute. repeat split. Qed.
