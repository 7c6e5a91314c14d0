(** * Vocabulary: macros in a dict, a module or another object, and the reports on stderr

    What is said about [macros] and about the exceptions of tracebacks refers to the types of
    MacroObj.v ([mval], [entry], [trace]); the documents are those of Spec22.v. *)
From Coq Require Import String List NArith ZArith Bool.
From Verif Require Import PyStr Utils Res HtmlEmitter MacroObj Spec20 Spec22.
Import ListNotations.
Open Scope N_scope.

(** ** the dict of callables that does the same *)
Definition cannot_call (cls : str) : str := $ "'" ++ cls ++ $ "' object is not callable".
(** a name exists if something else than None is found there *)
Definition exists_in (m : mval) (n : str) : bool := match mv_get m n with None | Some VoidEntry => false | Some _ => true end.
(** what cannot be called is as good as a function that raises TypeError *)
Definition callable_in (m : mval) (n : str) : bool := match mv_get m n with Some (PlainEntry _) => false | _ => true end.
Definition real_calls (m : mval) (l : list call) : list call := filter (fun c => callable_in m (fst c)) l.
Definition as_dict (m : mval) : uenv :=
  mkenv (exists_in m) (fun before n kw => match mv_get m n with Some (PlainEntry cls) => MTypeError (cannot_call cls) | _ => mv_call m (real_calls m before) n kw end).
Definition as_toc (e : option entry) : tocval :=
  match e with None | Some VoidEntry => TNone | Some (TocEntry t) => TObj t | Some _ => TUser end.
(** a dict as in HtmlEmitter.v, and the other way round *)
Definition of_dict (d : mdict) : mval :=
  mkmv InDict (fun n => if str_eqb n ($ "toc") then match md_toc d with TNone => None | TObj t => Some (TocEntry t) | TUser => Some CallEntry end
                        else if u_has (md_env d) n then Some CallEntry else None) (u_call (md_env d)).
(** [TUser] stands for a macro of the user's *)
Definition dict_ok (d : mdict) : Prop := md_toc d = TUser <-> u_has (md_env d) ($ "toc") = true.

(** [toc] may be missing (if it can be added) or be anything but None *)
Definition toc_fits (m : mval) : Prop := match mv_get m ($ "toc") with Some VoidEntry => False | None => mv_holder m <> InObject false | _ => True end.

(** ** the same macros in an object *)
Definition in_object (m : mval) : mval := mkmv (InObject true) (mv_get m) (mv_call m).
Definition as_attribute (t : trace) : trace := match t with TrKey n => TrAttr n | t => t end.
(** the name [n] has nothing but None, or is missing *)
Definition with_entry (n : str) (e : option entry) (m : mval) : mval := mkmv (mv_holder m) (fun k => if str_eqb k n then e else mv_get m k) (mv_call m).
Definition about (n : str) (t : trace) : bool := match t with TrKey k | TrAttr k => str_eqb k n | _ => false end.

(** ** what the macros of a page report, one after the other

    [requests]: the names and arguments in reading order.  The calls made, the tracebacks, and the
    exception that is let through, if any. *)
Section Reports.
Variables (v : Z) (m : mval).
Definition report (n : str) (kw : pydict) (before : list call) : list call * list trace * option exc :=
  let type_error l msg := if (2 <? v)%Z then (l, [], Some ETypeError) else (l, [TrType n msg], None) in
  match mv_get m n with
  | None => (before, [match mv_holder m with InDict => TrKey n | InObject _ => TrAttr n end], None)
  | Some VoidEntry => (before, [], None)
  | Some (PlainEntry cls) => type_error before (cannot_call cls)
  | Some _ =>
    let l := before ++ [(n, kw)] in
    match mv_call m before n kw with
    | MRet _ | MNonStr _ => (l, [], None)
    | MTypeError msg => type_error l msg
    | MException msg => (l, [TrOther n msg], None)
    | MBase => (l, [], Some EMacroBase)
    end
  end.
Fixpoint reports (reqs : list (str * pydict)) (before : list call) : list call * list trace * option exc :=
  match reqs with
  | [] => (before, [], None)
  | (n, kw) :: r =>
    match report n kw before with
    | (l, t, Some e) => (l, t, Some e)
    | (l, t, None) => let '(l', t', e) := reports r l in (l', t ++ t', e)
    end
  end.
(** nothing is written unless asked for *)
Definition shown_reports (t : list trace) : list trace := if (1 <? v)%Z then t else [].
End Reports.

(** ** two runs that differ in what they say, not in what they do *)
Definition same_end (r1 r2 : res str) : Prop := match r1, r2 with Ok _, Ok _ => True | Exc e1, Exc e2 => e1 = e2 | _, _ => False end.
