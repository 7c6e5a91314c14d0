(** * creole/shared/example_macros.py

    The three example macros as an environment for [creole2html], for a system without
    pygments ([PYGMENTS = False], example_macros.py:18-22; with pygments [code] calls an
    external library, see below).  Simplification: the functions are in a dict
    [{"html": html, "pre": pre, "code": code}] instead of the module itself. *)
From Coq Require Import String List NArith ZArith Bool.
From Verif Require Import PyStr Utils HtmlEmitter.
Import ListNotations.
Open Scope N_scope.

(** Python's call with keyword arguments: the first one that is no parameter *)
Definition unexpected (params : list str) (kw : pydict) : option str :=
  match List.find (fun kv : str * pyval => negb (existsb (str_eqb (fst kv)) params)) kw with Some (k, _) => Some k | None => None end.
Definition unexpected_msg (f k : str) : str := f ++ $ "() got an unexpected keyword argument '" ++ k ++ $ "'".
Definition missing_msg (f k : str) : str := f ++ $ "() missing 1 required positional argument: '" ++ k ++ $ "'".

(** html, example_macros.py:25-30.  The text is a str or None (macro_emit sets it,
    creol2html_emitter.py:301). *)
Definition html_macro (kw : pydict) : outcome :=
  match unexpected [$ "text"] kw with
  | Some k => MTypeError (unexpected_msg ($ "html") k)
  | None =>
    match dict_get ($ "text") kw with
    | Some (VStr t) => MRet t
    | Some _ => MNonStr ($ " - returns: None, type <class 'NoneType'>")
    | None => MTypeError (missing_msg ($ "html") ($ "text"))
    end
  end.
(** the body of pre, example_macros.py:33-38 *)
Definition pre_body (f : str) (kw : pydict) : outcome :=
  match dict_get ($ "text") kw with
  | Some (VStr t) => MRet ($ "<pre>" ++ escape t ++ $ "</pre>")
  | Some _ => MException ($ "'NoneType' object has no attribute 'replace'")
  | None => MTypeError (missing_msg f ($ "text"))
  end.
(** pre, example_macros.py:33-38 *)
Definition pre_macro (kw : pydict) : outcome :=
  match unexpected [$ "text"] kw with
  | Some k => MTypeError (unexpected_msg ($ "pre") k)
  | None => pre_body ($ "pre") kw
  end.
(** code, example_macros.py:41-66, without pygments: lines 46-47 *)
Definition code_macro (kw : pydict) : outcome :=
  match unexpected [$ "ext"; $ "text"] kw with
  | Some k => MTypeError (unexpected_msg ($ "code") k)
  | None => match dict_get ($ "ext") kw with
            | None => MTypeError (missing_msg ($ "code") ($ "ext"))
            | Some _ => pre_body ($ "code") kw
            end
  end.
Definition example_env : uenv :=
  mkenv (fun n => existsb (str_eqb n) [$ "html"; $ "pre"; $ "code"])
    (fun _ n kw => if str_eqb n ($ "html") then html_macro kw
                   else if str_eqb n ($ "pre") then pre_macro kw else code_macro kw).
Definition example_md : mdict := mkmd example_env TNone [].

(** ** With pygments (example_macros.py:18-22: [PYGMENTS = True])

    pygments itself is a parameter: [by_name] is [lexers.get_lexer_by_name] ([None]: it raises),
    [guess] is the outcome of [lexers.guess_lexer] on the argument it is given here, which is
    the function [code] and so always the same (example_macros.py:58, utils.py:93), and
    [highlight] is [highlight(text, lexer, formatter).decode('utf-8')] with the formatter of
    utils.py:82-86 ([None]: it raises).  A text of [None] is what a macro tag has. *)
Record pygments := mkpyg {
  lexer : Type;
  by_name : str -> option lexer;
  guess : lexer + outcome;
  highlight : lexer -> option str -> option str
}.
(** example_macros.py:49-56; the TypeError of [in] is not caught, an IndexError is *)
Definition source_type (ext : pyval) : str + str :=
  let type t := Datatypes.inr ($ "argument of type '" ++ t ++ $ "' is not iterable") in
  match ext with
  | VStr e => Datatypes.inl (if existsb (N.eqb 46) e then nth 1 (split_on 46 (strip e)) [] else strip e)
  | VInt _ => type ($ "int")
  | VBool _ => type ($ "bool")
  | VNone => type ($ "NoneType")
  end.
(** get_pygments_lexer, utils.py:89-96 *)
Definition get_lexer (p : pygments) (source_type : str) : lexer p + outcome :=
  match by_name p source_type with Some l => Datatypes.inl l | None => guess p end.
(** example_macros.py:61-66.  If [pre] raises too, the name is not
    bound in [finally] (the message is the one of Python 3.11). *)
Definition painted (p : pygments) (l : lexer p) (text : option str) : outcome :=
  match highlight p l text with
  | Some h => MRet (replace [10] ($ "<br />" ++ [10]) h)
  | None =>
    match text with
    | Some t => MRet (replace [10] ($ "<br />" ++ [10]) ($ "<pre>" ++ escape t ++ $ "</pre>"))
    | None => MException ($ "cannot access local variable 'highlighted_text' where it is not associated with a value")
    end
  end.
(** code, example_macros.py:41-66 *)
Definition code_macro_with (p : pygments) (kw : pydict) : outcome :=
  match unexpected [$ "ext"; $ "text"] kw with
  | Some k => MTypeError (unexpected_msg ($ "code") k)
  | None =>
    match dict_get ($ "ext") kw, dict_get ($ "text") kw with
    | None, _ => MTypeError (missing_msg ($ "code") ($ "ext"))
    | Some _, None => MTypeError (missing_msg ($ "code") ($ "text"))
    | Some ext, Some text =>
      match source_type ext with
      | Datatypes.inr msg => MTypeError msg
      | Datatypes.inl s =>
        match get_lexer p s with
        | Datatypes.inr o => o
        | Datatypes.inl l => painted p l (match text with VStr t => Some t | _ => None end)
        end
      end
    end
  end.
Definition example_env_with (p : pygments) : uenv :=
  mkenv (fun n => existsb (str_eqb n) [$ "html"; $ "pre"; $ "code"])
    (fun _ n kw => if str_eqb n ($ "html") then html_macro kw
                   else if str_eqb n ($ "pre") then pre_macro kw else code_macro_with p kw).
Definition example_md_with (p : pygments) : mdict := mkmd (example_env_with p) TNone [].
