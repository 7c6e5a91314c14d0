(** * creole/setup_utils.py

    The package directory maps file names to texts: encoding and decoding (the same codec is
    assumed for all accesses) and directories are not modelled, nor is the output to the
    terminal.  Line ends are written as they are (POSIX).  The reStructuredText check of
    readme_renderer, the rendering of markdown and the time stamp are parameters. *)
From Coq Require Import String List Arith NArith ZArith Bool.
From Verif Require Import PyStr Utils Res HtmlEmitter HtmlBase Html2X.
Import ListNotations.
Open Scope N_scope.

Definition dir := str -> option str.
Definition write_file (d : dir) (name text : str) : dir := fun n => if str_eqb n name then Some text else d n.

(** reading a text file: universal newlines *)
Fixpoint universal (s : str) : str :=
  match s with
  | 13 :: t => 10 :: match t with 10 :: u => universal u | _ => universal t end
  | c :: t => c :: universal t
  | [] => []
  end.
Definition read_text (d : dir) (name : str) : option str := option_map universal (d name).
(** iterating over a text file: lines end at \n only *)
Fixpoint file_lines_go (cur : str) (s : str) : list str :=
  match s with
  | [] => match cur with [] => [] | _ => [rev cur] end
  | c :: t => if c =? 10 then rev (c :: cur) :: file_lines_go [] t else file_lines_go (c :: cur) t
  end.
Definition file_lines (s : str) : list str := file_lines_go [] s.
(** [s.rsplit('\n', n)[0]] *)
Fixpoint cut_back (n : nat) (r : str) : str :=
  match n with
  | O => r
  | S m => match split1 10 r with Some (_, b) => cut_back m b | None => r end
  end.
Definition rsplit_head (n : nat) (s : str) : str := rev (cut_back n (rev s)).
(** Path.with_suffix for a name: the part after the last dot is replaced if the dot is neither
    the first nor the last character *)
Definition with_suffix (name suffix : str) : str :=
  match split1 46 (rev name) with
  | Some (ext, base) => if truthy ext && truthy base then rev base ++ suffix else name ++ suffix
  | None => name ++ suffix
  end.

(** AssertionError, FileNotFoundError, sys.exit, an exception of a converter *)
Inductive serr := SAssert | SMissing | SExit | SConv (e : exc).
Inductive sres (A : Type) := SOk (a : A) | SErr (e : serr).
Arguments SOk {A} a.
Arguments SErr {A} e.

Definition default_html (creole : str) : res str := fst (creole2html (mkopts true None false) no_md creole).

Section Tools.
  Variable renders : str -> bool.           (* readme_renderer.rst.render(...) is not None *)
  Variable mtime : str.                     (* the time stamp of the creole file as text *)

  (** _generate_rst_readme, setup_utils.py:107-126 *)
  Definition generate_rst (d : dir) (name : str) : sres str :=
    match read_text d name with
    | None => SErr SMissing
    | Some creole =>
      match (do h <- default_html (strip creole); html2rest raise_unknown_node h) with
      | Exc e => SErr (SConv e)
      | Ok rest => if renders rest then SOk rest else SErr SExit
      end
    end.
  (** _generate_markdown_readme, setup_utils.py:129-144, with the html file it leaves *)
  Definition generate_md (d : dir) (name : str) : sres str * dir :=
    match read_text d name with
    | None => (SErr SMissing, d)
    | Some creole =>
      match default_html (strip creole) with
      | Exc e => (SErr (SConv e), d)
      | Ok h =>
        let d := write_file d (with_suffix name ($ ".html")) h in
        match html2markdown raise_unknown_node h with
        | Exc e => (SErr (SConv e), d)
        | Ok m => (SOk m, d)
        end
      end
    end.

  (** the comparison, setup_utils.py:164-170 and 212-218: [zip] stops at the shorter one *)
  Fixpoint differ (new old : list str) : bool :=
    match new, old with
    | n :: new, o :: old => if str_eqb (rstrip n) (rstrip o) then differ new old else true
    | _, _ => false
    end.
  Definition changed (new old : str) : bool := differ (splitlines new) (file_lines old).
  (** what is written, setup_utils.py:177-188 and 225-236 *)
  Definition note (name : str) : str :=
    $ "``Note: this file is generated from " ++ name ++ [32] ++ mtime ++ $ " with ""python-creole""``".
  Definition with_note (text name : str) : str := text ++ ([10; 10] ++ $ "------------" ++ [10; 10]) ++ note name.

  (** update_rst_readme, setup_utils.py:147-191; the result tells whether it has written *)
  Definition update_rst (d : dir) (name : str) : sres bool * dir :=
    match d name with
    | None => (SErr SAssert, d)
    | Some _ =>
      match generate_rst d name with
      | SErr e => (SErr e, d)
      | SOk rest =>
        let target := with_suffix name ($ ".rst") in
        match read_text d target with
        | None => (SErr SMissing, d)
        | Some old => if changed rest old then (SOk true, write_file d target (with_note rest name)) else (SOk false, d)
        end
      end
    end.
  (** update_markdown_readme, setup_utils.py:194-239 *)
  Definition update_md (d : dir) (name : str) : sres bool * dir :=
    match d name with
    | None => (SErr SAssert, d)
    | Some _ =>
      let '(r, d) := generate_md d name in
      match r with
      | SErr e => (SErr e, d)
      | SOk m =>
        let target := with_suffix name ($ ".md") in
        match read_text d target with
        | None => (SErr SMissing, d)
        | Some old => if changed m old then (SOk true, write_file d target (with_note m name)) else (SOk false, d)
        end
      end
    end.
  (** the check, setup_utils.py:248-256 and 265-273 *)
  Definition check (d : dir) (target new : str) : sres unit :=
    match read_text d target with
    | None => SErr SMissing
    | Some content =>
      if negb (truthy content) then SErr SAssert
      else if str_eqb new (rsplit_head 4 content) then SOk tt else SErr SAssert
    end.
  (** assert_rst_readme, setup_utils.py:242-256 *)
  Definition assert_rst (d : dir) (name : str) : sres unit * dir :=
    match generate_rst d name with
    | SErr e => (SErr e, d)
    | SOk rest => (check d (with_suffix name ($ ".rst")) rest, d)
    end.
  (** assert_markdown_readme, setup_utils.py:259-273 *)
  Definition assert_md (d : dir) (name : str) : sres unit * dir :=
    let '(r, d) := generate_md d name in
    match r with
    | SErr e => (SErr e, d)
    | SOk m => (check d (with_suffix name ($ ".md")) m, d)
    end.
End Tools.

(** ** get_long_description, setup_utils.py:36-104 *)
Definition raise_errors_args : list str :=
  [ $ "check"; $ "register"; $ "sdist"; $ "bdist"; $ "upload"; $ "--long-description"; $ "--restructuredtext" ].
Definition should_raise_errors (argv : list str) : bool :=
  (List.length argv =? 1)%nat || existsb (fun a => existsb (str_eqb a) argv) raise_errors_args.
(** The call [html2rest(html, emitter_kwargs=...)], setup_utils.py:78-81: html2rest
    (creole/__init__.py:129-131) has no parameter of that name. *)
Definition html2rest_emitter_kwargs (html : str) : res str := Exc ETypeError.
(** [None]: the file cannot be read.  [show_exc] is [str] of the exception.  The self test of
    the result, setup_utils.py:88-102, is [pypi]. *)
Definition get_long_description (pypi : str -> bool) (show_exc : exc -> str) (raise_errors : bool) (file : option str) : sres str :=
  let origin := match file with Some t => strip t | None => [] end in
  let r := match file with
           | None => Exc EOther
           | Some _ => do h <- default_html origin; html2rest_emitter_kwargs h
           end in
  match r with
  | Exc e => if raise_errors then SErr (SConv e) else SOk ($ "[Error: " ++ show_exc e ++ $ "]" ++ [10] ++ origin)
  | Ok rest => if raise_errors && negb (pypi rest) then SErr SExit else SOk rest
  end.
(** setup_utils.py:55-56: [raise_errors=None], the default; [argv] is [sys.argv] *)
Definition get_long_description_default (pypi : str -> bool) (show_exc : exc -> str) (argv : list str) (file : option str) : sres str :=
  get_long_description pypi show_exc (should_raise_errors argv) file.
