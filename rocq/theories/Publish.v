(** * creole/publish.py, and the calls of docutils in creole/rest_tools

    poetry_publish, make and docutils are not modelled: what they answer is an input, and that
    they are called is recorded. *)
From Coq Require Import String List Arith NArith ZArith Bool.
From Verif Require Import PyStr Utils Res SetupUtils RestTools.
Import ListNotations.
Open Scope N_scope.

(** ** publish — creole/publish.py:10-32 *)
(** the calls: ["make fix-code-style"], [poetry_publish] with the files of the package *)
Inductive pcall := CallStyle | CallRelease (files : dir).
Inductive pout := PubDone | PubReadme (e : serr) | PubStyle.
Section Publish.
  Variable renders : str -> bool.              (* readme_renderer.rst.render(...) is not None *)
  Variable style : dir -> option dir.          (* make fix-code-style: the files afterwards; [None]: it fails *)
  (** [package_root] is the directory; [version] and [creole_readme] are passed on and left out here *)
  Definition publish (d : dir) : pout * list pcall :=
    match assert_rst renders d ($ "README.creole") with
    | (SErr e, _) => (PubReadme e, [])
    | (SOk _, d1) =>
      match style d1 with
      | None => (PubStyle, [CallStyle])
      | Some d2 => (PubDone, [CallStyle; CallRelease d2])
      end
    end.
End Publish.

(** ** rest2html — creole/rest_tools/clean_writer.py:185-221 *)
(** [d.update(kwargs)] *)
Definition dict_update (d kwargs : pydict) : pydict := fold_left (fun d x => dict_set (fst x) (snd x) d) kwargs d.
(** settings_overrides, clean_writer.py:202-208 *)
Definition rest_settings (kwargs : pydict) : pydict :=
  dict_update [ ($ "input_encoding", VStr ($ "unicode")); ($ "doctitle_xform", VBool false); ($ "file_insertion_enabled", VBool false); ($ "raw_enabled", VBool false) ] kwargs.
(** [content]: [None] is an object that is not a [str].  [publish_parts]: the part html_body of
    docutils' answer for the source and the settings. *)
Definition rest2html (publish_parts : str -> pydict -> res str) (content : option str) (kwargs : pydict) : res str :=
  match content with
  | None => Exc EAssertion
  | Some source => publish_parts source (rest_settings kwargs)
  end.
(** settings_overrides of pypi_rest2html, creole/rest_tools/pypi_rest2html.py:40-45 *)
Definition pypi_settings : pydict := [ ($ "raw_enabled", VInt 0); ($ "file_insertion_enabled", VInt 0); ($ "halt_level", VInt 2); ($ "report_level", VInt 5) ].

(** ** CleanHTMLTranslator.visit_image — clean_writer.py:163-182 *)
(** an image node: its own alignment, the tag name of its parent and the alignment of that *)
Record image := mkimage { i_align : option str; i_parent : str; i_parent_align : option str }.
(** [body] is what docutils' visit_image leaves in [self.body], the last piece first *)
Definition visit_image (node : image) (body : list str) : list str :=
  match body with
  | [] => []
  | b :: r =>
    if startswith ($ "<img") b then
      let align := match i_align node with
                   | Some a => a
                   | None => if str_eqb (i_parent node) ($ "figure") then match i_parent_align node with Some a => a | None => [] end else []
                   end in
      if truthy align then replace ($ " />") ($ " align=""" ++ align ++ $ """ />") b :: r else body
    else body
  end.
