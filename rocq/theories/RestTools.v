(** * creole/rest_tools and creole/shared/diff_utils.py

    docutils and difflib are not modelled: the nodes of the document, the function that
    escapes attribute values and the lines of the diff are inputs. *)
From Coq Require Import String List Arith NArith ZArith Bool.
From Verif Require Import PyStr Utils Res HtmlTools UrlQuote.
Import ListNotations.
Open Scope N_scope.

(** ** pypi_rest2html — creole/rest_tools/pypi_rest2html.py *)
(** ALLOWED_SCHEMES, pypi_rest2html.py:30-32 *)
Definition allowed_schemes : list str :=
  [ $ "file"; $ "ftp"; $ "gopher"; $ "hdl"; $ "http"; $ "https"; $ "imap"; $ "mailto"; $ "mms"; $ "news"; $ "nntp";
    $ "prospero"; $ "rsync"; $ "rtsp"; $ "rtspu"; $ "sftp"; $ "shttp"; $ "sip"; $ "sips"; $ "snews"; $ "svn"; $ "svn+ssh"; $ "telnet";
    $ "wais"; $ "irc" ].
(** a node of the document: is it a text node, its attributes refuri and uri *)
Record rnode := mkrnode { r_text : bool; r_refuri : option str; r_uri : option str }.
Inductive pypi_res := POk | PTransform | PExc (e : exc).
(** the loop, pypi_rest2html.py:51-62 *)
Fixpoint pypi_check (nodes : list rnode) : pypi_res :=
  match nodes with
  | [] => POk
  | n :: t =>
    if r_text n then pypi_check t
    else match (match r_refuri n with Some u => Some u | None => r_uri n end) with
         | None => pypi_check t
         | Some uri =>
           match urlparse uri with
           | Exc e => PExc e
           | Ok o => if in_list allowed_schemes (u_scheme o) then pypi_check t else PTransform
           end
         end
  end.

(** ** CleanHTMLTranslator.starttag — creole/rest_tools/clean_writer.py:70-114 *)
(** IGNORE_ATTR and IGNORE_TAGS, clean_writer.py:44-49 *)
Definition ignore_attr : list str := [ $ "start"; $ "class"; $ "classes"; $ "frame"; $ "rules" ].
Definition ignore_tags : list str := [ $ "div" ].
(** an attribute value: None, a list (of the [str] of its items) or the [str] of a value *)
Inductive aval := ANone | AList (l : list str) | AVal (s : str).
Fixpoint ins_attr (e : str * aval) (l : list (str * aval)) : list (str * aval) :=
  match l with
  | [] => [e]
  | h :: t => if str_leb (fst e) (fst h) then e :: l else h :: ins_attr e t
  end.
Definition sort_attrs (d : list (str * aval)) : list (str * aval) := fold_right ins_attr [] d.
Section Starttag.
  Variable attval : str -> str.              (* docutils: HTMLTranslator.attval *)
  Fixpoint attr_parts (l : list (str * aval)) : res (list str) :=
    match l with
    | [] => Ok []
    | (name, value) :: t =>
      match value with
      | ANone => Exc EAssertion
      | _ =>
        let name := lower name in
        do r <- attr_parts t;
        if in_list ignore_attr name then Ok r
        else let value := match value with AList vs => join [32] vs | AVal s => s | ANone => [] end in
             Ok ((lower name ++ $ "=""" ++ attval value ++ $ """") :: r)
      end
    end.
  Definition starttag (tagname suffix : str) (empty : bool) (attributes : list (str * aval)) : res str :=
    if in_list ignore_tags tagname then Ok []
    else do parts <- attr_parts (sort_attrs attributes);
         let infix := if empty then $ " /" else [] in
         Ok ($ "<" ++ join [32] (tagname :: parts) ++ infix ++ $ ">" ++ suffix).
End Starttag.

(** ** unified_diff — creole/shared/diff_utils.py:26-34: the loop over the lines of the diff *)
Fixpoint diff_text_go (text : str) (diff : list str) : str :=
  match diff with
  | [] => text
  | line :: t =>
    let text := text ++ line in
    diff_text_go (if truthy text && negb (endswith [10] line) then text ++ $ "n\ No newline at end of file" ++ [10] else text) t
  end.
Definition diff_text (diff : list str) : str := diff_text_go [] diff.
