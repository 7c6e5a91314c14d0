(** * The command line of the four programs — creole/cmdline.py and pyproject.toml *)
From Coq Require Import String List NArith ZArith Bool.
From Verif Require Import PyStr Utils Res Cmdline.
Import ListNotations.
Open Scope N_scope.

(** CreoleCLI.__init__, cmdline.py:18-38: two positional arguments and the option
    --encoding, "utf-8" by default.  [pos] are the positional arguments so far.

    argparse is modelled for arguments that do not begin with a hyphen and for the option in
    its two full spellings, anywhere among them.  [None] stands for everything else:
    --help and --version, usage errors, and what is not modelled (abbreviated options, "--",
    names that begin with a hyphen). *)
Fixpoint parse_args (args : list str) (pos : list str) (encoding : str) : option (list str * str) :=
  match args with
  | [] => Some (pos, encoding)
  | a :: t =>
    if str_eqb a ($ "--encoding") then
      match t with
      | e :: t' => if startswith ($ "-") e then None else parse_args t' pos e
      | [] => None
      end
    else if startswith ($ "--encoding=") a then parse_args t pos (skipn 11 a)
    else if startswith ($ "-") a then None
    else parse_args t (pos ++ [a]) encoding
  end.

(** cmdline.py:34-43: the names in this order go to [convert] *)
Definition cli_main (w : world) (conv : str -> res str) (args : list str) (f : fs) : option (cres * list fs) :=
  match parse_args args [] ($ "utf-8") with
  | Some ([sourcefile; destination], encoding) => Some (convert w conv sourcefile destination encoding f)
  | _ => None
  end.

(** the installed programs, pyproject.toml:56-60 and cmdline.py:59-72 *)
Definition entry_points : list (str * (str -> res str)) :=
  [ ($ "creole2html", cli_creole2html); ($ "html2creole", cli_html2creole);
    ($ "html2rest", cli_html2rest); ($ "html2textile", cli_html2textile) ].
Fixpoint entry_point (l : list (str * (str -> res str))) (name : str) : option (str -> res str) :=
  match l with
  | [] => None
  | (n, c) :: t => if str_eqb n name then Some c else entry_point t name
  end.
(** what typing [name args] does: [None] without such a program, and as in [cli_main] *)
Definition run_program (w : world) (name : str) (args : list str) (f : fs) : option (cres * list fs) :=
  match entry_point entry_points name with
  | Some conv => cli_main w conv args f
  | None => None
  end.
