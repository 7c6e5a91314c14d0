(** * Vocabulary: publishing, what docutils is asked for, and aligned images *)
From Coq Require Import String List Arith NArith ZArith Bool.
From Verif Require Import PyStr Utils Res HtmlEmitter HtmlBase Html2X SetupUtils Publish.
Import ListNotations.
Open Scope N_scope.

(** README.rst is the reStructuredText of README.creole, and below it at most a note of four lines *)
Definition readme_current (renders : str -> bool) (files : dir) : Prop :=
  exists creole html rest content tail, read_text files ($ "README.creole") = Some creole /\
    fst (creole2html (mkopts true None false) no_md (strip creole)) = Ok html /\ html2rest raise_unknown_node html = Ok rest /\ renders rest = true /\
    read_text files ($ "README.rst") = Some content /\ content <> [] /\ content = rest ++ tail /\ (tail = [] \/ exists t, tail = 10 :: t) /\ (count_occ N.eq_dec tail 10%N <= 4)%nat.

(** what the caller passes wins *)
Definition passed (kwargs : pydict) (k : str) (default : option pyval) : option pyval :=
  match dict_get k (rev kwargs) with Some v => Some v | None => default end.

(** the alignment of an image is its own or that of its figure *)
Definition alignment (node : image) : str :=
  match i_align node, i_parent_align node with
  | Some a, _ => a
  | None, Some a => if str_eqb (i_parent node) ($ "figure") then a else []
  | None, None => []
  end.
Definition align_shown (node : image) : str := match alignment node with [] => [] | a => $ " align=""" ++ a ++ $ """" end.
