(** * Vocabulary: the installed programs *)
From Coq Require Import String List NArith ZArith Bool.
From Verif Require Import PyStr Utils Res UrlQuote Cmdline Spec8 Spec4 Spec5 Spec7 Spec20.
Import ListNotations.
Open Scope N_scope.

Definition no_hyphen (s : str) : Prop := forall r, s <> $ "-" ++ r.
(** the ways to name a codec: behind the option or joined to it *)
Inductive codec_option (e : str) : list str -> Prop :=
  | option_two : no_hyphen e -> codec_option e [$ "--encoding"; e]
  | option_one : codec_option e [$ "--encoding=" ++ e].
(** the command lines that convert the file [src] to the file [dst] with the codec [e]:
    source, destination, and the option before, between or behind them *)
Inductive command (src dst : str) : str -> list str -> Prop :=
  | command_default : command src dst ($ "utf-8") [src; dst]
  | command_before e o : codec_option e o -> command src dst e (o ++ [src; dst])
  | command_between e o : codec_option e o -> command src dst e ([src] ++ o ++ [dst])
  | command_behind e o : codec_option e o -> command src dst e ([src; dst] ++ o).
(** both files can be opened, they are two files, the codec is utf-8 and the disk is not full *)
Record ready (w : world) (src dst encoding : str) (f : fs) : Prop := mkready {
  rd_open : can_open w src dst encoding f utf8_codec;
  rd_two : ~ same_file f src dst;
  rd_room : room w = None;
  rd_src : no_hyphen src;
  rd_dst : no_hyphen dst }.
(** the file [p] is the text [t] in utf-8 *)
Definition holds (f : fs) (p t : str) : Prop := forallb scalar t = true /\ contents f p = utf8_encode t.

(** the html of a document of blocks and macros, none of which exist: line breaks are kept,
    a macro is reported in its place *)
Fixpoint plain_html (d : list piece) : str :=
  match d with
  | [] => []
  | PBlock b :: r => html_block true false b ++ line_end b ++ between r ++ plain_html r
  | PMacro m :: r => $ "[Error: Macro '" ++ mc_name m ++ $ "' doesn't exist]" ++ [10] ++ between r ++ plain_html r
  end.
