(** * Vocabulary of the reStructuredText tool properties *)
From Coq Require Import String List NArith ZArith Bool Permutation Sorted.
From Verif Require Import PyStr Utils Res RestTools.
Import ListNotations.
Open Scope N_scope.

(** the links and images of a document *)
Definition links (nodes : list rnode) : list str :=
  flat_map (fun n => if r_text n then [] else match r_refuri n, r_uri n with Some u, _ => [u] | None, Some u => [u] | None, None => [] end) nodes.
(** an address without leading controls and blanks and without tabs and line ends *)
Definition trimmed (u : str) : str := filter (fun c => negb (existsb (N.eqb c) [9; 10; 13])) (drop_while (fun c => c <=? 32) u).
(** the schemes PyPI allows *)
Definition uri_schemes : list str :=
  [ $ "file"; $ "ftp"; $ "gopher"; $ "hdl"; $ "http"; $ "https"; $ "imap"; $ "mailto"; $ "mms"; $ "news"; $ "nntp"; $ "prospero"; $ "rsync";
    $ "rtsp"; $ "rtspu"; $ "sftp"; $ "shttp"; $ "sip"; $ "sips"; $ "snews"; $ "svn"; $ "svn+ssh"; $ "telnet"; $ "wais"; $ "irc" ].
(** it starts with an allowed scheme and a colon, in upper or lower case *)
Definition allowed (u : str) : Prop := exists s r, trimmed u = s ++ [58] ++ r /\ In (lower s) uri_schemes.

(** the attributes that are left out *)
Definition hidden_attrs : list str := [ $ "start"; $ "class"; $ "classes"; $ "frame"; $ "rules" ].
(** what is to be seen of an attribute *)
Definition attr_shown (attval : str -> str) (a : str * aval) : str :=
  [32] ++ lower (fst a) ++ $ "=""" ++ attval (match snd a with AVal s => s | AList l => join [32] l | ANone => [] end) ++ $ """".
Definition shown_attr (a : str * aval) : bool := negb (existsb (str_eqb (lower (fst a))) hidden_attrs).
Definition by_name (a b : str * aval) : Prop := str_leb (fst a) (fst b) = true.
