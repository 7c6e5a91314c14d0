(** * Which tags a page may have, given the marks in the markup

    Vocabulary of C100.  Nothing here refers to the parser or the emitter. *)
From Coq Require Import String List NArith Bool.
From Verif Require Import PyStr.
Import ListNotations.
Open Scope N_scope.

(** the characters [m] stand somewhere in [s], one after the other *)
Definition occurs (m s : str) : Prop := exists a b, s = a ++ m ++ b.

(** what may follow a [<] in every page *)
Definition plain_tags : list str := [ $ "p>"; $ "/p>"; $ "br />" ].

(** a mark, and what may follow a [<] in the page only if the mark occurs in the markup *)
Definition marked_tags : list (str * list str) :=
  [ ($ "**", [ $ "strong>"; $ "/strong>" ]);
    ($ "//", [ $ "i>"; $ "/i>" ]);
    ($ "##", [ $ "tt>"; $ "/tt>" ]);
    ($ "^^", [ $ "sup>"; $ "/sup>" ]);
    ($ ",,", [ $ "sub>"; $ "/sub>" ]);
    ($ "__", [ $ "u>"; $ "/u>" ]);
    ($ "~~", [ $ "del>"; $ "/del>" ]);
    ($ "--", [ $ "small>"; $ "/small>" ]);
    ($ "{{", [ $ "img src=""" ]);
    ($ "{{{", [ $ "code>"; $ "/code>"; $ "pre>"; $ "/pre>" ]);
    ($ "----", [ $ "hr />" ]);
    ($ "*", [ $ "ul>"; $ "/ul>"; $ "li>"; $ "/li>" ]);
    ($ "#", [ $ "ol>"; $ "/ol>"; $ "li>"; $ "/li>" ]);
    ($ "|", [ $ "table>"; $ "/table>"; $ "tr>"; $ "/tr>"; $ "td>"; $ "/td>" ]);
    ($ "[[", [ $ "a href="""; $ "/a>" ]) ].

(** the names in front of [://] that make a bare address a link *)
Definition protocols : list str :=
  [ $ "http"; $ "https"; $ "ftp"; $ "nntp"; $ "news"; $ "mailto"; $ "telnet"; $ "file"; $ "irc" ].

(** [may_follow s t]: in the page of [s] a [<] may be followed by [t] *)
Inductive may_follow (s : str) : str -> Prop :=
| mf_plain t : In t plain_tags -> may_follow s t
| mf_mark m l t : In (m, l) marked_tags -> occurs m s -> In t l -> may_follow s t
(** a heading of level n: n equals signs in a row *)
| mf_head n : (1 <= n)%nat -> occurs (repeat 61 n) s -> may_follow s ($ "h" ++ show_nat n ++ $ ">")
| mf_head_end n : (1 <= n)%nat -> occurs (repeat 61 n) s -> may_follow s ($ "/h" ++ show_nat n ++ $ ">")
(** a head cell: a bar and an equals sign *)
| mf_th t : occurs ($ "|") s -> occurs ($ "=") s -> t = $ "th>" \/ t = $ "/th>" -> may_follow s t
(** an address in the text: the link goes to an address with the same protocol *)
| mf_url p : In p protocols -> occurs (p ++ $ "://") s -> may_follow s ($ "a href=""" ++ p ++ $ "://")
| mf_url_end p : In p protocols -> occurs (p ++ $ "://") s -> may_follow s ($ "/a>").

(** every [<] of a page is followed by something that [s] allows *)
Definition tags_from (s page : str) : Prop :=
  forall a b, page = a ++ 60 :: b -> exists t u, may_follow s t /\ b = t ++ u.
