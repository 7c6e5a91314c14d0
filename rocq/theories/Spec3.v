(** * Vocabulary of the properties of the four html converters, on document trees *)
From Coq Require Import String List NArith ZArith Bool.
From Verif Require Import PyStr Res Utils HtmlTools HtmlTok HtmlParser HtmlBase Html2X.
From Verif Require Spec2.
Import ListNotations.
Open Scope N_scope.

(** ** C37, C38: the tags a converter knows *)
Definition common_tags : list str :=
  [ $ "blockdata_pass"; $ "data"; $ "entityref"; $ "charref"; $ "p"; $ "br"; $ "li"; $ "table"; $ "tr"; $ "th"; $ "td";
    $ "div"; $ "span"; $ "document"; $ "blockdata_pre"; $ "inlinedata_pre"; $ "headline"; $ "hr"; $ "a"; $ "img";
    $ "ul"; $ "ol"; $ "strong"; $ "b"; $ "big"; $ "i"; $ "em" ].
Definition creole_tags : list str :=
  common_tags ++ [$ "tt"; $ "sup"; $ "sub"; $ "u"; $ "small"; $ "del"; $ "strike"].
Definition textile_tags : list str :=
  common_tags ++ [$ "sup"; $ "sub"; $ "del"; $ "cite"; $ "ins"; $ "code"].
Definition markdown_tags : list str :=
  common_tags ++ [$ "tt"; $ "sup"; $ "sub"; $ "u"; $ "small"; $ "del"; $ "strike"; $ "list"; $ "code"].
Definition rest_tags : list str := common_tags ++ [$ "tt"; $ "small"; $ "code"].

(** nodes whose children are never looked at *)
Definition leaf_tags : list str :=
  [ $ "blockdata_pre"; $ "inlinedata_pre"; $ "blockdata_pass"; $ "data"; $ "entityref"; $ "charref"; $ "br"; $ "hr"; $ "img" ].

(** the document has an element with an unknown tag (outside of leaves) *)
Inductive unknown_inside (known : list str) : hnode -> Prop :=
| ui_here k c a l ch : ~ In k known -> unknown_inside known (HN k c a l ch)
| ui_below k c a l ch x : ~ In k leaf_tags -> In x ch -> unknown_inside known x -> unknown_inside known (HN k c a l ch).

(** an unknown tag that is no block tag *)
Definition plain (known : list str) (k : str) : Prop := ~ In k known /\ ~ In k Spec2.block_elements.
(** text that [_escape_linebreaks] leaves alone: no line break, neither white space nor
    backslash at its ends *)
Definition line_text (t : str) : Prop :=
  ~ In 10 t /\ (forall c r, t = c :: r -> is_space c = false /\ c <> 92) /\
  (forall c r, t = r ++ [c] -> is_space c = false /\ c <> 92).
Definition data_node (t : str) : hnode := HN ($ "data") (Some t) [] None [].
(** two documents that are the same up to names and attributes of unknown elements, and up
    to unknown elements around a piece of text *)
Inductive same_known (known : list str) : hnode -> hnode -> Prop :=
| sk_node k c a l ch ch' : sk_list known ch ch' -> same_known known (HN k c a l ch) (HN k c a l ch')
| sk_rename k k' a a' l l' ch ch' : plain known k -> plain known k' -> sk_list known ch ch' ->
    same_known known (HN k None a l ch) (HN k' None a' l' ch')
| sk_drop k a l t : plain known k -> line_text t ->
    same_known known (HN k None a l [data_node t]) (data_node t)
with sk_list (known : list str) : list hnode -> list hnode -> Prop :=
| sk_nil : sk_list known [] []
| sk_cons x y xs ys : same_known known x y -> sk_list known xs ys -> sk_list known (x :: xs) (y :: ys).

(** ** C36: links and images of a document *)
Inductive inside : hnode -> hnode -> Prop :=
| in_self n : inside n n
| in_below k c a l ch x n : ~ In k leaf_tags -> In x ch -> inside n x -> inside n (HN k c a l ch).
(** [<a href="url">text</a>] *)
Definition link_node (text url : str) (n : hnode) : Prop :=
  exists c a l, n = HN ($ "a") c a l [data_node text] /\ dict_get ($ "href") a = Some (VStr url).
(** [<img src="url" alt="text">] (not a data URI) *)
Definition image_node (text url : str) (n : hnode) : Prop :=
  exists c a l ch, n = HN ($ "img") c a l ch /\ text <> [] /\ startswith ($ "data:") url = false /\ url <> $ "data" /\
    dict_get ($ "src") a = Some (VStr url) /\ dict_get ($ "alt") a = Some (VStr text) /\ dict_get ($ "title") a = None.

(** ** C35: adornment of a reStructuredText headline: character, and whether there is a line
    above too *)
Definition adornment (level : Z) : option (N * bool) :=
  if (level =? 1)%Z then Some (61, true) else if (level =? 2)%Z then Some (45, true)
  else if (level =? 3)%Z then Some (61, false) else if (level =? 4)%Z then Some (45, false)
  else if (level =? 5)%Z then Some (96, false) else if (6 <=? level)%Z then Some (39, false) else None.
Definition adorned (mark : N) (above : bool) (text : str) : str :=
  let line := repeat mark (List.length text) in
  (if above then line ++ [10] else []) ++ text ++ [10] ++ line ++ [10; 10].
Definition document_of (ch : list hnode) : hnode := HN ($ "document") None [] None ch.
Definition heading_node (level : Z) (ch : list hnode) : hnode := HN ($ "headline") None [] (Some level) ch.
