(** * Specification vocabulary for C16: what a reader sees, and in which order

    Independent of the parser and the emitter: only strings and document trees are used. *)
From Coq Require Import String List NArith Bool.
From Verif Require Import PyStr DocTree.
Import ListNotations.
Open Scope N_scope.

(** [a] is obtained from [b] by leaving out some elements: nothing is added, repeated or moved *)
Inductive subseq {A : Type} : list A -> list A -> Prop :=
| ss_nil l : subseq [] l
| ss_keep x a b : subseq a b -> subseq (x :: a) (x :: b)
| ss_skip x a b : subseq a b -> subseq a (x :: b).

(** the characters that leave ink: everything but white space *)
Definition visible (s : str) : str := filter (fun c => negb (is_space c)) s.

(** the text of a document tree, in document order: the contents of text, nowiki,
    preformatted and heading nodes and the texts given to macros; a link without a text of its
    own shows its target *)
Fixpoint texts (n : node) : str :=
  match n with
  | Nd h ch =>
    let own := match hcontent h with Some t => t | None => [] end in
    let inside := (fix go (l : list node) : str :=
                     match l with [] => [] | x :: r => texts x ++ go r end) ch in
    match hk h with
    | KText | KPreBlock | KPreInline | KHeader | KMacroInline | KMacroBlock => own
    | KBreak | KLine | KSeparator => []
    | KLink => match ch with [] => own | _ => inside end
    | _ => inside
    end
  end.

(** ** What a browser shows of an html text: the characters outside of tags ... *)
Fixpoint untagged (in_tag : bool) (s : str) : str :=
  match s with
  | [] => []
  | c :: r =>
    if in_tag then untagged (negb (c =? 62)) r
    else if c =? 60 then untagged true r
    else c :: untagged false r
  end.
(** ... with the entities replaced by the characters they stand for ([skip]: number of
    characters of an entity still to be passed over) *)
Fixpoint decoded (skip : nat) (s : str) : str :=
  match s with
  | [] => []
  | c :: r =>
    match skip with
    | S n => decoded n r
    | O => if startswith ($ "&amp;") s then 38 :: decoded 4 r
           else if startswith ($ "&lt;") s then 60 :: decoded 3 r
           else if startswith ($ "&gt;") s then 62 :: decoded 3 r
           else c :: decoded 0 r
    end
  end.
Definition displayed (html : str) : str := decoded 0 (untagged false html).
