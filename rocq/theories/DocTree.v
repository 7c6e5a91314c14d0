(** * creole/shared/document_tree.py — DocNode (creole2html side)

    Simplifications: [attrs] is not used by the creole parser and is left out here; the
    [parent] reference is represented by the position in the tree; [sect] (set by
    [_pre_block_repl], never read) is left out.  [level] is [None] in Python for nodes that
    have no level and is never read for those; it is [0] here. *)
From Coq Require Import List NArith Bool.
From Verif Require Import PyStr.
Import ListNotations.

(** the values of [DocNode.kind] used by creol2html_parser.py *)
Inductive kind :=
| KDocument | KParagraph | KText | KBreak | KLine | KSeparator | KHeader
| KPreBlock | KPreInline | KLink | KImage | KMacroInline | KMacroBlock
| KBulletList | KNumberList | KListItem
| KTable | KTableRow | KTableCell | KTableHead
| KStrong | KEmphasis | KMonospace | KUnderline | KSuperscript | KSubscript | KSmall | KDelete.
Scheme Equality for kind.

(** a DocNode without its children; document_tree.py:23-36, plus the [macro_name] and
    [macro_args] attributes set in creol2html_parser.py:192-194 *)
Record hdr := mkh { hk : kind; hcontent : option str; hlevel : nat; hmname : str; hmargs : str }.

Inductive node := Nd (h : hdr) (ch : list node).

Definition nkind (n : node) : kind := match n with Nd h _ => hk h end.

(** [DocNode(kind, parent, content)] *)
Definition mkn (k : kind) (c : option str) : hdr := mkh k c 0 [] [].
(** [DocNode(kind, parent, content); node.level = l] *)
Definition mkl (k : kind) (c : option str) (l : nat) : hdr := mkh k c l [] [].
