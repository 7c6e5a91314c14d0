(** * Vocabulary: html documents with code blocks, for markdown

    The documents of Spec11.v with [<pre><code class="language-x"> … </code></pre>] and one-line
    [<pre> … </pre>] blocks between their blocks. *)
From Coq Require Import String List Arith NArith ZArith Bool.
From Verif Require Import PyStr Utils Res HtmlTok Spec2 Spec10 Spec11 Spec18 Spec26.
Import ListNotations.
Open Scope N_scope.

(** [KCode]: the attributes of the [code] element and its text, characters and references;
    [KLine]: a [pre] element with text only, beginning on the line of its tag *)
Inductive kpart := KBlock (b : xblock) | KCode (a : attrs) (l : list ent) | KLine (l : list ent).

(** ** Which ones *)
(** nothing but text and references, one text between two references, no text empty *)
Fixpoint pieces_ok (l : list ent) : bool :=
  match l with
  | [] => true
  | Text t :: r => match t with [] => false | _ => match r with Text _ :: _ => false | _ => pieces_ok r end end
  | _ :: r => pieces_ok r
  end.
Definition code_ok (a : attrs) (l : list ent) : Prop :=
  forallb attr_ok a = true /\ l <> [] /\ Forall ent_ok l /\ pieces_ok l = true /\ ~ In 60 (pre_src l).
Definition kpart_ok (ok : xblock -> bool) (p : kpart) : Prop :=
  match p with KBlock b => ok b = true | KCode a l => code_ok a l | KLine l => pre_ok l end.

(** ** How they are written: white space is free between them *)
Definition code_src (a : attrs) (l : list ent) : str := $ "<code" ++ show_attrs a ++ $ ">" ++ pre_src l ++ $ "</code>".
Definition in_pre (s : str) : str := $ "<pre>" ++ s ++ $ "</pre>".
Fixpoint kfits (d : list kpart) (s : str) : Prop :=
  match d with
  | [] => s = []
  | p :: r => exists u w v, s = u ++ w ++ v /\
      match p with KBlock b => fits (tm_block b) u | KCode a l => u = in_pre (code_src a l) | KLine l => u = in_pre (pre_src l) end /\
      blank w /\ (r = [] -> w = []) /\ kfits r v
  end.
Definition kwritten (d : list kpart) (html : str) : Prop := exists w s w', html = w ++ s ++ w' /\ blank w /\ blank w' /\ kfits d s.
(** at most 10^4300 - 1 of them: Python reads back no longer number *)
Definition kcountable (d : list kpart) : Prop := forall i, (i < List.length d)%nat -> N.of_nat (List.length (show_nat i)) <= 4300.

(** ** What they become *)
(** the language: what follows [language-] in the class *)
Definition language (a : attrs) : str :=
  match last_value ($ "class") a with VStr v => if startswith ($ "language-") v then skipn 9 v else [] | _ => [] end.
(** of the text of the code only the first piece: the characters before the first reference, or
    the name (the digits) of the reference it begins with *)
Definition code_shown (l : list ent) : str :=
  match l with
  | Text t :: _ => t
  | Named n :: _ => n
  | Dec n :: _ => n
  | Hex n :: _ => 120 :: n
  | [] => []
  end.
Definition fenced (t : str) : str := $ "```" ++ t ++ $ "```".
Definition md_ktext (url : str -> str) (p : kpart) : str :=
  match p with KBlock b => md_block url b | KCode a l => fenced (language a ++ code_shown l) | KLine l => fenced (pre_text l) end.
Definition md_kgap (q : kpart) : str := match q with KBlock c => md_gap c | _ => [10; 10] end.
Fixpoint md_kdoc (url : str -> str) (d : list kpart) : str :=
  match d with
  | [] => []
  | p :: r => md_ktext url p ++ match r with [] => [] | q :: _ => md_kgap q end ++ md_kdoc url r
  end.
Definition kblocks (d : list kpart) : list xblock := flat_map (fun p => match p with KBlock b => [b] | _ => [] end) d.

(** the text a code block means, when all of it is shown *)
Definition plain_code (p : kpart) : bool := match p with KCode _ l => match l with [Text _] => true | _ => false end | _ => true end.
Definition md_full_text (url : str -> str) (p : kpart) : str := match p with KCode a l => fenced (language a ++ pre_text l) | _ => md_ktext url p end.
Fixpoint md_full (url : str -> str) (d : list kpart) : str :=
  match d with
  | [] => []
  | p :: r => md_full_text url p ++ match r with [] => [] | q :: _ => md_kgap q end ++ md_full url r
  end.
