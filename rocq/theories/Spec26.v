(** * Vocabulary: html documents with preformatted blocks

    The documents of Spec11.v with [pre] blocks between their blocks. *)
From Coq Require Import String List Arith NArith ZArith Bool.
From Verif Require Import PyStr Utils Res HtmlTok Spec2 Spec10 Spec11 Spec16 Spec18 Spec19.
Import ListNotations.
Open Scope N_scope.

(** [HPre]: the text of a [pre] block, characters and references, without the line ends around it *)
Inductive hpart := HBlock (b : xblock) | HPre (l : list ent).
Definition pre_src (l : list ent) : str := flat_map write l.
(** the text that is meant *)
Definition pre_text (l : list ent) : str := match meant_all l with Ok t => t | Exc _ => [] end.
(** the references have a meaning, there is no tag inside, and the first line is not blank *)
Definition first_line (s : str) : str := take_while (fun c => negb (c =? 10)) s.
Definition pre_ok (l : list ent) : Prop :=
  Forall ent_ok l /\ (exists t, meant_all l = Ok t) /\ ~ In 60 (pre_src l) /\ forallb is_space (first_line (pre_src l)) = false.

(** ** How they are written: [<pre>] and [</pre>] on lines of their own; white space is free
    otherwise *)
Definition blank (w : str) : Prop := forallb is_space w = true.
Definition pre_html (w : str) (l : list ent) : str := $ "<pre>" ++ w ++ [10] ++ pre_src l ++ [10] ++ $ "</pre>".
Definition is_pre (p : hpart) : bool := match p with HPre _ => true | HBlock _ => false end.
Definition pre_next (r : list hpart) : bool := match r with p :: _ => is_pre p | [] => false end.
Fixpoint pfits (d : list hpart) (s : str) : Prop :=
  match d with
  | [] => s = []
  | p :: r => exists u w v, s = u ++ w ++ v /\
      match p with HBlock b => fits (tm_block b) u | HPre l => exists w1, blank w1 /\ u = pre_html w1 l end /\
      blank w /\ (r = [] -> w = []) /\ (pre_next r = true -> exists w', w = w' ++ [10]) /\ (is_pre p = true -> r <> [] -> In 10 w) /\ pfits r v
  end.
Definition pwritten (d : list hpart) (html : str) : Prop := exists w s w', html = w ++ s ++ w' /\ blank w /\ blank w' /\ pfits d s.
(** at most 10^4300 - 1 of them: Python reads back no longer number *)
Definition countable (d : list hpart) : Prop := forall i, (i < List.length d)%nat -> N.of_nat (List.length (show_nat i)) <= 4300.

(** ** What they become: the parts, with something between them *)
Definition h_text (wb : xblock -> str) (wp : str -> str) (p : hpart) : str := match p with HBlock b => wb b | HPre l => wp (pre_text l) end.
Fixpoint h_doc (wb : xblock -> str) (wp : str -> str) (gap : hpart -> hpart -> str) (d : list hpart) : str :=
  match d with
  | [] => []
  | p :: r => h_text wb wp p ++ match r with [] => [] | q :: _ => gap p q end ++ h_doc wb wp gap r
  end.
(** creole and textile: an empty line in front of the block, none after it *)
Definition h_gap (p q : hpart) : str :=
  match p, q with
  | HBlock b, HBlock c => x_gap b c
  | HBlock (XTable _), HPre _ | HPre _, _ => [10]
  | HBlock _, HPre _ => [10; 10]
  end.
Definition cre_pre (t : str) : str := $ "{{{" ++ [10] ++ t ++ [10] ++ $ "}}}".
Definition tex_pre (t : str) : str := $ "<pre>" ++ [10] ++ t ++ [10] ++ $ "</pre>".
Definition cre_parts : list hpart -> str := h_doc cre_block cre_pre h_gap.
Definition tex_parts : list hpart -> str := h_doc tex_block tex_pre h_gap.
(** markdown: no empty line in front of the block *)
Definition md_hgap (p q : hpart) : str := match q with HBlock c => md_gap c | HPre _ => [10] end.
Definition md_pre (t : str) : str := $ "```" ++ [10] ++ t ++ [10] ++ $ "```".
Definition md_parts (url : str -> str) : list hpart -> str := h_doc (md_block url) md_pre md_hgap.
(** reStructuredText: the lines of the trimmed text, indented; the definitions of the links and
    images before come first *)
Definition rst_pre (t : str) : str := $ "::" ++ [10; 10] ++ x_lines (map (fun l => $ "    " ++ l) (splitlines (strip t))).
Definition rst_part (p : hpart) (n : notes) : option (str * notes) := match p with HBlock b => rst_block b n | HPre l => Some (rst_pre (pre_text l), n) end.
Fixpoint rst_pchunks (d : list hpart) (n : notes) : option (list str) :=
  match d with
  | [] => Some []
  | p :: r => match rst_part p n with
              | None => None
              | Some (t, n1) => let '(ds, n2) := rst_notes n1 in
                                match rst_pchunks r n2 with None => None | Some ts => Some (t :: ds ++ ts) end
              end
  end.
Definition rst_parts (d : list hpart) : option str := option_map spaced (rst_pchunks d no_notes).

(** ** Which documents *)
Definition parts_ok (ok : xblock -> bool) (d : list hpart) : Prop :=
  Forall (fun p => match p with HBlock b => ok b = true | HPre l => pre_ok l end) d.
Definition blocks_of (d : list hpart) : list xblock := flat_map (fun p => match p with HBlock b => [b] | HPre _ => [] end) d.
(** the preformatted texts are not blank *)
Definition texts_seen (d : list hpart) : Prop := Forall (fun p => match p with HBlock _ => True | HPre l => forallb is_space (pre_text l) = false end) d.
