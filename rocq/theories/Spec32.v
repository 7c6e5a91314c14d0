(** * Vocabulary: what the attributes of links and images mean *)
From Coq Require Import String List Arith NArith ZArith Bool.
From Verif Require Import PyStr Utils Res HtmlTok Spec2 Spec10 Spec11 Spec29.
Import ListNotations.
Open Scope N_scope.

(** words of a link: no white space in them, no markup *)
Definition word_char (c : N) : bool := negb (is_space c || (c =? 60) || (c =? 38)).
Definition word (w : str) : bool := negb (is_nil w) && forallb word_char w.
Definition words (ws : list str) : str := join [32] ws.
(** a link and an image, with any attributes, in any spelling *)
Definition link_html (a : attrs) (ws : list str) (html : str) : Prop :=
  exists x y, part_written (Open ($ "a") a) x /\ part_written (Close ($ "a")) y /\ html = x ++ words ws ++ y.
Definition image_html (a : attrs) (html : str) : Prop := part_written (Single ($ "img") a) html.
(** an attribute that is absent is as good as an empty one *)
Definition given (k : str) (a : attrs) : str := match last_value k a with VStr v => v | _ => [] end.
Definition absent (k : str) (a : attrs) : Prop := forall v, ~ In (k, v) a.
Definition source (k : str) (a : attrs) (s : str) : Prop := last_value k a = VStr s.
(** the part behind the last slash *)
Definition file_of (s f : str) : Prop := ~ In 47 f /\ exists d, s = d ++ f /\ (d = [] \/ exists d', d = d' ++ [47]).
(** the text for an image: the longer one of title and alternative text, the file name if there is none *)
Definition image_text (a : attrs) (src t : str) : Prop :=
  let title := given ($ "title") a in let alt := given ($ "alt") a in
  (title = [] -> alt = [] -> file_of src t) /\
  ((List.length title < List.length alt)%nat -> t = alt) /\
  ((List.length alt <= List.length title)%nat -> title <> [] -> t = title).
(** an image with its content in the address *)
Definition in_place (src : str) : Prop := src = $ "data" \/ exists r, src = $ "data:" ++ r.
(** |HEIGHTxWIDTH, if both are given *)
Definition image_size (strict : bool) (a : attrs) : str :=
  if strict || is_nil (given ($ "width") a) || is_nil (given ($ "height") a) then []
  else $ "|" ++ given ($ "height") a ++ $ "x" ++ given ($ "width") a.
Definition quote_title (t : str) : str := if is_nil t then [] else $ " """ ++ t ++ $ """".
(** no white space at the end *)
Definition tight (s : str) : Prop := exists r c, s = r ++ [c] /\ is_space c = false.
