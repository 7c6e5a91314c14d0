(** * Vocabulary of the file properties *)
From Coq Require Import String List NArith ZArith Bool.
From Verif Require Import PyStr Res Cmdline.
Import ListNotations.
Open Scope N_scope.

(** [free] is a file number no name has *)
Definition fs_ok (f : fs) : Prop := forall p i, names f p = Some i -> i < free f.
(** two names of one file *)
Definition same_file (f : fs) (p q : str) : Prop := p = q \/ (names f p = names f q /\ names f q <> None).
(** everything before the conversion works: the source is [bs], the codec is [c] *)
Record can_open (w : world) (src dst encoding : str) (f : fs) (c : codec) : Prop := mkcan {
  co_ok : fs_ok f;
  co_source : names f src <> None;
  co_read : readable w src = true;
  co_codec : lookup w encoding = Some c;
  co_write : writable w dst = true }.
Definition enough_room (w : world) (b : bytes) : Prop := match room w with Some n => (List.length b <= n)%nat | None => True end.
Definition final (l : list fs) (f : fs) : fs := last l f.
(** code points that are characters: no surrogates *)
Definition scalar (c : N) : bool := (c <? 1114112) && negb ((55296 <=? c) && (c <=? 57343)).
(** no line boundary of str.splitlines other than the newline *)
Definition only_newlines (s : str) : bool := forallb (fun c => (c =? 10) || negb (is_linebreak c)) s.
(** a text with other line ends *)
Definition with_ends (e t : str) : str := flat_map (fun c => if c =? 10 then e else [c]) t.
