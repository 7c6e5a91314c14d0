(** * Python strings

    A Python [str] is modelled as the list of its code points.  The functions below model
    the [str] methods that the code in /repo uses (CPython 3 semantics).  *)
From Coq Require Import List NArith ZArith Bool Lia Ascii String.
Import ListNotations.
Open Scope N_scope.

Definition char := N.
Definition str := list N.

(** literals *)
Fixpoint L (s : string) : str :=
  match s with
  | EmptyString => []
  | String a t => N_of_ascii a :: L t
  end.

(** [$ "abc"] is the literal already evaluated to a list of code points *)
Notation "$ s" := (ltac:(let x := eval vm_compute in (L s%string) in exact x))
  (at level 8, only parsing).

Definition str_eqb (a b : str) : bool :=
  (fix go (a b : str) : bool :=
     match a, b with
     | [], [] => true
     | x :: a', y :: b' => (x =? y) && go a' b'
     | _, _ => false
     end) a b.

(** membership in a (range) table *)
Fixpoint in_ranges (tab : list (N * N)) (c : N) : bool :=
  match tab with
  | [] => false
  | (lo, hi) :: t => ((lo <=? c) && (c <=? hi)) || in_ranges t c
  end.

(** [str.isspace] for one character, the same set as [\s] in a [str] pattern
    (CPython [Py_UNICODE_ISSPACE]) *)
Definition is_space (c : char) : bool :=
  ((9 <=? c) && (c <=? 13)) || ((28 <=? c) && (c <=? 32)) ||
  (c =? 133) || (c =? 160) || (c =? 5760) ||
  ((8192 <=? c) && (c <=? 8202)) || (c =? 8232) || (c =? 8233) ||
  (c =? 8239) || (c =? 8287) || (c =? 12288).

(** line boundaries of [str.splitlines] *)
Definition is_linebreak (c : char) : bool :=
  ((10 <=? c) && (c <=? 13)) || ((28 <=? c) && (c <=? 30)) ||
  (c =? 133) || (c =? 8232) || (c =? 8233).

Fixpoint drop_while (p : char -> bool) (s : str) : str :=
  match s with
  | c :: t => if p c then drop_while p t else s
  | [] => []
  end.

Fixpoint take_while (p : char -> bool) (s : str) : str :=
  match s with
  | c :: t => if p c then c :: take_while p t else []
  | [] => []
  end.

Definition lstrip_by (p : char -> bool) (s : str) : str := drop_while p s.
(** structural on [s]: drop the longest suffix of [p]-characters *)
Fixpoint rstrip_by (p : char -> bool) (s : str) : str :=
  match s with
  | [] => []
  | c :: t => match rstrip_by p t with
              | [] => if p c then [] else [c]
              | r => c :: r
              end
  end.
Definition strip_by (p : char -> bool) (s : str) : str := rstrip_by p (lstrip_by p s).

(** [str.strip()], [str.lstrip()], [str.rstrip()] *)
Definition strip := strip_by is_space.
Definition lstrip := lstrip_by is_space.
Definition rstrip := rstrip_by is_space.
(** [str.strip(chars)] ... *)
Definition in_str (cs : str) (c : char) : bool := existsb (N.eqb c) cs.
Definition strip_chars (cs s : str) : str := strip_by (in_str cs) s.
Definition lstrip_chars (cs s : str) : str := lstrip_by (in_str cs) s.
Definition rstrip_chars (cs s : str) : str := rstrip_by (in_str cs) s.

Fixpoint startswith (p s : str) : bool :=
  match p, s with
  | [], _ => true
  | x :: p', y :: s' => (x =? y) && startswith p' s'
  | _ :: _, [] => false
  end.
Definition endswith (p s : str) : bool := startswith (rev p) (rev s).

(** [needle in s] *)
Fixpoint contains (needle s : str) : bool :=
  startswith needle s ||
  match s with
  | [] => false
  | _ :: t => contains needle t
  end.

(** [s.replace(old, new)], [old] non-empty: leftmost, non-overlapping *)
Fixpoint replace_go (old new : str) (skip : nat) (s : str) : str :=
  match s with
  | [] => []
  | c :: t =>
    match skip with
    | S k => replace_go old new k t
    | O => if startswith old s
           then new ++ replace_go old new (pred (List.length old)) t
           else c :: replace_go old new O t
    end
  end.
Definition replace (old new s : str) : str := replace_go old new O s.

(** [s.replace(old, new, 1)], [old] non-empty *)
Fixpoint replace1 (old new s : str) : str :=
  match s with
  | [] => []
  | c :: t => if startswith old s then new ++ skipn (List.length old) s
              else c :: replace1 old new t
  end.

(** [s.split(sep, 1)] with a one-character separator: [None] when it does not occur *)
Fixpoint split1 (sep : char) (s : str) : option (str * str) :=
  match s with
  | [] => None
  | c :: t => if c =? sep then Some ([], t)
              else match split1 sep t with
                   | Some (a, b) => Some (c :: a, b)
                   | None => None
                   end
  end.

(** [s.split(sep)] with a one-character separator (never empty) *)
Fixpoint split_on (sep : char) (s : str) : list str :=
  match s with
  | [] => [[]]
  | c :: t => if c =? sep then [] :: split_on sep t
              else match split_on sep t with
                   | h :: r => (c :: h) :: r
                   | [] => [[c]]
                   end
  end.

(** [s.split()] : split at runs of white space, no empty pieces *)
Fixpoint split_ws_go (cur : str) (s : str) : list str :=
  match s with
  | [] => match cur with [] => [] | _ => [rev cur] end
  | c :: t => if is_space c
              then match cur with [] => split_ws_go [] t | _ => rev cur :: split_ws_go [] t end
              else split_ws_go (c :: cur) t
  end.
Definition split_ws (s : str) : list str := split_ws_go [] s.

(** [s.splitlines()] *)
Fixpoint splitlines_go (cur : str) (s : str) : list str :=
  match s with
  | [] => match cur with [] => [] | _ => [rev cur] end
  | c :: t =>
    if is_linebreak c then
      match c, t with
      | 13, 10 :: t' => rev cur :: splitlines_go [] t'
      | _, _ => rev cur :: splitlines_go [] t
      end
    else splitlines_go (c :: cur) t
  end.
Definition splitlines (s : str) : list str := splitlines_go [] s.

(** [sep.join(l)] *)
Fixpoint join (sep : str) (l : list str) : str :=
  match l with
  | [] => []
  | [x] => x
  | x :: r => x ++ sep ++ join sep r
  end.

Fixpoint repeat_str (s : str) (n : nat) : str :=
  match n with O => [] | S k => s ++ repeat_str s k end.

Definition ljust (s : str) (n : nat) : str := s ++ repeat 32 (n - List.length s).

(** [str.lower]; only the ASCII letters are mapped (simplification: non-ASCII letters are
    left alone; the code only lower-cases HTML tag and attribute names) *)
Definition lower_c (c : char) : char := if (65 <=? c) && (c <=? 90) then c + 32 else c.
Definition lower (s : str) : str := map lower_c s.

(** decimal digits of a number: [str(n)] / ["%d" % n] *)
Fixpoint digits_go (fuel : nat) (n : N) (acc : str) : str :=
  match fuel with
  | O => acc
  | S f => if n <? 10 then (48 + n) :: acc
           else digits_go f (n / 10) ((48 + n mod 10) :: acc)
  end.
Definition show_N (n : N) : str := digits_go (S (N.to_nat (N.size n))) n [].
Definition show_Z (z : Z) : str :=
  match z with
  | Z0 => [48]
  | Zpos p => show_N (Npos p)
  | Zneg p => 45 :: show_N (Npos p)
  end.
Definition show_nat (n : nat) : str := show_N (N.of_nat n).

(** xml.sax.saxutils.escape(data): three consecutive [replace] calls, [&] first.
    (xml/sax/saxutils.py: escape) *)
Definition escape (s : str) : str :=
  replace [60] ($ "&lt;") (replace [62] ($ "&gt;") (replace [38] ($ "&amp;") s)).

Definition is_nil {A} (l : list A) : bool := match l with [] => true | _ => false end.
(** truth value of a string: [if s:] *)
Definition truthy (s : str) : bool := negb (is_nil s).
