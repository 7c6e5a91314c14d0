(** * Vocabulary: the texts that [int()] takes for a number *)
From Coq Require Import String List NArith ZArith Bool.
From Verif Require Import PyStr UniTab.
Import ListNotations.
Open Scope N_scope.

(** a decimal digit of some script: the digits of a script follow one another in Unicode,
    and [digit_zeros] is the table of their zeros (48 is the zero of ASCII) *)
Definition digit_of (c : char) (v : N) : Prop := v <= 9 /\ exists z, In z digit_zeros /\ c = z + v.
(** digits, with single underscores between them *)
Inductive written_digits : str -> list N -> Prop :=
| wd_one : forall c v, digit_of c v -> written_digits [c] [v]
| wd_next : forall c v s l, digit_of c v -> written_digits s l -> written_digits (c :: s) (v :: l)
| wd_under : forall c v s l, digit_of c v -> written_digits s l -> written_digits (c :: 95 :: s) (v :: l).
Definition value (l : list N) : N := fold_left (fun a d => a * 10 + d) l 0.
(** white space around the number: what [str.isspace] takes, without the separators U+001C to U+001F *)
Definition blank_around (s : str) : Prop := forall c, In c s -> is_space c = true /\ ~ (28 <= c <= 31).
(** blanks, a sign or none, at most 4300 digits, blanks *)
Inductive number : str -> Z -> Prop :=
| number_of : forall a sg t b l, blank_around a -> blank_around b -> In sg [[]; [43]; [45]] -> written_digits t l ->
    N.of_nat (List.length l) <= 4300 ->
    number (a ++ sg ++ t ++ b) (if str_eqb sg [45] then (- Z.of_N (value l))%Z else Z.of_N (value l)).

(** the same as a check: [numeral s] says that [int()] reads [s] ([numeral_iff] in NumeralFacts.v) *)
Definition digit (c : char) : bool := existsb (fun z => (z <=? c) && (c <=? z + 9)) digit_zeros.
Fixpoint digits_after (s : str) : bool :=
  match s with
  | [] => true
  | c :: t => if digit c then digits_after t else (c =? 95) && match t with d :: _ => digit d && digits_after t | [] => false end
  end.
Definition unsigned (s : str) : str := match s with c :: t => if (c =? 43) || (c =? 45) then t else s | [] => [] end.
Definition numeral (s : str) : bool :=
  let u := unsigned (strip_by (fun c => is_space c && negb ((28 <=? c) && (c <=? 31))) s) in
  match u with c :: t => digit c && digits_after t | [] => false end && (N.of_nat (List.length (filter digit u)) <=? 4300).
