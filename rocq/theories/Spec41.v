(** * Vocabulary for C92: character references in attribute values

    [coded v w]: the text [w] inside the quotes stands for the value [v].  The names of
    references are those of html 5 (Entities.v is a copy of Python's table). *)
From Coq Require Import String List Arith NArith ZArith Bool.
From Verif Require Import PyStr Utils Res Entities Spec2 Spec10.
Import ListNotations.
Open Scope N_scope.

(** ** the character with a number *)
(** 128 to 159 mean the characters of windows-1252 *)
Definition windows : list N :=
  [8364; 129; 8218; 402; 8222; 8230; 8224; 8225; 710; 8240; 352; 8249; 338; 141; 381; 143;
   144; 8216; 8217; 8220; 8221; 8226; 8211; 8212; 732; 8482; 353; 8250; 339; 157; 382; 376].
Definition from_to (a b n : N) : bool := (a <=? n) && (n <=? b).
(** control characters, and code points that are no characters *)
Definition no_character (n : N) : bool :=
  from_to 1 8 n || (n =? 11) || from_to 14 31 n || (n =? 127) || from_to 64976 65007 n || (65534 <=? n mod 65536).
Definition coded_number (n : N) : str :=
  if n =? 0 then [65533]
  else if from_to 128 159 n then [nth (N.to_nat (n - 128)) windows 0]
  else if from_to 55296 57343 n || (1114111 <? n) then [65533]
  else if no_character n then []
  else [n].
(** ** named references *)
Definition name_means (n : str) (x : str) : Prop := exists k, In (k, x) html5_tab /\ L k = n ++ [59].
Definition name_sign (c : N) : bool := negb (existsb (N.eqb c) [9; 10; 12; 32; 60; 38; 35; 59]).
(** an ampersand that begins no reference: no name of html 5 stands there, with or without a
    semicolon *)
Definition no_reference (n w : str) : Prop :=
  forallb name_sign n = true /\ ~ In 62 n /\ (List.length n <= 32)%nat /\
  match w with [] => True | c :: _ => name_sign c = false /\ c <> 59 /\ (n = [] -> c <> 35) end /\
  forall k x, In (k, x) html5_tab -> startswith (L k) n = false.

Inductive coded : str -> str -> Prop :=
| coded_nil : coded [] []
| coded_char c v w : existsb (N.eqb c) [10; 38; 60; 62] = false -> coded v w -> coded (c :: v) (c :: w)
| coded_dec d v w : all_digits dec d = true -> N.of_nat (List.length d) <= 4300 -> coded v w ->
    coded (coded_number (dec_value d) ++ v) ($ "&#" ++ d ++ $ ";" ++ w)
| coded_hex x d v w : x = 120 \/ x = 88 -> all_digits hexadecimal d = true -> coded v w ->
    coded (coded_number (hex_value d) ++ v) ($ "&#" ++ [x] ++ d ++ $ ";" ++ w)
| coded_name n x v w : name_means n x -> coded v w -> coded (x ++ v) ($ "&" ++ n ++ $ ";" ++ w)
| coded_amp n v w : no_reference n w -> coded v w -> coded (38 :: n ++ v) ($ "&" ++ n ++ w).
