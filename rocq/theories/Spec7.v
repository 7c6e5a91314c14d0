(** * Vocabulary of the properties of macro arguments *)
From Coq Require Import String List NArith ZArith Bool.
From Verif Require Import PyStr Utils Spec4 Spec50.
Import ListNotations.
Open Scope N_scope.

(** two dicts are equal: the same value for every key *)
Definition same_dict (a b : pydict) : Prop := forall k, dict_get k a = dict_get k b.
(** a key without blank, quote, backslash and equal sign *)
Definition plain_key (k : str) : bool := no_char [32; 9; 13; 10; 39; 34; 92; 61] k.
Definition printable (s : str) : bool := forallb (fun c => (32 <=? c) && (c <=? 126)) s.
Definition keyword (s : str) : bool := existsb (str_eqb s) [$ "True"; $ "False"; $ "None"].
(** the text without the quotes around it is no number for int(), see Spec50.v *)
Definition not_a_number (s : str) : Prop := forall z, ~ number (strip_chars [39; 34] s) z.
Definition plain_value (v : pyval) : Prop :=
  match v with
  | VInt z => N.of_nat (List.length (show_N (Z.abs_N z))) <= 4300
  | VStr s => printable s = true /\ keyword s = false /\ not_a_number s
  | VBool _ | VNone => False
  end.

(** a macro argument as a user writes it: bare, in double or in single quotes *)
Inductive quoting := Bare | Double | Single.
Record arg := mkarg { a_key : str; a_quoting : quoting; a_val : str }.
Definition arg_text (a : arg) : str :=
  a_key a ++ [61] ++ match a_quoting a with
                     | Bare => a_val a
                     | Double => [34] ++ a_val a ++ [34]
                     | Single => [39] ++ a_val a ++ [39]
                     end.
Definition arg_ok (a : arg) : bool :=
  plain_key (a_key a) &&
  match a_quoting a with
  | Bare => no_char [32; 9; 13; 10; 39; 34; 92] (a_val a)
  | Double => no_char [34; 92] (a_val a)
  | Single => no_char [39] (a_val a)
  end.
Definition args_text (l : list arg) : str := join [32] (map arg_text l).
(** the value of a key: of the last argument with this key; numbers and the three keywords
    are converted *)
Fixpoint arg_value (k : str) (l : list arg) : option str :=
  match l with
  | [] => None
  | a :: t => match arg_value k t with
              | Some v => Some v
              | None => if str_eqb k (a_key a) then Some (a_val a) else None
              end
  end.
Inductive reads_as : str -> pyval -> Prop :=
| reads_true : reads_as ($ "True") (VBool true)
| reads_false : reads_as ($ "False") (VBool false)
| reads_none : reads_as ($ "None") VNone
| reads_int : forall v z, keyword v = false -> number (strip_chars [39; 34] v) z -> reads_as v (VInt z)
| reads_text : forall v, keyword v = false -> not_a_number v -> reads_as v (VStr v).
(** a text with a letter is no number; neither is one without digits *)
Definition has_letter (s : str) : bool := existsb letter s.

(** ** what a value has become after dict2string and string2dict *)
(** four hexadecimal digits, in lower case *)
Definition lower_hex (c : char) (v : N) : Prop := In (c, v)
  (combine ($ "0123456789abcdef") [0; 1; 2; 3; 4; 5; 6; 7; 8; 9; 10; 11; 12; 13; 14; 15]).
Definition four_hex (h : str) (n : N) : Prop := exists (a b c d : char) (x y z w : N), h = [a; b; c; d] /\ lower_hex a x /\ lower_hex b y /\ lower_hex c z /\ lower_hex d w /\ n = ((x * 16 + y) * 16 + z) * 16 + w.
(** a printable ASCII character comes back as it is, all others as their JSON escapes *)
Definition short_escapes : list (char * str) := [(8, $ "\b"); (9, $ "\t"); (10, $ "\n"); (12, $ "\f"); (13, $ "\r")].
Inductive comes_back : char -> str -> Prop :=
| cb_printable : forall c, 32 <= c <= 126 -> comes_back c [c]
| cb_short : forall c e, In (c, e) short_escapes -> comes_back c e
| cb_code : forall c h, c < 32 \/ 126 < c < 65536 -> ~ In c (map fst short_escapes) -> four_hex h c -> comes_back c ($ "\u" ++ h)
| cb_pair : forall c hi lo h l, 65536 <= c -> 55296 <= hi < 56320 -> 56320 <= lo < 57344 -> c = 65536 + (hi - 55296) * 1024 + (lo - 56320) ->
    four_hex h hi -> four_hex l lo -> comes_back c ($ "\u" ++ h ++ $ "\u" ++ l).
Inductive text_back : str -> str -> Prop :=
| tb_nil : text_back [] []
| tb_cons : forall c e s t, comes_back c e -> text_back s t -> text_back (c :: s) (e ++ t).
Inductive value_back : pyval -> str -> Prop :=
| vb_str : forall s t, text_back s t -> value_back (VStr s) t
| vb_int : forall z, value_back (VInt z) (show_Z z)
| vb_bool : forall b : bool, value_back (VBool b) (if b then $ "true" else $ "false")
| vb_none : value_back VNone ($ "null").
(** a value that can be written: a text of Unicode characters, or an int of at most 4300 digits *)
Definition writable (v : pyval) : Prop :=
  match v with
  | VStr s => forall c, In c s -> c < 1114112
  | VInt z => N.of_nat (List.length (show_N (Z.abs_N z))) <= 4300
  | _ => True
  end.
