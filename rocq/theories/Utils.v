(** * creole/shared/utils.py  (string2dict, dict2string)

    together with the standard library functions it calls: [shlex.split] (posix mode,
    [whitespace_split], no comment characters), [int(str)], [json.dumps]. *)
From Coq Require Import String List NArith ZArith Bool.
From Verif Require Import PyStr GNames Regex.
Import ListNotations.
Open Scope N_scope.

(** Python values that can occur as macro arguments or HTML attributes.  [json.dumps] of
    other values (floats, lists, dicts) is not modelled: neither [string2dict] nor the HTML
    parser produces them. *)
Inductive pyval := VStr (s : str) | VInt (z : Z) | VBool (b : bool) | VNone.

(** A [dict] with [str] keys in insertion order *)
Definition pydict := list (str * pyval).

(** [d[k] = v] *)
Fixpoint dict_set (k : str) (v : pyval) (d : pydict) : pydict :=
  match d with
  | [] => [(k, v)]
  | (k', v') :: t => if str_eqb k k' then (k', v) :: t else (k', v') :: dict_set k v t
  end.
Fixpoint dict_get (k : str) (d : pydict) : option pyval :=
  match d with
  | [] => None
  | (k', v) :: t => if str_eqb k k' then Some v else dict_get k t
  end.

(** ** shlex.split — shlex.py:133-277 (read_token), 305-315 (split) *)
Definition shlex_ws (c : char) : bool := (c =? 32) || (c =? 9) || (c =? 13) || (c =? 10).

Inductive lstate :=
| LSpace                  (* state ' ' *)
| LWord                   (* state 'a' *)
| LQuote (q : char)       (* state is a quote character *)
| LEsc (q : option char). (* state '\\'; escapedstate is 'a' ([None]) or a quote *)

(** [tok]: the token so far, reversed.  [None] models [ValueError] ("No closing quotation",
    "No escaped character"). *)
Fixpoint shlex_go (st : lstate) (tok : str) (quoted : bool) (s : str) : option (list str) :=
  match s with
  | [] =>
    match st with
    | LSpace => Some []
    | LWord => Some (if quoted || truthy tok then [rev tok] else [])
    | LQuote _ => None
    | LEsc _ => None
    end
  | c :: t =>
    match st with
    | LSpace =>
      if shlex_ws c then shlex_go LSpace [] false t
      else if c =? 92 then shlex_go (LEsc None) [] false t
      else if (c =? 39) || (c =? 34) then shlex_go (LQuote c) [] false t
      else shlex_go LWord [c] false t
    | LQuote q =>
      if c =? q then shlex_go LWord tok true t
      else if (c =? 92) && (q =? 34) then shlex_go (LEsc (Some q)) tok true t
      else shlex_go (LQuote q) (c :: tok) true t
    | LEsc None => shlex_go LWord (c :: tok) quoted t
    | LEsc (Some q) =>
      if negb (c =? 92) && negb (c =? q)
      then shlex_go (LQuote q) (c :: 92 :: tok) quoted t
      else shlex_go (LQuote q) (c :: tok) quoted t
    | LWord =>
      if shlex_ws c then
        if quoted || truthy tok
        then match shlex_go LSpace [] false t with
             | Some r => Some (rev tok :: r)
             | None => None
             end
        else shlex_go LSpace [] false t
      else if (c =? 39) || (c =? 34) then shlex_go (LQuote c) tok quoted t
      else if c =? 92 then shlex_go (LEsc None) tok quoted t
      else shlex_go LWord (c :: tok) quoted t
    end
  end.
Definition shlex_split (s : str) : option (list str) := shlex_go LSpace [] false s.

(** ** int(s), base 10
    White space around, sign, decimal digits of any script, single underscores between
    digits, at most 4300 digits (CPython >= 3.11 default limit).  [None] is [ValueError]. *)
Definition int_space (c : char) : bool := is_space c && negb ((28 <=? c) && (c <=? 31)).

(** digits and underscores; [us]: the previous character was an underscore or there was no
    digit yet *)
Fixpoint int_digits (us : bool) (acc cnt : N) (s : str) : option (N * N) :=
  match s with
  | [] => if us then None else Some (acc, cnt)
  | c :: t =>
    match digit_val c with
    | Some d => int_digits false (acc * 10 + d) (cnt + 1) t
    | None => if (c =? 95) && negb us then int_digits true acc cnt t else None
    end
  end.
Definition int_max_digits : N := 4300.
Definition py_int (s : str) : option Z :=
  let s := strip_by int_space s in
  let '(neg, s) := match s with
                   | 45 :: t => (true, t)
                   | 43 :: t => (false, t)
                   | _ => (false, s)
                   end in
  match int_digits true 0 0 s with
  | Some (n, cnt) =>
    if cnt <=? int_max_digits
    then Some (if neg then (- Z.of_N n)%Z else Z.of_N n) else None
  | None => None
  end.

(** ** string2dict — creole/shared/utils.py:30-60 *)
(** KEYWORD_MAP, utils.py:23-27, and the number test, utils.py:49-56 *)
Definition conv_value (v : str) : pyval :=
  if str_eqb v ($ "True") then VBool true
  else if str_eqb v ($ "False") then VBool false
  else if str_eqb v ($ "None") then VNone
  else match py_int (strip_chars [39; 34] v) with
       | Some z => VInt z
       | None => VStr v
       end.

(** [key, value = part.split("=", 1)] raises ValueError without "=" *)
Fixpoint s2d_parts (parts : list str) (d : pydict) : option pydict :=
  match parts with
  | [] => Some d
  | p :: t => match split1 61 p with
              | Some (k, v) => s2d_parts t (dict_set k (conv_value v) d)
              | None => None
              end
  end.

(** [None] models [ValueError] *)
Definition string2dict (raw : str) : option pydict :=
  match shlex_split raw with
  | Some parts => s2d_parts parts []
  | None => None
  end.

(** ** json.dumps (ensure_ascii=True) — json/encoder.py:18-71 *)
Definition hex_digit (n : N) : char := if n <? 10 then 48 + n else 87 + n.
Definition hex4 (n : N) : str :=
  [ hex_digit (n / 4096 mod 16); hex_digit (n / 256 mod 16); hex_digit (n / 16 mod 16); hex_digit (n mod 16) ].
Definition json_char (c : char) : str :=
  if c =? 92 then [92; 92]
  else if c =? 34 then [92; 34]
  else if (32 <=? c) && (c <=? 126) then [c]
  else if c =? 8 then [92; 98]
  else if c =? 12 then [92; 102]
  else if c =? 10 then [92; 110]
  else if c =? 13 then [92; 114]
  else if c =? 9 then [92; 116]
  else if c <? 65536 then [92; 117] ++ hex4 c
  else let n := c - 65536 in
       [92; 117] ++ hex4 (55296 + (n / 1024) mod 1024) ++ [92; 117] ++ hex4 (56320 + n mod 1024).
Definition json_str (s : str) : str := [34] ++ flat_map json_char s ++ [34].
Definition json_dumps (v : pyval) : str :=
  match v with
  | VStr s => json_str s
  | VInt z => show_Z z
  | VBool true => $ "true"
  | VBool false => $ "false"
  | VNone => $ "null"
  end.

(** [sorted(d.items())]: keys of a dict are distinct, so only the keys are compared, by
    code points *)
Fixpoint str_leb (a b : str) : bool :=
  match a, b with
  | [], _ => true
  | _ :: _, [] => false
  | x :: a', y :: b' => (x <? y) || ((x =? y) && str_leb a' b')
  end.
Fixpoint ins_item (e : str * pyval) (l : pydict) : pydict :=
  match l with
  | [] => [e]
  | h :: t => if str_leb (fst e) (fst h) then e :: l else h :: ins_item e t
  end.
Definition sort_items (d : pydict) : pydict := fold_right ins_item [] d.

(** ** dict2string — creole/shared/utils.py:63-79 *)
Definition dict2string (d : pydict) : str :=
  join [32] (map (fun kv => fst kv ++ [61] ++ json_dumps (snd kv)) (sort_items d)).
