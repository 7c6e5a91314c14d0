(** * Python's [re] : backtracking matcher

    Models the part of CPython's [re] engine (Modules/_sre) used by /repo: greedy and lazy
    repetition, named groups, back references, line anchors, one-character look-behind and
    negative look-ahead, [finditer] and [sub] with the Python >= 3.7 rule for empty matches. *)
From Coq Require Import List NArith Bool Lia.
From Verif Require Import PyStr UniTab GNames.
Import ListNotations.
Open Scope N_scope.

(** ** Character classes *)
Definition is_word (c : char) : bool :=       (* \w *)
  if c <? 128
  then ((48 <=? c) && (c <=? 57)) || ((65 <=? c) && (c <=? 90)) || (c =? 95) || ((97 <=? c) && (c <=? 122))
  else in_ranges word_ranges c.
(** value of a decimal digit, [None] if the character is not one *)
Fixpoint digit_in (zs : list N) (c : char) : option N :=
  match zs with
  | [] => None
  | z :: t => if (z <=? c) && (c <=? z + 9) then Some (c - z) else digit_in t c
  end.
Definition digit_val (c : char) : option N :=
  if c <? 128 then (if (48 <=? c) && (c <=? 57) then Some (c - 48) else None)
  else digit_in digit_zeros c.
Definition is_digit (c : char) : bool := match digit_val c with Some _ => true | None => false end. (* \d *)
Definition is_dot (c : char) : bool := negb (c =? 10).                            (* . *)

(** ** Regular expressions *)
Inductive regex :=
| REps
| RChr (p : char -> bool)
| RSeq (a b : regex)
| RAlt (a b : regex)                      (* ordered choice *)
| RStar (greedy : bool) (r : regex)
| RGrp (g : gname) (r : regex)              (* (?P<g>...) *)
| RBack (g : gname)                         (* (?P=g) *)
| RBol                                    (* ^ with re.MULTILINE *)
| REol                                    (* $ with re.MULTILINE *)
| RBos                                    (* ^ without re.MULTILINE *)
| RBehind (neg : bool) (p : char -> bool) (* (?<=p) / (?<!p), one character *)
| RNotAhead (r : regex).                  (* (?!r) *)

Definition c1 (a : char) : regex := RChr (N.eqb a).
Fixpoint lit (s : str) : regex :=
  match s with [] => REps | [c] => c1 c | c :: t => RSeq (c1 c) (lit t) end.
Definition ROpt (r : regex) : regex := RAlt r REps.             (* r?  greedy *)
Definition RPlus (greedy : bool) (r : regex) : regex := RSeq r (RStar greedy r).
Fixpoint seqs (l : list regex) : regex :=
  match l with [] => REps | [r] => r | r :: t => RSeq r (seqs t) end.
Fixpoint alts (l : list regex) : regex :=
  match l with [] => RChr (fun _ => false) | [r] => r | r :: t => RAlt r (alts t) end.

(** ** Matching state: reversed text before the position, text after it, captures *)
Record st := mk { bef : str; rest : str; caps : list (gname * str) }.

Fixpoint cap (g : gname) (cs : list (gname * str)) : option str :=
  match cs with
  | [] => None
  | (h, v) :: t => if gname_beq g h then Some v else cap g t
  end.

(** advance over a literal string (used for back references) *)
Fixpoint eat (w : str) (s : st) : option st :=
  match w with
  | [] => Some s
  | c :: w' =>
    match rest s with
    | d :: t => if c =? d then eat w' (mk (d :: bef s) t (caps s)) else None
    | [] => None
    end
  end.

Definition orelse {A} (a : option A) (b : option A) : option A :=
  match a with Some _ => a | None => b end.

(** [m r s k]: match [r] at [s], then continue with [k]; backtrack when [k] fails.
    Repetition is bounded by the length of the remaining text, which is no restriction
    because the bodies of all repetitions in /repo consume at least one character
    ([star_fuel_irrelevant] in RegexFacts.v). *)
Fixpoint m (r : regex) (s : st) (k : st -> option st) {struct r} : option st :=
  match r with
  | REps => k s
  | RChr p => match rest s with
              | c :: t => if p c then k (mk (c :: bef s) t (caps s)) else None
              | [] => None
              end
  | RSeq a b => m a s (fun s' => m b s' k)
  | RAlt a b => orelse (m a s k) (m b s k)
  | RStar greedy r0 =>
    (fix star (n : nat) (s : st) : option st :=
       match n with
       | O => k s
       | S n' => if greedy
                 then orelse (m r0 s (fun s' => star n' s')) (k s)
                 else orelse (k s) (m r0 s (fun s' => star n' s'))
       end) (List.length (rest s)) s
  | RGrp g r0 =>
    m r0 s (fun s' =>
      k (mk (bef s') (rest s')
            ((g, firstn (List.length (rest s) - List.length (rest s')) (rest s)) :: caps s')))
  | RBack g => match cap g (caps s) with
               | Some w => match eat w s with Some s' => k s' | None => None end
               | None => None
               end
  | RBol => match bef s with
            | [] => k s
            | c :: _ => if c =? 10 then k s else None
            end
  | REol => match rest s with
            | [] => k s
            | c :: _ => if c =? 10 then k s else None
            end
  | RBos => match bef s with [] => k s | _ :: _ => None end
  | RBehind neg p => match bef s with
                     | [] => if neg then k s else None
                     | c :: _ => if xorb neg (p c) then k s else None
                     end
  | RNotAhead r0 => match m r0 s (fun s' => Some s') with
                    | Some _ => None
                    | None => k s
                    end
  end.

(** ** Searching *)
Record mtch := mkm { mtxt : str; mcaps : list (gname * str) }.

(** one match attempt at a position; [adv]: the match must not be empty *)
Definition try_at (r : regex) (adv : bool) (b t : str) : option mtch :=
  match m r (mk b t []) (fun s' =>
          if adv && Nat.eqb (List.length (rest s')) (List.length t) then None else Some s') with
  | Some s' => Some (mkm (firstn (List.length t - List.length (rest s')) t) (caps s'))
  | None => None
  end.

(** all matches starting at a position: at most one empty match followed by at most one
    non-empty one (Python >= 3.7) *)
Definition at_pos (r : regex) (b t : str) : list mtch :=
  match try_at r false b t with
  | None => []
  | Some x =>
    match mtxt x with
    | [] => match try_at r true b t with
            | None => [x]
            | Some y => [x; y]
            end
    | _ => [x]
    end
  end.

Definition last_len (l : list mtch) : nat :=
  match rev l with [] => O | x :: _ => List.length (mtxt x) end.

(** [scan] splits a text into unmatched characters and matches, left to right *)
Fixpoint scan (r : regex) (skip : nat) (b t : str) {struct t} : list (char + mtch) :=
  match t with
  | [] => match skip with O => map inr (at_pos r b []) | S _ => [] end
  | c :: t' =>
    match skip with
    | S n => scan r n (c :: b) t'
    | O =>
      let ms := at_pos r b t in
      map inr ms ++
      match last_len ms with
      | O => inl c :: scan r O (c :: b) t'
      | S n => scan r n (c :: b) t'
      end
    end
  end.

(** [re.finditer] *)
Definition finditer (r : regex) (s : str) : list mtch :=
  flat_map (fun x => match x with inl _ => [] | inr y => [y] end) (scan r O [] s).

(** [re.sub] with a callback *)
Definition resub (r : regex) (f : mtch -> str) (s : str) : str :=
  flat_map (fun x => match x with inl c => [c] | inr y => f y end) (scan r O [] s).

(** [match.group(name)] *)
Definition group (g : gname) (x : mtch) : option str := cap g (mcaps x).
(** [groups.get(name, "")] where the group took part in the match; an unset group is [None] *)
Definition group0 (g : gname) (x : mtch) : str := match group g x with Some v => v | None => [] end.
