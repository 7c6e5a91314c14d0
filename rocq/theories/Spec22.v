(** * Vocabulary: creole documents with macros between and inside of paragraphs

    The blocks are those of Spec5.v and the macros with a text are those of Spec20.v.  In the
    lines of a paragraph there may also be single macro tags ([<<name args>>] or
    [<<name args />>]) and macros around a text.  Nothing here refers to the parser or to its
    regular expressions. *)
From Coq Require Import String List NArith ZArith Bool.
From Verif Require Import PyStr Regex Utils HtmlEmitter Spec4 Spec5 Spec7 Spec20.
Import ListNotations.
Open Scope N_scope.

Record tcall := mktag { tg_name : str; tg_args : list arg; tg_slash : bool }.
(** a part of a line *)
Inductive bit := Plain (i : inl) | Tag (t : tcall) | Around (m : mcall).
Inductive part2 := QBlock (b : block) | QMacro (m : mcall) | QPara (lines : list (list bit)).

(** ** Writing *)
Definition wr_args (l : list arg) : str := match l with [] => [] | _ => $ " " ++ args_text l end.
Definition wr_tag (t : tcall) : str := $ "<<" ++ tg_name t ++ wr_args (tg_args t) ++ (if tg_slash t then $ " /" else []) ++ $ ">>".
Definition wr_bit (b : bit) : str := match b with Plain i => wr_inl i | Tag t => wr_tag t | Around m => wr_macro m end.
Definition wr_bits (l : list bit) : str := flat_map wr_bit l.
Definition wr_part (p : part2) : str :=
  match p with QBlock b => wr_block b | QMacro m => wr_macro m | QPara lines => lines_text (map wr_bits lines) end.
Fixpoint wr_parts (d : list part2) : str :=
  match d with
  | [] => []
  | [p] => wr_part p
  | p :: r => wr_part p ++ [10; 10] ++ wr_parts r
  end.

(** ** What the macros are called with *)
Record request := mkreq { rq_name : str; rq_args : list arg; rq_text : option str }.
Definition of_tag (t : tcall) : request := mkreq (tg_name t) (tg_args t) None.
Definition of_macro (m : mcall) : request := mkreq (mc_name m) (mc_args m) (Some (mc_text m)).
Definition bit_requests (b : bit) : list request := match b with Plain _ => [] | Tag t => [of_tag t] | Around m => [of_macro m] end.
Definition part_requests (p : part2) : list request :=
  match p with QBlock _ => [] | QMacro m => [of_macro m] | QPara lines => flat_map (flat_map bit_requests) lines end.
Definition requests (d : list part2) : list request := flat_map part_requests d.
(** the arguments as written; [text] is the text, without white space around it, or None *)
Definition request_means (r : request) (kw : pydict) : Prop :=
  dict_get ($ "text") kw = Some (match rq_text r with Some t => VStr (strip t) | None => VNone end) /\
  forall k, k <> $ "text" ->
    match arg_value k (rq_args r) with
    | Some v => exists p, dict_get k kw = Some p /\ reads_as v p
    | None => dict_get k kw = None
    end.

(** ** What is shown

    [say]: after the calls made before, what is shown and the calls made then; nothing if an
    exception is let through. *)
Definition say := list call -> option (str * list call).
Definition done (t : str) : say := fun l => Some (t, l).
Definition andthen (a b : say) : say := fun l =>
  match a l with
  | Some (x, l1) => match b l1 with Some (y, l2) => Some (x ++ y, l2) | None => None end
  | None => None
  end.
(** the answer of a macro, with [nl] after a text *)
Definition ask (v : Z) (e : uenv) (nl : str) (name : str) (kw : pydict) : say := fun before =>
  if u_has e name then
    let l := before ++ [(name, kw)] in
    match u_call e before name kw with
    | MRet r => Some (r ++ nl, l)
    | MNonStr descr => Some (complaint v ($ "Macro '" ++ name ++ $ "' doesn't return a unicode string!" ++ if (1 <? v)%Z then descr else []), l)
    | MTypeError msg => if (2 <? v)%Z then None else Some (complaint v ($ "Macro '" ++ name ++ $ "' error: " ++ msg), l)
    | MException msg => Some (complaint v ($ "Macro '" ++ name ++ $ "' error: " ++ msg), l)
    | MBase => None
    end
  else Some (complaint v ($ "Macro '" ++ name ++ $ "' doesn't exist"), before).
Section Shows.
  Variables (blog strict : bool) (v : Z) (e : uenv) (kw : request -> pydict).
  Definition say_bit (b : bit) : say :=
    match b with
    | Plain i => done (html_inl strict br i)
    | Tag t => ask v e [] (tg_name t) (kw (of_tag t))
    | Around m => ask v e [] (mc_name m) (kw (of_macro m))
    end.
  Fixpoint say_bits (l : list bit) : say := match l with [] => done [] | b :: r => andthen (say_bit b) (say_bits r) end.
  Definition bits_backslash (l : list bit) : bool := last_is (N.eqb 92) (wr_bits l).
  Fixpoint say_lines (l : list (list bit)) : say :=
    match l with
    | [] => done []
    | [x] => say_bits x
    | x :: r => andthen (say_bits x) (andthen (done (if bits_backslash x then [] else if blog then br else [32])) (say_lines r))
    end.
  Definition say_part (p : part2) : say :=
    match p with
    | QBlock b => done (html_block blog strict b ++ line_end b)
    | QMacro m => ask v e [10] (mc_name m) (kw (of_macro m))
    | QPara lines => andthen (done ($ "<p>")) (andthen (say_lines lines) (done ($ "</p>" ++ [10])))
    end.
  Fixpoint say_parts (d : list part2) : say :=
    match d with
    | [] => done []
    | [p] => say_part p
    | p :: r => andthen (say_part p) (andthen (done [10]) (say_parts r))
    end.
End Shows.

(** ** Which documents are unambiguous *)
(** [t] has the end tag of a macro whose name is a (not empty) first part of [name] *)
Fixpoint closed_in (name t : str) : bool :=
  match t with
  | [] => false
  | _ :: r =>
    (startswith ($ "<</") t && (let w := take_while macro_sign (drop_while is_space (skipn 3 t)) in truthy w && startswith w name)) ||
    closed_in name r
  end.
Definition args_ok (l : list arg) : bool :=
  match l with
  | [] => true
  | _ => forallb arg_ok l && trimmed (args_text l) && no_char [10; 13] (args_text l) && only_end ($ ">>") (args_text l)
  end.
Definition tag_ok (t : tcall) : bool :=
  truthy (tg_name t) && forallb macro_sign (tg_name t) && negb (str_eqb (tg_name t) ($ "toc")) &&
  args_ok (tg_args t) && negb (last_is (N.eqb 47) (wr_args (tg_args t))).
(** [t]: the rest of the line *)
Definition bit_ok (b : str) (x : bit) (t : str) : bool :=
  match x with
  | Plain i => inl_ok b i t
  | Tag g => tag_ok g && negb (closed_in (tg_name g) t)
  | Around m => macro_ok m && no_char [10] (mc_text m)
  end.
Fixpoint bits_ok (b : str) (l : list bit) : bool :=
  match l with [] => true | x :: r => bit_ok b x (wr_bits r) && bits_ok (rev (wr_bit x) ++ b) r end.
(** a line does not start with a macro around a text; a tag at its start is not closed in the rest of the
    document ([t]) *)
Definition start_ok (l : list bit) (t : str) : bool :=
  match l with
  | Tag g :: r => negb (closed_in (tg_name g) (wr_bits r ++ t))
  | _ => negb (block_start (wr_bits l))
  end.
Definition is_break_bit (b : bit) : bool := match b with Plain i => is_break i | _ => false end.
Definition bits_end_in_break (l : list bit) : bool := match rev l with b :: _ => is_break_bit b | [] => false end.
Definition bline_ok (l : list bit) (t : str) : bool :=
  truthy (wr_bits l) && no_char [10; 13] (wr_bits l) && start_ok l t && bits_ok [] l.
(** [t]: the rest of the document *)
Fixpoint blines_ok (lines : list (list bit)) (t : str) : bool :=
  match lines with
  | [] => false
  | [x] => bline_ok x t && negb (bits_end_in_break x)
  | x :: r => bline_ok x ([10] ++ lines_text (map wr_bits r) ++ t) && blines_ok r t
  end.
Definition part_ok (blog : bool) (p : part2) (t : str) : bool :=
  match p with QBlock b => block_ok blog b | QMacro m => macro_ok m | QPara lines => blines_ok lines t end.
Definition part_after_blank (blog : bool) (p : part2) : bool :=
  match p with QBlock b => after_blank blog b | QMacro _ => blog | QPara _ => true end.
Fixpoint parts_ok_from (blog first : bool) (d : list part2) : bool :=
  match d with
  | [] => true
  | p :: r => part_ok blog p (match r with [] => [] | _ => [10; 10] ++ wr_parts r end) && (first || part_after_blank blog p) && parts_ok_from blog false r
  end.
Definition parts_ok (blog : bool) (d : list part2) : bool := parts_ok_from blog true d.
