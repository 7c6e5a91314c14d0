(** * Vocabulary: creole documents with macros

    The blocks are those of Spec5.v; between them stand macros with a text.  What a macro does
    is up to the environment ([uenv]: which names exist and what a call answers after the calls
    before it).  Nothing here refers to the parser or to its regular expressions. *)
From Coq Require Import String List NArith ZArith Bool.
From Verif Require Import PyStr UniTab Regex Utils HtmlEmitter Spec4 Spec5 Spec7.
Import ListNotations.
Open Scope N_scope.

Record mcall := mkmc { mc_name : str; mc_args : list arg; mc_text : str }.
Inductive piece := PBlock (b : block) | PMacro (m : mcall).

(** ** Writing *)
Definition wr_macro (m : mcall) : str :=
  $ "<<" ++ mc_name m ++ match mc_args m with [] => [] | l => $ " " ++ args_text l end ++ $ ">>" ++
  mc_text m ++ $ "<</" ++ mc_name m ++ $ ">>".
Definition wr_piece (p : piece) : str := match p with PBlock b => wr_block b | PMacro m => wr_macro m end.
(** an empty line between the pieces *)
Fixpoint wr_pieces (d : list piece) : str :=
  match d with
  | [] => []
  | [p] => wr_piece p
  | p :: r => wr_piece p ++ [10; 10] ++ wr_pieces r
  end.

(** ** What a macro is called with *)
Definition call_means (m : mcall) (kw : pydict) : Prop :=
  dict_get ($ "text") kw = Some (VStr (strip (mc_text m))) /\
  forall k, k <> $ "text" ->
    match arg_value k (mc_args m) with
    | Some v => exists p, dict_get k kw = Some p /\ reads_as v p
    | None => dict_get k kw = None
    end.
Fixpoint macros_of (d : list piece) : list mcall :=
  match d with
  | [] => []
  | PBlock _ :: r => macros_of r
  | PMacro m :: r => m :: macros_of r
  end.

(** ** What is shown *)
(** a complaint; nothing if not verbose *)
Definition complaint (v : Z) (t : str) : str := if (0 <? v)%Z then $ "[Error: " ++ t ++ $ "]" ++ [10] else [].
(** what stands in the place of a macro; nothing if an exception is let through *)
Definition answer (v : Z) (e : uenv) (before : list call) (name : str) (kw : pydict) : option str :=
  if u_has e name then
    match u_call e before name kw with
    | MRet r => Some (r ++ [10])
    | MNonStr descr => Some (complaint v ($ "Macro '" ++ name ++ $ "' doesn't return a unicode string!" ++ if (1 <? v)%Z then descr else []))
    | MTypeError msg => if (2 <? v)%Z then None else Some (complaint v ($ "Macro '" ++ name ++ $ "' error: " ++ msg))
    | MException msg => Some (complaint v ($ "Macro '" ++ name ++ $ "' error: " ++ msg))
    | MBase => None
    end
  else Some (complaint v ($ "Macro '" ++ name ++ $ "' doesn't exist")).
(** the macros that exist are called *)
Definition called (e : uenv) (before : list call) (name : str) (kw : pydict) : list call :=
  if u_has e name then before ++ [(name, kw)] else before.
(** what a piece is followed by *)
Definition line_end (b : block) : str := match b with BList _ _ => [] | _ => [10] end.
Definition between (d : list piece) : str := match d with [] => [] | _ => [10] end.
(** the html of a document whose macros are called with [kws], and the calls made *)
Fixpoint html_pieces (blog strict : bool) (v : Z) (e : uenv) (d : list piece) (kws : list pydict) (before : list call) : option (str * list call) :=
  match d with
  | [] => Some ([], before)
  | PBlock b :: r =>
    match html_pieces blog strict v e r kws before with
    | Some (t, l) => Some (html_block blog strict b ++ line_end b ++ between r ++ t, l)
    | None => None
    end
  | PMacro m :: r =>
    match kws with
    | [] => None
    | kw :: kws =>
      match answer v e before (mc_name m) kw with
      | Some a =>
        match html_pieces blog strict v e r kws (called e before (mc_name m) kw) with
        | Some (t, l) => Some (a ++ between r ++ t, l)
        | None => None
        end
      | None => None
      end
    end
  end.

(** ** Which documents are unambiguous *)
(** the signs of a name: letters, digits and the underscore (Unicode's for the others) *)
Definition macro_sign (c : N) : bool :=
  if c <? 128
  then ((48 <=? c) && (c <=? 57)) || ((65 <=? c) && (c <=? 90)) || (c =? 95) || ((97 <=? c) && (c <=? 122))
  else existsb (fun r => (fst r <=? c) && (c <=? snd r)) word_ranges.
Definition macro_ok (m : mcall) : bool :=
  truthy (mc_name m) && forallb macro_sign (mc_name m) && negb (str_eqb (mc_name m) ($ "toc")) &&
  match mc_args m with
  | [] => true
  | l => forallb arg_ok l && trimmed (args_text l) && no_char [10; 13] (args_text l) && only_end ($ ">>") (args_text l)
  end &&
  no_char [13] (mc_text m) && only_end ($ "<</") (mc_text m).
Definition piece_ok (blog : bool) (p : piece) : bool :=
  match p with PBlock b => block_ok blog b | PMacro m => macro_ok m end.
(** without blog line breaks a macro is recognised only at the start *)
Definition piece_after_blank (blog : bool) (p : piece) : bool :=
  match p with PBlock b => after_blank blog b | PMacro _ => blog end.
Definition pieces_ok (blog : bool) (d : list piece) : bool :=
  forallb (piece_ok blog) d && forallb (piece_after_blank blog) (tl d).
