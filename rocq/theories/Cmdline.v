(** * The command line tools — creole/cmdline.py

    A file system maps names to files (several names may be the same file: hard links, or a
    path written in two ways) and files to their bytes.  Not modelled: the two
    [print] calls, directories and modes other than through [readable] and [writable]. *)
From Coq Require Import String List NArith ZArith Bool.
From Verif Require Import PyStr Utils Res UrlQuote HtmlEmitter HtmlBase Html2X.
Import ListNotations.
Open Scope N_scope.

Definition bytes := list N.
Record fs := mkfs { names : str -> option N; data : N -> bytes; free : N }.
Definition contents (f : fs) (p : str) : option bytes := option_map (data f) (names f p).
Definition put (f : fs) (i : N) (b : bytes) : fs := mkfs (names f) (fun j => if j =? i then b else data f j) (free f).

(** open(p, "wb"): the file is created or emptied *)
Definition open_w (f : fs) (p : str) : fs * N :=
  match names f p with
  | Some i => (put f i [], i)
  | None => (mkfs (fun q => if str_eqb q p then Some (free f) else names f q)
                  (fun j => if j =? free f then [] else data f j) (free f + 1), free f)
  end.

(** codecs: [None] is UnicodeDecodeError or UnicodeEncodeError *)
Record codec := mkcodec { dec : bytes -> option str; enc : str -> option bytes }.
(** which names can be opened, the codec registry ([None]: LookupError), how many bytes can
    be written before the device is full ([None]: no limit) *)
Record world := mkworld { readable : str -> bool; writable : str -> bool; lookup : str -> option codec; room : option nat }.
Inductive cerr := COpen | CLookup | CDecode | CConvert (e : exc) | CEncode | CDisk.
Inductive cres := CDone | CFail (e : cerr).

(** [write_states f i b]: the states while [b] is written to the empty file [i] *)
Definition write_states (f : fs) (i : N) (b : bytes) : list fs := map (fun n => put f i (firstn n b)) (seq 0 (S (List.length b))).

(** CreoleCLI.convert, cmdline.py:45-56, with codecs.open (which opens the file and then looks
    up the codec) and the order of the two [with] statements.  The result is the outcome and
    all states of the file system the call goes through, the last one when it returns. *)
Definition convert (w : world) (conv : str -> res str) (src dst encoding : str) (f : fs) : cres * list fs :=
  match names f src with
  | None => (CFail COpen, [f])
  | Some i =>
    if negb (readable w src) then (CFail COpen, [f]) else
    match lookup w encoding with
    | None => (CFail CLookup, [f])
    | Some c =>
      if negb (writable w dst) then (CFail COpen, [f]) else
      let '(f1, o) := open_w f dst in
      match dec c (data f1 i) with
      | None => (CFail CDecode, [f; f1])
      | Some t =>
        match conv t with
        | Exc e => (CFail (CConvert e), [f; f1])
        | Ok u =>
          match enc c u with
          | None => (CFail CEncode, [f; f1])
          | Some b =>
            match room w with
            | Some n => if (n <? List.length b)%nat
                        then (CFail CDisk, f :: write_states f1 o (firstn n b))
                        else (CDone, f :: write_states f1 o b)
            | None => (CDone, f :: write_states f1 o b)
            end
          end
        end
      end
    end
  end.

(** ** The default codec: utf-8, encodings/utf_8.py with errors = 'strict'

    Decoding is [codecs.utf_8_decode(data, 'strict')], the stream reader's, with final=False:
    an incomplete sequence at the end is left over and lost. *)
Fixpoint utf8_encode (s : str) : option bytes :=
  match s with
  | [] => Some []
  | c :: t =>
    match utf8 c, utf8_encode t with
    | Some a, Some b => Some (a ++ b)
    | _, _ => None
    end
  end.
Definition cont_byte (b : N) : bool := (128 <=? b) && (b <=? 191).
(** the second byte after the lead byte [b] (no overlong forms, no surrogates, not beyond 10FFFF) *)
Definition second_byte (b b1 : N) : bool :=
  cont_byte b1 && (if b =? 224 then 160 <=? b1
                   else if b =? 237 then b1 <? 160
                   else if b =? 240 then 144 <=? b1
                   else if b =? 244 then b1 <? 144
                   else true).
Fixpoint utf8_decode (s : bytes) : option str :=
  match s with
  | [] => Some []
  | b :: t =>
    if b <? 128 then option_map (cons b) (utf8_decode t)
    else if (194 <=? b) && (b <=? 223) then
      match t with
      | [] => Some []
      | b1 :: t1 => if cont_byte b1 then option_map (cons ((b - 192) * 64 + (b1 - 128))) (utf8_decode t1) else None
      end
    else if (224 <=? b) && (b <=? 239) then
      match t with
      | [] => Some []
      | b1 :: t1 =>
        if second_byte b b1 then
          match t1 with
          | [] => Some []
          | b2 :: t2 =>
            if cont_byte b2 then option_map (cons ((b - 224) * 4096 + (b1 - 128) * 64 + (b2 - 128))) (utf8_decode t2) else None
          end
        else None
      end
    else if (240 <=? b) && (b <=? 244) then
      match t with
      | [] => Some []
      | b1 :: t1 =>
        if second_byte b b1 then
          match t1 with
          | [] => Some []
          | b2 :: t2 =>
            if cont_byte b2 then
              match t2 with
              | [] => Some []
              | b3 :: t3 =>
                if cont_byte b3
                then option_map (cons ((b - 240) * 262144 + (b1 - 128) * 4096 + (b2 - 128) * 64 + (b3 - 128))) (utf8_decode t3)
                else None
              end
            else None
          end
        else None
      end
    else None
  end.
Definition utf8_codec : codec := mkcodec utf8_decode utf8_encode.

(** ** The four tools — cmdline.py:59-72: [convert_func(content)] with the default arguments;
    unknown_emit=None is replaced by transparent_unknown_nodes, base_emitter.py:26-29. *)
Definition cli_creole2html (t : str) : res str := fst (creole2html (mkopts true None false) no_md t).
Definition cli_html2creole : str -> res str := html2creole transparent_unknown_nodes false.
Definition cli_html2rest : str -> res str := html2rest transparent_unknown_nodes.
Definition cli_html2textile : str -> res str := html2textile transparent_unknown_nodes.
