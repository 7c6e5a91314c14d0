(** * Vocabulary: web addresses and percent encoding

    An address by its parts ([addr]), how it is written ([show_addr]), which parts are
    unambiguous ([addr_ok]) and what percent encoding is.  Nothing here refers to the emitter
    or to the model of urllib. *)
From Coq Require Import String List Arith NArith ZArith Bool.
From Verif Require Import PyStr Utils.
Import ListNotations.
Open Scope N_scope.

Record addr := mkaddr { a_scheme : option str; a_host : option str; a_path : str; a_query : option str; a_fragment : option str }.
(** scheme://host/path?query#fragment, without the absent parts *)
Definition opt_part (f : str -> str) (o : option str) : str := match o with Some s => f s | None => [] end.
Definition show_addr (a : addr) : str :=
  opt_part (fun s => s ++ $ ":") (a_scheme a) ++ opt_part (fun h => $ "//" ++ h) (a_host a) ++ a_path a ++
  opt_part (fun q => $ "?" ++ q) (a_query a) ++ opt_part (fun f => $ "#" ++ f) (a_fragment a).

(** ** Percent encoding of a path *)
Definition small (c : N) : bool := (97 <=? c) && (c <=? 122).
Definition capital (c : N) : bool := (65 <=? c) && (c <=? 90).
Definition digit (c : N) : bool := (48 <=? c) && (c <=? 57).
(** letters, digits and - . _ ~ / are written as they are *)
Definition unreserved (c : N) : bool := small c || capital c || digit c || existsb (N.eqb c) ($ "-._~/").
(** the bytes of a character in UTF-8, RFC 3629 *)
Definition octets (c : N) : list N :=
  if c <? 128 then [c]
  else if c <? 2048 then [192 + c / 64; 128 + c mod 64]
  else if c <? 65536 then [224 + c / 4096; 128 + c / 64 mod 64; 128 + c mod 64]
  else [240 + c / 262144; 128 + c / 4096 mod 64; 128 + c / 64 mod 64; 128 + c mod 64].
Definition hex_digit (n : N) : N := nth (N.to_nat n) ($ "0123456789ABCDEF") 0.
Definition percent_char (c : N) : str := if unreserved c then [c] else flat_map (fun b => [37; hex_digit (b / 16); hex_digit (b mod 16)]) (octets c).
Definition percent (p : str) : str := flat_map percent_char p.
(** the bytes a percent encoded text stands for *)
Definition hex_number (c : N) : N := if digit c then c - 48 else c - 55.
Fixpoint unpercent (s : str) : list N :=
  match s with
  | [] => []
  | c :: t => if c =? 37 then match t with x :: y :: r => (16 * hex_number x + hex_number y) :: unpercent r | _ => [] end
              else c :: unpercent t
  end.

(** ** Unambiguous addresses *)
Definition all_but (no : str) (s : str) : bool := forallb (fun c => negb (existsb (N.eqb c) no)) s.
(** tab, newline and carriage return *)
Definition breaks : str := [9; 10; 13].
(** schemes whose addresses have a host *)
Definition host_schemes : list str :=
  [ $ "ftp"; $ "http"; $ "gopher"; $ "nntp"; $ "telnet"; $ "imap"; $ "wais"; $ "file"; $ "mms"; $ "https"; $ "shttp"; $ "snews";
    $ "prospero"; $ "rtsp"; $ "rtsps"; $ "rtspu"; $ "rsync"; $ "svn"; $ "svn+ssh"; $ "sftp"; $ "nfs"; $ "git"; $ "git+ssh"; $ "ws"; $ "wss" ].
Definition character (c : N) : bool := (c <? 1114112) && negb ((55296 <=? c) && (c <=? 57343)).
Definition scheme_ok (s : str) : bool :=
  match s with c :: _ => small c | [] => false end && forallb (fun c => small c || digit c || existsb (N.eqb c) ($ "+-.")) s.
Definition host_ok (h : str) : bool := negb (is_nil h) && forallb (fun c => (33 <=? c) && (c <=? 126)) h && all_but ($ "/?#[]") h.
Definition part_ok (no : str) (o : option str) : bool := match o with Some s => negb (is_nil s) && all_but (no ++ breaks) s | None => true end.
Definition addr_ok (a : addr) : bool :=
  let p := a_path a in
  forallb character p && all_but ($ "?#" ++ breaks) p && part_ok ($ "#") (a_query a) && part_ok [] (a_fragment a) &&
  match a_scheme a with Some s => scheme_ok s | None => true end &&
  match a_host a with
  | Some h => host_ok h && match p with [] => true | c :: _ => c =? 47 end
  | None => negb (startswith ($ "//") p) &&
            match a_scheme a with
            | Some s => negb (existsb (str_eqb s) host_schemes)
            | None => (* no blank in front, no colon in the first part of the path *)
                      match p with [] => true | c :: _ => negb (c <=? 32) end && all_but ($ ":") (take_while (fun c => negb (c =? 47)) p)
            end
  end.

(** ** Parameters: what follows the first semicolon of the last part of the path.  Some schemes have
    them, and addresses without a scheme *)
Definition param_schemes : list str :=
  [ $ "ftp"; $ "hdl"; $ "prospero"; $ "http"; $ "imap"; $ "https"; $ "shttp"; $ "rtsp"; $ "rtsps"; $ "rtspu"; $ "sip"; $ "sips"; $ "mms"; $ "sftp"; $ "tel" ].
Definition has_params (a : addr) : bool := match a_scheme a with Some s => existsb (str_eqb s) param_schemes | None => true end.
Definition but (c : N) (d : N) : bool := negb (d =? c).
Definition folder (p : str) : str := rev (drop_while (but 47) (rev p)).
Definition last_part (p : str) : str := rev (take_while (but 47) (rev p)).
Definition plain_path (a : addr) : str := if has_params a then folder (a_path a) ++ take_while (but 59) (last_part (a_path a)) else a_path a.
(** with their semicolon *)
Definition params (a : addr) : str := if has_params a then drop_while (but 59) (last_part (a_path a)) else [].

(** the same address with its path percent encoded, but not its parameters; a semicolon at the end
    gets lost *)
Definition quoted (a : addr) : addr :=
  mkaddr (a_scheme a) (a_host a) (percent (plain_path a) ++ (match params a with [_] => [] | t => t end)) (a_query a) (a_fragment a).
