(** * quote_link — creole/emitter/html2markdown_emitter.py:19-29

    with the functions of urllib.parse (Python 3.11) it calls.  Simplifications: the checks
    of bracketed (IPv6) hosts and of the NFKC form of non-ASCII hosts, which may raise
    ValueError, are not modelled (they are taken to succeed). *)
From Coq Require Import String List NArith ZArith Bool.
From Verif Require Import PyStr Utils Res HtmlTools.
Import ListNotations.
Open Scope N_scope.

Definition is_scheme_char (c : char) : bool :=
  is_alpha c || is_dec c || (c =? 43) || (c =? 45) || (c =? 46).
Definition uses_params : list str :=
  [ []; $ "ftp"; $ "hdl"; $ "prospero"; $ "http"; $ "imap"; $ "https"; $ "shttp"; $ "rtsp";
    $ "rtsps"; $ "rtspu"; $ "sip"; $ "sips"; $ "mms"; $ "sftp"; $ "tel" ].
Definition uses_netloc : list str :=
  [ []; $ "ftp"; $ "http"; $ "gopher"; $ "nntp"; $ "telnet"; $ "imap"; $ "wais"; $ "file";
    $ "mms"; $ "https"; $ "shttp"; $ "snews"; $ "prospero"; $ "rtsp"; $ "rtsps"; $ "rtspu";
    $ "rsync"; $ "svn"; $ "svn+ssh"; $ "sftp"; $ "nfs"; $ "git"; $ "git+ssh"; $ "ws"; $ "wss" ].

(** [s.split(sep, 1)] giving [s, ''] when the separator does not occur *)
Definition cut1 (sep : char) (s : str) : str * str :=
  match split1 sep s with Some p => p | None => (s, []) end.

(** urlsplit, urllib/parse.py:449-510 *)
Record url := mku { u_scheme : str; u_netloc : str; u_path : str; u_params : str; u_query : str; u_fragment : str }.
Definition split_scheme (u : str) : str * str :=
  match u with
  | c :: _ =>
    if is_alpha c then
      match split1 58 u with
      | Some (s, r) => if forallb is_scheme_char s then (lower s, r) else ([], u)
      | None => ([], u)
      end
    else ([], u)
  | [] => ([], u)
  end.
Definition split_netloc (u : str) : res (str * str) :=
  match u with
  | 47 :: 47 :: t =>
    let host := take_while (fun c => negb ((c =? 47) || (c =? 63) || (c =? 35))) t in
    let rest := drop_while (fun c => negb ((c =? 47) || (c =? 63) || (c =? 35))) t in
    if xorb (contains [91] host) (contains [93] host) then Exc EValueError
    else Ok (host, rest)
  | _ => Ok ([], u)
  end.
(** _splitparams, urllib/parse.py:404-411: at the first ";" after the last "/" *)
Definition split_last (sep : char) (s : str) : str * str :=       (* up to and with the last [sep] *)
  match split1 sep (rev s) with
  | Some (a, b) => (rev (sep :: b), rev a)
  | None => ([], s)
  end.
Definition split_params (p : str) : str * str :=
  let '(dir, base) := split_last 47 p in
  let '(b, params) := cut1 59 base in
  (dir ++ b, params).

(** urlparse, urllib/parse.py:367-396 *)
Definition urlparse (u : str) : res url :=
  let u := drop_while (fun c => c <=? 32) u in
  let u := filter (fun c => negb ((c =? 9) || (c =? 13) || (c =? 10))) u in
  let '(scheme, u) := split_scheme u in
  do (netloc, u) <- split_netloc u;
  let '(u, fragment) := cut1 35 u in
  let '(u, query) := cut1 63 u in
  let '(p, params) := if in_list uses_params scheme && contains [59] u then split_params u else (u, []) in
  Ok (mku scheme netloc p params query fragment).

(** quote(path), urllib/parse.py:885-...: UTF-8, then percent encoding of all but
    letters, digits and _.-~/ ; a surrogate raises UnicodeEncodeError *)
Definition utf8 (c : char) : option (list N) :=
  if c <? 128 then Some [c]
  else if c <? 2048 then Some [192 + c / 64; 128 + c mod 64]
  else if c <? 65536 then
    if (55296 <=? c) && (c <=? 57343) then None
    else Some [224 + c / 4096; 128 + (c / 64) mod 64; 128 + c mod 64]
  else Some [240 + c / 262144; 128 + (c / 4096) mod 64; 128 + (c / 64) mod 64; 128 + c mod 64].
Definition is_url_safe (c : N) : bool :=
  is_alpha c || is_dec c || (c =? 95) || (c =? 46) || (c =? 45) || (c =? 126) || (c =? 47).
Definition hex_upper (n : N) : char := if n <? 10 then 48 + n else 55 + n.
Definition quote_byte (b : N) : str := if is_url_safe b then [b] else [37; hex_upper (b / 16); hex_upper (b mod 16)].
Fixpoint quote (s : str) : res str :=
  match s with
  | [] => Ok []
  | c :: t =>
    match utf8 c with
    | None => Exc EUnicode
    | Some bs => do r <- quote t; Ok (flat_map quote_byte bs ++ r)
    end
  end.

(** urlunparse and urlunsplit, urllib/parse.py:517-551 *)
Definition urlunparse (u : url) : str :=
  let p := if truthy (u_params u) then u_path u ++ [59] ++ u_params u else u_path u in
  let p := if truthy (u_netloc u) || (truthy (u_scheme u) && in_list uses_netloc (u_scheme u)) || startswith [47; 47] p
           then [47; 47] ++ u_netloc u ++ (if truthy p && negb (startswith [47] p) then [47] ++ p else p)
           else p in
  let p := if truthy (u_scheme u) then u_scheme u ++ [58] ++ p else p in
  let p := if truthy (u_query u) then p ++ [63] ++ u_query u else p in
  if truthy (u_fragment u) then p ++ [35] ++ u_fragment u else p.

(** quote_link, html2markdown_emitter.py:19-29, as it is shown in an f-string.  For [None]
    (an attribute without value) urllib works on bytes and the text is the repr of b''. *)
Definition quote_link (uri : pyval) : res str :=
  match uri with
  | VStr s =>
    do u <- urlparse s;
    do p <- quote (u_path u);
    Ok (urlunparse (mku (u_scheme u) (u_netloc u) p (u_params u) (u_query u) (u_fragment u)))
  | _ => Ok ($ "b''")
  end.
