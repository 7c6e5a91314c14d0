(** * Helpers for the conformance examples of creole2html (tests of the model, not proofs) *)
From Coq Require Export PArith.
From Coq Require Import String List NArith ZArith Bool.
From Verif Require Export PyStr Utils DocTree CreoleParser HtmlEmitter.
Import ListNotations.
Open Scope N_scope.

Definition exact (s : str) : str := s.
(** tests/utils/base_unittest.py:115: [out_string.replace("\t", "    ")] *)
Definition tabs4 (s : str) : str := replace [9] [32; 32; 32; 32] s.
(** tests/utils/base_unittest.py:44-52 strip_html_lines *)
Definition stripped (s : str) : str :=
  join [10] (map (strip_chars [32; 9]) (filter truthy (splitlines s))).
Definition chk_c2h (f : str -> str) (o : opts) (md : mdict) (markup expected : str) : bool :=
  match fst (creole2html o md markup) with
  | Ok a => str_eqb (f a) expected
  | Exc _ => false
  end.

(** keyword arguments of Python functions with exactly the given parameters *)
Definition kstr (k : string) (kw : pydict) : option str :=
  match dict_get (L k) kw with Some (VStr s) => Some s | _ => None end.

(** creole/shared/example_macros.py:25-66 (html, pre, code without pygments) *)
Definition ex_macros : uenv :=
  mkenv (fun n => existsb (str_eqb n) [$ "html"; $ "pre"; $ "code"])
    (fun _ n kw =>
       if str_eqb n ($ "html") then
         match kstr "text" kw with Some t => MRet t | None => MNonStr [] end
       else match kstr "text" kw with
            | Some t => MRet ($ "<pre>" ++ escape t ++ $ "</pre>")
            | None => MTypeError []
            end).
Definition ex_md : mdict := mkmd ex_macros TNone [].

(** creole/tests/test_macros.py *)
Definition tm_macros : uenv :=
  mkenv (fun n => existsb (str_eqb n) [$ "unittest_macro1"; $ "unittest_macro2"])
    (fun _ n kw =>
       if str_eqb n ($ "unittest_macro1") then
         MRet ($ "[test macro1 - kwargs: " ++
               join [44] (map (fun kv => fst kv ++ [61] ++ json_dumps (snd kv)) (sort_items kw)) ++ $ "]")
       else match kstr "char" kw, kstr "text" kw with
            | Some c, Some t => MRet (join c (split_ws t))
            | _, _ => MTypeError []
            end).
Definition tm_md : mdict := mkmd tm_macros TNone [].
