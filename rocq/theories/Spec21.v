(** * Vocabulary: documents with the example macros *)
From Coq Require Import String List NArith ZArith Bool.
From Verif Require Import PyStr Utils Spec4 Spec5 Spec7 Spec20.
Import ListNotations.
Open Scope N_scope.

(** html and pre without arguments, code with the argument ext; with another argument there is
    a complaint if the level [n] asks for one *)
Inductive example_macro (n : Z) : mcall -> str -> Prop :=
| ex_html : forall t, example_macro n (mkmc ($ "html") [] t) (strip t)
| ex_pre : forall t, example_macro n (mkmc ($ "pre") [] t) (elem ($ "pre") (escape (strip t)))
| ex_code : forall q v t, example_macro n (mkmc ($ "code") [mkarg ($ "ext") q v] t) (elem ($ "pre") (escape (strip t)))
| ex_wrong : forall f k q v t, In f [$ "html"; $ "pre"; $ "code"] -> k <> $ "text" -> (f = $ "code" -> k <> $ "ext") -> (n = 1 \/ n = 2)%Z ->
    example_macro n (mkmc f [mkarg k q v] t) ($ "[Error: Macro '" ++ f ++ $ "' error: " ++ f ++ $ "() got an unexpected keyword argument '" ++ k ++ $ "']").
(** what such a document shows *)
Inductive example_doc (blog strict : bool) (n : Z) : list piece -> str -> Prop :=
| ex_end : example_doc blog strict n [] []
| ex_block : forall b r t, example_doc blog strict n r t ->
    example_doc blog strict n (PBlock b :: r) (html_block blog strict b ++ line_end b ++ between r ++ t)
| ex_macro : forall m a r t, example_macro n m a -> example_doc blog strict n r t ->
    example_doc blog strict n (PMacro m :: r) (a ++ [10] ++ between r ++ t).
