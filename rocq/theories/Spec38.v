(** * Vocabulary: documents with the example macros, on a system with pygments

    pygments is a parameter: [by_name], [guess] and [highlight] answer what they like. *)
From Coq Require Import String List NArith ZArith Bool.
From Verif Require Import PyStr Utils HtmlEmitter ExampleMacros Spec4 Spec5 Spec7 Spec20.
Import ListNotations.
Open Scope N_scope.

(** the language an extension names: all of it, or what stands between its first two dots *)
Inductive language : str -> str -> Prop :=
| lang_plain : forall e, no_char [46] e = true -> language e (strip e)
| lang_dot : forall e a b, strip e = a ++ $ "." ++ b -> no_char [46] a = true -> no_char [46] b = true -> language e b
| lang_dots : forall e a b r, strip e = a ++ $ "." ++ b ++ $ "." ++ r -> no_char [46] a = true -> no_char [46] b = true -> language e b.
(** a lexer of that name, or what is guessed *)
Inductive lexed (p : pygments) (lang : str) : lexer p -> Prop :=
| lexed_name : forall l, by_name p lang = Some l -> lexed p lang l
| lexed_guess : forall l, by_name p lang = None -> guess p = Datatypes.inl l -> lexed p lang l.
Definition html_breaks (h : str) : str := flat_map (fun c => if c =? 10 then $ "<br />" ++ [10] else [c]) h.
(** what stands in the place of a macro; [v] is the verbosity *)
Inductive shown_macro (p : pygments) (v : Z) : mcall -> str -> Prop :=
| sm_html : forall t, shown_macro p v (mkmc ($ "html") [] t) (strip t ++ [10])
| sm_pre : forall t, shown_macro p v (mkmc ($ "pre") [] t) (elem ($ "pre") (escape (strip t)) ++ [10])
| sm_code : forall q e t lang l h, reads_as e (VStr e) -> language e lang -> lexed p lang l -> highlight p l (Some (strip t)) = Some h ->
    shown_macro p v (mkmc ($ "code") [mkarg ($ "ext") q e] t) (html_breaks h ++ [10])
| sm_plain : forall q e t lang l, reads_as e (VStr e) -> language e lang -> lexed p lang l -> highlight p l (Some (strip t)) = None ->
    shown_macro p v (mkmc ($ "code") [mkarg ($ "ext") q e] t) (html_breaks (elem ($ "pre") (escape (strip t))) ++ [10])
| sm_unknown : forall q e t lang msg, reads_as e (VStr e) -> language e lang -> by_name p lang = None -> guess p = Datatypes.inr (MException msg) ->
    shown_macro p v (mkmc ($ "code") [mkarg ($ "ext") q e] t) (complaint v ($ "Macro 'code' error: " ++ msg))
| sm_number : forall q e z t, reads_as e (VInt z) -> (v <= 2)%Z ->
    shown_macro p v (mkmc ($ "code") [mkarg ($ "ext") q e] t) (complaint v ($ "Macro 'code' error: argument of type 'int' is not iterable")).
(** what such a document shows *)
Inductive shown_doc (p : pygments) (blog strict : bool) (v : Z) : list piece -> str -> Prop :=
| sd_end : shown_doc p blog strict v [] []
| sd_block : forall b r t, shown_doc p blog strict v r t -> shown_doc p blog strict v (PBlock b :: r) (html_block blog strict b ++ line_end b ++ between r ++ t)
| sd_macro : forall m a r t, shown_macro p v m a -> shown_doc p blog strict v r t -> shown_doc p blog strict v (PMacro m :: r) (a ++ between r ++ t).
