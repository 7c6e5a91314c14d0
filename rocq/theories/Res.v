(** * Results of functions that may raise *)

(** Python exceptions that can leave the converters.  [EMacroBase] is an exception of a user
    macro that is not an [Exception]; [ESubstitution] is [Html2restException]
    (creole/emitter/html2rest_emitter.py:24); [EUnicode] is [UnicodeEncodeError] (a subclass
    of [ValueError]). *)
Inductive exc := ETypeError | EAttributeError | EKeyError | EValueError | EIndexError
               | EOverflow | EUnicode | ENotImplemented | EAssertion | ESubstitution
               | EMacroBase | EOther.
Inductive res (A : Type) := Ok (a : A) | Exc (e : exc).
Arguments Ok {A} a.
Arguments Exc {A} e.

Definition bind {A B} (x : res A) (f : A -> res B) : res B :=
  match x with Ok a => f a | Exc e => Exc e end.
Notation "'do' p <- x ; k" := (bind x (fun p => k))
  (at level 200, p pattern, x at level 100, k at level 200, right associativity).
