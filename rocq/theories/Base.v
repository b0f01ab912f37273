(** Common vocabulary: Python exceptions as values. *)
From Coq Require Import String List.
Import ListNotations.

(** The Python exception classes that can leave the modelled functions. *)
Inductive exn :=
| ValueError | KeyError | IndexError | TypeError | AttributeError | ZeroDivisionError
| StructError | UnicodeError | UnboundLocalError | NameError | OverflowError
| ParsingError              (* surfalize/batch.py:21-25 *)
| BatchError                (* surfalize/exceptions.py *)
| CalculationError          (* surfalize/exceptions.py *)
| CorruptedFileError        (* surfalize/exceptions.py *)
| UnsupportedFileFormatError(* surfalize/exceptions.py *)
| OtherError (what : string).

Inductive res (A : Type) := Ok (a : A) | Err (e : exn).
Arguments Ok {A} a.
Arguments Err {A} e.

Definition rbind {A B} (r : res A) (k : A -> res B) : res B :=
  match r with Ok a => k a | Err e => Err e end.
Definition rmap {A B} (f : A -> B) (r : res A) : res B :=
  match r with Ok a => Ok (f a) | Err e => Err e end.
Definition is_ok {A} (r : res A) : bool := match r with Ok _ => true | Err _ => false end.

Declare Scope res_scope.
Delimit Scope res_scope with res.
Notation "'do' x <- r ; k" := (rbind r (fun x => k))
  (at level 200, x name, r at level 100, k at level 200) : res_scope.
Notation "'do' ' p <- r ; k" := (rbind r (fun p => k))
  (at level 200, p strict pattern, r at level 100, k at level 200) : res_scope.
