(** Calls whose exceptions have a text. *)
From Verif Require Import PyBase.

(** A call returns a value or raises an exception with a text (str(e)). *)
Inductive answer (A : Type) : Type :=
| Gives (x : A)
| Says (e : exn) (text : pystr).
Arguments Gives {A} x.
Arguments Says {A} e text.
(** Without the text. *)
Definition unsaid {A} (r : answer A) : res A := match r with Gives x => Ok x | Says e _ => Err e end.
