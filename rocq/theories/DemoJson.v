(** JSON texts for the examples beside C79 and C80. *)
From Coq Require Import String Floats.SpecFloat.
From Verif Require Import PyBase Env Json Demo.

(** A quotation mark in a Coq string: replaced by the character ' here. *)
Definition json (s : string) : pystr := map (fun c => if c =? 39 then 34 else c) (lit s).
(** float.__repr__ is not needed. *)
Definition no_repr (f : spec_float) : pystr := [].
Definition json_env : Env := with_json no_repr demo_env.
