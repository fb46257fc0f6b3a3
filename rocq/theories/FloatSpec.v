(** The real number denoted by a float, and by a decimal numeral. *)
From Coq Require Import Floats.SpecFloat Reals.
From Verif Require Import PyBase Spec.

Definition float_value (f : spec_float) : R :=
  match f with
  | S754_finite s m e => (IZR (if s then Z.neg m else Z.pos m) * powerRZ 2 e)%R
  | _ => 0%R
  end.
(** f is a genuine IEEE binary64 value (every Python float is). *)
Definition double (f : spec_float) : Prop := valid_binary 53 1024 f = true.
(** The number written with the digits ip before and fp after the dot. *)
Definition decimal (ip fp : list Z) : R := (IZR (val 10 (ip ++ fp)) / IZR (10 ^ Z.of_nat (length fp)))%R.
