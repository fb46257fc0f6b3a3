(** What Python's int() and float() make of their argument, and how floats are rounded: the numbers a user may write as
    previous_output_index, fee, max_fee, max_spend_percentage.  Nothing here refers to the model. *)
From Coq Require Import String Floats.SpecFloat Reals.
From Flocq Require Import Core BinarySingleNaN.
From Verif Require Import PyBase Env Spec EnvOk FloatSpec.
Open Scope Z_scope.

Section WithEnv.
Context {E : Env}.

(** White space around a number: tab, line feed, vertical tab, form feed, carriage return, space, or a white space
    character beyond ASCII. *)
Definition space (c : Z) : Prop := 9 <= c <= 13 \/ c = 32 \/ (128 <= c /\ uni_isspace c = true).
(** No sign, '+' or '-'. *)
Inductive sign_text : pystr -> bool -> Prop :=
| no_sign : sign_text [] false
| plus : sign_text [43] false
| minus : sign_text [45] true.
Definition signed (neg : bool) (n : Z) : Z := if neg then - n else n.

(** One or more digits; single underscores may stand between them. *)
Inductive digits_text : pystr -> list Z -> Prop :=
| one_digit c d : dec_char c d -> digits_text [c] [d]
| next_digit c d s ds : dec_char c d -> digits_text s ds -> digits_text (c :: s) (d :: ds)
| underscore c d s ds : dec_char c d -> digits_text s ds -> digits_text (c :: 95 :: s) (d :: ds).

(** int(s) = n *)
Definition int_text (s : pystr) (n : Z) : Prop :=
  exists w sg neg b ds w', s = w ++ sg ++ b ++ w' /\ Forall space w /\ Forall space w' /\
    sign_text sg neg /\ digits_text b ds /\ n = signed neg (val 10 ds).

(** Digits, or nothing. *)
Definition maybe_digits (s : pystr) (ds : list Z) : Prop := (s = [] /\ ds = []) \/ digits_text s ds.
(** Digits before and after the dot. *)
Definition point_text (s : pystr) (ip fp : list Z) : Prop :=
  (digits_text s ip /\ fp = []) \/
  (exists a b, s = a ++ [46] ++ b /\ maybe_digits a ip /\ maybe_digits b fp /\ ip ++ fp <> []).
(** The exponent part: nothing, or 'e' and a whole number. *)
Definition exponent_text (s : pystr) (x : Z) : Prop :=
  (s = [] /\ x = 0) \/
  (exists c sg neg b ds, s = c :: sg ++ b /\ (c = 101 \/ c = 69) /\ sign_text sg neg /\ digits_text b ds /\ x = signed neg (val 10 ds)).
(** The letters of a word in upper or lower case. *)
Definition word (s : pystr) (w : string) : Prop := Forall2 (fun c l => c = l \/ c = l - 32) s (lit w).

(** The IEEE binary64 number nearest to x, ties to even. *)
Definition nearest (x : R) : R := round radix2 (FLT_exp (-1074) 53) ZnearestE x.
(** f is x rounded to nearest; numbers too large become infinite; neg is the sign (which a zero has, too). *)
Definition rounds (x : R) (neg : bool) (f : spec_float) : Prop :=
  double f /\
  (((Rabs (nearest x) < bpow radix2 1024)%R /\ is_finite_SF f = true /\ float_value f = nearest x /\ sign_SF f = neg) \/
   ((bpow radix2 1024 <= Rabs (nearest x))%R /\ f = S754_infinity neg)).

(** float(s) = f *)
Definition float_text (s : pystr) (f : spec_float) : Prop :=
  exists w sg neg b w', s = w ++ sg ++ b ++ w' /\ Forall space w /\ Forall space w' /\ sign_text sg neg /\
    (((word b "inf" \/ word b "infinity") /\ f = S754_infinity neg) \/
     (word b "nan" /\ f = S754_nan) \/
     (exists p e ip fp x, b = p ++ e /\ point_text p ip fp /\ exponent_text e x /\
        rounds (IZR (signed neg (val 10 (ip ++ fp))) * powerRZ 10 (x - Z.of_nat (length fp))) neg f)).

(** int(v) = n: an int or bool as it is, a float cut towards zero, a str read. *)
Definition truncates (f : spec_float) (n : Z) : Prop := is_finite_SF f = true /\ n = Ztrunc (float_value f).
Definition int_value (v : pyval) (n : Z) : Prop :=
  match v with
  | PInt z => n = z
  | PBool b => n = if b then 1 else 0
  | PFloat f => truncates f n
  | PStr s => int_text s n
  | _ => False
  end.
(** float(v) = f *)
Definition float_of_value (v : pyval) (f : spec_float) : Prop :=
  match v with
  | PInt z => rounds (IZR z) (z <? 0) f /\ is_finite_SF f = true
  | PBool b => rounds (if b then 1 else 0) false f
  | PFloat g => f = g
  | PStr s => float_text s f
  | _ => False
  end.

(** math.ceil(f) = n *)
Definition ceils (f : spec_float) (n : Z) : Prop := is_finite_SF f = true /\ n = Zceil (float_value f).

End WithEnv.
