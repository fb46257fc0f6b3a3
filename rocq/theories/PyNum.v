(** int(), float(), isdigit, bytes.fromhex, math.ceil: numeric built-ins.
    Floats are IEEE binary64 values in the representation of the Coq standard library's SpecFloat. *)
From Coq Require Import String Floats.SpecFloat.
From Verif Require Import PyBase Env.

Definition prec : Z := 53.
Definition emax : Z := 1024.
Notation pyfloat := spec_float.

Section WithEnv.
Context {E : Env}.

(** str.isdigit() on one character and on a string. *)
Definition char_isdigit (c : Z) : bool :=
  if c <? 128 then (48 <=? c) && (c <=? 57) else uni_isdigit c.
Definition str_isdigit (s : pystr) : bool :=
  match s with [] => false | _ => forallb char_isdigit s end.

(** CPython _PyUnicode_TransformDecimalAndSpaceToASCII, one character:
    non-ASCII white space becomes ' ', non-ASCII decimal digits become '0'..'9', anything else '?'.
    (CPython also maps DEL = 127 to '?' in non-ASCII strings; neither character is valid in a number.) *)
Definition to_ascii (c : Z) : Z :=
  if c <? 128 then c
  else if uni_isspace c then 32
  else match uni_decimal c with Some d => 48 + d | None => 63 end.

(** Py_ISSPACE *)
Definition ascii_space (c : Z) : bool := ((9 <=? c) && (c <=? 13)) || (c =? 32).

Fixpoint skip_spaces (s : pystr) : pystr :=
  match s with
  | c :: r => if ascii_space c then skip_spaces r else s
  | [] => []
  end.

(** _PyLong_DigitValue *)
Definition digit_val (c : Z) : option Z :=
  if (48 <=? c) && (c <=? 57) then Some (c - 48)
  else if (97 <=? c) && (c <=? 122) then Some (c - 87)
  else if (65 <=? c) && (c <=? 90) then Some (c - 55)
  else None.

Definition digit_in (base c : Z) : option Z :=
  match digit_val c with Some d => if d <? base then Some d else None | None => None end.

(** Digits with single underscores between them; returns value and remaining text.
    [prev] is true when the previous character was a digit. *)
Fixpoint int_digits (base acc : Z) (prev : bool) (s : pystr) : option (Z * pystr) :=
  match s with
  | c :: r =>
      match digit_in base c with
      | Some d => int_digits base (acc * base + d) true r
      | None =>
          if c =? 95 (* '_' *) then (if prev then int_digits base acc false r else None)
          else if prev then Some (acc, s) else None
      end
  | [] => if prev then Some (acc, []) else None
  end.

Definition all_spaces (s : pystr) : bool := match skip_spaces s with [] => true | _ => false end.

(** Optional 0x / 0X prefix (base 16 only), after which one underscore is allowed. *)
Definition skip_prefix (base : Z) (s : pystr) : pystr :=
  if base =? 16 then
    match s with
    | 48 :: x :: r =>
        if (x =? 120) || (x =? 88) then
          match r with u :: r' => if u =? 95 then r' else r | [] => r end
        else s
    | _ => s
    end
  else s.

(** int(s, base) for a str s, base 10 or 16 (PyLong_FromUnicodeObject / PyLong_FromString). *)
Definition py_int_str (base : Z) (s : pystr) : res Z :=
  let s1 := skip_spaces (map to_ascii s) in
  let '(neg, s2) :=
    match s1 with
    | c :: r => if c =? 45 then (true, r) else if c =? 43 then (false, r) else (false, s1)
    | [] => (false, s1)
    end in
  match int_digits base 0 false (skip_prefix base s2) with
  | Some (v, rest) => if all_spaces rest then Ok (if neg : bool then - v else v) else Err ValueError
  | None => Err ValueError
  end.

(** * Floats *)

(** Correctly rounded (nearest-even) conversion of the rational m * 10^k, m >= 0. *)
Definition float_of_dec (neg : bool) (m k : Z) : pyfloat :=
  match m with
  | Z.pos p =>
      if 0 <=? k then binary_round prec emax neg (Z.to_pos (Z.pos p * 10 ^ k)) 0
      else let '(q, e, l) := SFdiv_core_binary prec emax (Z.pos p) 0 (10 ^ (- k)) 0 in
           binary_round_aux prec emax neg q e l
  | _ => S754_zero neg
  end.

Definition is_dig (c : Z) : bool := (48 <=? c) && (c <=? 57).

(** Longest run of ASCII digits: value, how many, rest. *)
Fixpoint take_digits (acc : Z) (cnt : Z) (s : pystr) : Z * Z * pystr :=
  match s with
  | c :: r => if is_dig c then take_digits (acc * 10 + (c - 48)) (cnt + 1) r else (acc, cnt, s)
  | [] => (acc, cnt, [])
  end.

(** Underscores are allowed only between two digits; they are removed
    (_Py_string_to_number_with_underscores). *)
Fixpoint drop_underscores (prev : bool) (s : pystr) : option pystr :=
  match s with
  | [] => Some []
  | c :: r =>
      if c =? 95 then
        match r with
        | d :: _ => if prev && is_dig d then drop_underscores false r else None
        | [] => None
        end
      else match drop_underscores (is_dig c) r with Some t => Some (c :: t) | None => None end
  end.

Fixpoint strip_end (s : pystr) : pystr :=
  match s with
  | [] => []
  | c :: r => match strip_end r with
              | [] => if ascii_space c then [] else [c]
              | t => c :: t
              end
  end.

Definition lower (c : Z) : Z := if (65 <=? c) && (c <=? 90) then c + 32 else c.

(** The part of a float literal after the sign (PyOS_string_to_double grammar). *)
Definition parse_unsigned_float (neg : bool) (s : pystr) : option pyfloat :=
  let l := map lower s in
  if str_eqb l (lit "inf") || str_eqb l (lit "infinity") then Some (S754_infinity neg)
  else if str_eqb l (lit "nan") then Some S754_nan
  else
    let '(ip, ni, s1) := take_digits 0 0 s in
    let '(m, nf, s2) :=
      match s1 with
      | c :: r => if c =? 46 then take_digits ip 0 r else (ip, 0, s1)
      | [] => (ip, 0, s1)
      end in
    if ni + nf =? 0 then None
    else
      match s2 with
      | [] => Some (float_of_dec neg m (- nf))
      | c :: r =>
          if (c =? 101) || (c =? 69) then
            let '(eneg, r1) :=
              match r with
              | d :: r' => if d =? 45 then (true, r') else if d =? 43 then (false, r') else (false, r)
              | [] => (false, r)
              end in
            let '(ev, ne, r2) := take_digits 0 0 r1 in
            if ne =? 0 then None
            else match r2 with
                 | [] => Some (float_of_dec neg m ((if eneg : bool then - ev else ev) - nf))
                 | _ => None
                 end
          else None
      end.

(** float(s) for a str s.  Overflow yields an infinity, as in CPython. *)
Definition py_float_str (s : pystr) : res pyfloat :=
  let s1 := strip_end (skip_spaces (map to_ascii s)) in
  match drop_underscores false s1 with
  | None => Err ValueError
  | Some s2 =>
      let r := match s2 with
               | c :: t => if c =? 45 then parse_unsigned_float true t
                           else if c =? 43 then parse_unsigned_float false t
                           else parse_unsigned_float false s2
               | [] => None
               end in
      match r with Some f => Ok f | None => Err ValueError end
  end.

(** float(n) for an int: correctly rounded; OverflowError when the result is not finite. *)
Definition py_float_int (n : Z) : res pyfloat :=
  let f := binary_normalize prec emax n 0 false in
  match f with S754_infinity _ => Err OverflowError | _ => Ok f end.

(** float(v) for any value. *)
Definition py_float (v : pyval) : res pyfloat :=
  match v with
  | PStr s => py_float_str s
  | PInt z => py_float_int z
  | PBool b => py_float_int (b2z b)
  | PFloat f => Ok f
  | _ => Err TypeError
  end.

(** x * y, x / y on floats. *)
Definition fmul (x y : pyfloat) : pyfloat := SFmul prec emax x y.
Definition fdiv (x y : pyfloat) : res pyfloat :=
  match y with S754_zero _ => Err ZeroDivisionError | _ => Ok (SFdiv prec emax x y) end.

(** math.ceil(f) and int(f). *)
Definition py_ceil (f : pyfloat) : res Z :=
  match f with
  | S754_nan => Err ValueError
  | S754_infinity _ => Err OverflowError
  | S754_zero _ => Ok 0
  | S754_finite s m e =>
      let v := if s then Z.neg m else Z.pos m in
      Ok (if 0 <=? e then v * 2 ^ e else - ((- v) / 2 ^ (- e)))
  end.
Definition py_trunc (f : pyfloat) : res Z :=
  match f with
  | S754_nan => Err ValueError
  | S754_infinity _ => Err OverflowError
  | S754_zero _ => Ok 0
  | S754_finite s m e =>
      let v := if s then Z.neg m else Z.pos m in
      Ok (if 0 <=? e then v * 2 ^ e else Z.quot v (2 ^ (- e)))
  end.

(** int(v) for any value. *)
Definition py_int (v : pyval) : res Z :=
  match v with
  | PInt z => Ok z
  | PBool b => Ok (b2z b)
  | PFloat f => py_trunc f
  | PStr s => py_int_str 10 s
  | _ => Err TypeError
  end.

(** str(v) for an int or bool (only ever applied after validate_integer). *)
Definition py_str_int (v : pyval) : pystr :=
  match v with
  | PInt z => int_str z
  | PBool true => lit "True"
  | PBool false => lit "False"
  | _ => []
  end.

(** bytes.fromhex(s), CPython 3.6: ' ' is skipped between bytes, upper case is accepted. *)
Definition hex_nibble (c : Z) : option Z := digit_in 16 c.
Fixpoint bytes_fromhex (s : pystr) : res (list Z) :=
  match s with
  | [] => Ok []
  | c :: r =>
      if c =? 32 then bytes_fromhex r
      else match r with
           | d :: r' =>
               match hex_nibble c, hex_nibble d with
               | Some h, Some l => bs <- bytes_fromhex r' ;; Ok (16 * h + l :: bs)
               | _, _ => Err ValueError
               end
           | [] => Err ValueError
           end
  end.

(** bytes.hex() *)
Definition bytes_hex (bs : list Z) : pystr :=
  concat (map (fun b => [digit_char (b / 16); digit_char (b mod 16)]) bs).

End WithEnv.
