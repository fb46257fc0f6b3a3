(** Property theorems: generated by tools/genprops.py from C_Hex.v, which holds the proofs. *)
From Coq Require Import String Lia.
From Verif Require Import PyBase Env PyNum Validate Basic Spec.
From Verif Require C_Hex.

(** C01.  validate_hex returns normally exactly on even-length strings over 0-9a-f; a non-string raises
    TypeError, any other string ValueError; validate_hex_length additionally requires 2n characters. *)
Theorem C01_validate_hex : forall E : Env,
  (forall s, validate_hex (PStr s) = Ok tt <->
     Nat.Even (length s) /\ Forall (fun c => In c (lit "0123456789abcdef")) s) /\
  (forall s, validate_hex (PStr s) = Ok tt \/ validate_hex (PStr s) = Err ValueError) /\
  (forall v, (forall s, v <> PStr s) -> validate_hex v = Err TypeError) /\
  (forall s n, validate_hex_length (PStr s) n = Ok tt <->
     length s = (2 * n)%nat /\ Forall (fun c => In c (lit "0123456789abcdef")) s) /\
  (forall s n, validate_hex_length (PStr s) n = Ok tt \/ validate_hex_length (PStr s) n = Err ValueError) /\
  (forall v n, (forall s, v <> PStr s) -> validate_hex_length v n = Err TypeError).
Proof. exact (fun E => C_Hex.c01_validate_hex). Qed.
Print Assumptions C01_validate_hex.

Example ex01_hex : forall E : Env,
  validate_hex (PStr (lit "00ff9a")) = Ok tt /\ validate_hex (PStr (lit "00fF")) = Err ValueError
  /\ validate_hex (PStr (lit "00f")) = Err ValueError /\ validate_hex (PInt 12) = Err TypeError
  /\ validate_hex_length (PStr (lit "00ff9a")) 3 = Ok tt /\ validate_hex_length (PStr (lit "00ff9a")) 2 = Err ValueError.
Proof. exact (fun E => C_Hex.ex01_hex). Qed.

(** C02.  int_to_hex gives the shortest byte string of n, hex_to_int reads it back, negatives raise
    ValueError, non-integers TypeError. *)
Theorem C02_int_hex_roundtrip : forall E : Env,
  (forall n, 0 <= n -> exists bs, bytes bs /\ minimal bs /\ be_val bs = n /\
     int_to_hex (PInt n) = Ok (hex_of bs) /\ hex_to_int (hex_of bs) = Ok n) /\
  (forall n, n < 0 -> int_to_hex (PInt n) = Err ValueError) /\
  (forall v, as_int v = None -> int_to_hex v = Err TypeError) /\
  (forall bs, bytes bs -> bs <> [] -> hex_to_int (hex_of bs) = Ok (be_val bs)).
Proof. exact (fun E => C_Hex.c02_int_hex_roundtrip). Qed.
Print Assumptions C02_int_hex_roundtrip.

Example ex02_int : forall E : Env,
  int_to_hex (PInt 4660) = Ok (lit "1234") /\ int_to_hex (PInt 0) = Ok (lit "00")
  /\ int_to_hex (PInt 256) = Ok (lit "0100") /\ hex_to_int (lit "0100") = Ok 256 /\ int_to_hex (PInt (-5)) = Err ValueError.
Proof. exact (fun E => C_Hex.ex02_int). Qed.

(** C03.  reverse_hex_order reverses the bytes, is an involution, and rejects what is not hex. *)
Theorem C03_reverse_hex_order : forall E : Env,
  (forall bs, bytes bs -> reverse_hex_order (PStr (hex_of bs)) = Ok (hex_of (rev bs))) /\
  (forall v s, reverse_hex_order v = Ok s -> exists bs, bytes bs /\ v = PStr (hex_of bs) /\ s = hex_of (rev bs)) /\
  (forall v s, reverse_hex_order v = Ok s -> reverse_hex_order (PStr s) = Ok (match v with PStr t => t | _ => [] end)) /\
  (forall s, ~ is_hex s -> reverse_hex_order (PStr s) = Err ValueError) /\
  (forall v, (forall s, v <> PStr s) -> reverse_hex_order v = Err TypeError).
Proof. exact (fun E => C_Hex.c03_reverse_hex_order). Qed.
Print Assumptions C03_reverse_hex_order.

Example ex03_rev : forall E : Env,
  reverse_hex_order (PStr (lit "0102ff")) = Ok (lit "ff0201") /\ reverse_hex_order (PStr (lit "012")) = Err ValueError.
Proof. exact (fun E => C_Hex.ex03_rev). Qed.

(** C04.  The composition pad_hex_le (int_to_hex_le n) k: k bytes of little-endian value n when it fits,
    ValueError otherwise; hex_le_to_int reads any non-empty byte string back. *)
Theorem C04_le_field : forall E : Env,
  (forall n k, (1 <= k)%nat -> 0 <= n < 256 ^ Z.of_nat k ->
     exists bs, bytes bs /\ length bs = k /\ le_val bs = n /\
       (x <- int_to_hex_le (PInt n) ;; pad_hex_le x k) = Ok (hex_of bs) /\ hex_le_to_int (PStr (hex_of bs)) = Ok n) /\
  (forall n k, n < 0 \/ 256 ^ Z.of_nat k <= n -> (x <- int_to_hex_le (PInt n) ;; pad_hex_le x k) = Err ValueError) /\
  (forall bs, bytes bs -> bs <> [] -> hex_le_to_int (PStr (hex_of bs)) = Ok (le_val bs)) /\
  (forall v n, hex_le_to_int v = Ok n -> exists bs, bytes bs /\ bs <> [] /\ v = PStr (hex_of bs) /\ n = le_val bs).
Proof. exact (fun E => C_Hex.c04_le_field). Qed.
Print Assumptions C04_le_field.

Example ex04_field : forall E : Env,
  (x <- int_to_hex_le (PInt 258) ;; pad_hex_le x 4) = Ok (lit "02010000")
  /\ (x <- int_to_hex_le (PInt 4294967295) ;; pad_hex_le x 4) = Ok (lit "ffffffff")
  /\ (x <- int_to_hex_le (PInt 4294967296) ;; pad_hex_le x 4) = Err ValueError
  /\ hex_le_to_int (PStr (lit "02010000")) = Ok 258.
Proof. exact (fun E => C_Hex.ex04_field). Qed.

(** C05.  var_int: one byte, exactly the values 0..252, in both directions. *)
Theorem C05_var_int : forall E : Env,
  (forall n, 0 <= n <= 252 -> int_to_var_int (PInt n) = Ok (hex_of [n]) /\ var_int_to_int (PStr (hex_of [n])) = Ok n) /\
  (forall n, ~ (0 <= n <= 252) -> int_to_var_int (PInt n) = Err ValueError) /\
  (forall v, as_int v = None -> int_to_var_int v = Err TypeError) /\
  (forall v n, var_int_to_int v = Ok n -> v = PStr (hex_of [n]) /\ 0 <= n <= 252) /\
  (forall s, (forall n, 0 <= n <= 252 -> s <> hex_of [n]) -> var_int_to_int (PStr s) = Err ValueError).
Proof. exact (fun E => C_Hex.c05_var_int). Qed.
Print Assumptions C05_var_int.

Example ex05_varint : forall E : Env,
  int_to_var_int (PInt 252) = Ok (lit "fc") /\ int_to_var_int (PInt 253) = Err ValueError
  /\ var_int_to_int (PStr (lit "19")) = Ok 25 /\ var_int_to_int (PStr (lit "fd")) = Err ValueError
  /\ var_int_to_int (PStr (lit "0019")) = Err ValueError.
Proof. exact (fun E => C_Hex.ex05_varint). Qed.

(** C06.  pad_hex: exactly k bytes with the same big-endian value, or ValueError. *)
Theorem C06_pad_hex : forall E : Env,
  (forall bs k, bytes bs -> (length bs <= k)%nat -> exists bs', bytes bs' /\ length bs' = k /\ be_val bs' = be_val bs /\
     pad_hex (hex_of bs) k = Ok (hex_of bs')) /\
  (forall bs k, bytes bs -> (length bs > k)%nat -> pad_hex (hex_of bs) k = Err ValueError) /\
  (forall s k, ~ is_hex s -> pad_hex s k = Err ValueError) /\
  (forall bs k, bytes bs -> (length bs <= k)%nat -> exists bs', bytes bs' /\ length bs' = k /\ le_val bs' = le_val bs /\
     pad_hex_le (hex_of bs) k = Ok (hex_of bs')) /\
  (forall bs k, bytes bs -> (length bs > k)%nat -> pad_hex_le (hex_of bs) k = Err ValueError).
Proof. exact (fun E => C_Hex.c06_pad_hex). Qed.
Print Assumptions C06_pad_hex.

Example ex06_pad : forall E : Env,
  pad_hex (lit "0102") 4 = Ok (lit "00000102") /\ pad_hex (lit "0102") 1 = Err ValueError.
Proof. exact (fun E => C_Hex.ex06_pad). Qed.

