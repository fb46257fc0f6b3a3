(** Property theorems: generated by tools/genprops.py from C_BasicSays.v, which holds the proofs. *)
From Coq Require Import String Floats.SpecFloat Lia.
From Verif Require Import PyBase Env PyNum Validate Basic Spec EnvOk ValidSpec Messages MessagesSpec Complaints ComplaintsSpec Answer BasicSays BasicSaysSpec Demo.
Open Scope Z_scope.
From Verif Require C_BasicSays.

(** C95.  Each function returns and raises exactly what its model without texts does (C02, C05, C06, C08-C10, C14-C17). *)
Theorem C95_same : forall E : Env,
  forall repr v,
  validate_bitcoin_amount v = outcome_of (validate_bitcoin_amount_says repr v) /\
  validate_positive_bitcoin_amount v = outcome_of (validate_positive_bitcoin_amount_says repr v) /\
  satoshi_to_bitcoin v = unsaid (satoshi_to_bitcoin_says repr v) /\
  bitcoin_to_satoshi v = unsaid (bitcoin_to_satoshi_says repr v) /\
  (forall s, ensure_8_decimal_places s = unsaid (ensure_8_decimal_places_says s)) /\
  int_to_hex v = unsaid (int_to_hex_says repr v) /\
  (forall s k, pad_hex s k = unsaid (pad_hex_says repr (PStr s) (PInt (Z.of_nat k)))) /\
  (forall s k, pad_hex_le s k = unsaid (pad_hex_le_says repr (PStr s) (PInt (Z.of_nat k)))) /\
  int_to_var_int v = unsaid (int_to_var_int_says repr v) /\
  var_int_to_int v = unsaid (var_int_to_int_says repr v) /\
  base58check_to_hex v = unsaid (base58check_to_hex_says repr v) /\
  bitcoin_address_to_public_key_hash_hex v = unsaid (bitcoin_address_to_public_key_hash_hex_says repr v) /\
  validate_bitcoin_address v = outcome_of (validate_bitcoin_address_says repr v).
Proof. exact (fun E => C_BasicSays.c95_same). Qed.
Print Assumptions C95_same.

(** C95.  validate_bitcoin_amount and validate_positive_bitcoin_amount. *)
Theorem C95_amounts : forall E : Env,
  UniOk E -> forall repr v r,
  (validate_bitcoin_amount_says repr v = r <-> exists f, amount repr v f /\ reported repr v None PNone (PStr (lit "string")) f r) /\
  (validate_positive_bitcoin_amount_says repr v = r <-> exists f, positive_amount repr v f /\ reported repr v None PNone (PStr (lit "string")) f r).
Proof. exact (fun E => C_BasicSays.c95_amounts). Qed.
Print Assumptions C95_amounts.

(** C95.  satoshi_to_bitcoin. *)
Theorem C95_satoshi_to_bitcoin : forall E : Env,
  UniOk E -> forall repr v r, satoshi_to_bitcoin_says repr v = r <-> to_bitcoin repr v r.
Proof. exact (fun E => C_BasicSays.c95_satoshi_to_bitcoin). Qed.
Print Assumptions C95_satoshi_to_bitcoin.

(** C95.  bitcoin_to_satoshi. *)
Theorem C95_bitcoin_to_satoshi : forall E : Env,
  UniOk E -> forall repr v r, bitcoin_to_satoshi_says repr v = r <-> to_satoshi repr v r.
Proof. exact (fun E => C_BasicSays.c95_bitcoin_to_satoshi). Qed.
Print Assumptions C95_bitcoin_to_satoshi.

(** C95.  ensure_8_decimal_places. *)
Theorem C95_ensure_8_decimal_places : forall E : Env,
  forall s r, ensure_8_decimal_places_says s = r <-> eight_places s r.
Proof. exact (fun E => C_BasicSays.c95_ensure_8_decimal_places). Qed.
Print Assumptions C95_ensure_8_decimal_places.

(** C95.  int_to_hex. *)
Theorem C95_int_to_hex : forall E : Env,
  forall repr v r, int_to_hex_says repr v = r <-> to_hex repr v r.
Proof. exact (fun E => C_BasicSays.c95_int_to_hex). Qed.
Print Assumptions C95_int_to_hex.

(** C95.  pad_hex and pad_hex_le. *)
Theorem C95_pad_hex : forall E : Env,
  forall repr x n r,
  (pad_hex_says repr x n = r <-> padded repr (fun zeros bs => zeros ++ bs) x n r) /\
  (pad_hex_le_says repr x n = r <-> padded repr (fun zeros bs => bs ++ zeros) x n r).
Proof. exact (fun E => C_BasicSays.c95_pad_hex). Qed.
Print Assumptions C95_pad_hex.

(** C95.  int_to_var_int and var_int_to_int. *)
Theorem C95_var_int : forall E : Env,
  forall repr v,
  (forall r, int_to_var_int_says repr v = r <-> count_written repr v r) /\ (forall r, var_int_to_int_says repr v = r <-> count_read repr v r).
Proof. exact (fun E => C_BasicSays.c95_var_int). Qed.
Print Assumptions C95_var_int.

(** C95.  base58check_to_hex. *)
Theorem C95_base58check_to_hex : forall E : Env,
  HashOk E -> forall repr v r, base58check_to_hex_says repr v = r <-> decoded58 repr v r.
Proof. exact (fun E => C_BasicSays.c95_base58check_to_hex). Qed.
Print Assumptions C95_base58check_to_hex.

(** C95.  bitcoin_address_to_public_key_hash_hex and validate_bitcoin_address. *)
Theorem C95_address : forall E : Env,
  HashOk E -> forall repr v,
  (forall r, bitcoin_address_to_public_key_hash_hex_says repr v = r <-> address_read repr v r) /\
  (forall e text, validate_bitcoin_address_says repr v = Some (e, text) <-> address_read repr v (Says e text)) /\
  (validate_bitcoin_address_says repr v = None <-> exists h, address_read repr v (Gives h)).
Proof. exact (fun E => C_BasicSays.c95_address). Qed.
Print Assumptions C95_address.

Example ex95_amounts : forall E : Env,
  @validate_bitcoin_amount_says demo_env plain_repr (PStr (lit "1.2.3")) = Some (ValueError, lit "Amount contains 2 periods ('.'). It must contain either 1 or 0 periods. Amount: 1.2.3") /\
  @validate_bitcoin_amount_says demo_env plain_repr (PStr (lit "-1.5")) = Some (ValueError, lit "Apart from an optional period ('.'), amount can contain only digits. Amount: -1.5") /\
  @validate_bitcoin_amount_says demo_env plain_repr (PStr (lit "1.123456789")) = Some (ValueError, lit "Amount (1.123456789) has 9 decimal places. It can have at most 8 decimal places.") /\
  @validate_bitcoin_amount_says demo_env plain_repr (PStr [178]) = Some (ValueError, lit "could not convert string to float: '" ++ [178] ++ lit "'") /\
  @validate_bitcoin_amount_says demo_env plain_repr (PStr (lit "21000000.00000001")) = Some (ValueError, lit "The maximum possible amount is 21000000.00000000. Amount: 21000000.00000001") /\
  @validate_bitcoin_amount_says demo_env plain_repr (PStr (lit "21000000")) = None /\
  @validate_positive_bitcoin_amount_says demo_env plain_repr (PStr (lit "...")) = Some (ValueError, lit "Amount ('...') cannot be 0.") /\
  @bitcoin_to_satoshi_says demo_env plain_repr (PStr (lit "0.0")) = Says ValueError (lit "invalid literal for int() with base 10: ''") /\
  @satoshi_to_bitcoin_says demo_env plain_repr (PBool true) = Says ValueError (lit "Apart from an optional period ('.'), amount can contain only digits. Amount: 0.0000True").
Proof. exact (fun E => C_BasicSays.ex95_amounts). Qed.

Example ex95_met : forall E : Env,
  UniOk demo_env /\ HashOk demo_env /\
  @amount demo_env plain_repr (PStr (lit "1.2.3")) (Plainly ValueError (lit "Amount contains 2 periods ('.'). It must contain either 1 or 0 periods. Amount: 1.2.3")) /\
  to_hex plain_repr (PInt (-18)) (Says ValueError (lit "Expected a 'hex', but received value '0x12', where the chars at indices [1] (with values 'x') are not hex chars.")) /\
  count_read plain_repr (PStr (lit "fd")) (Says ValueError []) /\
  @decoded58 demo_env plain_repr (PStr (lit "10")) (Says ValueError (lit "substring not found")) /\
  @decoded58 demo_env plain_repr (PStr (lit "1BvBMSEYstWetqTFn5Au4m4GFg7xJaNVN3")) (Says ValueError (lit "Checksum value does not match calculated checksum." ++ paragraph
    [lit "- Input: 1BvBMSEYstWetqTFn5Au4m4GFg7xJaNVN3"; lit "- Input hex: 77bff20c60e522dfaa3350c39b030a5d004e839af415766c"; lit "- Input hex without checksum: 77bff20c60e522dfaa3350c39b030a5d004e839a";
     lit "- Input hex without checksum and with zeroes: 0077bff20c60e522dfaa3350c39b030a5d004e839a"; lit "- Checksum value     : f415766c"; lit "- Calculated checksum: 834eab50"])).
Proof. exact (fun E => C_BasicSays.ex95_met). Qed.

