(** Property theorems: generated by tools/genprops.py from C_Amount.v, which holds the proofs. *)
From Coq Require Import String Lia.
From Verif Require Import PyBase Env PyNum Validate Basic Spec EnvOk Demo.
From Verif Require C_Amount.

(** C14.  satoshi_to_bitcoin writes the canonical 8-decimal text of n, for exactly the ints 0 <= n <= 21e14.
    Other ints and booleans raise ValueError, other values TypeError. *)
Theorem C14_satoshi_to_bitcoin : forall E : Env,
  UniOk E ->
  (forall v s, satoshi_to_bitcoin v = Ok s <-> exists n, v = PInt n /\ 0 <= n <= 2100000000000000 /\ btc_text s n) /\
  (forall n, 0 <= n <= 2100000000000000 -> exists s, satoshi_to_bitcoin (PInt n) = Ok s) /\
  (forall n, ~ (0 <= n <= 2100000000000000) -> satoshi_to_bitcoin (PInt n) = Err ValueError) /\
  (forall b, satoshi_to_bitcoin (PBool b) = Err ValueError) /\
  (forall v, as_int v = None -> satoshi_to_bitcoin v = Err TypeError).
Proof. exact (fun E => C_Amount.c14_satoshi_to_bitcoin). Qed.
Print Assumptions C14_satoshi_to_bitcoin.

Example ex14_satoshi : forall E : Env,
  satoshi_to_bitcoin (PInt 242000) = Ok (lit "0.00242000")
  /\ satoshi_to_bitcoin (PInt 2100000000000000) = Ok (lit "21000000.00000000")
  /\ satoshi_to_bitcoin (PInt 2100000000000001) = Err ValueError
  /\ satoshi_to_bitcoin (PInt 0) = Ok (lit "0.00000000").
Proof. exact (fun E => C_Amount.ex14_satoshi). Qed.

(** C15.  bitcoin_to_satoshi returns n for a string s exactly when s is a decimal numeral (of ASCII or other
    Unicode decimal digits) with at most 8 decimals, n = 10^8 times its value, n <= 21e14, and s does not consist
    of '0' and '.' only.  Every other string raises ValueError, every other value TypeError. *)
Theorem C15_bitcoin_to_satoshi : forall E : Env,
  UniOk E ->
  (forall s n, bitcoin_to_satoshi (PStr s) = Ok n <-> amount_of s n /\ n <= 2100000000000000 /\ ~ zero_text s) /\
  (forall s, (exists n, bitcoin_to_satoshi (PStr s) = Ok n) \/ bitcoin_to_satoshi (PStr s) = Err ValueError) /\
  (forall v, (forall s, v <> PStr s) -> bitcoin_to_satoshi v = Err TypeError).
Proof. exact (fun E => C_Amount.c15_bitcoin_to_satoshi). Qed.
Print Assumptions C15_bitcoin_to_satoshi.

Example ex15_bitcoin : forall E : Env,
  bitcoin_to_satoshi (PStr (lit "0.00242")) = Ok 242000
  /\ bitcoin_to_satoshi (PStr (lit ".1")) = Ok 10000000 /\ bitcoin_to_satoshi (PStr (lit "007.")) = Ok 700000000
  /\ bitcoin_to_satoshi (PStr (lit "21000000.00000001")) = Err ValueError
  /\ bitcoin_to_satoshi (PStr (lit "1.123456789")) = Err ValueError.
Proof. exact (fun E => C_Amount.ex15_bitcoin). Qed.

(** C16.  Round trips.  Satoshi to text and back is the identity on 1..21e14 and raises ValueError at 0 (refuting
    the identity for all valid amounts); text to satoshi to text keeps the value; ensure_8_decimal_places changes
    neither the value nor the result of bitcoin_to_satoshi and yields exactly 8 decimals. *)
Theorem C16_amount_roundtrip : forall E : Env,
  UniOk E ->
  (forall n, 1 <= n <= 2100000000000000 ->
     exists s, satoshi_to_bitcoin (PInt n) = Ok s /\ bitcoin_to_satoshi (PStr s) = Ok n) /\
  (exists s, satoshi_to_bitcoin (PInt 0) = Ok s /\ bitcoin_to_satoshi (PStr s) = Err ValueError) /\
  (forall s n, bitcoin_to_satoshi (PStr s) = Ok n ->
     exists t, satoshi_to_bitcoin (PInt n) = Ok t /\ amount_of s n /\ amount_of t n) /\
  (forall s n, amount_of s n -> exists t, ensure_8_decimal_places s = Ok t /\ amount_of t n /\
     bitcoin_to_satoshi (PStr t) = bitcoin_to_satoshi (PStr s) /\
     exists a b, t = a ++ [46] ++ b /\ length b = 8%nat /\ ~ In 46 b).
Proof. exact (fun E => C_Amount.c16_amount_roundtrip). Qed.
Print Assumptions C16_amount_roundtrip.

Example ex16_roundtrip : forall E : Env,
  ensure_8_decimal_places (lit "3") = Ok (lit "3.00000000")
  /\ ensure_8_decimal_places (lit "3.14") = Ok (lit "3.14000000")
  /\ ensure_8_decimal_places (lit "3.123456789") = Err ValueError.
Proof. exact (fun E => C_Amount.ex16_roundtrip). Qed.

(** C17.  validate_bitcoin_amount accepts exactly the numerals with at most 8 decimals worth at most 21,000,000
    (the comparison made with floats is exact); validate_positive_bitcoin_amount accepts those that are not
    written with '0' and '.' only. *)
Theorem C17_validate_amount : forall E : Env,
  UniOk E ->
  (forall s, validate_bitcoin_amount (PStr s) = Ok tt <-> exists n, amount_of s n /\ n <= 2100000000000000) /\
  (forall s, validate_bitcoin_amount (PStr s) = Ok tt \/ validate_bitcoin_amount (PStr s) = Err ValueError) /\
  (forall s, validate_positive_bitcoin_amount (PStr s) = Ok tt <->
     (exists n, amount_of s n /\ n <= 2100000000000000) /\ ~ zero_text s) /\
  (forall s, validate_positive_bitcoin_amount (PStr s) = Ok tt \/ validate_positive_bitcoin_amount (PStr s) = Err ValueError) /\
  (forall s n, Forall (fun c => c < 128) s -> amount_of s n -> (zero_text s <-> n = 0)) /\
  (forall v, (forall s, v <> PStr s) -> validate_bitcoin_amount v = Err TypeError /\ validate_positive_bitcoin_amount v = Err TypeError).
Proof. exact (fun E => C_Amount.c17_validate_amount). Qed.
Print Assumptions C17_validate_amount.

(** C17, refuted.  A zero amount written with non-ASCII digits passes validate_positive_bitcoin_amount and
    bitcoin_to_satoshi returns 0. *)
Theorem C17_positive_refuted : forall E : Env,
  UniOk E -> forall c, 128 <= c -> uni_decimal c = Some 0 ->
  validate_positive_bitcoin_amount (PStr [c]) = Ok tt /\ bitcoin_to_satoshi (PStr [c]) = Ok 0.
Proof. exact (fun E => C_Amount.c17_positive_refuted). Qed.
Print Assumptions C17_positive_refuted.

(** The hypotheses are met: Arabic-Indic zero in the concrete environment. *)
Example ex17_arabic_zero : forall E : Env,
  @uni_decimal demo_env 1632 = Some 0 /\ UniOk demo_env /\
  @validate_positive_bitcoin_amount demo_env (PStr [1632]) = Ok tt.
Proof. exact (fun E => C_Amount.ex17_arabic_zero). Qed.

Example ex17_amounts : forall E : Env,
  validate_bitcoin_amount (PStr (lit "21000000.00000000")) = Ok tt
  /\ validate_bitcoin_amount (PStr (lit "21000000.00000001")) = Err ValueError
  /\ validate_positive_bitcoin_amount (PStr (lit "0.0")) = Err ValueError
  /\ validate_bitcoin_amount (PStr (lit "1e5")) = Err ValueError /\ validate_bitcoin_amount (PStr (lit ".")) = Err ValueError.
Proof. exact (fun E => C_Amount.ex17_amounts). Qed.

