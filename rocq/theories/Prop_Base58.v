(** Property theorems: generated by tools/genprops.py from C_Base58.v, which holds the proofs. *)
From Coq Require Import String Lia.
From Verif Require Import PyBase Env PyNum Validate Basic Spec EnvOk.
From Verif Require C_Base58.

(** C07.  hex_to_base58 writes the base-58 numeral, without leading zero digit, of the bytes' value;
    base58_to_int reads exactly the numerals of positive numbers. *)
Theorem C07_base58 : forall E : Env,
  (forall bs, bytes bs -> bs <> [] -> exists ds, digits_in 58 ds /\ no_lead0 ds /\ val 58 ds = be_val bs /\
     hex_to_base58 (hex_of bs) = Ok (text58 ds) /\
     (0 < be_val bs -> base58_to_int (text58 ds) = Ok (be_val bs))) /\
  (forall s, s = [] \/ ~ is_hex s -> hex_to_base58 s = Err ValueError) /\
  (forall s n, base58_to_int s = Ok n <-> exists ds, digits_in 58 ds /\ s = text58 ds /\ n = val 58 ds /\ 0 < n) /\
  (forall s, (exists n, base58_to_int s = Ok n) \/ base58_to_int s = Err ValueError).
Proof. exact (fun E => C_Base58.c07_base58). Qed.
Print Assumptions C07_base58.

Example ex07_base58 : forall E : Env,
  hex_to_base58 (lit "00010966") = Ok (lit "MCR") /\ base58_to_int (lit "MCR") = Ok 67942
  /\ base58_to_int (lit "10O") = Err ValueError /\ base58_to_int (lit "11") = Err ValueError.
Proof. exact (fun E => C_Base58.ex07_base58). Qed.

(** C08.  Encoding then decoding gives the payload back, except exactly for an all-zero payload whose
    checksum starts with a zero byte; then decoding raises ValueError. *)
Theorem C08_base58check_roundtrip : forall E : Env,
  HashOk E ->
  (forall p, bytes p -> exists s, hex_to_base58check (hex_of p) = Ok s /\ is_base58check p s /\
     ((Forall (fun b => b = 0) p /\ hd 0 (checksum p) = 0) -> base58check_to_hex (PStr s) = Err ValueError) /\
     (~ (Forall (fun b => b = 0) p /\ hd 0 (checksum p) = 0) -> base58check_to_hex (PStr s) = Ok (hex_of p))) /\
  (forall x, ~ is_hex x -> hex_to_base58check x = Err ValueError).
Proof. exact (fun E => C_Base58.c08_base58check_roundtrip). Qed.
Print Assumptions C08_base58check_roundtrip.

(** C09.  Whatever is decoded re-encodes to the same text; so two strings never decode to the same payload,
    and a decoded string carries the right checksum.  Other strings raise ValueError, non-strings TypeError. *)
Theorem C09_base58check_canonical : forall E : Env,
  HashOk E ->
  (forall s x, base58check_to_hex (PStr s) = Ok x ->
     hex_to_base58check x = Ok s /\ exists p, bytes p /\ x = hex_of p /\ is_base58check p s) /\
  (forall s s' x, base58check_to_hex (PStr s) = Ok x -> base58check_to_hex (PStr s') = Ok x -> s = s') /\
  (forall s, (exists x, base58check_to_hex (PStr s) = Ok x) \/ base58check_to_hex (PStr s) = Err ValueError) /\
  (forall v, (forall s, v <> PStr s) -> base58check_to_hex v = Err TypeError).
Proof. exact (fun E => C_Base58.c09_base58check_canonical). Qed.
Print Assumptions C09_base58check_canonical.

(** C10.  Address validation accepts exactly the Base58Check texts of 00 followed by 20 bytes, and yields
    those bytes; other strings raise ValueError, non-strings TypeError. *)
Theorem C10_address_validation : forall E : Env,
  HashOk E -> ZeroAddressOk E ->
  (forall s, validate_bitcoin_address (PStr s) = Ok tt <-> exists h, is_address h s) /\
  (forall s h, is_address h s -> bitcoin_address_to_public_key_hash_hex (PStr s) = Ok (hex_of h)) /\
  (forall s, (exists h, is_address h s) \/
     (validate_bitcoin_address (PStr s) = Err ValueError /\ bitcoin_address_to_public_key_hash_hex (PStr s) = Err ValueError)) /\
  (forall v, (forall s, v <> PStr s) ->
     validate_bitcoin_address v = Err TypeError /\ bitcoin_address_to_public_key_hash_hex v = Err TypeError).
Proof. exact (fun E => C_Base58.c10_address_validation). Qed.
Print Assumptions C10_address_validation.

(** C10, without the assumption on the checksum of the zero hash. *)
Theorem C10_address_validation_general : forall E : Env,
  HashOk E ->
  (forall s x, bitcoin_address_to_public_key_hash_hex (PStr s) = Ok x <->
     exists h, x = hex_of h /\ is_address h s /\ ~ (Forall (fun b => b = 0) h /\ hd 0 (checksum (0 :: h)) = 0)).
Proof. exact (fun E => C_Base58.c10_address_validation_general). Qed.
Print Assumptions C10_address_validation_general.

(** C11.  hash -> address -> hash, address -> hash -> address, address -> script, script -> address. *)
Theorem C11_address_conversions : forall E : Env,
  HashOk E -> ZeroAddressOk E ->
  (forall h, bytes h -> length h = 20%nat -> exists s, is_address h s /\
     public_key_hash_hex_to_address (hex_of h) = Ok s /\
     bitcoin_address_to_public_key_hash_hex (PStr s) = Ok (hex_of h) /\
     address_to_script_pub_key (PStr s) = Ok (hex_of (p2pkh h), lit "19") /\
     public_key_hash_hex_to_script_pub_key (hex_of h) = Ok (hex_of (p2pkh h), lit "19") /\
     script_pub_key_to_address (hex_of (p2pkh h)) = Ok s) /\
  (forall s x, bitcoin_address_to_public_key_hash_hex (PStr s) = Ok x -> public_key_hash_hex_to_address x = Ok s) /\
  (forall h h' s, is_address h s -> is_address h' s -> h = h') /\
  (forall p, bytes p -> length p = 64%nat -> exists s, is_address (hash160 p) s /\
     public_key_hex_to_address (hex_of p) = Ok s /\
     public_key_hex_to_script_pub_key (hex_of p) = Ok (hex_of (p2pkh (hash160 p)), lit "19")).
Proof. exact (fun E => C_Base58.c11_address_conversions). Qed.
Print Assumptions C11_address_conversions.

(** C12.  script_pub_key_to_address never looks at the opcodes. *)
Theorem C12_script_opcodes_ignored : forall E : Env,
  HashOk E ->
  forall pre h suf, length pre = 3%nat -> bytes h -> length h = 20%nat -> length suf = 2%nat ->
    exists s, is_address h s /\ script_pub_key_to_address (hex_of (pre ++ h ++ suf)) = Ok s.
Proof. exact (fun E => C_Base58.c12_script_opcodes_ignored). Qed.
Print Assumptions C12_script_opcodes_ignored.

(** C12, naive claim refuted: a script that is not P2PKH is displayed as a valid P2PKH address. *)
Theorem C12_address_implies_p2pkh_refuted : forall E : Env,
  HashOk E ->
  exists bs s h, bytes bs /\ script_pub_key_to_address (hex_of bs) = Ok s /\ is_address h s /\
    forall h', bs <> p2pkh h'.
Proof. exact (fun E => C_Base58.c12_address_implies_p2pkh_refuted). Qed.
Print Assumptions C12_address_implies_p2pkh_refuted.

(** C13.  WIF round trip for every key the ECDSA library formats and validates, and the exact set of texts
    private_key_wif_to_hex accepts. *)
Theorem C13_wif : forall E : Env,
  HashOk E -> KeysOk E ->
  (forall k, (exists w, private_key_hex_to_wif k = Ok w) <->
     (exists k', ec_format_private_key_hex k = Ok k' /\ ec_validate_private_key_hex k' = Ok tt)) /\
  (forall k w, private_key_hex_to_wif k = Ok w -> exists bs, bytes bs /\ length bs = 32%nat /\
     ec_format_private_key_hex k = Ok (hex_of bs) /\ is_base58check (128 :: bs) w /\
     private_key_wif_to_hex (PStr w) = Ok (hex_of bs)) /\
  (forall w x, private_key_wif_to_hex (PStr w) = Ok x <->
     exists p, bytes p /\ base58check_to_hex (PStr w) = Ok (hex_of p) /\ x = hex_of (tl p) /\
       ec_validate_private_key_hex x = Ok tt).
Proof. exact (fun E => C_Base58.c13_wif). Qed.
Print Assumptions C13_wif.

(** C13, naive claim "only version byte 80 is accepted" refuted: any version byte works. *)
Theorem C13_wif_version_unchecked : forall E : Env,
  HashOk E ->
  forall b bs, byte b -> b <> 0 -> bytes bs -> ec_validate_private_key_hex (hex_of bs) = Ok tt ->
    exists w, is_base58check (b :: bs) w /\ private_key_wif_to_hex (PStr w) = Ok (hex_of bs).
Proof. exact (fun E => C_Base58.c13_wif_version_unchecked). Qed.
Print Assumptions C13_wif_version_unchecked.

