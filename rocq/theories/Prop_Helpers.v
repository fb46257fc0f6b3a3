(** Property theorems: generated by tools/genprops.py from C_Helpers.v, which holds the proofs. *)
From Coq Require Import String Floats.SpecFloat Lia.
From Verif Require Import PyBase Env PyNum Validate Basic Spec EnvOk NumSpec TxInput TxOutput Tx TxApi TxSpec SignSpec HelperSpec Demo DemoTx.
From Verif Require C_Cli.
Open Scope Z_scope.
From Verif Require C_Helpers.

(** C89.  Applied to the hex of a byte string, the four hash helpers return the hex of its SHA-256, RIPEMD-160, double SHA-256 and of the first
    four bytes of the latter; any other text is refused with ValueError. *)
Theorem C89_hashes : forall E : Env,
  HashOk E -> forall x,
  (forall bs, bytes bs -> x = hex_of bs ->
     get_sha256 x = Ok (hex_of (sha256 bs)) /\ get_ripemd160 x = Ok (hex_of (ripemd160 bs)) /\
     get_double_sha256 x = Ok (hex_of (sha256 (sha256 bs))) /\ get_double_sha256_checksum x = Ok (hex_of (firstn 4 (sha256 (sha256 bs))))) /\
  (~ is_hex x ->
     get_sha256 x = Err ValueError /\ get_ripemd160 x = Err ValueError /\ get_double_sha256 x = Err ValueError /\ get_double_sha256_checksum x = Err ValueError).
Proof. exact (fun E => C_Helpers.c89_hashes). Qed.
Print Assumptions C89_hashes.

(** C89.  get_public_key_hash reads its argument as bytes.fromhex does (upper case, and spaces between the bytes, are accepted) and hashes the byte 04
    followed by whatever was read, of any length; other text is refused with ValueError. *)
Theorem C89_public_key_hash : forall E : Env,
  HashOk E -> forall x,
  (forall bs, spaced_hex x bs -> get_public_key_hash x = Ok (hex_of (ripemd160 (sha256 (4 :: bs))))) /\
  ((forall bs, ~ spaced_hex x bs) -> get_public_key_hash x = Err ValueError).
Proof. exact (fun E => C_Helpers.c89_public_key_hash). Qed.
Print Assumptions C89_public_key_hash.

(** C89, naive claim "get_public_key_hash refuses what is no 64-byte public key" refuted: the empty text is hashed, too, and so is every address made
    from it. *)
Theorem C89_any_length_refuted : forall E : Env,
  HashOk E -> get_public_key_hash [] = Ok (hex_of (ripemd160 (sha256 [4]))) /\ exists a, public_key_hex_to_address [] = Ok a.
Proof. exact (fun E => C_Helpers.c89_any_length_refuted). Qed.
Print Assumptions C89_any_length_refuted.

(** C90.  validate_string, validate_list, validate_dict and validate_boolean accept exactly the values of their type, whatever they contain, and raise
    TypeError for all others; in particular an int is no bool. *)
Theorem C90_types : forall E : Env,
  forall v,
  (validate_string v = Ok tt <-> exists s, v = PStr s) /\ (validate_list v = Ok tt <-> exists l, v = PList l) /\
  (validate_dict v = Ok tt <-> exists d, v = PDict d) /\ (validate_boolean v = Ok tt <-> exists b, v = PBool b) /\
  Forall (fun r => r <> Ok tt -> r = Err TypeError) [validate_string v; validate_list v; validate_dict v; validate_boolean v].
Proof. exact (fun E => C_Helpers.c90_types). Qed.
Print Assumptions C90_types.

(** C91.  Whatever signature one of the three signing functions returns is 64 bytes of hex and is accepted by the matching verification function
    under the public key of the signing key. *)
Theorem C91_signatures : forall E : Env,
  SignOk E -> forall key pub, key_pub key pub ->
  (forall d s, create_deterministic_signature key (hex_of d) = Ok s -> bytes d ->
     (exists sig, bytes sig /\ length sig = 64%nat /\ s = hex_of sig) /\ verify_signature (PStr (hex_of pub)) (PStr (hex_of d)) (PStr s) = Ok true) /\
  (forall d s, create_deterministic_signature_for_digest key (hex_of d) = Ok s -> bytes d ->
     (exists sig, bytes sig /\ length sig = 64%nat /\ s = hex_of sig) /\ verify_signature_digest (hex_of pub) (hex_of d) s = Ok true) /\
  (forall d k s, create_signature_for_digest key (hex_of d) k = Ok s -> bytes d ->
     (exists sig, bytes sig /\ length sig = 64%nat /\ s = hex_of sig) /\ verify_signature_digest (hex_of pub) (hex_of d) s = Ok true).
Proof. exact (fun E => C_Helpers.c91_signatures). Qed.
Print Assumptions C91_signatures.

(** C91.  private_key_hex_to_address and private_key_hex_to_public_key_hex agree: an address is returned exactly if the key, brought into form, is
    valid, and it is the address of the public key returned by the other; otherwise both raise the same exception. *)
Theorem C91_address : forall E : Env,
  HashOk E -> KeysOk E -> forall k,
  (forall pub, private_key_hex_to_public_key_hex k = Ok (hex_of pub) -> bytes pub ->
     exists a, private_key_hex_to_address k = Ok a /\ is_address (hash160 pub) a) /\
  (forall a, private_key_hex_to_address k = Ok a -> exists key pub, ec_format_private_key_hex k = Ok key /\ key_pub key pub /\
     private_key_hex_to_public_key_hex k = Ok (hex_of pub) /\ is_address (hash160 pub) a) /\
  (forall e, private_key_hex_to_address k = Err e <-> private_key_hex_to_public_key_hex k = Err e).
Proof. exact (fun E => C_Helpers.c91_address). Qed.
Print Assumptions C91_address.

(** C91.  count_leading_zero_bytes counts the leading zero bytes of hex. *)
Theorem C91_zero_bytes : forall E : Env,
  forall n bs, bytes bs -> no_lead0 bs -> count_leading_zero_bytes (hex_of (repeat 0 n ++ bs)) = n.
Proof. exact (fun E => C_Helpers.c91_zero_bytes). Qed.
Print Assumptions C91_zero_bytes.

(** C92.  hex_to_int reads exactly what int(x, 16) reads: hexadecimal digits of either case with single underscores between them, after an optional
    sign and an optional prefix 0x (with an optional underscore), within white space; everything else is a ValueError. *)
Theorem C92_hex_to_int : forall E : Env,
  UniOk E -> forall x,
  (forall n, hex_to_int x = Ok n <-> hex_int_text x n) /\ ((forall n, ~ hex_int_text x n) -> hex_to_int x = Err ValueError).
Proof. exact (fun E => C_Helpers.c92_hex_to_int). Qed.
Print Assumptions C92_hex_to_int.

(** C92, naive claim "hex_to_int accepts only hex" refuted: a negative number with a prefix and underscores. *)
Theorem C92_only_hex_refuted : forall E : Env,
  UniOk E -> ~ is_hex (lit " -0x_F_f ") /\ hex_to_int (lit " -0x_F_f ") = Ok (-255).
Proof. exact (fun E => C_Helpers.c92_only_hex_refuted). Qed.
Print Assumptions C92_only_hex_refuted.

(** C93.  create_signature_for_one_input and verify_signature_for_one_input, called with the number of an input that spends an output of address hash h,
    sign and check exactly the digest that sign and verify use for this input: an absent or empty nonce means a deterministic signature, any other
    nonce is handed to the library. *)
Theorem C93_position : forall E : Env,
  HashOk E -> forall t ins outs n x h, tx_body t ins outs -> nth_error (tx_inputs t) n = Some x -> in_owner x h ->
  let d := hex_of (digest (sighash_bytes n (p2pkh h) ins outs)) in
  (forall key, create_signature_for_one_input_at t (Z.of_nat n) key None = ec_sign_digest key d /\ create_signature_for_one_input_at t (Z.of_nat n) key (Some []) = ec_sign_digest key d) /\
  (forall key k, k <> [] -> create_signature_for_one_input_at t (Z.of_nat n) key (Some k) = ec_sign_digest_k key d k) /\
  (forall pub s, bytes pub -> length pub = 64%nat -> verify_signature_for_one_input_at t (Z.of_nat n) (hex_of pub) s = ec_verify_digest (hex_of pub) d s).
Proof. exact (fun E => C_Helpers.c93_position). Qed.
Print Assumptions C93_position.

(** C93.  A signature made for an input is accepted for this input, under the public key of the signing key. *)
Theorem C93_accepted : forall E : Env,
  HashOk E -> SignOk E -> forall t ins outs n x h key pub k s, tx_body t ins outs -> nth_error (tx_inputs t) n = Some x -> in_owner x h -> key_pub key pub ->
  create_signature_for_one_input_at t (Z.of_nat n) key k = Ok s -> verify_signature_for_one_input_at t (Z.of_nat n) (hex_of pub) s = Ok true.
Proof. exact (fun E => C_Helpers.c93_accepted). Qed.
Print Assumptions C93_accepted.

(** C93.  A number beyond the inputs, from either end, is an IndexError. *)
Theorem C93_index : forall E : Env,
  forall t i, i < - Z.of_nat (length (tx_inputs t)) \/ Z.of_nat (length (tx_inputs t)) <= i ->
  (forall key k, create_signature_for_one_input_at t i key k = Err IndexError) /\ (forall pub s, verify_signature_for_one_input_at t i pub s = Err IndexError).
Proof. exact (fun E => C_Helpers.c93_index). Qed.
Print Assumptions C93_index.

(** C93, naive claim "a negative number counts from the end, as it does everywhere in Python" refuted: the number passes the check of the index, but
    then selects no input; every negative number signs and checks the same bytes, those of the transaction without any script. *)
Theorem C93_negative_refuted : forall E : Env,
  HashOk E -> forall t ins outs i, tx_body t ins outs -> - Z.of_nat (length (tx_inputs t)) <= i < 0 ->
  let d := hex_of (digest (no_script_bytes ins outs)) in
  (forall key, create_signature_for_one_input_at t i key None = ec_sign_digest key d /\ create_signature_for_one_input_at t i key (Some []) = ec_sign_digest key d) /\
  (forall key k, k <> [] -> create_signature_for_one_input_at t i key (Some k) = ec_sign_digest_k key d k) /\
  (forall pub s, bytes pub -> length pub = 64%nat -> verify_signature_for_one_input_at t i (hex_of pub) s = ec_verify_digest (hex_of pub) d s).
Proof. exact (fun E => C_Helpers.c93_negative_refuted). Qed.
Print Assumptions C93_negative_refuted.

(** Beside C89: spaces and upper case. *)
Example ex89_demo : forall E : Env,
  spaced_hex (lit " 0a F0") [10; 240] /\ HashOk demo_env /\ ~ is_hex (lit "0A").
Proof. exact (fun E => C_Helpers.ex89_demo). Qed.

(** Beside C91: a key that is brought into form by zeros. *)
Example ex91_demo : forall E : Env,
  (exists pub, @key_pub demo_env key1 pub) /\ SignOk demo_env /\ KeysOk demo_env /\
  (exists s, @create_signature_for_digest demo_env key1 (hex_of [1; 2]) key2 = Ok s) /\
  (exists a, @private_key_hex_to_address demo_env (lit "01") = Ok a).
Proof. exact (fun E => C_Helpers.ex91_demo). Qed.

(** Beside C92. *)
Example ex92_demo : forall E : Env,
  UniOk demo_env /\ @hex_int_text demo_env (lit "0XfF") 255 /\ @hex_to_int demo_env (lit "0x") = Err ValueError /\ @hex_to_int demo_env (lit "f__f") = Err ValueError.
Proof. exact (fun E => C_Helpers.ex92_demo). Qed.

(** Beside C93: a signature made for input -1 is accepted for input -2, but not for the last input, nor for any other. *)
Example ex93_demo : forall E : Env,
  (exists ins outs, @tx_body demo_env created ins outs) /\
  exists pub s, @private_key_hex_to_public_key_hex demo_env key2 = Ok pub /\ @create_signature_for_one_input_at demo_env created (-1) key2 None = Ok s /\
    map (fun i => @verify_signature_for_one_input_at demo_env created i pub s) [-3; -2; -1; 0; 1; 2] = [Err IndexError; Ok true; Ok true; Ok false; Ok false; Err IndexError].
Proof. exact (fun E => C_Helpers.ex93_demo). Qed.

