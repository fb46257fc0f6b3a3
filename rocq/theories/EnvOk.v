(** What is assumed about code outside the repository.  Nothing here is an axiom: each theorem that needs one
    of these predicates has it as a hypothesis, and Demo.v proves all of them for a concrete environment. *)
From Coq Require Import String.
From Verif Require Import PyBase Env PyNum Spec.

(** Unicode database: a character with a decimal value 0..9 is a digit for str.isdigit, and no white space
    character is a digit. *)
Definition UniOk (E : Env) : Prop :=
  (forall c d, uni_decimal c = Some d -> 0 <= d <= 9 /\ uni_isdigit c = true) /\
  (forall c, uni_isspace c = true -> uni_isdigit c = false /\ uni_decimal c = None).

(** SHA-256 and RIPEMD-160 return 32 and 20 bytes.  No cryptographic assumption. *)
Definition HashOk (E : Env) : Prop :=
  (forall x, bytes (sha256 x) /\ length (sha256 x) = 32%nat) /\
  (forall x, bytes (ripemd160 x) /\ length (ripemd160 x) = 20%nat).

(** The ecdsa submodule:
    - formatting a key and validating it yields 32-byte hex, unchanged by formatting again;
    - a valid private key has a 64-byte public key;
    - formatting leaves 32-byte hex alone;
    - signatures are 64 bytes and verify under the signer's public key. *)
Definition KeysOk (E : Env) : Prop :=
  (forall k k', ec_format_private_key_hex k = Ok k' -> ec_validate_private_key_hex k' = Ok tt ->
     exists bs, bytes bs /\ length bs = 32%nat /\ k' = hex_of bs) /\
  (forall k, ec_validate_private_key_hex k = Ok tt ->
     ec_format_private_key_hex k = Ok k /\
     exists p, bytes p /\ length p = 64%nat /\ ec_public_key k = Ok (hex_of p)) /\
  (forall bs, bytes bs -> length bs = 32%nat -> ec_format_private_key_hex (hex_of bs) = Ok (hex_of bs)).

(** A valid key signs every 32-byte digest (deterministic nonces). *)
Definition SignTotal (E : Env) : Prop :=
  forall k d, ec_validate_private_key_hex k = Ok tt -> bytes d -> length d = 32%nat ->
    exists s, ec_sign_digest k (hex_of d) = Ok s.

Definition SignOk (E : Env) : Prop :=
  (forall k d s, ec_sign_digest k d = Ok s ->
     (exists bs, bytes bs /\ length bs = 64%nat /\ s = hex_of bs) /\
     forall p, ec_public_key k = Ok p -> ec_verify_digest p d s = Ok true) /\
  (forall k d r s, ec_sign_digest_k k d r = Ok s ->
     (exists bs, bytes bs /\ length bs = 64%nat /\ s = hex_of bs) /\
     forall p, ec_public_key k = Ok p -> ec_verify_digest p d s = Ok true) /\
  (forall k d s, ec_sign k d = Ok s ->
     (exists bs, bytes bs /\ length bs = 64%nat /\ s = hex_of bs) /\
     forall p, ec_public_key k = Ok p -> ec_verify p d s = Ok true).

(** signature_hex_to_r_and_s_hex cuts a 64-byte signature in two halves. *)
Definition SplitOk (E : Env) : Prop :=
  forall r s, bytes r -> length r = 32%nat -> bytes s -> length s = 32%nat ->
    ec_split (hex_of r ++ hex_of s) = Ok (hex_of r, hex_of s).

(** sigencode_der / sigdecode_der: round trip on 256-bit numbers, at most 72 bytes. *)
Definition DerOk (E : Env) : Prop :=
  forall r s, 0 <= r < 256 ^ 32 -> 0 <= s < 256 ^ 32 ->
    bytes (der_encode r s) /\ (length (der_encode r s) <= 72)%nat /\ der_decode (der_encode r s) = Ok (r, s).

(** json.loads(json.dumps(v)) == v for the kind of values to_dict produces: no floats, ASCII strings, and (as in
    every Python dict) no key twice. *)
Definition ascii_str (s : pystr) : bool := forallb (fun c => (0 <=? c) && (c <? 128)) s.
Fixpoint distinct_keys (l : list pystr) : bool :=
  match l with [] => true | k :: r => negb (str_in k r) && distinct_keys r end.
Fixpoint json_plain (v : pyval) : bool :=
  match v with
  | PFloat _ => false
  | PStr s => ascii_str s
  | PList l => forallb json_plain l
  | PDict d => distinct_keys (map fst d) && forallb (fun p => ascii_str (fst p) && json_plain (snd p)) d
  | _ => true
  end.
Definition JsonOk (E : Env) : Prop :=
  forall v, json_plain v = true -> json_loads (json_dumps v) = Ok v.

(** 4-byte checksum of a payload: first bytes of SHA-256 applied twice. *)
Definition checksum {E : Env} (p : list Z) : list Z := firstn 4 (sha256 (sha256 p)).

(** A fact about SHA-256: the checksum of the address of the all-zero hash does not start with byte 0
    (it is 94a00911). *)
Definition ZeroAddressOk (E : Env) : Prop := hd 0 (checksum (repeat 0 21)) <> 0.

(** s is the Base58Check text of payload p: as many '1' as p ++ checksum has leading zero bytes, followed by
    the base-58 numeral of the remaining bytes. *)
Definition is_base58check {E : Env} (p : list Z) (s : pystr) : Prop :=
  exists n r ds, p ++ checksum p = repeat 0 n ++ r /\ no_lead0 r /\
    digits_in 58 ds /\ no_lead0 ds /\ val 58 ds = be_val r /\ s = text58 (repeat 0 n ++ ds).

(** s is the mainnet P2PKH address of the 20-byte hash h. *)
Definition is_address {E : Env} (h : list Z) (s : pystr) : Prop :=
  bytes h /\ length h = 20%nat /\ is_base58check (0 :: h) s.

(** The P2PKH script of h: OP_DUP OP_HASH160 <20 bytes> OP_EQUALVERIFY OP_CHECKSIG. *)
Definition p2pkh (h : list Z) : list Z := [118; 169; 20] ++ h ++ [136; 172].

(** HASH160 of the uncompressed public key with 64-byte body p. *)
Definition hash160 {E : Env} (p : list Z) : list Z := ripemd160 (sha256 (4 :: p)).

(** Character c is the decimal digit d (ASCII, or another Unicode decimal digit). *)
Definition dec_char {E : Env} (c d : Z) : Prop :=
  (0 <= d <= 9 /\ c = 48 + d) \/ (128 <= c /\ uni_decimal c = Some d).

(** s is a decimal numeral with integer digits ip and fractional digits fp: digits, or digits '.' digits where
    one of the two digit runs may be empty. *)
Definition numeral {E : Env} (s : pystr) (ip fp : list Z) : Prop :=
  (Forall2 dec_char s ip /\ fp = [] /\ ip <> []) \/
  (exists a b, s = a ++ [46] ++ b /\ Forall2 dec_char a ip /\ Forall2 dec_char b fp /\ ip ++ fp <> []).

(** s is a numeral with at most 8 decimals worth n / 10^8. *)
Definition amount_of {E : Env} (s : pystr) (n : Z) : Prop :=
  exists ip fp, numeral s ip fp /\ (length fp <= 8)%nat /\ n = val 10 (ip ++ fp) * 10 ^ (8 - Z.of_nat (length fp)).

(** Everything that is assumed about libraries for signing. *)
Definition CryptoOk (E : Env) : Prop := HashOk E /\ ZeroAddressOk E /\ KeysOk E /\ SignOk E /\ SplitOk E /\ DerOk E.

(** All assumptions about the environment together (used to show that they are jointly satisfiable). *)
Definition EnvAll (E : Env) : Prop :=
  UniOk E /\ HashOk E /\ KeysOk E /\ SignOk E /\ SignTotal E /\ SplitOk E /\ DerOk E /\ JsonOk E /\ ZeroAddressOk E.
