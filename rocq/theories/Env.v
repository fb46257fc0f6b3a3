(** Everything the repository calls that is not in the repository.
    Nothing here is an axiom: [Env] is a record of functions over which every
    theorem quantifies, [EnvOk]'s components are hypotheses of the theorems that
    need them, and Demo.v exhibits an [Env] that satisfies all of them. *)
From Verif Require Import PyBase.

Class Env : Type := {
  (** Unicode database, consulted for code points >= 128 only. *)
  uni_isdigit : Z -> bool;          (* str.isdigit *)
  uni_decimal : Z -> option Z;      (* value as decimal digit, used by int() and float() *)
  uni_isspace : Z -> bool;          (* white space, used by int() and float() *)

  (** bitcoin_toolset/submodules/sha256_python3, ripemd160_python3: digest of a byte string.
      hexdigest is modelled as the lower-case hex of digest. *)
  sha256 : list Z -> list Z;
  ripemd160 : list Z -> list Z;

  (** bitcoin_toolset/submodules/ecdsa_python3. *)
  ec_format_private_key_hex : pystr -> res pystr;
  ec_validate_private_key_hex : pystr -> res unit;
  ec_public_key : pystr -> res pystr;                       (* private_key_hex_to_public_key_hex *)
  ec_sign : pystr -> pystr -> res pystr;                    (* create_deterministic_signature_low_s *)
  ec_sign_digest : pystr -> pystr -> res pystr;             (* create_deterministic_signature_for_digest_low_s *)
  ec_sign_digest_k : pystr -> pystr -> pystr -> res pystr;  (* create_signature_for_digest_low_s *)
  ec_verify : pystr -> pystr -> pystr -> res bool;          (* verify_signature_low_s *)
  ec_verify_digest : pystr -> pystr -> pystr -> res bool;   (* verify_signature_digest_low_s *)
  ec_split : pystr -> res (pystr * pystr);                  (* signature_hex_to_r_and_s_hex *)
  der_encode : Z -> Z -> list Z;                            (* sigencode_der *)
  der_decode : list Z -> res (Z * Z);                       (* sigdecode_der *)

  (** json.dumps(d, indent=2), json.loads(s) *)
  json_dumps : pyval -> pystr;
  json_loads : pystr -> res pyval
}.
