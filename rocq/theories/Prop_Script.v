(** Property theorems: generated by tools/genprops.py from C_Script.v, which holds the proofs. *)
From Coq Require Import String Lia.
From Verif Require Import PyBase Env PyNum Validate Basic Spec EnvOk TxInput TxOutput Tx TxSpec Demo.
From Verif Require C_Script.

(** C18.  The script built from a signature (hash type byte 01 appended) and a 64-byte public key pushes both,
    is returned with its one-byte length, and parses back to exactly that signature and key; it can be built
    exactly when the signature has at most 184 bytes (185 with the hash type byte).
    The parser accepts exactly the scripts described by [script_sig_parts]. *)
Theorem C18_script_sig : forall E : Env,
  (forall sig pub, bytes sig -> bytes pub -> length pub = 64%nat -> (length sig <= 184)%nat ->
     signature_hex_and_public_key_hex_to_script_sig (hex_of (sig ++ [1])) (hex_of pub) =
       Ok (hex_of ([len sig + 1] ++ sig ++ [1] ++ [65] ++ [4] ++ pub), hex_of [len sig + 68]) /\
     script_sig_to_signature_hex_and_public_key_hex (hex_of ([len sig + 1] ++ sig ++ [1] ++ [65] ++ [4] ++ pub)) =
       Ok (hex_of sig, hex_of pub)) /\
  (forall sig pub, bytes sig -> bytes pub -> length pub = 64%nat -> (184 < length sig)%nat ->
     signature_hex_and_public_key_hex_to_script_sig (hex_of (sig ++ [1])) (hex_of pub) = Err ValueError) /\
  (forall s p, (~ is_hex s \/ ~ (exists pub, bytes pub /\ length pub = 64%nat /\ p = hex_of pub)) ->
     signature_hex_and_public_key_hex_to_script_sig s p = Err ValueError) /\
  (forall s a b, script_sig_to_signature_hex_and_public_key_hex s = Ok (a, b) <->
     exists bs sig pub, bytes bs /\ s = hex_of bs /\ script_sig_parts bs sig pub /\ a = hex_of sig /\ b = hex_of pub) /\
  (forall s, (exists x, script_sig_to_signature_hex_and_public_key_hex s = Ok x) \/
     script_sig_to_signature_hex_and_public_key_hex s = Err ValueError).
Proof. exact (fun E => C_Script.c18_script_sig). Qed.
Print Assumptions C18_script_sig.

Example ex18_script_sig : forall E : Env,
  signature_hex_and_public_key_hex_to_script_sig (hex_of ([171; 205] ++ [1])) (hex_of (repeat 17 64)) =
    Ok (lit "03abcd014104" ++ hex_of (repeat 17 64), lit "46") /\
  script_sig_to_signature_hex_and_public_key_hex (lit "03abcd014104" ++ hex_of (repeat 17 64)) =
    Ok (lit "abcd", hex_of (repeat 17 64)) /\
  script_sig_to_signature_hex_and_public_key_hex (lit "03abcd024104" ++ hex_of (repeat 17 64)) = Err ValueError.
Proof. exact (fun E => C_Script.ex18_script_sig). Qed.

(** C18, leniency: bytes after the public key push are ignored, and a public key push that announces more bytes
    than there are is accepted; so different scripts parse to the same signature and key. *)
Theorem C18_script_sig_unique_refuted : forall E : Env,
  exists s s' x, s <> s' /\ script_sig_to_signature_hex_and_public_key_hex s = Ok x /\
    script_sig_to_signature_hex_and_public_key_hex s' = Ok x.
Proof. exact (fun E => C_Script.c18_script_sig_unique_refuted). Qed.
Print Assumptions C18_script_sig_unique_refuted.

(** C19.  DER wrapping of a 64-byte signature succeeds, gives at most 72 bytes, and is undone by
    signature_from_der, for any DER codec that decodes what it encodes. *)
Theorem C19_der_roundtrip : forall E : Env,
  SplitOk E -> DerOk E ->
  forall sig, bytes sig -> length sig = 64%nat ->
  exists d, bytes d /\ (length d <= 72)%nat /\ signature_to_der (hex_of sig) = Ok (hex_of d) /\
    signature_from_der (hex_of d) = Ok (hex_of sig).
Proof. exact (fun E => C_Script.c19_der_roundtrip). Qed.
Print Assumptions C19_der_roundtrip.

Example ex19_der : forall E : Env,
  SplitOk demo_env /\ DerOk demo_env /\ bytes (repeat 0 31 ++ [200] ++ repeat 255 32) /\
  length (repeat 0 31 ++ [200] ++ repeat 255 32) = 64%nat.
Proof. exact (fun E => C_Script.ex19_der). Qed.

