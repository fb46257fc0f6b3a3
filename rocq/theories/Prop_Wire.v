(** Property theorems: generated by tools/genprops.py from C_Wire.v, which holds the proofs. *)
From Coq Require Import String Lia.
From Verif Require Import PyBase Env PyNum Validate Basic Spec EnvOk TxInput TxOutput Tx TxSpec Demo DemoTx.
From Verif Require C_Wire.

(** C20.  A fully signed transaction serialises to the wire format of the abstract transaction its attributes
    describe, which is hex text; with an unsigned input serialising raises TypeError. *)
Theorem C20_serialisation : forall E : Env,
  (forall t ins outs, tx_wire t ins outs -> to_hex_signed_form t = Ok (hex_of (wire ins outs)) /\ bytes (wire ins outs)) /\
  (forall t, tx_signed t = false -> to_hex_signed_form t = Err TypeError).
Proof. exact (fun E => C_Wire.c20_serialisation). Qed.
Print Assumptions C20_serialisation.

(** C20, the format is unambiguous: a byte string starts with at most one transaction. *)
Theorem C20_unambiguous : forall E : Env,
  forall ins outs r ins' outs' r', tx_ok ins outs -> tx_ok ins' outs' ->
    wire ins outs ++ r = wire ins' outs' ++ r' -> ins = ins' /\ outs = outs' /\ r = r'.
Proof. exact (fun E => C_Wire.c20_unambiguous). Qed.
Print Assumptions C20_unambiguous.

(** C21.  Exactly what from_hex_signed accepts, and the object it returns: the data must start with the wire format of
    a transaction each of whose inputs carries a scriptSig with a 64-byte public key and each of whose outputs is worth at
    most 21000000 bitcoin; on everything else it raises ValueError or IndexError. *)
Theorem C21_decoder_exact : forall E : Env,
  UniOk E -> HashOk E ->
  (forall s t, from_hex_signed s = Ok t <->
     exists ins outs rest, bytes rest /\ s = hex_of (wire ins outs ++ rest) /\ decoded_tx t ins outs) /\
  (forall ins outs rest, tx_ok ins outs -> bytes rest ->
     Forall (fun i => exists sig pub, script_sig_parts (i_script i) sig pub /\ length pub = 64%nat) ins ->
     Forall (fun o => o_value o <= 2100000000000000) outs ->
     exists t, from_hex_signed (hex_of (wire ins outs ++ rest)) = Ok t /\ decoded_tx t ins outs) /\
  (forall s e, from_hex_signed s = Err e -> e = ValueError \/ e = IndexError).
Proof. exact (fun E => C_Wire.c21_decoder_exact). Qed.
Print Assumptions C21_decoder_exact.

(** C21.  Decoding what a signed transaction serialises to gives the same transaction back: only the input
    amounts and the change address, which are not serialised, are lost. *)
Theorem C21_decode_serialised : forall E : Env,
  UniOk E -> HashOk E ->
  forall t ins, tx_header t -> Forall2 in_signed (tx_inputs t) ins ->
    Forall (fun y => exists v h, out_pays y v h) (tx_outputs t) ->
    exists s, to_hex_signed_form t = Ok s /\
      from_hex_signed s = Ok (set_change_address (set_inputs t (map forget_worth (tx_inputs t))) None).
Proof. exact (fun E => C_Wire.c21_decode_serialised). Qed.
Print Assumptions C21_decode_serialised.

(** A decoded transaction is one that serialises (used for the examples and for C22). *)
Theorem C22_decoded_serialises : forall E : Env,
  forall t ins outs, decoded_tx t ins outs -> tx_wire t ins outs.
Proof. exact (fun E => C_Wire.c22_decoded_serialises). Qed.
Print Assumptions C22_decoded_serialises.

(** C22.  A decoded transaction re-serialises to a prefix of what was read; whatever follows is ignored. *)
Theorem C22_reserialise : forall E : Env,
  UniOk E -> HashOk E ->
  (forall s t, from_hex_signed s = Ok t -> exists u rest, to_hex_signed_form t = Ok u /\ s = u ++ rest) /\
  (forall s t rest, from_hex_signed s = Ok t -> bytes rest -> from_hex_signed (s ++ hex_of rest) = Ok t).
Proof. exact (fun E => C_Wire.c22_reserialise). Qed.
Print Assumptions C22_reserialise.

(** C22, naive claim "what is decoded re-serialises to the text that was read" refuted. *)
Theorem C22_exact_refuted : forall E : Env,
  UniOk E -> HashOk E ->
  exists s t, from_hex_signed s = Ok t /\ to_hex_signed_form t <> Ok s.
Proof. exact (fun E => C_Wire.c22_exact_refuted). Qed.
Print Assumptions C22_exact_refuted.

(** C23.  No proper prefix of a serialised transaction is accepted, and whatever is accepted starts with version 1. *)
Theorem C23_truncation : forall E : Env,
  UniOk E -> HashOk E ->
  (forall ins outs p q, tx_ok ins outs -> hex_of (wire ins outs) = p ++ q -> q <> [] ->
     from_hex_signed p = Err ValueError \/ from_hex_signed p = Err IndexError) /\
  (forall s t, from_hex_signed s = Ok t ->
     firstn 8 s = lit "01000000" /\ Forall (fun x => ti_sequence x = lit "ffffffff") (tx_inputs t) /\ tx_block_lock_time t = lit "00000000").
Proof. exact (fun E => C_Wire.c23_truncation). Qed.
Print Assumptions C23_truncation.

Example ex22_demo : forall E : Env,
  UniOk demo_env /\ HashOk demo_env /\
  exists t, @from_hex_signed demo_env signed_hex = Ok t /\ length (tx_inputs t) = 2%nat /\ length (tx_outputs t) = 2%nat.
Proof. exact (fun E => C_Wire.ex22_demo). Qed.

(** C24.  What is hashed when input k is signed: the wire format with the script of input k replaced by the scriptPubKey of
    what it spends and all other scripts empty, followed by 01000000.  It does not depend on the public keys
    and scriptSigs stored in the transaction. *)
Theorem C24_sighash : forall E : Env,
  (forall t ins outs k spk, tx_header t ->
     Forall2 (fun x i => in_outpoint x (i_txid i) (i_index i)) (tx_inputs t) ins -> Forall2 out_wire (tx_outputs t) outs ->
     (exists x, nth_error (tx_inputs t) k = Some x /\
        ti_script_pub_key x = Some (hex_of spk) /\ ti_script_pub_key_length x = Some (hex_of [len spk])) ->
     to_hex_signable_form t k = Ok (hex_of (sighash_bytes k spk ins outs))) /\
  (forall t k x, nth_error (tx_inputs t) k = Some x -> ti_script_pub_key x = None \/ ti_script_pub_key_length x = None ->
     to_hex_signable_form t k = Err TypeError) /\
  (forall t xs k, map unsign xs = map unsign (tx_inputs t) ->
     to_hex_signable_form (set_inputs t xs) k = to_hex_signable_form t k).
Proof. exact (fun E => C_Wire.c24_sighash). Qed.
Print Assumptions C24_sighash.

(** C24.  Two inputs never sign the same bytes, nor do two transactions that differ in anything that is signed: the signed
    bytes determine the number of the input (unless its scriptPubKey is empty), all outpoints and outputs, and the scriptPubKey. *)
Theorem C24_sighash_binding : forall E : Env,
  forall k spk ins outs k' spk' ins' outs', tx_ok (replace_scripts k spk ins) outs -> tx_ok (replace_scripts k' spk' ins') outs' ->
    (k < length ins)%nat -> (k' < length ins')%nat -> spk <> [] -> spk' <> [] ->
    sighash_bytes k spk ins outs = sighash_bytes k' spk' ins' outs' ->
    k = k' /\ spk = spk' /\ outs = outs' /\ map (fun i => (i_txid i, i_index i)) ins = map (fun i => (i_txid i, i_index i)) ins'.
Proof. exact (fun E => C_Wire.c24_sighash_binding). Qed.
Print Assumptions C24_sighash_binding.

(** The second input of a concrete transaction. *)
Example ex24_demo : forall E : Env,
  match @to_hex_signable_form created 1, tx_inputs created with
  | Ok s, [x; y] => exists a b, s = a ++ hex_of [25] ++ (match ti_script_pub_key y with Some k => k | None => [] end) ++ lit "ffffffff" ++ b /\
      length a = (2 * (4 + 1 + 41 + 36))%nat
  | _, _ => False
  end.
Proof. exact (fun E => C_Wire.ex24_demo). Qed.

