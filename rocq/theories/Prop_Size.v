(** Property theorems: generated by tools/genprops.py from C_Size.v, which holds the proofs. *)
From Coq Require Import String Floats.SpecFloat Lia.
From Verif Require Import PyBase Env PyNum Validate Basic Spec EnvOk TxInput TxOutput Tx Create TxSpec SignSpec CreateSpec Demo DemoTx.
Open Scope Z_scope.
From Verif Require C_Size.

(** C51.  A signed transaction all of whose outputs are P2PKH (25-byte scripts) is as long as estimated, plus what its
    scriptSigs have more or less than 138 bytes. *)
Theorem C51_size : forall E : Env,
  forall t ins outs, tx_wire t ins outs -> Forall (fun o => len (o_script o) = 25) outs ->
  exists s n e, to_hex_signed_form t = Ok s /\ hex_len (PStr s) = Ok n /\ estimate_transaction_size (length (tx_inputs t)) (length (tx_outputs t)) = Ok e /\
    Z.of_nat n = e + Zsum (map (fun i => len (i_script i) - 138) ins).
Proof. exact (fun E => C_Size.c51_size). Qed.
Print Assumptions C51_size.

(** C51.  After sign the transaction is as long as estimated, plus what its DER signatures have more or less than 70 bytes; so at
    most 2 bytes per input longer than estimated. *)
Theorem C51_signed : forall E : Env,
  CryptoOk E -> forall t ins outs keys rv t', tx_body t ins outs -> Forall (fun o => len (o_script o) = 25) outs ->
  sign t keys rv = (Ok tt, t') ->
  exists s n e ders, to_hex_signed_form t' = Ok s /\ hex_len (PStr s) = Ok n /\ estimate_transaction_size (length (tx_inputs t')) (length (tx_outputs t')) = Ok e /\
    length ders = length (tx_inputs t) /\
    (forall k der, nth_error ders k = Some der -> exists key pub sig, In key keys /\ bytes sig /\ length sig = 64%nat /\ der = der_of sig /\
       signature key (digest (sighash_bytes k (p2pkh (hash160 pub)) ins outs)) (nonce rv k) = Ok (hex_of sig)) /\
    Z.of_nat n = e + Zsum (map (fun der => len der - 70) ders) /\ Z.of_nat n <= e + 2 * Z.of_nat (length (tx_inputs t)).
Proof. exact (fun E => C_Size.c51_signed). Qed.
Print Assumptions C51_signed.

(** Hypotheses met: the demo transaction (two inputs, two P2PKH outputs), and its signed form. *)
Example ex51_demo : forall E : Env,
  exists ins outs, @tx_body demo_env created ins outs /\ Forall (fun o => len (o_script o) = 25) outs /\ @CryptoOk demo_env /\
  @sign demo_env created [key1; key2] None = (Ok tt, signed_tx).
Proof. exact (fun E => C_Size.ex51_demo). Qed.

