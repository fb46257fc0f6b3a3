(** Specification of signing a document whose scripts are whatever the document says. *)
From Coq Require Import String.
From Verif Require Import PyBase Env Spec EnvOk TxInput TxOutput Tx TxSpec SignSpec.

Section WithEnv.
Context {E : Env}.

(** t consists of the outpoints of ins (the scripts of ins are irrelevant) and the outputs outs; each input names the script of the output that it spends, or none. *)
Definition written_tx (t : tx) (ins : list sinput) (outs : list soutput) : Prop :=
  tx_header t /\ Forall2 (fun x i => in_outpoint x (i_txid i) (i_index i)) (tx_inputs t) ins /\ Forall2 out_wire (tx_outputs t) outs /\
  Forall (fun x => (exists spk, in_spk x spk) \/ ti_script_pub_key x = None) (tx_inputs t).

(** x' is input number i, x, after signing with [key], which controls the address of x; what is signed commits to the script that x names,
    whether or not that script pays the address. *)
Definition signed_as_written (key : pystr) (rv : option (list pystr)) (ins : list sinput) (outs : list soutput) (i : nat) (x x' : txin) : Prop :=
  exists pub sig spk, key_pub key pub /\ is_address (hash160 pub) (ti_address x) /\ in_spk x spk /\ bytes sig /\ length sig = 64%nat /\
    signature key (digest (sighash_bytes i spk ins outs)) (nonce rv i) = Ok (hex_of sig) /\
    bytes (der_of sig) /\ len (der_of sig) <= 72 /\
    x' = mk_txin (ti_previous_output_hash x) (ti_previous_output_index x) (ti_previous_output_index_int x)
          (ti_sequence x) (Some (hex_of pub)) (ti_script_pub_key_length x) (ti_script_pub_key_length_int x)
          (ti_script_pub_key x) (Some (hex_of [len (build_script_sig (der_of sig) pub)]))
          (PInt (len (build_script_sig (der_of sig) pub))) (Some (hex_of (build_script_sig (der_of sig) pub)))
          (ti_address x) (ti_txid x) (ti_satoshi_amount x) (ti_bitcoin_amount x).

(** Signing inputs number n, n+1, ... in order, until the first problem. *)
Inductive signing_as_written (keys : list pystr) (rv : option (list pystr)) (ins : list sinput) (outs : list soutput)
  : nat -> list txin -> res unit -> list txin -> Prop :=
| sw_done : forall n, signing_as_written keys rv ins outs n [] (Ok tt) []
| sw_signed : forall n x x' xs r xs' key, ~ no_nonce rv n -> In key keys -> signed_as_written key rv ins outs n x x' ->
    signing_as_written keys rv ins outs (S n) xs r xs' -> signing_as_written keys rv ins outs n (x :: xs) r (x' :: xs')
| sw_no_nonce : forall n x xs, no_nonce rv n -> signing_as_written keys rv ins outs n (x :: xs) (Err IndexError) (x :: xs)
| sw_no_key : forall n x xs, ~ no_nonce rv n -> (forall key, In key keys -> ~ controls key (ti_address x)) ->
    signing_as_written keys rv ins outs n (x :: xs) (Err ValueError) (x :: xs)
| sw_no_script : forall n x xs key pub, ~ no_nonce rv n -> In key keys -> key_pub key pub -> is_address (hash160 pub) (ti_address x) ->
    ti_script_pub_key x = None -> signing_as_written keys rv ins outs n (x :: xs) (Err TypeError) (with_public_key x pub :: xs)
| sw_refused : forall n x xs key pub spk e, ~ no_nonce rv n -> In key keys -> key_pub key pub -> is_address (hash160 pub) (ti_address x) ->
    in_spk x spk -> signature key (digest (sighash_bytes n spk ins outs)) (nonce rv n) = Err e ->
    signing_as_written keys rv ins outs n (x :: xs) (Err e) (with_public_key x pub :: xs).

End WithEnv.

(** x without a script. *)
Definition no_script (x : txin) : txin :=
  mk_txin (ti_previous_output_hash x) (ti_previous_output_index x) (ti_previous_output_index_int x)
          (ti_sequence x) (ti_public_key_hex x) None PNone None (ti_script_length x) (ti_script_length_int x) (ti_script_sig x)
          (ti_address x) (ti_txid x) (ti_satoshi_amount x) (ti_bitcoin_amount x).
