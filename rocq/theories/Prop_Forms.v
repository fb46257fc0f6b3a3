(** Property theorems: generated by tools/genprops.py from C_Forms.v, which holds the proofs. *)
From Coq Require Import String Lia.
From Verif Require Import PyBase Env PyNum Validate Basic Spec EnvOk TxInput TxOutput Tx Create TxSpec SignSpec CreateSpec FormsSpec Forms Demo DemoTx.
Open Scope Z_scope.
From Verif Require C_Forms.

(** C67.  The hex forms are made by going through the dictionaries, exactly as the source writes it. *)
Theorem C67_loops : forall E : Env,
  (forall t k, hex_signable t k = to_hex_signable_form t k) /\ (forall t, hex_signed t = to_hex_signed_form t).
Proof. exact (fun E => C_Forms.c67_loops). Qed.
Print Assumptions C67_loops.

(** C67.  The hex form is the concatenation of all strings of the document, in order; it exists exactly if the document contains no null. *)
Theorem C67_document : forall E : Env,
  (forall t h, to_hex_signed_form t = Ok h <-> has_null (PDict (to_dict_signed_form t)) = false /\ h = concat (strings_of (PDict (to_dict_signed_form t)))) /\
  (forall t k h, to_hex_signable_form t k = Ok h <-> has_null (PDict (to_dict_signable_form t k)) = false /\ h = concat (strings_of (PDict (to_dict_signable_form t k)))) /\
  (forall t e, to_hex_signed_form t = Err e -> e = TypeError) /\ (forall t k e, to_hex_signable_form t k = Err e -> e = TypeError).
Proof. exact (fun E => C_Forms.c67_document). Qed.
Print Assumptions C67_document.

(** C67.  The dictionary forms, field by field. *)
Theorem C67_fields : forall E : Env,
  (forall t ins outs, tx_wire t ins outs -> PDict (to_dict_signed_form t) = signed_doc ins outs) /\
  (forall t ins outs k x h, tx_body t ins outs -> nth_error (tx_inputs t) k = Some x -> in_owner x h ->
     PDict (to_dict_signable_form t k) = sighash_doc k (p2pkh h) ins outs).
Proof. exact (fun E => C_Forms.c67_fields). Qed.
Print Assumptions C67_fields.

(** C67.  Reading back the JSON of the signed form, or of the form that is hashed and signed for input k, gives the document of the transaction; its strings,
    one after the other, are the bytes on the wire, or the bytes of the sighash form. *)
Theorem C67_json : forall E : Env,
  JsonOk E ->
  (forall t ins outs, tx_wire t ins outs -> json_loads (to_json_signed_form t) = Ok (signed_doc ins outs) /\ concat (strings_of (signed_doc ins outs)) = hex_of (wire ins outs)) /\
  (forall t ins outs k x h, tx_body t ins outs -> nth_error (tx_inputs t) k = Some x -> in_owner x h ->
     json_loads (to_json_signable_form t k) = Ok (sighash_doc k (p2pkh h) ins outs) /\ concat (strings_of (sighash_doc k (p2pkh h) ins outs)) = hex_of (sighash_bytes k (p2pkh h) ins outs)).
Proof. exact (fun E => C_Forms.c67_json). Qed.
Print Assumptions C67_json.

(** C68.  str(transaction) tells the numbers of inputs and outputs and whether all inputs are signed; in particular a created transaction is described as
    unsigned, and one that has been signed or decoded as signed. *)
Theorem C68_transaction : forall E : Env,
  HashOk E -> ZeroAddressOk E -> UniOk E ->
  (forall t, tx_str t = described (tx_signed t) (length (tx_inputs t)) (length (tx_outputs t))) /\
  (forall t, tx_signed t = true <-> forall x, In x (tx_inputs t) -> exists l s, ti_script_length x = Some l /\ ti_script_sig x = Some s) /\
  (forall a t, fst (create_transaction a) = Ok t -> tx_str t = described false (length (tx_inputs t)) (length (tx_outputs t))) /\
  (forall s t, from_hex_signed s = Ok t -> tx_str t = described true (length (tx_inputs t)) (length (tx_outputs t))).
Proof. exact (fun E => C_Forms.c68_transaction). Qed.
Print Assumptions C68_transaction.

(** C68.  After signing it says "signed". *)
Theorem C68_signed : forall E : Env,
  CryptoOk E -> forall t ins outs keys rv t', tx_body t ins outs -> sign t keys rv = (Ok tt, t') ->
  tx_str t' = described true (length ins) (length outs).
Proof. exact (fun E => C_Forms.c68_signed). Qed.
Print Assumptions C68_signed.

(** C68.  str(input) shows the address, the first and last two bytes of the transaction id, the output index and the worth; str(output) the address and the value. *)
Theorem C68_parts : forall E : Env,
  forall f,
  (forall x txid idx, in_outpoint x txid idx -> txin_str f x =
     lit "TransactionInput" ++ (if txin_signed x then lit " (signed): " else lit " (unsigned): ") ++ lit "address=" ++ ti_address x ++
     lit ", txid=" ++ hex_of (firstn 2 txid) ++ lit "..." ++ hex_of (skipn 30 txid) ++ lit ", index=" ++ f (ti_previous_output_index_int x) ++
     lit ", satoshi_amount=" ++ match ti_satoshi_amount x with Some n => int_str n | None => lit "None" end) /\
  (forall y v h, out_pays y v h -> txout_str y = lit "TransactionOutput: address=" ++ to_address y ++ lit ", satoshi_amount=" ++ int_str v).
Proof. exact (fun E => C_Forms.c68_parts). Qed.
Print Assumptions C68_parts.

(** Beside C67 and C68: the demo transaction before and after signing. *)
Example ex67_demo : forall E : Env,
  hex_signed signed_tx = Ok signed_hex /\ has_null (PDict (to_dict_signed_form created)) = true /\ hex_signed created = Err TypeError /\
  exists h, hex_signable created 1 = Ok h.
Proof. exact (fun E => C_Forms.ex67_demo). Qed.

Example ex68_demo : forall E : Env,
  tx_str created = lit "Transaction (unsigned): 2 inputs, 2 outputs" /\ tx_str signed_tx = lit "Transaction (signed): 2 inputs, 2 outputs" /\
  (exists x, hd_error (tx_inputs created) = Some x /\ txin_str (fun v => match v with PInt n => int_str n | _ => [] end) x =
     lit "TransactionInput (unsigned): address=" ++ addr1 ++ lit ", txid=cdcd...cdcd, index=1, satoshi_amount=50000000").
Proof. exact (fun E => C_Forms.ex68_demo). Qed.

(** The document of the signed demo transaction has every field. *)
Example ex67_fields : forall E : Env,
  exists d, to_dict_signed_form signed_tx = d /\ map fst d = [lit "version"; lit "input_count"; lit "inputs"; lit "output_count"; lit "outputs"; lit "block_lock_time"] /\
  exists i1 i2, dict_find (lit "inputs") d = Some (PList [PDict i1; PDict i2]) /\ map fst i1 = [lit "previous_output_hash"; lit "previous_output_index"; lit "script_length"; lit "script_sig"; lit "sequence"].
Proof. exact (fun E => C_Forms.ex67_fields). Qed.

