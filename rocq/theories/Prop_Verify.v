(** Property theorems: generated by tools/genprops.py from C_Verify.v, which holds the proofs. *)
From Coq Require Import String Floats.SpecFloat Lia.
From Verif Require Import PyBase Env PyNum Validate Basic Spec EnvOk TxInput TxOutput Tx Create Cli CliSpec TxSpec SignSpec CreateSpec JsonSpec VerifySpec Demo DemoTx DemoCreate.
Open Scope Z_scope.
From Verif Require C_Verify.

(** C73.  verify_signed_transaction_hex says "Valid signature." or "Valid signatures." exactly if the data is a transaction, white space around it and
    bytes after it aside, and every input carries a valid signature.  In every other case it prints nothing and fails: with ValueError if a signature is
    wrong, and with AttributeError if there is no data. *)
Theorem C73_hex : forall E : Env,
  HashOk E -> UniOk E -> forall d,
  (forall out, task_verify_signed_transaction_hex (Some d) = (out, Ok tt) <->
     exists ins outs bs, transaction_text stripped d ins outs /\ wire_verdicts ins outs bs /\ (forall b, In b bs -> b = true) /\ out = [verdict "Valid" "." (length ins)]) /\
  (forall out e, task_verify_signed_transaction_hex (Some d) = (out, Err e) -> out = []) /\
  (forall ins outs bs, transaction_text stripped d ins outs -> wire_verdicts ins outs bs -> In false bs -> task_verify_signed_transaction_hex (Some d) = ([], Err ValueError)) /\
  task_verify_signed_transaction_hex None = ([], Err AttributeError).
Proof. exact (fun E => C_Verify.c73_hex). Qed.
Print Assumptions C73_hex.

(** C73.  decode_signed_transaction_hex prints the transaction as JSON exactly if it can be parsed, all signatures can be checked, and the outputs are not worth
    more than 21 million bitcoin; it succeeds exactly if all signatures are valid, and fails with ValueError after printing if not. *)
Theorem C73_decode : forall E : Env,
  HashOk E -> UniOk E -> JsonOk E -> forall d ins outs bs, transaction_text stripped d ins outs -> wire_verdicts ins outs bs -> ins <> [] ->
  (Zsum (map o_value outs) <= 2100000000000000 ->
     exists line v, task_decode_signed_transaction_hex (Some d) = ([line], if forallb (fun b => b) bs then Ok tt else Err ValueError) /\ json_loads line = Ok (PDict v) /\
       has v "signed" (PBool true) /\ has v "size_bytes" (PInt (len (wire ins outs))) /\ has_amount v "total_output" (Zsum (map o_value outs)) /\ has_no_amount v "fee") /\
  (2100000000000000 < Zsum (map o_value outs) -> task_decode_signed_transaction_hex (Some d) = ([], Err ValueError)).
Proof. exact (fun E => C_Verify.c73_decode). Qed.
Print Assumptions C73_decode.

(** C73.  Whatever the data is, what cannot be parsed or checked is not printed; without data the task fails with AttributeError. *)
Theorem C73_decode_refused : forall E : Env,
  HashOk E -> UniOk E -> 
  (forall d, (forall ins outs bs, transaction_text stripped d ins outs -> ~ wire_verdicts ins outs bs) -> exists e, task_decode_signed_transaction_hex (Some d) = ([], Err e)) /\
  task_decode_signed_transaction_hex None = ([], Err AttributeError).
Proof. exact (fun E => C_Verify.c73_decode_refused). Qed.
Print Assumptions C73_decode_refused.

(** C73, refuted: that "Valid signature." means that there is a signature.  A transaction without inputs gets the same verdict. *)
Theorem C73_no_signature_refuted : forall E : Env,
  HashOk E -> UniOk E -> forall outs, tx_ok [] outs -> Forall (fun o => o_value o <= 2100000000000000) outs ->
  task_verify_signed_transaction_hex (Some (hex_of (wire [] outs))) = ([lit "Valid signature."], Ok tt).
Proof. exact (fun E => C_Verify.c73_no_signature_refuted). Qed.
Print Assumptions C73_no_signature_refuted.

(** C73.  verify_signed_transaction_json gives a verdict exactly for documents that can be read and in which every input has a scriptSig that can be checked
    against its scriptPubKey: "Valid signature(s)." if all checks succeed and "Invalid signature(s)!." otherwise.  In every other case it prints nothing and fails. *)
Theorem C73_json : forall E : Env,
  HashOk E -> ZeroAddressOk E -> UniOk E -> forall s,
  (forall out, task_verify_signed_transaction_json (Some s) = (out, Ok tt) <->
     exists t ins outs bs, from_json s = Ok t /\ Forall2 (fun x i => in_outpoint x (i_txid i) (i_index i)) (tx_inputs t) ins /\ Forall2 out_wire (tx_outputs t) outs /\
       all_checked ins outs 0 (tx_inputs t) bs /\
       out = [if forallb (fun b => b) bs then verdict "Valid" "." (length ins) else verdict "Invalid" "!." (length ins)]) /\
  (forall out e, task_verify_signed_transaction_json (Some s) = (out, Err e) -> out = []) /\
  task_verify_signed_transaction_json None = ([], Err TypeError).
Proof. exact (fun E => C_Verify.c73_json). Qed.
Print Assumptions C73_json.

(** C73.  create_signed_transaction_json, given a document that is a well-formed transaction: if all keys are valid and every input's address is controlled by one of
    them, it prints one document and succeeds, and verify_signed_transaction_json says that this document is valid.  Otherwise it prints nothing and fails. *)
Theorem C73_sign : forall E : Env,
  CryptoOk E -> SignTotal E -> UniOk E -> JsonOk E -> forall s t ins outs keys, from_json s = Ok t -> tx_body t ins outs -> json_ready t ->
  let signable := Forall (fun k => exists a, controls k a) keys /\ Forall (fun x => exists k, In k keys /\ controls k (ti_address x)) (tx_inputs t) in
  (signable -> exists js t', task_create_signed_transaction_json (Some s) keys = ([js], Ok tt) /\ from_json js = Ok t' /\
     map unsign (tx_inputs t') = map unsign (tx_inputs t) /\ tx_outputs t' = tx_outputs t /\
     task_verify_signed_transaction_json (Some js) = ([verdict "Valid" "." (length ins)], Ok tt)) /\
  (~ signable -> exists e, task_create_signed_transaction_json (Some s) keys = ([], Err e)).
Proof. exact (fun E => C_Verify.c73_sign). Qed.
Print Assumptions C73_sign.

(** Beside C73. *)
Example ex73_hex : forall E : Env,
  @task_verify_signed_transaction_hex demo_env (Some ([32] ++ signed_hex ++ [10])) = ([lit "Valid signatures."], Ok tt) /\
  @task_verify_signed_transaction_hex demo_env (Some (hex_of (wire [] []))) = ([lit "Valid signature."], Ok tt) /\
  @task_verify_signed_transaction_hex demo_env (Some (lit "00")) = ([], Err ValueError).
Proof. exact (fun E => C_Verify.ex73_hex). Qed.

Example ex73_meets : forall E : Env,
  exists ins outs bs, @transaction_text (@stripped demo_env) signed_hex ins outs /\ @wire_verdicts demo_env ins outs bs /\ (forall b, In b bs -> b = true) /\ (1 < length ins)%nat.
Proof. exact (fun E => C_Verify.ex73_meets). Qed.

Example ex73_decode : forall E : Env,
  exists line, @task_decode_signed_transaction_hex demo_env (Some signed_hex) = ([line], Ok tt).
Proof. exact (fun E => C_Verify.ex73_decode). Qed.

(** With another last byte in the last output script (before the lock time) the signatures are invalid: the task that decodes prints the document all the same. *)
Example ex73_tampered : forall E : Env,
  @task_verify_signed_transaction_hex demo_env (Some tampered_hex) = ([], Err ValueError) /\
  exists line, @task_decode_signed_transaction_hex demo_env (Some tampered_hex) = ([line], Err ValueError).
Proof. exact (fun E => C_Verify.ex73_tampered). Qed.

(** The created demo transaction, written as JSON and read back, is such a document. *)
Example ex73_sign : forall E : Env,
  exists j t ins outs, @from_json demo_env j = Ok t /\ @tx_body demo_env t ins outs /\ @json_ready demo_env t /\ (1 < length ins)%nat /\
  exists js, @task_create_signed_transaction_json demo_env (Some j) [key1; key2] = ([js], Ok tt).
Proof. exact (fun E => C_Verify.ex73_sign). Qed.

