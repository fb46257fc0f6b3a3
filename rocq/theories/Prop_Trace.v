(** Property theorems: generated by tools/genprops.py from C_Trace.v, which holds the proofs. *)
From Coq Require Import String Lia.
From Verif Require Import PyBase Env PyNum Validate Basic Spec EnvOk TxInput TxOutput Tx Trace Create TxSpec SignSpec TraceSpec Demo DemoTx DemoTrace.
Open Scope Z_scope.
From Verif Require C_Trace.

(** C86.  Logging changes nothing: with the records left out, the call is the one of C25-C28. *)
Theorem C86_erasure : forall E : Env,
  forall t keys rv, snd (sign_says t keys rv) = sign t keys rv.
Proof. exact (fun E => C_Trace.c86_erasure). Qed.
Print Assumptions C86_erasure.

(** C86.  The records of every call on a well-formed transaction: none if the nonces or keys are unfit, and otherwise those of
    each input in order, with the closing line exactly if all were signed. *)
Theorem C86_records : forall E : Env,
  CryptoOk E -> forall t ins outs keys rv, tx_body t ins outs ->
  let nonces_fit := rv = None \/ rv = Some [] \/ exists l, rv = Some l /\ NoDup l /\ length l = length keys in
  let keys_fit := Forall (fun k => exists a, controls k a) keys in
  let n := length (tx_inputs t) in
  (~ nonces_fit -> sign_says t keys rv = ([], (Err ValueError, t))) /\
  (~ keys_fit -> exists e, sign_says t keys rv = ([], (Err e, t))) /\
  (nonces_fit -> keys_fit -> exists (r : res unit) xs' l,
     sign_says t keys rv = (l ++ match r with Ok _ => [at_info (signed_text n)] | Err _ => [] end, (r, set_inputs t xs')) /\
     signing_log keys rv ins outs n 0 (tx_inputs t) r xs' l).
Proof. exact (fun E => C_Trace.c86_records). Qed.
Print Assumptions C86_records.

(** C86.  The log of a successful signing tells nothing that the signed transaction does not tell: two signings that end with the
    same transaction, both with or both without a list of nonces, log the same, whatever their keys and nonces were. *)
Theorem C86_secrecy : forall E : Env,
  CryptoOk E -> forall t ins outs keys rv l t2 ins2 outs2 keys2 rv2 l2 t',
  tx_body t ins outs -> tx_body t2 ins2 outs2 -> sign_says t keys rv = (l, (Ok tt, t')) -> sign_says t2 keys2 rv2 = (l2, (Ok tt, t')) ->
  (rv = None <-> rv2 = None) -> l = l2.
Proof. exact (fun E => C_Trace.c86_secrecy). Qed.
Print Assumptions C86_secrecy.

(** C86, refuted: the log is not always right about how a signature was made.  An empty list of nonces is the same as no list, but
    the signatures are then announced as non-deterministic. *)
Theorem C86_label_refuted : forall E : Env,
  CryptoOk E -> forall t ins outs keys x xs, tx_body t ins outs -> Forall (fun k => exists a, controls k a) keys ->
  tx_inputs t = x :: xs ->
  sign t keys (Some []) = sign t keys None /\
  (exists l, fst (sign_says t keys (Some [])) = announce true 0 (length (tx_inputs t)) x :: l) /\
  (exists l, fst (sign_says t keys None) = announce false 0 (length (tx_inputs t)) x :: l).
Proof. exact (fun E => C_Trace.c86_label_refuted). Qed.
Print Assumptions C86_label_refuted.

(** C87.  Logging changes nothing: with the records left out, the call is the one of C29, C30. *)
Theorem C87_erasure : forall E : Env,
  forall t, snd (verify_says t) = verify t.
Proof. exact (fun E => C_Trace.c87_erasure). Qed.
Print Assumptions C87_erasure.

(** C87.  A call that returns, and its records: for each input the parts of its scriptSig, the numbers of its signature and the
    verdict, and a closing line. *)
Theorem C87_records : forall E : Env,
  HashOk E -> forall t ins outs L c, tx_header t ->
  Forall2 (fun x i => in_outpoint x (i_txid i) (i_index i)) (tx_inputs t) ins -> Forall2 out_wire (tx_outputs t) outs ->
  Forall (fun x => exists spk, in_spk x spk) (tx_inputs t) ->
  let n := length (tx_inputs t) in
  verify_says t = (L, Ok c) <->
  exists bs l, all_checked ins outs 0 (tx_inputs t) bs /\ c = Z.of_nat (length (filter negb bs)) /\
    checks_log n 0 (tx_inputs t) bs l /\ L = l ++ [at_info (verified_text n)].
Proof. exact (fun E => C_Trace.c87_records). Qed.
Print Assumptions C87_records.

(** C87.  Each invalid signature, and nothing else, is reported as an error: the ERROR records name the invalid signatures in order,
    and there are as many as verify returns.  The only INFO record is the closing line. *)
Theorem C87_complaints : forall E : Env,
  HashOk E -> forall t ins outs L c, tx_header t ->
  Forall2 (fun x i => in_outpoint x (i_txid i) (i_index i)) (tx_inputs t) ins -> Forall2 out_wire (tx_outputs t) outs ->
  Forall (fun x => exists spk, in_spk x spk) (tx_inputs t) ->
  let n := length (tx_inputs t) in
  verify_says t = (L, Ok c) ->
  (exists bs, all_checked ins outs 0 (tx_inputs t) bs /\ filter (level_is 40) L = complaints n 0 bs) /\
  Z.of_nat (length (filter (level_is 40) L)) = c /\ filter (level_is 20) L = [at_info (verified_text n)].
Proof. exact (fun E => C_Trace.c87_complaints). Qed.
Print Assumptions C87_complaints.

(** C87.  A call that raises does so at the first input whose scriptSig cannot be checked; the earlier invalid signatures have been
    reported, and there is no closing line. *)
Theorem C87_raised : forall E : Env,
  HashOk E -> forall t ins outs L e, tx_header t ->
  Forall2 (fun x i => in_outpoint x (i_txid i) (i_index i)) (tx_inputs t) ins -> Forall2 out_wire (tx_outputs t) outs ->
  Forall (fun x => exists spk, in_spk x spk) (tx_inputs t) ->
  verify_says t = (L, Err e) ->
  exists pre x post bs, tx_inputs t = pre ++ x :: post /\ all_checked ins outs 0 pre bs /\ (forall b, ~ input_check ins outs (length pre) x b) /\
    filter (level_is 40) L = complaints (length (tx_inputs t)) 0 bs /\ filter (level_is 20) L = [].
Proof. exact (fun E => C_Trace.c87_raised). Qed.
Print Assumptions C87_raised.

(** C87, refuted: the closing line is no evidence that any signature is valid.  It claims as many valid signatures as there are
    inputs even if none is valid. *)
Theorem C87_claim_refuted : forall E : Env,
  HashOk E -> forall t ins outs bs, tx_header t ->
  Forall2 (fun x i => in_outpoint x (i_txid i) (i_index i)) (tx_inputs t) ins -> Forall2 out_wire (tx_outputs t) outs ->
  Forall (fun x => exists spk, in_spk x spk) (tx_inputs t) ->
  all_checked ins outs 0 (tx_inputs t) bs -> (forall b, In b bs -> b = false) ->
  exists L, verify_says t = (L, Ok (Z.of_nat (length (tx_inputs t)))) /\ In (at_info (verified_text (length (tx_inputs t)))) L.
Proof. exact (fun E => C_Trace.c87_claim_refuted). Qed.
Print Assumptions C87_claim_refuted.

(** C88.  Logging changes nothing: with the records left out, the calls are those of C22, C23, C32, C33. *)
Theorem C88_erasure : forall E : Env,
  forall s t, snd (from_hex_says s) = from_hex_signed s /\ snd (to_hex_says t) = to_hex_signed_form t /\ snd (from_json_says s) = from_json s.
Proof. exact (fun E => C_Trace.c88_erasure). Qed.
Print Assumptions C88_erasure.

(** C88.  A hex text that is loaded, and the records: every field of it, in order. *)
Theorem C88_records : forall E : Env,
  HashOk E -> UniOk E -> forall s L t, from_hex_says s = (L, Ok t) <->
  exists ins outs rest li lo, bytes rest /\ s = hex_of (wire ins outs ++ rest) /\ decoded_tx t ins outs /\
    inputs_log 0 ins li /\ outputs_log 0 outs lo /\ L = loading_log ins outs rest li lo.
Proof. exact (fun E => C_Trace.c88_records). Qed.
Print Assumptions C88_records.

(** C88.  A hex text that is refused: above DEBUG there is only the line that says loading has begun. *)
Theorem C88_refused : forall E : Env,
  forall s L e, from_hex_says s = (L, Err e) ->
  exists l, L = at_info (lit "Loading signed transaction from hex.") :: l /\ Forall (fun r => fst r = 10) l.
Proof. exact (fun E => C_Trace.c88_refused). Qed.
Print Assumptions C88_refused.

(** C88.  The other conversions log one line, and only on success. *)
Theorem C88_single : forall E : Env,
  forall s t,
  to_hex_says t = match to_hex_signed_form t with Ok h => ([at_info (lit "Signed transaction converted to hex form.")], Ok h) | Err e => ([], Err e) end /\
  from_json_says s = match from_json s with Ok t => ([at_info (lit "Transaction successfully loaded from JSON format and validated.")], Ok t) | Err e => ([], Err e) end.
Proof. exact (fun E => C_Trace.c88_single). Qed.
Print Assumptions C88_single.

(** The signed demo transaction: its log, with and without nonces, shows the announced labels; one key short, it stops. *)
Example ex86_signed : forall E : Env,
  map snd (filter (level_is 20) (fst (@sign_says demo_env created [key1; key2] None))) = signed_lines.
Proof. exact (fun E => C_Trace.ex86_signed). Qed.

Example ex86_premises : forall E : Env,
  CryptoOk demo_env /\ (exists ins outs, @tx_body demo_env created ins outs) /\ Forall (fun k => exists a, @controls demo_env k a) [key1; key2] /\
  tx_inputs created <> [].
Proof. exact (fun E => C_Trace.ex86_premises). Qed.

Example ex86_one_input : forall E : Env,
  signed_text 1 = lit "Transaction signed with 1 signatures.".
Proof. exact (fun E => C_Trace.ex86_one_input). Qed.

(** Both signatures of [exchanged] are invalid: two errors, and a closing line that claims two valid signatures. *)
Example ex87_exchanged : forall E : Env,
  exists L, @verify_says demo_env exchanged = (L, Ok 2) /\ length L = 19%nat /\
  map snd (filter (level_is 40) L) = [lit "Signature 1 of 2 is invalid!"; lit "Signature 2 of 2 is invalid!"] /\
  map snd (filter (level_is 20) L) = [lit "Transaction verified: 2 valid signatures"].
Proof. exact (fun E => C_Trace.ex87_exchanged). Qed.

Example ex87_premises : forall E : Env,
  exists ins outs bs, tx_header exchanged /\
  Forall2 (fun x i => in_outpoint x (i_txid i) (i_index i)) (tx_inputs exchanged) ins /\ Forall2 out_wire (tx_outputs exchanged) outs /\
  Forall (fun x => exists spk, in_spk x spk) (tx_inputs exchanged) /\ @all_checked demo_env ins outs 0 (tx_inputs exchanged) bs /\
  length bs = 2%nat /\ forall b, In b bs -> b = false.
Proof. exact (fun E => C_Trace.ex87_premises). Qed.

(** Loading the signed demo transaction. *)
Example ex88_loaded : forall E : Env,
  exists L t, @from_hex_says demo_env signed_hex = (L, Ok t) /\ length L = 50%nat /\
  nth_error (map snd L) 2 = Some (lit "hex length: 438") /\ nth_error (map snd L) 5 = Some (lit "input_count_int: 2") /\
  nth_error (map snd L) 9 = Some (lit "- script_length: 8b").
Proof. exact (fun E => C_Trace.ex88_loaded). Qed.

Example ex88_refused : forall E : Env,
  exists L, @from_hex_says demo_env (lit "0100000001") = (L, Err IndexError) /\ (1 < length L)%nat.
Proof. exact (fun E => C_Trace.ex88_refused). Qed.

