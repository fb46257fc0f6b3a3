(** Property theorems: generated by tools/genprops.py from C_Json.v, which holds the proofs. *)
From Coq Require Import String Floats.SpecFloat Permutation Sorted Lia.
From Verif Require Import PyBase Env PyNum Validate Basic Spec EnvOk TxInput TxOutput Tx Create TxSpec SignSpec CreateSpec JsonSpec Demo DemoTx DemoCreate.
Open Scope Z_scope.
From Verif Require C_Json.

(** C32.  Every well-formed transaction can be written as JSON and read back; only the change address and the public keys of
    the inputs are lost. *)
Theorem C32_round_trip : forall E : Env,
  HashOk E -> ZeroAddressOk E -> UniOk E -> JsonOk E -> forall t, json_ready t ->
  exists s, to_json t = Ok s /\ from_json s = Ok (forget_keys t).
Proof. exact (fun E => C_Json.c32_round_trip). Qed.
Print Assumptions C32_round_trip.

(** C32.  This applies to every transaction made by create_transaction from positive amounts... *)
Theorem C32_created : forall E : Env,
  HashOk E -> ZeroAddressOk E -> UniOk E -> JsonOk E -> forall a q t, asked a q -> fst (create_transaction a) = Ok t ->
  Forall (fun i => 0 < ia_value i) (q_inputs q) -> Forall (fun o => 0 < oa_value o) (q_outputs q) ->
  json_ready t /\ exists s, to_json t = Ok s /\ from_json s = Ok (forget_keys t).
Proof. exact (fun E => C_Json.c32_created). Qed.
Print Assumptions C32_created.

(** C32.  ... and to what sign makes of it, whether signing succeeds or not. *)
Theorem C32_signed : forall E : Env,
  CryptoOk E -> UniOk E -> JsonOk E -> forall t ins outs keys rv r t', tx_body t ins outs -> json_ready t -> sign t keys rv = (r, t') ->
  json_ready t' /\ exists s, to_json t' = Ok s /\ from_json s = Ok (forget_keys t').
Proof. exact (fun E => C_Json.c32_signed). Qed.
Print Assumptions C32_signed.

(** C32.  Reading back once more changes nothing. *)
Theorem C32_stable : forall E : Env,
  HashOk E -> ZeroAddressOk E -> UniOk E -> JsonOk E -> forall t, json_ready t ->
  exists s, to_json (forget_keys t) = Ok s /\ from_json s = Ok (forget_keys t).
Proof. exact (fun E => C_Json.c32_stable). Qed.
Print Assumptions C32_stable.

(** C32.  What is lost does not matter for serialising, verifying, computing the txid, or for what will be signed. *)
Theorem C32_same_forms : forall E : Env,
  forall t, to_hex_signed_form (forget_keys t) = to_hex_signed_form t /\ verify (forget_keys t) = verify t /\
  calculate_txid (forget_keys t) = calculate_txid t /\ (forall i, to_hex_signable_form (forget_keys t) i = to_hex_signable_form t i) /\
  total_input (forget_keys t) = total_input t /\ total_output (forget_keys t) = total_output t /\ fee (forget_keys t) = fee t.
Proof. exact (fun E => C_Json.c32_same_forms). Qed.
Print Assumptions C32_same_forms.

(** C33.  from_json accepts exactly the documents described by [json_tx], and returns what is written there. *)
Theorem C33_accepted_iff : forall E : Env,
  HashOk E -> ZeroAddressOk E -> UniOk E -> forall s t, from_json s = Ok t <-> exists v, json_loads s = Ok v /\ json_tx v t.
Proof. exact (fun E => C_Json.c33_accepted_iff). Qed.
Print Assumptions C33_accepted_iff.

(** C33.  A transaction read from JSON is consistent: counts, outputs, outpoints, amounts and script lengths agree, all amounts are
    positive, and the fee is known and not negative. *)
Theorem C33_consistent : forall E : Env,
  HashOk E -> ZeroAddressOk E -> UniOk E -> forall s t, from_json s = Ok t ->
  tx_header t /\ Forall (fun y => exists v h, out_pays y v h /\ 0 < v) (tx_outputs t) /\
  Forall (fun x => exists txid idx n h, in_outpoint x txid idx /\ in_worth x n /\ 0 < n /\ is_address h (ti_address x) /\
     (ti_script_sig x = None \/ exists sc, bytes sc /\ ti_script_sig x = Some (hex_of sc) /\ ti_script_length x = Some (hex_of [len sc])) /\
     (ti_script_pub_key x = None \/ exists spk, bytes spk /\ ti_script_pub_key x = Some (hex_of spk) /\ ti_script_pub_key_length x = Some (hex_of [len spk]))) (tx_inputs t) /\
  (exists f, fee t = Some f /\ 0 <= f) /\ tx_change_address t = None.
Proof. exact (fun E => C_Json.c33_consistent). Qed.
Print Assumptions C33_consistent.

(** C34.  The version in the document is not looked at: changing it changes nothing. *)
Theorem C34_version_ignored : forall E : Env,
  forall s s' d w w', json_loads s = Ok (PDict d) -> has d "version" w ->
  json_loads s' = Ok (PDict (dict_set (lit "version") w' d)) -> from_json s' = from_json s.
Proof. exact (fun E => C_Json.c34_version_ignored). Qed.
Print Assumptions C34_version_ignored.

(** C34.  The scriptPubKey of an input is not compared with its address: it can be replaced by any other script. *)
Theorem C34_any_script : forall E : Env,
  HashOk E -> ZeroAddressOk E -> UniOk E -> JsonOk E -> forall t spk, json_ready t -> bytes spk -> len spk <= 252 ->
  exists s, to_json (set_inputs t (map (with_script_pub_key spk) (tx_inputs t))) = Ok s /\
    from_json s = Ok (forget_keys (set_inputs t (map (with_script_pub_key spk) (tx_inputs t)))).
Proof. exact (fun E => C_Json.c34_any_script). Qed.
Print Assumptions C34_any_script.

(** C57.  The summary in to_dict agrees with the transaction. *)
Theorem C57_summary : forall E : Env,
  UniOk E -> forall t, json_ready t ->
  exists d, to_dict t = Ok (PDict d) /\ summary t (estimated_size (length (tx_inputs t)) (length (tx_outputs t))) d.
Proof. exact (fun E => C_Json.c57_summary). Qed.
Print Assumptions C57_summary.

(** C57.  There is only one rounding. *)
Theorem C57_rounded_unique : forall E : Env,
  forall a b u u', 0 < b -> rounded a b u -> rounded a b u' -> u = u'.
Proof. exact (fun E => C_Json.c57_rounded_unique). Qed.
Print Assumptions C57_rounded_unique.

(** C57.  For a transaction decoded from hex the amounts spent are unknown, and so are fee and fee rates. *)
Theorem C57_decoded : forall E : Env,
  UniOk E -> forall t ins outs, decoded_tx t ins outs -> ins <> [] -> Zsum (map o_value outs) <= 2100000000000000 ->
  exists d, to_dict t = Ok (PDict d) /\ has d "signed" (PBool true) /\ has_no_amount d "total_input" /\ has_no_amount d "fee" /\ has_amount d "total_output" (Zsum (map o_value outs)) /\
       has d "size_bytes" (PInt (len (wire ins outs))) /\ has d "change_address" PNone /\ has_no_amount d "change" /\
       has d "estimated_size_bytes" (PInt (estimated_size (length ins) (length outs))) /\
       has d "estimated_fee_rate" (PDict [(lit "satoshi_per_byte", PNone); (lit "bitcoin_per_byte", PNone)]) /\ has_no_amount d "fee_rate".
Proof. exact (fun E => C_Json.c57_decoded). Qed.
Print Assumptions C57_decoded.

(** C57.  A decoded transaction paying more than 21 million bitcoin cannot be shown. *)
Theorem C57_decoded_too_much : forall E : Env,
  UniOk E -> forall t ins outs, decoded_tx t ins outs -> ins <> [] -> 2100000000000000 < Zsum (map o_value outs) ->
  to_dict t = Err ValueError.
Proof. exact (fun E => C_Json.c57_decoded_too_much). Qed.
Print Assumptions C57_decoded_too_much.

(** C32.  Not every transaction object survives the round trip: one decoded from hex can be written as JSON, but what is
    written is not accepted when read. *)
Theorem C32_decoded_refuted : forall E : Env,
  HashOk E -> ZeroAddressOk E -> UniOk E -> JsonOk E -> forall t ins outs, decoded_tx t ins outs -> ins <> [] ->
  Zsum (map o_value outs) <= 2100000000000000 -> exists s e, to_json t = Ok s /\ from_json s = Err e.
Proof. exact (fun E => C_Json.c32_decoded_refuted). Qed.
Print Assumptions C32_decoded_refuted.

(** Hypotheses met: the demo transaction, unsigned and signed. *)
Example ex32_created : forall E : Env,
  @asked demo_env demo_ns demo_order /\ fst (@create_transaction demo_env demo_ns) = Ok created /\
  Forall (fun i => 0 < ia_value i) (q_inputs demo_order) /\ Forall (fun o => 0 < oa_value o) (q_outputs demo_order) /\ @json_ready demo_env created.
Proof. exact (fun E => C_Json.ex32_created). Qed.

(** The signed transaction is not returned unchanged: its change address is lost. *)
Example ex32_identity_refuted : forall E : Env,
  @json_ready demo_env signed_tx /\
  exists s, @to_json demo_env signed_tx = Ok s /\ @from_json demo_env s = Ok (forget_keys signed_tx) /\ forget_keys signed_tx <> signed_tx.
Proof. exact (fun E => C_Json.ex32_identity_refuted). Qed.

(** The script of an address the input does not have is accepted. *)
Example ex34_foreign_script_refuted : forall E : Env,
  exists s t, @from_json demo_env s = Ok t /\
  Forall (fun x => ti_script_pub_key x = Some (hex_of [81]) /\ ~ exists h, @in_owner demo_env x h) (tx_inputs t) /\ length (tx_inputs t) = 2%nat.
Proof. exact (fun E => C_Json.ex34_foreign_script_refuted). Qed.

(** Hypotheses met: the decoded demo transaction, and the same inputs paying twice 21 million bitcoin. *)
Example ex57_decoded : forall E : Env,
  exists t ins outs, @from_hex_signed demo_env signed_hex = Ok t /\ @decoded_tx demo_env t ins outs /\ ins <> [] /\
  0 < Zsum (map o_value outs) <= 2100000000000000.
Proof. exact (fun E => C_Json.ex57_decoded). Qed.

Example ex57_decoded_too_much : forall E : Env,
  exists t ins outs, @decoded_tx demo_env t ins outs /\ ins <> [] /\ 2100000000000000 < Zsum (map o_value outs).
Proof. exact (fun E => C_Json.ex57_decoded_too_much). Qed.

Example ex33_loaded : forall E : Env,
  exists s t, @from_json demo_env s = Ok t /\ length (tx_inputs t) = 2%nat /\ length (tx_outputs t) = 2%nat.
Proof. exact (fun E => C_Json.ex33_loaded). Qed.

