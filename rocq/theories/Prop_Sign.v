(** Property theorems: generated by tools/genprops.py from C_Sign.v, which holds the proofs. *)
From Coq Require Import String Lia.
From Verif Require Import PyBase Env PyNum Validate Basic Spec EnvOk TxInput TxOutput Tx Create TxSpec SignSpec Demo DemoTx.
From Verif Require C_Sign.

(** C25.  If signing succeeds, every signature in the result verifies, whatever had been signed before. *)
Theorem C25_sign_then_verify : forall E : Env,
  CryptoOk E -> forall t ins outs keys rv t',
  tx_body t ins outs -> sign t keys rv = (Ok tt, t') -> verify t' = Ok 0.
Proof. exact (fun E => C_Sign.c25_sign_then_verify). Qed.
Print Assumptions C25_sign_then_verify.

(** C25.  The signed transaction serialises to the wire format: same outpoints and outputs, and the scriptSig of each input
    is a DER signature of the input's sighash by a supplied key that controls the input's address, and that key's public key. *)
Theorem C25_signed_form : forall E : Env,
  CryptoOk E -> forall t ins outs keys rv t',
  tx_body t ins outs -> sign t keys rv = (Ok tt, t') ->
  exists ins', tx_wire t' ins' outs /\ to_hex_signed_form t' = Ok (hex_of (wire ins' outs)) /\ tx_signed t' = true /\
    map i_txid ins' = map i_txid ins /\ map i_index ins' = map i_index ins /\
    forall n i, nth_error ins' n = Some i ->
      exists x key pub sig, nth_error (tx_inputs t) n = Some x /\ In key keys /\ key_pub key pub /\ is_address (hash160 pub) (ti_address x) /\
        bytes sig /\ length sig = 64%nat /\
        signature key (digest (sighash_bytes n (p2pkh (hash160 pub)) ins outs)) (nonce rv n) = Ok (hex_of sig) /\
        i_script i = build_script_sig (der_of sig) pub.
Proof. exact (fun E => C_Sign.c25_signed_form). Qed.
Print Assumptions C25_signed_form.

(** C26.  Whatever the transaction, the keys and the outcome: sign changes nothing but the public keys and scriptSigs of inputs. *)
Theorem C26_frame : forall E : Env,
  forall t keys rv r t', sign t keys rv = (r, t') ->
  exists xs', t' = set_inputs t xs' /\ map unsign xs' = map unsign (tx_inputs t).
Proof. exact (fun E => C_Sign.c26_frame). Qed.
Print Assumptions C26_frame.

(** C26, what is meant by nothing but: two inputs that agree after [unsign] agree on every attribute but four. *)
Theorem C26_unsign : forall E : Env,
  forall x y, unsign x = unsign y <->
  ti_previous_output_hash x = ti_previous_output_hash y /\ ti_previous_output_index x = ti_previous_output_index y /\
  ti_previous_output_index_int x = ti_previous_output_index_int y /\ ti_sequence x = ti_sequence y /\
  ti_script_pub_key_length x = ti_script_pub_key_length y /\ ti_script_pub_key_length_int x = ti_script_pub_key_length_int y /\
  ti_script_pub_key x = ti_script_pub_key y /\ ti_address x = ti_address y /\ ti_txid x = ti_txid y /\
  ti_satoshi_amount x = ti_satoshi_amount y /\ ti_bitcoin_amount x = ti_bitcoin_amount y.
Proof. exact (fun E => C_Sign.c26_unsign). Qed.
Print Assumptions C26_unsign.

(** C27.  The complete behaviour of sign on a well-formed transaction.  Nonce lists with a repetition or of the wrong length
    raise ValueError; an unusable key raises; neither changes anything.  Otherwise inputs are signed in order up to the
    first one for which there is no nonce (IndexError), no key (ValueError), or whose signature the library refuses. *)
Theorem C27_sign_outcome : forall E : Env,
  CryptoOk E -> forall t ins outs keys rv, tx_body t ins outs ->
  let nonces_fit := rv = None \/ rv = Some [] \/ exists l, rv = Some l /\ NoDup l /\ length l = length keys in
  let keys_fit := Forall (fun k => exists a, controls k a) keys in
  (~ nonces_fit -> sign t keys rv = (Err ValueError, t)) /\
  (~ keys_fit -> exists e, sign t keys rv = (Err e, t)) /\
  (nonces_fit -> keys_fit ->
     exists r xs', sign t keys rv = (r, set_inputs t xs') /\ signing keys rv ins outs 0 (tx_inputs t) r xs').
Proof. exact (fun E => C_Sign.c27_sign_outcome). Qed.
Print Assumptions C27_sign_outcome.

(** C27 with deterministic nonces: sign succeeds if there is a key for every input; otherwise it stops with ValueError at the
    first input without a key, leaving that one and all later ones as they were and the earlier ones signed. *)
Theorem C27_first_unknown : forall E : Env,
  CryptoOk E -> SignTotal E -> forall t ins outs keys, tx_body t ins outs ->
  Forall (fun k => exists a, controls k a) keys ->
  let known x := exists k, In k keys /\ controls k (ti_address x) in
  (Forall known (tx_inputs t) ->
     exists xs', sign t keys None = (Ok tt, set_inputs t xs') /\ all_signed keys None ins outs 0 (tx_inputs t) xs') /\
  (forall pre x post, tx_inputs t = pre ++ x :: post -> Forall known pre -> ~ known x ->
     exists pre', sign t keys None = (Err ValueError, set_inputs t (pre' ++ x :: post)) /\ all_signed keys None ins outs 0 pre pre').
Proof. exact (fun E => C_Sign.c27_first_unknown). Qed.
Print Assumptions C27_first_unknown.

(** C28.  Supplied nonces: when sign succeeds with a nonempty list l, l has no repetition, as many entries as there are keys
    and at least as many as there are inputs, and input number n was signed with entry number n. *)
Theorem C28_nonces : forall E : Env,
  CryptoOk E -> forall t ins outs keys l t', tx_body t ins outs -> l <> [] -> sign t keys (Some l) = (Ok tt, t') ->
  NoDup l /\ length l = length keys /\ (length (tx_inputs t) <= length l)%nat /\
  exists xs', t' = set_inputs t xs' /\ all_signed keys (Some l) ins outs 0 (tx_inputs t) xs'.
Proof. exact (fun E => C_Sign.c28_nonces). Qed.
Print Assumptions C28_nonces.

(** C28.  A repeated nonce, or another number of nonces than keys, is refused before anything happens. *)
Theorem C28_nonces_refused : forall E : Env,
  forall t keys l, l <> [] -> ~ NoDup l \/ length l <> length keys -> sign t keys (Some l) = (Err ValueError, t).
Proof. exact (fun E => C_Sign.c28_nonces_refused). Qed.
Print Assumptions C28_nonces_refused.

(** C28, refuted: that nonces can be supplied whenever there is a key for every input.  There must be one nonce per key, but
    they are consumed one per input, so with more inputs than keys sign raises IndexError. *)
Theorem C28_more_inputs_than_keys_refuted : forall E : Env,
  CryptoOk E -> forall t ins outs keys l t', tx_body t ins outs ->
  (length keys < length (tx_inputs t))%nat -> l <> [] -> sign t keys (Some l) <> (Ok tt, t').
Proof. exact (fun E => C_Sign.c28_more_inputs_than_keys_refuted). Qed.
Print Assumptions C28_more_inputs_than_keys_refuted.

(** C29.  verify returns n exactly if every input's scriptSig can be parsed and checked and n of the checks against the
    input's own sighash fail. *)
Theorem C29_verify : forall E : Env,
  HashOk E -> forall t ins outs n, tx_header t ->
  Forall2 (fun x i => in_outpoint x (i_txid i) (i_index i)) (tx_inputs t) ins -> Forall2 out_wire (tx_outputs t) outs ->
  Forall (fun x => exists spk, in_spk x spk) (tx_inputs t) ->
  (verify t = Ok n <-> exists bs, all_checked ins outs 0 (tx_inputs t) bs /\ n = Z.of_nat (length (filter negb bs))).
Proof. exact (fun E => C_Sign.c29_verify). Qed.
Print Assumptions C29_verify.

(** C29.  verify returns 0 exactly if every signature is valid. *)
Theorem C29_verify_zero : forall E : Env,
  HashOk E -> forall t ins outs, tx_header t ->
  Forall2 (fun x i => in_outpoint x (i_txid i) (i_index i)) (tx_inputs t) ins -> Forall2 out_wire (tx_outputs t) outs ->
  Forall (fun x => exists spk, in_spk x spk) (tx_inputs t) ->
  (verify t = Ok 0 <-> forall n x, nth_error (tx_inputs t) n = Some x -> input_check ins outs n x true).
Proof. exact (fun E => C_Sign.c29_verify_zero). Qed.
Print Assumptions C29_verify_zero.

(** C29.  With an input without scriptSig verify returns nothing; if that is the first problem it raises ValueError, and so
    it does for a scriptSig it cannot parse. *)
Theorem C29_verify_unsigned : forall E : Env,
  HashOk E ->
  (forall t x n, In x (tx_inputs t) -> ti_script_sig x = None -> verify t <> Ok n) /\
  (forall t ins outs pre x post bs, tx_header t ->
     Forall2 (fun x i => in_outpoint x (i_txid i) (i_index i)) (tx_inputs t) ins -> Forall2 out_wire (tx_outputs t) outs ->
     tx_inputs t = pre ++ x :: post -> all_checked ins outs 0 pre bs ->
     (ti_script_sig x = None \/ exists s, ti_script_sig x = Some s /\ forall bs sig pub, bytes bs -> s = hex_of bs -> ~ script_sig_parts bs sig pub) ->
     verify t = Err ValueError).
Proof. exact (fun E => C_Sign.c29_verify_unsigned). Qed.
Print Assumptions C29_verify_unsigned.

(** C30.  For a transaction decoded from hex, verify() = 0 means that each input carries a valid signature over its sighash,
    with the scriptPubKey and the reported address those of the very key in the scriptSig. *)
Theorem C30_decoded_verify : forall E : Env,
  UniOk E -> HashOk E -> forall s t, from_hex_signed s = Ok t -> verify t = Ok 0 ->
  exists ins outs rest, s = hex_of (wire ins outs ++ rest) /\
    forall n x, nth_error (tx_inputs t) n = Some x ->
      exists i pub der sighex, nth_error ins n = Some i /\ script_sig_parts (i_script i) der pub /\ length pub = 64%nat /\
        der_sig der sighex /\ is_address (hash160 pub) (ti_address x) /\
        ec_verify_digest (hex_of pub) (hex_of (digest (sighash_bytes n (p2pkh (hash160 pub)) ins outs))) sighex = Ok true.
Proof. exact (fun E => C_Sign.c30_decoded_verify). Qed.
Print Assumptions C30_decoded_verify.

(** C31.  The transaction id: ValueError unless every input is signed; otherwise the reversed double SHA-256 of the signed
    serialisation, as 32 bytes of hex. *)
Theorem C31_txid : forall E : Env,
  HashOk E ->
  (forall t, tx_signed t = false -> calculate_txid t = Err ValueError) /\
  (forall t ins outs, tx_wire t ins outs ->
     calculate_txid t = Ok (hex_of (rev (sha256 (sha256 (wire ins outs))))) /\ length (rev (sha256 (sha256 (wire ins outs)))) = 32%nat).
Proof. exact (fun E => C_Sign.c31_txid). Qed.
Print Assumptions C31_txid.

(** C31.  The id of a decoded transaction is the hash of what was decoded. *)
Theorem C31_txid_decoded : forall E : Env,
  UniOk E -> HashOk E -> forall s t, from_hex_signed s = Ok t ->
  exists bs rest, s = hex_of (bs ++ rest) /\ bytes bs /\ to_hex_signed_form t = Ok (hex_of bs) /\
    calculate_txid t = Ok (hex_of (rev (sha256 (sha256 bs)))).
Proof. exact (fun E => C_Sign.c31_txid_decoded). Qed.
Print Assumptions C31_txid_decoded.

(** C30, refuted: that verify() = 0 on a transaction loaded from JSON means that each input carries the public key of its own
    address.  Nothing compares the key in the scriptSig with the address or the scriptPubKey. *)
Theorem C30_json_owner_refuted : forall E : Env,
  ~ (forall E' : Env, EnvAll E' -> forall s t, @from_json E' s = Ok t -> @verify E' t = Ok 0 ->
       forall x, In x (tx_inputs t) -> exists script der pub, ti_script_sig x = Some (hex_of script) /\ bytes script /\
         script_sig_parts script der pub /\ @is_address E' (@hash160 E' pub) (ti_address x)).
Proof. exact (fun E => C_Sign.c30_json_owner_refuted). Qed.
Print Assumptions C30_json_owner_refuted.

(** The premises hold and the conclusions are reached on a concrete transaction with two inputs. *)
Example ex25_demo : forall E : Env,
  exists ins outs, @tx_body demo_env created ins outs /\ CryptoOk demo_env /\ SignTotal demo_env /\
  @sign demo_env created [key1; key2] None = (Ok tt, signed_tx) /\ @verify demo_env signed_tx = Ok 0.
Proof. exact (fun E => C_Sign.ex25_demo). Qed.

(** With key1 alone the second input stops it; with no fitting key nothing changes. *)
Example ex27_demo : forall E : Env,
  (exists xs, @sign demo_env created [key1] None = (Err ValueError, set_inputs created xs) /\ xs <> tx_inputs created) /\
  @sign demo_env created [key3] None = (Err ValueError, created).
Proof. exact (fun E => C_Sign.ex27_demo). Qed.

(** Nonces: two fitting ones; a repetition; one key with two inputs. *)
Example ex28_demo : forall E : Env,
  (exists t, @sign demo_env created [key1; key2] (Some [key1; key3]) = (Ok tt, t)) /\
  @sign demo_env created [key1; key2] (Some [key1; key1]) = (Err ValueError, created) /\
  @sign demo_env created [key1; key2] (Some [key1]) = (Err ValueError, created) /\
  (exists ins outs, @tx_body demo_env twice ins outs) /\
  fst (@sign demo_env twice [key1] None) = Ok tt /\ fst (@sign demo_env twice [key1] (Some [key3])) = Err IndexError.
Proof. exact (fun E => C_Sign.ex28_demo). Qed.

(** An unsigned transaction does not verify; a signature made for another input counts as invalid. *)
Example ex29_demo : forall E : Env,
  @verify demo_env created = Err ValueError /\
  match tx_inputs signed_tx with
  | [x; y] => @verify demo_env (set_inputs signed_tx [set_script x (hex_of [len []]) 0 (match ti_script_sig y with Some s => s | None => [] end); y]) = Ok 1
  | _ => False
  end.
Proof. exact (fun E => C_Sign.ex29_demo). Qed.

(** Ids of a signed and an unsigned transaction. *)
Example ex31_demo : forall E : Env,
  @calculate_txid demo_env created = Err ValueError /\ exists s, @calculate_txid demo_env signed_tx = Ok s /\ length s = 64%nat.
Proof. exact (fun E => C_Sign.ex31_demo). Qed.

