(** Specification of signing and verifying, in terms of the wire format and the (external) signature functions. *)
From Coq Require Import String.
From Verif Require Import PyBase Env Spec EnvOk TxInput TxOutput Tx TxSpec.

Section WithEnv.
Context {E : Env}.

(** [key] is the hex of a 32-byte private key the library accepts, [pub] its public key. *)
Definition key_pub (key : pystr) (pub : list Z) : Prop :=
  (exists bs, bytes bs /\ length bs = 32%nat /\ key = hex_of bs) /\
  ec_validate_private_key_hex key = Ok tt /\ ec_public_key key = Ok (hex_of pub) /\ bytes pub /\ length pub = 64%nat.

(** [key] controls the address [a]. *)
Definition controls (key a : pystr) : Prop := exists pub, key_pub key pub /\ is_address (hash160 pub) a.

(** The digest that is signed. *)
Definition digest (form : list Z) : list Z := sha256 (sha256 form).

(** [t] is built from the outpoints of [ins] (scripts of [ins] are irrelevant) and the outputs [outs]; every input spends
    an output paying some address. *)
Definition tx_body (t : tx) (ins : list sinput) (outs : list soutput) : Prop :=
  tx_header t /\ Forall2 (fun x i => in_outpoint x (i_txid i) (i_index i)) (tx_inputs t) ins /\
  Forall2 out_wire (tx_outputs t) outs /\ Forall (fun x => exists h, in_owner x h) (tx_inputs t).

(** The nonce for input number i: None means deterministic. *)
Definition nonce (rv : option (list pystr)) (i : nat) : option pystr :=
  match rv with Some l => match nth_error l i with Some [] => None | o => o end | None => None end.

(** Signature of digest d by [key]. *)
Definition signature (key : pystr) (d : list Z) (k : option pystr) : res pystr :=
  match k with None => ec_sign_digest key (hex_of d) | Some k => ec_sign_digest_k key (hex_of d) k end.

(** 64-byte signature as two numbers, DER encoded. *)
Definition der_of (sig : list Z) : list Z := der_encode (be_val (firstn 32 sig)) (be_val (skipn 32 sig)).

(** x' is input number i, x, after signing with [key]: only the public key and the scriptSig are new. *)
Definition input_signed (key : pystr) (rv : option (list pystr)) (ins : list sinput) (outs : list soutput) (i : nat) (x x' : txin) : Prop :=
  exists pub sig, key_pub key pub /\ in_owner x (hash160 pub) /\ bytes sig /\ length sig = 64%nat /\
    signature key (digest (sighash_bytes i (p2pkh (hash160 pub)) ins outs)) (nonce rv i) = Ok (hex_of sig) /\
    bytes (der_of sig) /\ len (der_of sig) <= 72 /\
    x' = mk_txin (ti_previous_output_hash x) (ti_previous_output_index x) (ti_previous_output_index_int x)
          (ti_sequence x) (Some (hex_of pub)) (ti_script_pub_key_length x) (ti_script_pub_key_length_int x)
          (ti_script_pub_key x) (Some (hex_of [len (build_script_sig (der_of sig) pub)]))
          (PInt (len (build_script_sig (der_of sig) pub))) (Some (hex_of (build_script_sig (der_of sig) pub)))
          (ti_address x) (ti_txid x) (ti_satoshi_amount x) (ti_bitcoin_amount x).

(** Inputs number n, n+1, ... have all been signed, each with one of [keys]. *)
Inductive all_signed (keys : list pystr) (rv : option (list pystr)) (ins : list sinput) (outs : list soutput)
  : nat -> list txin -> list txin -> Prop :=
| as_nil : forall n, all_signed keys rv ins outs n [] []
| as_cons : forall n x x' xs xs' key, In key keys -> input_signed key rv ins outs n x x' ->
    all_signed keys rv ins outs (S n) xs xs' -> all_signed keys rv ins outs n (x :: xs) (x' :: xs').

(** der is the DER encoding of (r, s), and [sighex] the 64-byte hex signature r || s. *)
Definition der_sig (der : list Z) (sighex : pystr) : Prop :=
  exists r s, der_decode der = Ok (r, s) /\ 0 <= r < 256 ^ 32 /\ 0 <= s < 256 ^ 32 /\
    sighex = hex_of (rev (le_bytes 32 r) ++ rev (le_bytes 32 s)).

(** x spends an output with scriptPubKey spk. *)
Definition in_spk (x : txin) (spk : list Z) : Prop :=
  bytes spk /\ len spk <= 252 /\ ti_script_pub_key x = Some (hex_of spk) /\ ti_script_pub_key_length x = Some (hex_of [len spk]).

(** Checking the signature of input number i, x, says b. *)
Definition input_check (ins : list sinput) (outs : list soutput) (i : nat) (x : txin) (b : bool) : Prop :=
  exists spk script der pub sighex, in_spk x spk /\ ti_script_sig x = Some (hex_of script) /\ bytes script /\
    script_sig_parts script der pub /\ length pub = 64%nat /\ der_sig der sighex /\
    ec_verify_digest (hex_of pub) (hex_of (digest (sighash_bytes i spk ins outs))) sighex = Ok b.
Inductive all_checked (ins : list sinput) (outs : list soutput) : nat -> list txin -> list bool -> Prop :=
| ac_nil : forall n, all_checked ins outs n [] []
| ac_cons : forall n x xs b bs, input_check ins outs n x b -> all_checked ins outs (S n) xs bs ->
    all_checked ins outs n (x :: xs) (b :: bs).

(** A nonempty nonce list has no entry for input number n. *)
Definition no_nonce (rv : option (list pystr)) (n : nat) : Prop :=
  exists l, rv = Some l /\ l <> [] /\ (length l <= n)%nat.

(** x with its public key filled in. *)
Definition with_public_key (x : txin) (pub : list Z) : txin :=
  mk_txin (ti_previous_output_hash x) (ti_previous_output_index x) (ti_previous_output_index_int x)
          (ti_sequence x) (Some (hex_of pub)) (ti_script_pub_key_length x) (ti_script_pub_key_length_int x)
          (ti_script_pub_key x) (ti_script_length x) (ti_script_length_int x) (ti_script_sig x)
          (ti_address x) (ti_txid x) (ti_satoshi_amount x) (ti_bitcoin_amount x).

(** Signing inputs number n, n+1, ... in order, until the first problem: [signing n xs r xs'] means that inputs xs become
    xs' with outcome r. *)
Inductive signing (keys : list pystr) (rv : option (list pystr)) (ins : list sinput) (outs : list soutput)
  : nat -> list txin -> res unit -> list txin -> Prop :=
| sg_done : forall n, signing keys rv ins outs n [] (Ok tt) []
| sg_signed : forall n x x' xs r xs' key, ~ no_nonce rv n -> In key keys -> input_signed key rv ins outs n x x' ->
    signing keys rv ins outs (S n) xs r xs' -> signing keys rv ins outs n (x :: xs) r (x' :: xs')
| sg_no_nonce : forall n x xs, no_nonce rv n -> signing keys rv ins outs n (x :: xs) (Err IndexError) (x :: xs)
| sg_no_key : forall n x xs, ~ no_nonce rv n -> (forall key, In key keys -> ~ controls key (ti_address x)) ->
    signing keys rv ins outs n (x :: xs) (Err ValueError) (x :: xs)
| sg_refused : forall n x xs key pub e, ~ no_nonce rv n -> In key keys -> key_pub key pub -> in_owner x (hash160 pub) ->
    signature key (digest (sighash_bytes n (p2pkh (hash160 pub)) ins outs)) (nonce rv n) = Err e ->
    signing keys rv ins outs n (x :: xs) (Err e) (with_public_key x pub :: xs).

End WithEnv.
