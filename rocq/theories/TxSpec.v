(** Specification of the Bitcoin transaction format (the subset with one-byte counts and lengths, version 1,
    sequence ffffffff, lock time 0).  Nothing here refers to functions of the model; [txin], [txout] and [tx] are
    the model's records of object attributes. *)
From Coq Require Import String.
From Verif Require Import PyBase Env Spec EnvOk TxInput TxOutput Tx.

(** Abstract transactions.  [i_txid] is the id of the spent transaction in display (reversed) order. *)
Record sinput : Type := mk_sinput { i_txid : list Z; i_index : Z; i_script : list Z }.
Record soutput : Type := mk_soutput { o_value : Z; o_script : list Z }.

Definition len (l : list Z) : Z := Z.of_nat (length l).

Definition input_ok (i : sinput) : Prop :=
  bytes (i_txid i) /\ length (i_txid i) = 32%nat /\ 0 <= i_index i < 2 ^ 32 /\
  bytes (i_script i) /\ len (i_script i) <= 252.
Definition output_ok (o : soutput) : Prop :=
  0 <= o_value o < 2 ^ 64 /\ bytes (o_script o) /\ len (o_script o) <= 252.

(** The wire format. *)
Definition input_bytes (i : sinput) : list Z :=
  rev (i_txid i) ++ le_bytes 4 (i_index i) ++ [len (i_script i)] ++ i_script i ++ [255; 255; 255; 255].
Definition output_bytes (o : soutput) : list Z :=
  le_bytes 8 (o_value o) ++ [len (o_script o)] ++ o_script o.
Definition wire (ins : list sinput) (outs : list soutput) : list Z :=
  le_bytes 4 1 ++ [Z.of_nat (length ins)] ++ flat_map input_bytes ins ++
  [Z.of_nat (length outs)] ++ flat_map output_bytes outs ++ le_bytes 4 0.

Definition tx_ok (ins : list sinput) (outs : list soutput) : Prop :=
  Forall input_ok ins /\ Forall output_ok outs /\ (length ins <= 252)%nat /\ (length outs <= 252)%nat.

(** What is hashed for the signature of input number k (SIGHASH_ALL): the script of input k is replaced by the
    scriptPubKey it spends, every other script by the empty one, and 01000000 is appended. *)
Fixpoint replace_scripts (k : nat) (spk : list Z) (ins : list sinput) : list sinput :=
  match ins with
  | [] => []
  | i :: r =>
      mk_sinput (i_txid i) (i_index i) (match k with O => spk | S _ => [] end) ::
      match k with
      | O => map (fun i => mk_sinput (i_txid i) (i_index i) []) r
      | S k' => replace_scripts k' spk r
      end
  end.
Definition sighash_bytes (k : nat) (spk : list Z) (ins : list sinput) (outs : list soutput) : list Z :=
  wire (replace_scripts k spk ins) outs ++ le_bytes 4 1.

(** The scriptSig [script] pushes [sig] followed by the hash type byte 01, and then [n2] bytes of [rest]
    (or all of [rest] if shorter), which are 04 followed by [pub]. *)
Definition script_sig_parts (script sig pub : list Z) : Prop :=
  exists n2 rest, script = [len sig + 1] ++ sig ++ [1] ++ [n2] ++ rest /\ len sig + 1 <= 252 /\
    0 <= n2 <= 252 /\ firstn (Z.to_nat n2) rest = 4 :: pub.

(** The scriptSig the library itself builds. *)
Definition build_script_sig (sig pub : list Z) : list Z := [len sig + 1] ++ sig ++ [1] ++ [65] ++ 4 :: pub.

(** ** Agreement of an object with an abstract transaction. *)

(** The outpoint attributes of x are those of (txid, idx), its sequence is ffffffff. *)
Definition in_outpoint (x : txin) (txid : list Z) (idx : Z) : Prop :=
  bytes txid /\ length txid = 32%nat /\ 0 <= idx < 2 ^ 32 /\
  ti_txid x = hex_of txid /\ ti_previous_output_hash x = hex_of (rev txid) /\
  ti_previous_output_index x = hex_of (le_bytes 4 idx) /\ as_int (ti_previous_output_index_int x) = Some idx /\
  ti_sequence x = hex_of [255; 255; 255; 255].

(** x carries the scriptSig [script]. *)
Definition in_script (x : txin) (script : list Z) : Prop :=
  bytes script /\ len script <= 252 /\ ti_script_sig x = Some (hex_of script) /\
  ti_script_length x = Some (hex_of [len script]) /\ ti_script_length_int x = PInt (len script).
Definition in_unsigned (x : txin) : Prop :=
  ti_script_sig x = None /\ ti_script_length x = None /\ ti_script_length_int x = PNone /\ ti_public_key_hex x = None.

(** x spends an output paying the P2PKH address of hash h. *)
Definition in_owner {E : Env} (x : txin) (h : list Z) : Prop :=
  is_address h (ti_address x) /\ ti_script_pub_key x = Some (hex_of (p2pkh h)) /\
  ti_script_pub_key_length x = Some (hex_of [25]) /\ ti_script_pub_key_length_int x = PInt 25.

(** x is worth n satoshi / its worth is unknown. *)
Definition in_worth (x : txin) (n : Z) : Prop :=
  ti_satoshi_amount x = Some n /\ 0 <= n <= 2100000000000000 /\ exists s, ti_bitcoin_amount x = Some s /\ btc_text s n.
Definition in_unknown (x : txin) : Prop := ti_satoshi_amount x = None /\ ti_bitcoin_amount x = None.

(** Object x is the input i of a serialised transaction. *)
Definition in_wire (x : txin) (i : sinput) : Prop := in_outpoint x (i_txid i) (i_index i) /\ in_script x (i_script i).

(** Object y is the output o. *)
Definition out_wire (y : txout) (o : soutput) : Prop :=
  output_ok o /\ o_value o <= 2100000000000000 /\ to_value y = hex_of (le_bytes 8 (o_value o)) /\
  to_script_pub_key y = hex_of (o_script o) /\ to_script_length y = hex_of [len (o_script o)] /\
  to_script_length_int y = PInt (len (o_script o)) /\ to_satoshi_amount y = o_value o /\
  btc_text (to_bitcoin_amount y) (o_value o).
(** y pays v satoshi to the P2PKH address of hash h. *)
Definition out_pays {E : Env} (y : txout) (v : Z) (h : list Z) : Prop :=
  out_wire y (mk_soutput v (p2pkh h)) /\ is_address h (to_address y).

(** Header attributes. *)
Definition tx_header (t : tx) : Prop :=
  tx_version t = hex_of (le_bytes 4 1) /\ tx_block_lock_time t = hex_of (le_bytes 4 0) /\
  tx_hash_type_4_byte t = hex_of (le_bytes 4 1) /\ tx_hash_type_1_byte t = hex_of [1] /\
  tx_input_count t = hex_of [Z.of_nat (length (tx_inputs t))] /\ (length (tx_inputs t) <= 252)%nat /\
  tx_output_count t = hex_of [Z.of_nat (length (tx_outputs t))] /\ (length (tx_outputs t) <= 252)%nat.

(** Object t is the fully signed transaction (ins, outs). *)
Definition tx_wire (t : tx) (ins : list sinput) (outs : list soutput) : Prop :=
  tx_header t /\ Forall2 in_wire (tx_inputs t) ins /\ Forall2 out_wire (tx_outputs t) outs.

(** ** Decoded transactions. *)

(** x is the object a decoder makes of the signed input i: everything is determined by the bytes and the public key
    in the scriptSig; the spent output is taken to be the P2PKH output of that key; its worth is unknown. *)
Definition decoded_input {E : Env} (x : txin) (i : sinput) : Prop :=
  input_ok i /\
  exists sig pub a, script_sig_parts (i_script i) sig pub /\ length pub = 64%nat /\ is_address (hash160 pub) a /\
    x = {| ti_previous_output_hash := hex_of (rev (i_txid i));
           ti_previous_output_index := hex_of (le_bytes 4 (i_index i));
           ti_previous_output_index_int := PInt (i_index i);
           ti_sequence := hex_of [255; 255; 255; 255];
           ti_public_key_hex := Some (hex_of pub);
           ti_script_pub_key_length := Some (hex_of [25]);
           ti_script_pub_key_length_int := PInt 25;
           ti_script_pub_key := Some (hex_of (p2pkh (hash160 pub)));
           ti_script_length := Some (hex_of [len (i_script i)]);
           ti_script_length_int := PInt (len (i_script i));
           ti_script_sig := Some (hex_of (i_script i));
           ti_address := a;
           ti_txid := hex_of (i_txid i);
           ti_satoshi_amount := None;
           ti_bitcoin_amount := None |}.

(** y is the object a decoder makes of the output o; the address is read off bytes 3..-2 of the script. *)
Definition decoded_output {E : Env} (y : txout) (o : soutput) : Prop :=
  output_ok o /\ o_value o <= 2100000000000000 /\
  exists a s, is_base58check (0 :: skipn 3 (firstn (length (o_script o) - 2) (o_script o))) a /\ btc_text s (o_value o) /\
    y = {| to_value := hex_of (le_bytes 8 (o_value o));
           to_script_length := hex_of [len (o_script o)];
           to_script_length_int := PInt (len (o_script o));
           to_script_pub_key := hex_of (o_script o);
           to_address := a;
           to_bitcoin_amount := s;
           to_satoshi_amount := o_value o |}.

Definition decoded_tx {E : Env} (t : tx) (ins : list sinput) (outs : list soutput) : Prop :=
  tx_header t /\ tx_change_address t = None /\
  Forall2 decoded_input (tx_inputs t) ins /\ Forall2 decoded_output (tx_outputs t) outs.

(** Object x is input i, signed by the key [pub] that owns what is spent. *)
Definition in_signed {E : Env} (x : txin) (i : sinput) : Prop :=
  in_wire x i /\ ti_previous_output_index_int x = PInt (i_index i) /\
  exists sig pub, bytes pub /\ length pub = 64%nat /\ script_sig_parts (i_script i) sig pub /\
    ti_public_key_hex x = Some (hex_of pub) /\ in_owner x (hash160 pub).

(** x without its amounts. *)
Definition forget_worth (x : txin) : txin :=
  mk_txin (ti_previous_output_hash x) (ti_previous_output_index x) (ti_previous_output_index_int x)
          (ti_sequence x) (ti_public_key_hex x) (ti_script_pub_key_length x) (ti_script_pub_key_length_int x)
          (ti_script_pub_key x) (ti_script_length x) (ti_script_length_int x) (ti_script_sig x)
          (ti_address x) (ti_txid x) None None.

(** x without its public key and scriptSig. *)
Definition unsign (x : txin) : txin :=
  mk_txin (ti_previous_output_hash x) (ti_previous_output_index x) (ti_previous_output_index_int x)
          (ti_sequence x) None (ti_script_pub_key_length x) (ti_script_pub_key_length_int x)
          (ti_script_pub_key x) None PNone None
          (ti_address x) (ti_txid x) (ti_satoshi_amount x) (ti_bitcoin_amount x).

(** ** Objects made from arguments. *)

(** x is the unsigned input spending output number [iv] (an int, or a bool counting as 0 or 1) of transaction [txid], which
    pays v satoshi to address a. *)
Definition made_input {E : Env} (a : pystr) (txid : list Z) (iv : pyval) (v : Z) (x : txin) : Prop :=
  exists h idx s, is_address h a /\ bytes txid /\ length txid = 32%nat /\ as_int iv = Some idx /\ 0 <= idx < 2 ^ 32 /\
    0 <= v <= 2100000000000000 /\ btc_text s v /\
    x = {| ti_previous_output_hash := hex_of (rev txid);
           ti_previous_output_index := hex_of (le_bytes 4 idx);
           ti_previous_output_index_int := iv;
           ti_sequence := hex_of [255; 255; 255; 255];
           ti_public_key_hex := None;
           ti_script_pub_key_length := Some (hex_of [25]);
           ti_script_pub_key_length_int := PInt 25;
           ti_script_pub_key := Some (hex_of (p2pkh h));
           ti_script_length := None;
           ti_script_length_int := PNone;
           ti_script_sig := None;
           ti_address := a;
           ti_txid := hex_of txid;
           ti_satoshi_amount := Some v;
           ti_bitcoin_amount := Some s |}.

(** y is the output paying v satoshi to address a. *)
Definition made_output {E : Env} (a : pystr) (v : Z) (y : txout) : Prop :=
  exists h s, is_address h a /\ 0 <= v <= 2100000000000000 /\ btc_text s v /\
    y = {| to_value := hex_of (le_bytes 8 v);
           to_script_length := hex_of [25];
           to_script_length_int := PInt 25;
           to_script_pub_key := hex_of (p2pkh h);
           to_address := a;
           to_bitcoin_amount := s;
           to_satoshi_amount := v |}.
