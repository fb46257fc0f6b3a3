(** Model of bitcoin_toolset/code/transaction_input.py. *)
From Coq Require Import String.
From Verif Require Import PyBase Env PyNum Validate Basic.

(** transaction_input.py L60-83: TransactionInput.__init__.
    Attributes that may hold None are options; attributes that may hold whatever JSON contained are pyval.
    previous_output_hash, previous_output_index, sequence, address and txid are set by every constructor
    (L119, L150, L242) before the object is handed out, so they are plain strings here. *)
Record txin : Type := mk_txin {
  ti_previous_output_hash : pystr;
  ti_previous_output_index : pystr;
  ti_previous_output_index_int : pyval;
  ti_sequence : pystr;
  ti_public_key_hex : option pystr;
  ti_script_pub_key_length : option pystr;
  ti_script_pub_key_length_int : pyval;
  ti_script_pub_key : option pystr;
  ti_script_length : option pystr;
  ti_script_length_int : pyval;
  ti_script_sig : option pystr;
  ti_address : pystr;
  ti_txid : pystr;
  ti_satoshi_amount : option Z;
  ti_bitcoin_amount : option pystr
}.

(** transaction_input.py L66: the default sequence *)
Definition default_sequence : pystr := lit "ffffffff".

Section WithEnv.
Context {E : Env}.

(** transaction_input.py L103-129: TransactionInput.create.
    satoshi_amount is an int here (the only caller passes the result of bitcoin_to_satoshi). *)
Definition txin_create (address txid previous_output_index_int : pyval) (satoshi_amount : Z) : res txin :=
  validate_bitcoin_address address ;;;
  validate_hex_length txid 32 ;;;
  previous_output_hash <- reverse_hex_order txid ;;
  validate_integer previous_output_index_int ;;;
  previous_output_index <- int_to_hex_le previous_output_index_int ;;
  previous_output_index <- pad_hex_le previous_output_index 4 ;;
  '(script_pub_key, script_pub_key_length) <- address_to_script_pub_key address ;;
  script_pub_key_length_int <- var_int_to_int (PStr script_pub_key_length) ;;
  bitcoin_amount <- satoshi_to_bitcoin (PInt satoshi_amount) ;;
  address <- as_str address ;;
  txid <- as_str txid ;;
  Ok {| ti_previous_output_hash := previous_output_hash;
        ti_previous_output_index := previous_output_index;
        ti_previous_output_index_int := previous_output_index_int;
        ti_sequence := default_sequence;
        ti_public_key_hex := None;
        ti_script_pub_key_length := Some script_pub_key_length;
        ti_script_pub_key_length_int := PInt script_pub_key_length_int;
        ti_script_pub_key := Some script_pub_key;
        ti_script_length := None;
        ti_script_length_int := PNone;
        ti_script_sig := None;
        ti_address := address;
        ti_txid := txid;
        ti_satoshi_amount := Some satoshi_amount;
        ti_bitcoin_amount := Some bitcoin_amount |}.

(** transaction_input.py L132-163: TransactionInput.create_from_signed_tx_data *)
Definition txin_create_from_signed_tx_data
    (public_key_hex previous_output_hash previous_output_index script_length script_sig : pystr) : res txin :=
  validate_hex_length (PStr public_key_hex) 64 ;;;
  validate_hex_length (PStr previous_output_hash) 32 ;;;
  validate_hex_length (PStr previous_output_index) 4 ;;;
  validate_hex (PStr script_length) ;;;
  validate_hex (PStr script_sig) ;;;
  script_length_int <- var_int_to_int (PStr script_length) ;;
  '(script_pub_key, script_pub_key_length) <- public_key_hex_to_script_pub_key public_key_hex ;;
  script_pub_key_length_int <- var_int_to_int (PStr script_pub_key_length) ;;
  address <- script_pub_key_to_address script_pub_key ;;
  previous_output_index_int <- hex_le_to_int (PStr previous_output_index) ;;
  txid <- reverse_hex_order (PStr previous_output_hash) ;;
  Ok {| ti_previous_output_hash := previous_output_hash;
        ti_previous_output_index := previous_output_index;
        ti_previous_output_index_int := PInt previous_output_index_int;
        ti_sequence := default_sequence;
        ti_public_key_hex := Some public_key_hex;
        ti_script_pub_key_length := Some script_pub_key_length;
        ti_script_pub_key_length_int := PInt script_pub_key_length_int;
        ti_script_pub_key := Some script_pub_key;
        ti_script_length := Some script_length;
        ti_script_length_int := PInt script_length_int;
        ti_script_sig := Some script_sig;
        ti_address := address;
        ti_txid := txid;
        ti_satoshi_amount := None;
        ti_bitcoin_amount := None |}.

(** transaction_input.py L166-169: signed *)
Definition txin_signed (ti : txin) : bool :=
  match ti_script_length ti, ti_script_sig ti with Some _, Some _ => true | _, _ => false end.

(** transaction_input.py L172-191: to_dict *)
Definition txin_to_dict (ti : txin) : pyval :=
  PDict
    [ (lit "previous_output_hash", PStr (ti_previous_output_hash ti));
      (lit "previous_output_index", PStr (ti_previous_output_index ti));
      (lit "previous_output_index_int", ti_previous_output_index_int ti);
      (lit "script_length", opt_str (ti_script_length ti));
      (lit "script_length_int", ti_script_length_int ti);
      (lit "script_sig", opt_str (ti_script_sig ti));
      (lit "sequence", PStr (ti_sequence ti));
      (lit "public_key_hex", opt_str (ti_public_key_hex ti));
      (lit "script_pub_key_length", opt_str (ti_script_pub_key_length ti));
      (lit "script_pub_key_length_int", ti_script_pub_key_length_int ti);
      (lit "script_pub_key", opt_str (ti_script_pub_key ti));
      (lit "address", PStr (ti_address ti));
      (lit "txid", PStr (ti_txid ti));
      (lit "satoshi_amount", opt_int (ti_satoshi_amount ti));
      (lit "bitcoin_amount", opt_str (ti_bitcoin_amount ti)) ].

(** transaction_input.py L197-203: expected *)
Definition txin_expected_keys : list pystr :=
  map lit ["previous_output_hash"; "previous_output_index"; "previous_output_index_int";
           "script_length"; "script_length_int"; "script_sig"; "sequence";
           "public_key_hex"; "script_pub_key_length"; "script_pub_key_length_int"; "script_pub_key";
           "address"; "txid"; "satoshi_amount"; "bitcoin_amount"]%string.

(** An attribute that is stored after having been checked to be None or a str. *)
Definition as_opt_str (v : pyval) : res (option pystr) :=
  match v with PNone => Ok None | PStr s => Ok (Some s) | _ => Err TypeError end.

(** transaction_input.py L194-256: from_dict.  public_key_hex is checked (L227) but not stored. *)
Definition txin_from_dict (x : pyval) : res txin :=
  d <- as_dict x ;;
  validate_list_contains_items (dict_keys d) txin_expected_keys ;;;
  previous_output_hash <- dict_get (lit "previous_output_hash") d ;;
  validate_hex_length previous_output_hash 32 ;;;
  previous_output_index <- dict_get (lit "previous_output_index") d ;;
  validate_hex previous_output_index ;;;
  previous_output_index_int <- dict_get (lit "previous_output_index_int") d ;;
  validate_integer previous_output_index_int ;;;
  poi <- int_to_hex_le previous_output_index_int ;;
  poi <- pad_hex_le poi 4 ;;
  assert_ (py_eq_str previous_output_index poi) ;;;
  script_length <- dict_get (lit "script_length") d ;;
  script_length_int <- dict_get (lit "script_length_int") d ;;
  (if is_none script_length then Ok tt
   else validate_hex script_length ;;;
        n <- var_int_to_int script_length ;;
        assert_ (py_eq_int script_length_int n)) ;;;
  script_sig <- dict_get (lit "script_sig") d ;;
  (if is_none script_sig then Ok tt
   else validate_hex script_sig ;;;
        n <- var_int_to_int script_length ;;
        m <- hex_len script_sig ;;
        if n =? Z.of_nat m then Ok tt else Err ValueError) ;;;
  sequence <- dict_get (lit "sequence") d ;;
  assert_ (py_eq_str sequence (lit "ffffffff")) ;;;
  public_key_hex <- dict_get (lit "public_key_hex") d ;;
  (if is_none public_key_hex then Ok tt else validate_hex_length public_key_hex 64) ;;;
  script_pub_key_length <- dict_get (lit "script_pub_key_length") d ;;
  script_pub_key_length_int <- dict_get (lit "script_pub_key_length_int") d ;;
  (if is_none script_pub_key_length then Ok tt
   else validate_hex script_pub_key_length ;;;
        n <- var_int_to_int script_pub_key_length ;;
        assert_ (py_eq_int script_pub_key_length_int n)) ;;;
  script_pub_key <- dict_get (lit "script_pub_key") d ;;
  (if is_none script_pub_key then Ok tt
   else validate_hex script_pub_key ;;;
        n <- var_int_to_int script_pub_key_length ;;
        m <- hex_len script_pub_key ;;
        assert_ (n =? Z.of_nat m)) ;;;
  address <- dict_get (lit "address") d ;;
  validate_bitcoin_address address ;;;
  txid <- dict_get (lit "txid") d ;;
  poh <- reverse_hex_order txid ;;
  assert_ (py_eq_str previous_output_hash poh) ;;;
  satoshi_amount <- dict_get (lit "satoshi_amount") d ;;
  validate_integer satoshi_amount ;;;
  bitcoin_amount <- dict_get (lit "bitcoin_amount") d ;;
  validate_positive_bitcoin_amount bitcoin_amount ;;;
  ba <- satoshi_to_bitcoin satoshi_amount ;;
  assert_ (py_eq_str bitcoin_amount ba) ;;;
  (* L242-255: storing the attributes, all of them by now None or of the right type *)
  previous_output_hash <- as_str previous_output_hash ;;
  previous_output_index <- as_str previous_output_index ;;
  sequence <- as_str sequence ;;
  script_length <- as_opt_str script_length ;;
  script_sig <- as_opt_str script_sig ;;
  script_pub_key_length <- as_opt_str script_pub_key_length ;;
  script_pub_key <- as_opt_str script_pub_key ;;
  address <- as_str address ;;
  txid <- as_str txid ;;
  bitcoin_amount <- as_str bitcoin_amount ;;
  satoshi_amount <- (match as_int satoshi_amount with Some z => Ok z | None => Err TypeError end) ;;
  Ok {| ti_previous_output_hash := previous_output_hash;
        ti_previous_output_index := previous_output_index;
        ti_previous_output_index_int := previous_output_index_int;
        ti_sequence := default_sequence;
        ti_public_key_hex := None;
        ti_script_pub_key_length := script_pub_key_length;
        ti_script_pub_key_length_int := script_pub_key_length_int;
        ti_script_pub_key := script_pub_key;
        ti_script_length := script_length;
        ti_script_length_int := script_length_int;
        ti_script_sig := script_sig;
        ti_address := address;
        ti_txid := txid;
        ti_satoshi_amount := Some satoshi_amount;
        ti_bitcoin_amount := Some bitcoin_amount |}.

End WithEnv.

(** [s += v2] where v2 may be None: TypeError. *)
Definition need (o : option pystr) : res pystr :=
  match o with Some s => Ok s | None => Err TypeError end.

(** The values, in order, of to_dict_signable_form (L259-268), to_dict_signable_form_empty (L271-280)
    and to_dict_signed_form (L283-292), concatenated as to_hex_*_form does (transaction.py L461, L543). *)
Definition txin_hex_signable_form (ti : txin) : res pystr :=
  script_pub_key_length <- need (ti_script_pub_key_length ti) ;;
  script_pub_key <- need (ti_script_pub_key ti) ;;
  Ok (ti_previous_output_hash ti ++ ti_previous_output_index ti ++ script_pub_key_length
      ++ script_pub_key ++ ti_sequence ti).
Definition txin_hex_signable_form_empty (ti : txin) : res pystr :=
  Ok (ti_previous_output_hash ti ++ ti_previous_output_index ti ++ lit "00" ++ ti_sequence ti).
Definition txin_hex_signed_form (ti : txin) : res pystr :=
  script_length <- need (ti_script_length ti) ;;
  script_sig <- need (ti_script_sig ti) ;;
  Ok (ti_previous_output_hash ti ++ ti_previous_output_index ti ++ script_length
      ++ script_sig ++ ti_sequence ti).
