(** Model of bitcoin_toolset/code/transaction_output.py. *)
From Coq Require Import String.
From Verif Require Import PyBase Env PyNum Validate Basic.

(** transaction_output.py L54-63: TransactionOutput.__init__; every constructor sets all attributes. *)
Record txout : Type := mk_txout {
  to_value : pystr;
  to_script_length : pystr;
  to_script_length_int : pyval;
  to_script_pub_key : pystr;
  to_address : pystr;
  to_bitcoin_amount : pystr;
  to_satoshi_amount : Z
}.

Section WithEnv.
Context {E : Env}.

(** transaction_output.py L75-92: TransactionOutput.create *)
Definition txout_create (address : pyval) (satoshi_amount : Z) : res txout :=
  value <- int_to_hex_le (PInt satoshi_amount) ;;
  value <- pad_hex_le value 8 ;;
  '(script_pub_key, script_length) <- address_to_script_pub_key address ;;
  script_length_int <- var_int_to_int (PStr script_length) ;;
  bitcoin_amount <- satoshi_to_bitcoin (PInt satoshi_amount) ;;
  address <- as_str address ;;
  Ok {| to_value := value; to_script_length := script_length; to_script_length_int := PInt script_length_int;
        to_script_pub_key := script_pub_key; to_address := address;
        to_bitcoin_amount := bitcoin_amount; to_satoshi_amount := satoshi_amount |}.

(** transaction_output.py L95-112: TransactionOutput.create_from_signed_tx_data *)
Definition txout_create_from_signed_tx_data (value script_length script_pub_key : pystr) : res txout :=
  script_length_int <- var_int_to_int (PStr script_length) ;;
  address <- script_pub_key_to_address script_pub_key ;;
  satoshi_amount <- hex_le_to_int (PStr value) ;;
  bitcoin_amount <- satoshi_to_bitcoin (PInt satoshi_amount) ;;
  Ok {| to_value := value; to_script_length := script_length; to_script_length_int := PInt script_length_int;
        to_script_pub_key := script_pub_key; to_address := address;
        to_bitcoin_amount := bitcoin_amount; to_satoshi_amount := satoshi_amount |}.

(** transaction_output.py L115-126: to_dict *)
Definition txout_to_dict (o : txout) : pyval :=
  PDict
    [ (lit "value", PStr (to_value o));
      (lit "script_length", PStr (to_script_length o));
      (lit "script_length_int", to_script_length_int o);
      (lit "script_pub_key", PStr (to_script_pub_key o));
      (lit "address", PStr (to_address o));
      (lit "bitcoin_amount", PStr (to_bitcoin_amount o));
      (lit "satoshi_amount", PInt (to_satoshi_amount o)) ].

(** transaction_output.py L131-135: expected *)
Definition txout_expected_keys : list pystr :=
  map lit ["value"; "script_length"; "script_length_int"; "script_pub_key";
           "address"; "satoshi_amount"; "bitcoin_amount"]%string.

(** transaction_output.py L129-164: from_dict *)
Definition txout_from_dict (x : pyval) : res txout :=
  d <- as_dict x ;;
  validate_list_contains_items (dict_keys d) txout_expected_keys ;;;
  value <- dict_get (lit "value") d ;;
  validate_hex value ;;;
  script_length <- dict_get (lit "script_length") d ;;
  validate_hex script_length ;;;
  script_length_int <- dict_get (lit "script_length_int") d ;;
  validate_integer script_length_int ;;;
  script_pub_key <- dict_get (lit "script_pub_key") d ;;
  validate_hex script_pub_key ;;;
  address <- dict_get (lit "address") d ;;
  validate_bitcoin_address address ;;;
  bitcoin_amount <- dict_get (lit "bitcoin_amount") d ;;
  validate_positive_bitcoin_amount bitcoin_amount ;;;
  n <- var_int_to_int script_length ;;
  assert_ (py_eq_int script_length_int n) ;;;
  satoshi_amount <- dict_get (lit "satoshi_amount") d ;;
  ba <- satoshi_to_bitcoin satoshi_amount ;;
  assert_ (py_eq_str bitcoin_amount ba) ;;;
  val <- int_to_hex_le satoshi_amount ;;
  val <- pad_hex_le val 8 ;;
  assert_ (py_eq_str value val) ;;;
  hash_hex <- bitcoin_address_to_public_key_hash_hex address ;;
  '(spk, sl) <- public_key_hash_hex_to_script_pub_key hash_hex ;;
  assert_ (py_eq_str script_pub_key spk) ;;;
  assert_ (py_eq_str script_length sl) ;;;
  (* L155-163: storing the attributes, all of them by now of the right type *)
  value <- as_str value ;;
  script_length <- as_str script_length ;;
  script_pub_key <- as_str script_pub_key ;;
  address <- as_str address ;;
  bitcoin_amount <- as_str bitcoin_amount ;;
  satoshi_amount <- (match as_int satoshi_amount with Some z => Ok z | None => Err TypeError end) ;;
  Ok {| to_value := value; to_script_length := script_length; to_script_length_int := script_length_int;
        to_script_pub_key := script_pub_key; to_address := address;
        to_bitcoin_amount := bitcoin_amount; to_satoshi_amount := satoshi_amount |}.

(** transaction_output.py L167-173: set_satoshi_amount.  Returns the updated object; when an intermediate
    step raises, the caller (create_transaction) fails as a whole and drops the object. *)
Definition set_satoshi_amount (o : txout) (satoshi_amount : Z) : res txout :=
  validate_positive_integer (PInt satoshi_amount) ;;;
  value <- int_to_hex_le (PInt satoshi_amount) ;;
  value <- pad_hex_le value 8 ;;
  bitcoin_amount <- satoshi_to_bitcoin (PInt satoshi_amount) ;;
  Ok {| to_value := value; to_script_length := to_script_length o;
        to_script_length_int := to_script_length_int o;
        to_script_pub_key := to_script_pub_key o; to_address := to_address o;
        to_bitcoin_amount := bitcoin_amount; to_satoshi_amount := satoshi_amount |}.

End WithEnv.

(** Values, in order, of to_dict_signable_form / to_dict_signed_form (L176-187), concatenated. *)
Definition txout_hex_form (o : txout) : pystr :=
  to_value o ++ to_script_length o ++ to_script_pub_key o.
