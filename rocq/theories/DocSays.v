(** The text of the exceptions of reading a transaction document: TransactionInput.from_dict, TransactionOutput.from_dict and Transaction.from_json (after json.loads) again, with the text of what they raise.
    repr (the Python built-in) is a parameter. *)
From Coq Require Import String Lia.
From Verif Require Import PyBase Env PyNum Validate Basic Messages Complaints Answer BasicSays TxInput TxOutput Tx.
Open Scope Z_scope.

(** d[k]; str() of a KeyError is the repr of the key.  Not reached without the key: the keys are checked first. *)
Definition item (repr : pyval -> pystr) (d : dict) (k : string) : answer pyval :=
  match dict_find (lit k) d with Some v => Gives v | None => Says KeyError (repr (PStr (lit k))) end.
(** assert without a message *)
Definition assert_says {A} (b : bool) (k : answer A) : answer A := check (if b then None else Some (AssertionError, [])) k.
(** d.keys(), the first use of d (transaction_input.py L203, transaction_output.py L134, transaction.py L343) *)
Definition dict_says (v : pyval) : answer dict :=
  match v with PDict d => Gives d | _ => Says AttributeError (lit "'" ++ type_name v ++ lit "' object has no attribute 'keys'") end.
(** v, known to be a string; v, known to be a string or None; the value of v, known to be an int or bool; v, known to be a list. *)
Definition str_of (v : pyval) : pystr := match v with PStr s => s | _ => [] end.
Definition opt_str_of (v : pyval) : option pystr := match v with PStr s => Some s | _ => None end.
Definition int_of (v : pyval) : Z := match as_int v with Some z => z | None => 0 end.
Definition list_of (v : pyval) : list pyval := match v with PList l => l | _ => [] end.
(** A loop that calls f on every element and collects the results (transaction.py L353-359). *)
Fixpoint all_say {A B} (f : A -> answer B) (l : list A) : answer (list B) :=
  match l with
  | [] => Gives []
  | x :: r => abind (f x) (fun y => abind (all_say f r) (fun ys => Gives (y :: ys)))
  end.

Section WithEnv.
Context {E : Env}.

(** basic.py L734-742: reverse_hex_order *)
Definition reverse_hex_order_says (repr : pyval -> pystr) (x : pyval) : answer pystr :=
  check (hex_check repr x) (
  let output := concat (rev (chunks2 (str_of x))) in
  check (hex_check repr (PStr output)) (Gives output)).
(** basic.py L701-705: int_to_hex_le *)
Definition int_to_hex_le_says (repr : pyval -> pystr) (n : pyval) : answer pystr :=
  abind (int_to_hex_says repr n) (fun x => reverse_hex_order_says repr (PStr x)).
(** int_to_hex_le and pad_hex_le, one after the other (transaction_input.py L210-211, transaction_output.py L148-149) *)
Definition le_field_says (repr : pyval -> pystr) (n : pyval) (n_bytes : Z) : answer pystr :=
  abind (int_to_hex_le_says repr n) (fun x => pad_hex_le_says repr (PStr x) (PInt n_bytes)).
(** basic.py L359-372: public_key_hash_hex_to_script_pub_key *)
Definition public_key_hash_hex_to_script_pub_key_says (repr : pyval -> pystr) (x : pystr) : answer (pystr * pystr) :=
  let script_pub_key := lit "76" ++ lit "a9" ++ lit "14" ++ x ++ lit "88" ++ lit "ac" in
  abind (hex_len_says repr (PStr script_pub_key)) (fun n =>
  abind (int_to_var_int_says repr (PInt (Z.of_nat n))) (fun script_length => Gives (script_pub_key, script_length))).

(** transaction_input.py L213-215 and L227-229: a length and the same as a number, if the length is not None *)
Definition length_says (repr : pyval -> pystr) (lv iv : pyval) : answer unit :=
  if is_none lv then Gives tt
  else check (hex_check repr lv) (abind (var_int_to_int_says repr lv) (fun n => assert_says (py_eq_int iv n) (Gives tt))).
(** transaction_input.py L216-223 *)
Definition script_sig_says (repr : pyval -> pystr) (lv sv : pyval) : answer unit :=
  if is_none sv then Gives tt
  else check (hex_check repr sv) (abind (var_int_to_int_says repr lv) (fun n => abind (hex_len_says repr sv) (fun m =>
    if n =? Z.of_nat m then Gives tt
    else Says ValueError (lit "Script length value (" ++ int_str n ++ lit ") != calculated hex byte length of script_sig value (" ++ int_str (Z.of_nat m) ++ lit ").")))).
(** transaction_input.py L230-233 *)
Definition script_pub_key_says (repr : pyval -> pystr) (lv sv : pyval) : answer unit :=
  if is_none sv then Gives tt
  else check (hex_check repr sv) (abind (var_int_to_int_says repr lv) (fun n => abind (hex_len_says repr sv) (fun m => assert_says (n =? Z.of_nat m) (Gives tt)))).

(** transaction_input.py L193-256: TransactionInput.from_dict *)
Definition txin_from_dict_says (repr : pyval -> pystr) (v : pyval) : answer txin :=
  abind (dict_says v) (fun d =>
  check (validate_list_contains_items_says (dict_keys d) txin_expected_keys) (
  abind (item repr d "previous_output_hash") (fun previous_output_hash =>
  check (hex_length_check repr previous_output_hash 32) (
  abind (item repr d "previous_output_index") (fun previous_output_index =>
  check (hex_check repr previous_output_index) (
  abind (item repr d "previous_output_index_int") (fun previous_output_index_int =>
  check (integer_check repr previous_output_index_int) (
  abind (le_field_says repr previous_output_index_int 4) (fun poi =>
  assert_says (py_eq_str previous_output_index poi) (
  abind (item repr d "script_length") (fun script_length =>
  abind (item repr d "script_length_int") (fun script_length_int =>
  abind (length_says repr script_length script_length_int) (fun _ =>
  abind (item repr d "script_sig") (fun script_sig =>
  abind (script_sig_says repr script_length script_sig) (fun _ =>
  abind (item repr d "sequence") (fun sequence =>
  assert_says (py_eq_str sequence (lit "ffffffff")) (
  abind (item repr d "public_key_hex") (fun public_key_hex =>
  check (if is_none public_key_hex then None else hex_length_check repr public_key_hex 64) (
  abind (item repr d "script_pub_key_length") (fun script_pub_key_length =>
  abind (item repr d "script_pub_key_length_int") (fun script_pub_key_length_int =>
  abind (length_says repr script_pub_key_length script_pub_key_length_int) (fun _ =>
  abind (item repr d "script_pub_key") (fun script_pub_key =>
  abind (script_pub_key_says repr script_pub_key_length script_pub_key) (fun _ =>
  abind (item repr d "address") (fun address =>
  check (validate_bitcoin_address_says repr address) (
  abind (item repr d "txid") (fun txid =>
  abind (reverse_hex_order_says repr txid) (fun poh =>
  assert_says (py_eq_str previous_output_hash poh) (
  abind (item repr d "satoshi_amount") (fun satoshi_amount =>
  check (integer_check repr satoshi_amount) (
  abind (item repr d "bitcoin_amount") (fun bitcoin_amount =>
  check (validate_positive_bitcoin_amount_says repr bitcoin_amount) (
  abind (satoshi_to_bitcoin_says repr satoshi_amount) (fun ba =>
  assert_says (py_eq_str bitcoin_amount ba) (
  Gives {| ti_previous_output_hash := str_of previous_output_hash;
           ti_previous_output_index := str_of previous_output_index;
           ti_previous_output_index_int := previous_output_index_int;
           ti_sequence := default_sequence;
           ti_public_key_hex := None;
           ti_script_pub_key_length := opt_str_of script_pub_key_length;
           ti_script_pub_key_length_int := script_pub_key_length_int;
           ti_script_pub_key := opt_str_of script_pub_key;
           ti_script_length := opt_str_of script_length;
           ti_script_length_int := script_length_int;
           ti_script_sig := opt_str_of script_sig;
           ti_address := str_of address;
           ti_txid := str_of txid;
           ti_satoshi_amount := Some (int_of satoshi_amount);
           ti_bitcoin_amount := Some (str_of bitcoin_amount) |}
  ))))))))))))))))))))))))))))))))))).

(** transaction_output.py L127-164: TransactionOutput.from_dict *)
Definition txout_from_dict_says (repr : pyval -> pystr) (v : pyval) : answer txout :=
  abind (dict_says v) (fun d =>
  check (validate_list_contains_items_says (dict_keys d) txout_expected_keys) (
  abind (item repr d "value") (fun value =>
  check (hex_check repr value) (
  abind (item repr d "script_length") (fun script_length =>
  check (hex_check repr script_length) (
  abind (item repr d "script_length_int") (fun script_length_int =>
  check (integer_check repr script_length_int) (
  abind (item repr d "script_pub_key") (fun script_pub_key =>
  check (hex_check repr script_pub_key) (
  abind (item repr d "address") (fun address =>
  check (validate_bitcoin_address_says repr address) (
  abind (item repr d "bitcoin_amount") (fun bitcoin_amount =>
  check (validate_positive_bitcoin_amount_says repr bitcoin_amount) (
  abind (var_int_to_int_says repr script_length) (fun n =>
  assert_says (py_eq_int script_length_int n) (
  abind (item repr d "satoshi_amount") (fun satoshi_amount =>
  abind (satoshi_to_bitcoin_says repr satoshi_amount) (fun ba =>
  assert_says (py_eq_str bitcoin_amount ba) (
  abind (le_field_says repr satoshi_amount 8) (fun val =>
  assert_says (py_eq_str value val) (
  abind (bitcoin_address_to_public_key_hash_hex_says repr address) (fun hash_hex =>
  abind (public_key_hash_hex_to_script_pub_key_says repr hash_hex) (fun '(spk, sl) =>
  assert_says (py_eq_str script_pub_key spk) (
  assert_says (py_eq_str script_length sl) (
  Gives {| to_value := str_of value; to_script_length := str_of script_length; to_script_length_int := script_length_int;
           to_script_pub_key := str_of script_pub_key; to_address := str_of address;
           to_bitcoin_amount := str_of bitcoin_amount; to_satoshi_amount := int_of satoshi_amount |}
  ))))))))))))))))))))))))).

(** validate_list and validate_boolean with the default values of their arguments (validate.py L217, L273) *)
Definition list_check (repr : pyval -> pystr) (v : pyval) : option (exn * pystr) := validate_list_says repr v None PNone (PStr (lit "list")).
Definition boolean_check (repr : pyval -> pystr) (v : pyval) : option (exn * pystr) := validate_boolean_says repr v None PNone (PStr (lit "boolean")).

(** transaction.py L343-377: from_json after json.loads *)
Definition from_dict_says (repr : pyval -> pystr) (v : pyval) : answer tx :=
  abind (dict_says v) (fun d =>
  check (validate_list_contains_items_says (dict_keys d) tx_expected_keys) (
  abind (item repr d "input_count") (fun d_input_count =>
  check (hex_check repr d_input_count) (
  abind (item repr d "inputs") (fun d_inputs =>
  check (list_check repr d_inputs) (
  abind (item repr d "outputs") (fun d_outputs =>
  check (list_check repr d_outputs) (
  abind (var_int_to_int_says repr d_input_count) (fun input_count =>
  assert_says (input_count =? Z.of_nat (length (list_of d_inputs))) (
  abind (item repr d "output_count") (fun d_output_count =>
  abind (var_int_to_int_says repr d_output_count) (fun output_count =>
  assert_says (output_count =? Z.of_nat (length (list_of d_outputs))) (
  abind (all_say (txin_from_dict_says repr) (list_of d_inputs)) (fun inputs =>
  abind (all_say (txout_from_dict_says repr) (list_of d_outputs)) (fun outputs =>
  abind (item repr d "block_lock_time") (fun d_lock =>
  assert_says (py_eq_str d_lock (lit "00000000")) (
  abind (item repr d "hash_type_4_byte") (fun d_h4 =>
  assert_says (py_eq_str d_h4 (lit "01000000")) (
  abind (item repr d "hash_type_1_byte") (fun d_h1 =>
  assert_says (py_eq_str d_h1 (lit "01")) (
  abind (item repr d "signed") (fun d_signed =>
  check (boolean_check repr d_signed) (
  assert_says (Zsum (map to_satoshi_amount outputs) <=? Zsum (map ti_sat inputs)) (
  abind (int_to_var_int_says repr (PInt (Z.of_nat (length inputs)))) (fun input_count =>
  abind (int_to_var_int_says repr (PInt (Z.of_nat (length outputs)))) (fun output_count =>
  let t := mk_tx default_version input_count inputs output_count outputs default_block_lock_time default_hash_type_4_byte default_hash_type_1_byte None in
  assert_says (match d_signed with PBool true => tx_signed t | _ => true end) (Gives t))))))))))))))))))))))))))).

End WithEnv.
