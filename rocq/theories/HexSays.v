(** The text of the exceptions of reading a signed transaction in hex: Transaction.from_hex_signed again, with the text of what it raises.
    repr (the Python built-in) is a parameter.  A bare "raise ValueError" has no text. *)
From Coq Require Import String Lia.
From Verif Require Import PyBase Env PyNum Validate Basic Messages Complaints Answer BasicSays TxInput TxOutput Tx DocSays.
Open Scope Z_scope.

(** A call that cannot fail where it is made (proved with C99); its text is not modelled. *)
Definition quietly {A} (m : res A) : answer A := match m with Ok x => Gives x | Err e => Says e [] end.
(** hex_bytes[i], where [bs] are the bytes from position i on *)
Definition take1_says (bs : list pystr) : answer (pystr * list pystr) :=
  match bs with b :: r => Gives (b, r) | [] => Says IndexError (lit "list index out of range") end.

Section WithEnv.
Context {E : Env}.

(** basic.py L692-696: hex_le_to_int (with L710-711: hex_to_int) *)
Definition hex_le_to_int_says (repr : pyval -> pystr) (x : pyval) : answer Z :=
  abind (reverse_hex_order_says repr x) (fun y => int_text repr 16 y).

(** basic.py L279-307: script_sig_to_signature_hex_and_public_key_hex *)
Definition script_sig_to_signature_hex_and_public_key_hex_says (repr : pyval -> pystr) (script_sig : pystr) : answer (pystr * pystr) :=
  check (hex_check repr (PStr script_sig)) (
  let b := slice 0 2 script_sig in
  abind (var_int_to_int_says repr (PStr b)) (fun n =>
  let m := (Z.to_nat n * 2 + 2)%nat in
  let signature_hex := slice 2 m script_sig in
  abind (hex_len_says repr (PStr signature_hex)) (fun _ =>
  let b := slice m (m + 2) script_sig in
  abind (var_int_to_int_says repr (PStr b)) (fun n2 =>
  let m2 := (m + 2 + Z.to_nat n2 * 2)%nat in
  let public_key_hex := slice (m + 2) m2 script_sig in
  abind (hex_len_says repr (PStr public_key_hex)) (fun _ =>
  if negb (str_eqb (last_n 2 signature_hex) (lit "01")) then Says ValueError []
  else
    let signature_hex := drop_last_n 2 signature_hex in
    abind (hex_len_says repr (PStr signature_hex)) (fun _ =>
    if negb (str_eqb (firstn 2 public_key_hex) (lit "04")) then Says ValueError []
    else
      let public_key_hex := skipn 2 public_key_hex in
      abind (hex_len_says repr (PStr public_key_hex)) (fun _ => Gives (signature_hex, public_key_hex)))))))).

(** transaction_input.py L132-163: TransactionInput.create_from_signed_tx_data *)
Definition txin_create_from_signed_tx_data_says (repr : pyval -> pystr)
    (public_key_hex previous_output_hash previous_output_index script_length script_sig : pystr) : answer txin :=
  check (hex_length_check repr (PStr public_key_hex) 64) (
  check (hex_length_check repr (PStr previous_output_hash) 32) (
  check (hex_length_check repr (PStr previous_output_index) 4) (
  check (hex_check repr (PStr script_length)) (
  check (hex_check repr (PStr script_sig)) (
  abind (var_int_to_int_says repr (PStr script_length)) (fun script_length_int =>
  abind (quietly (public_key_hex_to_script_pub_key public_key_hex)) (fun '(script_pub_key, script_pub_key_length) =>
  abind (var_int_to_int_says repr (PStr script_pub_key_length)) (fun script_pub_key_length_int =>
  abind (quietly (script_pub_key_to_address script_pub_key)) (fun address =>
  abind (hex_le_to_int_says repr (PStr previous_output_index)) (fun previous_output_index_int =>
  abind (reverse_hex_order_says repr (PStr previous_output_hash)) (fun txid =>
  Gives {| ti_previous_output_hash := previous_output_hash;
           ti_previous_output_index := previous_output_index;
           ti_previous_output_index_int := PInt previous_output_index_int;
           ti_sequence := default_sequence;
           ti_public_key_hex := Some public_key_hex;
           ti_script_pub_key_length := Some script_pub_key_length;
           ti_script_pub_key_length_int := PInt script_pub_key_length_int;
           ti_script_pub_key := Some script_pub_key;
           ti_script_length := Some script_length;
           ti_script_length_int := PInt script_length_int;
           ti_script_sig := Some script_sig;
           ti_address := address;
           ti_txid := txid;
           ti_satoshi_amount := None;
           ti_bitcoin_amount := None |}))))))))))).

(** transaction_output.py L95-112: TransactionOutput.create_from_signed_tx_data *)
Definition txout_create_from_signed_tx_data_says (repr : pyval -> pystr) (value script_length script_pub_key : pystr) : answer txout :=
  abind (var_int_to_int_says repr (PStr script_length)) (fun script_length_int =>
  abind (quietly (script_pub_key_to_address script_pub_key)) (fun address =>
  abind (hex_le_to_int_says repr (PStr value)) (fun satoshi_amount =>
  abind (satoshi_to_bitcoin_says repr (PInt satoshi_amount)) (fun bitcoin_amount =>
  Gives {| to_value := value; to_script_length := script_length; to_script_length_int := PInt script_length_int;
           to_script_pub_key := script_pub_key; to_address := address;
           to_bitcoin_amount := bitcoin_amount; to_satoshi_amount := satoshi_amount |})))).

(** transaction.py L598-623: one iteration of the input loop *)
Definition read_input_says (repr : pyval -> pystr) (bs : list pystr) : answer (txin * list pystr) :=
  let '(previous_output_hash, bs) := take_n 32 bs in
  let '(previous_output_index, bs) := take_n 4 bs in
  abind (take1_says bs) (fun '(script_length, bs) =>
  abind (var_int_to_int_says repr (PStr script_length)) (fun script_length_int =>
  let '(script_sig, bs) := take_n (Z.to_nat script_length_int) bs in
  abind (script_sig_to_signature_hex_and_public_key_hex_says repr script_sig) (fun '(signature_hex, public_key_hex) =>
  abind (hex_len_says repr (PStr signature_hex)) (fun _ =>
  abind (hex_len_says repr (PStr public_key_hex)) (fun _ =>
  let '(sequence, bs) := take_n 4 bs in
  if negb (str_eqb sequence (lit "ffffffff")) then Says ValueError []
  else
    abind (txin_create_from_signed_tx_data_says repr public_key_hex previous_output_hash previous_output_index script_length script_sig) (fun input_ =>
    Gives (input_, bs))))))).

(** transaction.py L631-647: one iteration of the output loop *)
Definition read_output_says (repr : pyval -> pystr) (bs : list pystr) : answer (txout * list pystr) :=
  let '(value, bs) := take_n 8 bs in
  abind (hex_le_to_int_says repr (PStr value)) (fun satoshi_amount =>
  abind (satoshi_to_bitcoin_says repr (PInt satoshi_amount)) (fun _ =>
  abind (take1_says bs) (fun '(script_length, bs) =>
  abind (var_int_to_int_says repr (PStr script_length)) (fun script_length_int =>
  let '(script_pub_key, bs) := take_n (Z.to_nat script_length_int) bs in
  abind (txout_create_from_signed_tx_data_says repr value script_length script_pub_key) (fun output =>
  Gives (output, bs)))))).

(** for x in range(n): ... *)
Fixpoint read_many_says {A} (f : list pystr -> answer (A * list pystr)) (n : nat) (bs : list pystr) : answer (list A * list pystr) :=
  match n with
  | O => Gives ([], bs)
  | S n' => abind (f bs) (fun '(a, bs) => abind (read_many_says f n' bs) (fun '(l, bs) => Gives (a :: l, bs)))
  end.

(** transaction.py L575-662: from_hex_signed *)
Definition from_hex_signed_says (repr : pyval -> pystr) (s : pystr) : answer tx :=
  abind (hex_len_says repr (PStr s)) (fun _ =>
  let bs := chunks2 s in
  let '(version, bs) := take_n 4 bs in
  if negb (str_eqb version (lit "01000000")) then Says ValueError []
  else
    abind (take1_says bs) (fun '(input_count, bs) =>
    abind (var_int_to_int_says repr (PStr input_count)) (fun input_count_int =>
    abind (read_many_says (read_input_says repr) (Z.to_nat input_count_int) bs) (fun '(inputs, bs) =>
    abind (take1_says bs) (fun '(output_count, bs) =>
    abind (var_int_to_int_says repr (PStr output_count)) (fun output_count_int =>
    abind (read_many_says (read_output_says repr) (Z.to_nat output_count_int) bs) (fun '(outputs, bs) =>
    let '(block_lock_time, bs) := take_n 4 bs in
    if negb (str_eqb block_lock_time (lit "00000000")) then Says ValueError []
    else
      abind (int_to_var_int_says repr (PInt (Z.of_nat (length inputs)))) (fun input_count =>
      abind (int_to_var_int_says repr (PInt (Z.of_nat (length outputs)))) (fun output_count =>
      Gives (mk_tx default_version input_count inputs output_count outputs default_block_lock_time default_hash_type_4_byte default_hash_type_1_byte None)))))))))).

End WithEnv.
