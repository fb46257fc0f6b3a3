(** What cli.py says in its own words when it refuses. *)
From Coq Require Import String Bool.
From Verif Require Import PyBase Env Spec EnvOk PyNum TxInput TxOutput Tx Create Cli CliSpec ValidSpec TxSpec SignSpec AsWrittenSpec VerifySpec.

Section WithEnv.
Context {E : Env}.

(** What a shell command wrote is ASCII. *)
Definition ascii_bytes (b : list Z) : Prop := Forall (fun x => x < 128) b.
(** How many keys were given. *)
Definition number_of_keys (c : cli_args) : nat := (length (c_private_key_hex c) + length (c_private_key_files c))%nat.
(** The key, if only one was given. *)
Definition only_key (c : cli_args) (key : pystr) : Prop :=
  (c_private_key_hex c = [key] /\ c_private_key_files c = []) \/
  (c_private_key_hex c = [] /\ exists text, c_private_key_files c = [text] /\ stripped text key).
Definition a_task (c : cli_args) (name : string) : Prop := c_task c = lit name.

(** The commands that get_python_version runs. *)
Definition look_for_python : pystr := lit "command -v python3".
Definition ask_python : pystr := lit "python3 --version".

(** bs has n false verdicts: the message, for that many inputs. *)
Definition detected (bs : list bool) (inputs : nat) : pystr :=
  lit "Signed transaction: " ++ int_str (Z.of_nat (count_occ bool_dec bs false)) ++
  (if Nat.leb inputs 1 then lit " invalid signature" else lit " invalid signatures") ++ lit " detected! Please re-run using the --debug flag.".

(** [own_words sh c e text]: the command line c ends with the exception e, raised by cli.py itself with that text. *)
Inductive own_words (sh : shell) (c : cli_args) : exn -> pystr -> Prop :=
| w_key : a_task c "get_private_key_wif" \/ a_task c "get_public_key" \/ a_task c "get_address" \/ a_task c "sign_data" ->
    number_of_keys c <> 1%nat -> own_words sh c AssertionError []
| w_data : a_task c "sign_data" /\ number_of_keys c = 1%nat \/ a_task c "validate_unsigned_transaction_json" ->
    c_data c = None \/ c_data c = Some [] ->
    own_words sh c ValueError (lit "One of these arguments must be supplied: --data <data_string> --data-file <file_path>")
| w_input : a_task c "create_unsigned_transaction_json" \/ a_task c "create_sign_and_verify_transaction_hex" \/ a_task c "create_transaction" ->
    c_input_file c = None -> own_words sh c ValueError (lit "This argument must be supplied: --input-file '<input_file>'")
| w_design : a_task c "create_unsigned_transaction_json" \/ a_task c "create_sign_and_verify_transaction_hex" \/ a_task c "create_transaction" ->
    c_input_file c <> None -> c_design_file c = None -> own_words sh c ValueError (lit "This argument must be supplied: --design-file '<design_file>'")
| w_task : ~ In (c_task c) (map lit ["hello"; "hello2"; "get_python_version"; "get_private_key_wif"; "private_key_wif_to_hex"; "get_public_key"; "get_address";
      "sign_data"; "verify_data_signature"; "create_unsigned_transaction_json"; "validate_unsigned_transaction_json"; "create_signed_transaction_json";
      "verify_signed_transaction_json"; "create_signed_transaction_hex"; "decode_signed_transaction_hex"; "verify_signed_transaction_hex";
      "create_sign_and_verify_transaction_hex"; "create_transaction"]%string) -> own_words sh c SystemExit []
| w_look_failed : forall o err n, a_task c "get_python_version" -> sh look_for_python = (o, err, n) -> ascii_bytes o -> ascii_bytes err -> err <> [] ->
    own_words sh c SystemExit []
| w_no_python : forall o n, a_task c "get_python_version" -> sh look_for_python = (o, [], n) -> ascii_bytes o -> n <> 0 ->
    own_words sh c ValueError (lit "Can't find 'python3' tool in bash shell'")
| w_ask_failed : forall o o2 err n, a_task c "get_python_version" -> sh look_for_python = (o, [], 0) -> ascii_bytes o ->
    sh ask_python = (o2, err, n) -> ascii_bytes o2 -> ascii_bytes err -> err <> [] -> own_words sh c SystemExit []
| w_exit_code : forall o o2 n, a_task c "get_python_version" -> sh look_for_python = (o, [], 0) -> ascii_bytes o ->
    sh ask_python = (o2, [], n) -> ascii_bytes o2 -> n <> 0 ->
    own_words sh c ValueError (lit "Ran command = 'python3 --version', but got exit code = " ++ int_str n)
| w_disagrees : forall key k d s pub sig, a_task c "sign_data" -> only_key c key -> c_data c = Some d -> d <> [] -> Forall printable_char d ->
    ec_sign key (hex_of d) = Ok s -> ec_format_private_key_hex key = Ok k -> ec_validate_private_key_hex k = Ok tt ->
    bytes pub -> length pub = 64%nat -> bytes sig -> length sig = 64%nat -> s = hex_of sig ->
    ec_public_key k = Ok (hex_of pub) -> ec_verify (hex_of pub) (hex_of d) s = Ok false ->
    own_words sh c ValueError (lit "Invalid signature!")
| w_name : forall d t ins outs bs, a_task c "create_signed_transaction_hex" -> c_data c = Some d -> from_json d = Ok t -> written_tx t ins outs ->
    all_checked ins outs 0 (tx_inputs t) bs -> own_words sh c NameError (lit "name 'invalid_signatures' is not defined")
| w_verify : forall d ins outs bs, a_task c "verify_signed_transaction_hex" -> c_data c = Some d -> transaction_text stripped d ins outs -> wire_verdicts ins outs bs -> In false bs ->
    own_words sh c ValueError (detected bs (length ins))
| w_decode : forall d ins outs bs, a_task c "decode_signed_transaction_hex" -> c_data c = Some d -> transaction_text stripped d ins outs -> wire_verdicts ins outs bs -> In false bs ->
    Zsum (map o_value outs) <= 2100000000000000 -> own_words sh c ValueError (detected bs (length ins)).

End WithEnv.
