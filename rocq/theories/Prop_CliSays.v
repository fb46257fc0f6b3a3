(** Property theorems: generated by tools/genprops.py from C_CliSays.v, which holds the proofs. *)
From Coq Require Import String Floats.SpecFloat Bool Lia.
From Verif Require Import PyBase Env PyNum Validate Basic Spec EnvOk TxInput TxOutput Tx Create Cli CliSpec ValidSpec TxSpec SignSpec CreateSpec JsonSpec VerifySpec AsWrittenSpec CliSays CliSaysSpec Demo DemoTx DemoCreate.
Open Scope Z_scope.
From Verif Require C_CliSays.

(** C97.  Without the texts, this is the command line of C63. *)
Theorem C97_same : forall E : Env,
  forall sh c, untold (main_says sh c) = main sh c.
Proof. exact (fun E => C_CliSays.c97_same). Qed.
Print Assumptions C97_same.

(** C97.  The exceptions that cli.py raises itself, and their texts, are exactly those listed in [own_words]; all others come from the functions that it calls.  In particular the messages
    about invalid signatures of the three tasks that sign transactions never appear. *)
Theorem C97_words : forall E : Env,
  CryptoOk E -> UniOk E -> forall sh c e t, (exists out, main_says sh c = (out, Own e t)) <-> own_words sh c e t.
Proof. exact (fun E => C_CliSays.c97_words). Qed.
Print Assumptions C97_words.

(** C97.  A valid key never gets "Invalid signature!" from sign_data. *)
Theorem C97_valid_key : forall E : Env,
  KeysOk E -> SignOk E -> forall sh c key, a_task c "sign_data" -> only_key c key -> ec_validate_private_key_hex key = Ok tt ->
  forall out t, main_says sh c = (out, Own ValueError t) -> t = lit "One of these arguments must be supplied: --data <data_string> --data-file <file_path>".
Proof. exact (fun E => C_CliSays.c97_valid_key). Qed.
Print Assumptions C97_valid_key.

(** Beside C97. *)
Example ex97_tampered : forall E : Env,
  @main_says demo_env no_shell (command "verify_signed_transaction_hex" [] [] (Some tampered_hex)) =
  ([], Own ValueError (lit "Signed transaction: 2 invalid signatures detected! Please re-run using the --debug flag.")).
Proof. exact (fun E => C_CliSays.ex97_tampered). Qed.

Example ex97_words : forall E : Env,
  @own_words demo_env no_shell (command "verify_signed_transaction_hex" [] [] (Some tampered_hex)) ValueError
  (lit "Signed transaction: 2 invalid signatures detected! Please re-run using the --debug flag.").
Proof. exact (fun E => C_CliSays.ex97_words). Qed.

Example ex97_missing : forall E : Env,
  @main_says demo_env no_shell (command "sign_data" [key1] [] None) =
    ([], Own ValueError (lit "One of these arguments must be supplied: --data <data_string> --data-file <file_path>")) /\
  @main_says demo_env no_shell (command "sign_data" [key1; key2] [] None) = ([], Own AssertionError []) /\
  @main_says demo_env no_shell (command "create_transaction" [key1] [] None) = ([], Own ValueError (lit "This argument must be supplied: --input-file '<input_file>'")) /\
  @main_says demo_env no_shell (command "get_python_version" [] [] None) = ([], Own ValueError (lit "Can't find 'python3' tool in bash shell'")) /\
  exists line, @main_says demo_env no_shell (command "goodbye" [] [] None) = ([line], Own SystemExit []).
Proof. exact (fun E => C_CliSays.ex97_missing). Qed.

