(** The tasks of cli.py once more, with the texts of the exceptions that cli.py raises itself.  Cli.v is the version without texts (C97_same: the two agree). *)
From Coq Require Import String.
From Verif Require Import PyBase Env PyNum Validate Basic TxInput TxOutput Tx Create Cli.

(** How a task ends: normally, with an exception raised by a statement of cli.py or util/misc.py (str() of which is text), or with an exception that a
    function called from there raised. *)
Inductive ending : Type :=
| Finished
| Own (e : exn) (text : pystr)
| Passed (e : exn).
(** Printed lines and ending. *)
Definition told_task : Type := (list pystr * ending)%type.
(** The same without the texts. *)
Definition untold (k : told_task) : task :=
  (fst k, match snd k with Finished => Ok tt | Own e _ => Err e | Passed e => Err e end).

Definition tell_print (s : pystr) (k : told_task) : told_task := let '(out, r) := k in (s :: out, r).
Definition own (e : exn) (text : pystr) : told_task := ([], Own e text).
Definition told_finish : told_task := ([], Finished).
Definition call {A : Type} (m : res A) (k : A -> told_task) : told_task :=
  match m with Ok a => k a | Err e => ([], Passed e) end.

Notation "x <== m ;; k" := (call m (fun x => k)) (at level 61, m at next level, right associativity, only parsing).
Notation "' p <== m ;; k" := (call m (fun p => k)) (at level 61, p pattern, m at next level, right associativity, only parsing).

Section WithEnv.
Context {E : Env}.

(** util/misc.py L31-40 and L45-49: run_local_cmd, stop.  sys.exit() raises SystemExit without an argument. *)
Definition says_run_local_cmd (sh : shell) (cmd : pystr) (k : pystr -> Z -> told_task) : told_task :=
  let '(out, err, exit_code) := sh cmd in
  output <== decode_ascii out ;;
  e <== decode_ascii err ;;
  match e with
  | [] => k output exit_code
  | _ => tell_print (lit "COMMAND FAILED" ++ [10] ++ lit "$ " ++ cmd ++ [10] ++ e) (own SystemExit [])
  end.

(** util/misc.py L21-26: shell_tool_exists; L23 raises ValueError without an argument. *)
Definition says_shell_tool_exists (sh : shell) (tool : pystr) (k : bool -> told_task) : told_task :=
  if existsb (fun c => c =? 32) tool then own ValueError []
  else says_run_local_cmd sh (lit "command -v " ++ tool) (fun _ exit_code => k (exit_code =? 0)).

(** cli.py L318-331: get_python_version *)
Definition says_get_python_version (sh : shell) : told_task :=
  says_shell_tool_exists sh (lit "python3") (fun check =>
    if check then
      says_run_local_cmd sh (lit "python3 --version") (fun output exit_code =>
        if negb (exit_code =? 0) then own ValueError (lit "Ran command = 'python3 --version', but got exit code = " ++ int_str exit_code)
        else tell_print (strip output) told_finish)
    else own ValueError (lit "Can't find 'python3' tool in bash shell'")).

(** cli.py L298-313: hello, hello2 *)
Definition says_hello : told_task := tell_print (lit "hello world") told_finish.
(** cli.py L336-359: the four tasks that print what a function of basic.py returns *)
Definition says_get_private_key_wif (private_key_hex : pystr) : told_task :=
  w <== private_key_hex_to_wif private_key_hex ;; tell_print w told_finish.
Definition says_private_key_wif_to_hex (wif : option pystr) : told_task :=
  h <== private_key_wif_to_hex (opt_str wif) ;; tell_print h told_finish.
Definition says_get_public_key (private_key_hex : pystr) : told_task :=
  p <== private_key_hex_to_public_key_hex private_key_hex ;; tell_print p told_finish.
Definition says_get_address (private_key_hex : pystr) : told_task :=
  a <== private_key_hex_to_address private_key_hex ;; tell_print a told_finish.

(** cli.py L364-374: sign_data *)
Definition says_sign_data (private_key_hex : pystr) (data : option pystr) : told_task :=
  u <== validate_string_is_printable_ascii (opt_str data) ;;
  s <== data_for_json data ;;
  let data_hex := hexlify_ascii s in
  signature_hex <== create_deterministic_signature private_key_hex data_hex ;;
  tell_print signature_hex
   (public_key_hex <== private_key_hex_to_public_key_hex private_key_hex ;;
    valid_signature <== verify_signature (PStr public_key_hex) (PStr data_hex) (PStr signature_hex) ;;
    if valid_signature : bool then told_finish else own ValueError (lit "Invalid signature!")).

(** cli.py L379-387: verify_data_signature *)
Definition says_verify_data_signature (public_key_hex signature_hex data : option pystr) : told_task :=
  u <== validate_string_is_printable_ascii (opt_str data) ;;
  s <== data_for_json data ;;
  let data_hex := hexlify_ascii s in
  valid_signature <== verify_signature (opt_str public_key_hex) (PStr data_hex) (opt_str signature_hex) ;;
  if valid_signature : bool then tell_print (lit "Valid signature.") told_finish
  else tell_print (lit "Invalid signature!") told_finish.

(** cli.py L392-397: create_unsigned_transaction_json *)
Definition says_create_unsigned_transaction_json (inputs design : pyval) : told_task :=
  tx_unsigned <== fst (create_transaction (cli_namespace inputs design)) ;;
  tx_unsigned_json <== to_json tx_unsigned ;;
  tell_print tx_unsigned_json
   (t2 <== from_json tx_unsigned_json ;; told_finish).

(** cli.py L402-405: validate_unsigned_transaction_json *)
Definition says_validate_unsigned_transaction_json (data : option pystr) : told_task :=
  s <== data_for_json data ;;
  tx_unsigned <== from_json s ;;
  tell_print (lit "Unsigned transaction data validated.") told_finish.

(** cli.py L410-423: create_signed_transaction_json *)
Definition says_create_signed_transaction_json (data : option pystr) (private_keys_hex : list pystr) : told_task :=
  s <== data_for_json data ;;
  tx_unsigned <== from_json s ;;
  let '(r, tx_signed) := sign tx_unsigned private_keys_hex None in
  u <== r ;;
  j <== to_json tx_signed ;;
  tell_print j
   (invalid_signatures <== verify tx_signed ;;
    if negb (invalid_signatures =? 0) then own ValueError (lit "Invalid signature" ++ plural (length (tx_inputs tx_signed)) ++ lit "!") else told_finish).

(** cli.py L428-439: verify_signed_transaction_json *)
Definition says_verify_signed_transaction_json (data : option pystr) : told_task :=
  s <== data_for_json data ;;
  tx_signed <== from_json s ;;
  invalid_signatures <== verify tx_signed ;;
  let p := plural (length (tx_inputs tx_signed)) in
  if invalid_signatures =? 0 then tell_print (lit "Valid signature" ++ p ++ lit ".") told_finish
  else tell_print (lit "Invalid signature" ++ p ++ lit "!.") told_finish.

(** cli.py L444-453: create_signed_transaction_hex.  L451 reads a name that is not bound. *)
Definition says_create_signed_transaction_hex (data : option pystr) : told_task :=
  s <== data_for_json data ;;
  tx_signed <== from_json s ;;
  valid_signatures <== verify tx_signed ;;
  h <== to_hex_signed_form tx_signed ;;
  tell_print h (own NameError (lit "name 'invalid_signatures' is not defined")).

(** cli.py L466, L479 and L501 *)
Definition says_detected (n : Z) (p : pystr) : pystr :=
  lit "Signed transaction: " ++ int_str n ++ lit " invalid signature" ++ p ++ lit " detected! Please re-run using the --debug flag.".

(** cli.py L458-467: decode_signed_transaction_hex *)
Definition says_decode_signed_transaction_hex (data : option pystr) : told_task :=
  s <== data_strip data ;;
  tx_signed <== from_hex_signed s ;;
  invalid_signatures <== verify tx_signed ;;
  j <== to_json tx_signed ;;
  tell_print j
   (if negb (invalid_signatures =? 0) then own ValueError (says_detected invalid_signatures (plural (length (tx_inputs tx_signed)))) else told_finish).

(** cli.py L472-482: verify_signed_transaction_hex *)
Definition says_verify_signed_transaction_hex (data : option pystr) : told_task :=
  s <== data_strip data ;;
  tx_signed <== from_hex_signed s ;;
  invalid_signatures <== verify tx_signed ;;
  if negb (invalid_signatures =? 0) then own ValueError (says_detected invalid_signatures (plural (length (tx_inputs tx_signed))))
  else tell_print (lit "Valid signature" ++ plural (length (tx_inputs tx_signed)) ++ lit ".") told_finish.

(** cli.py L487-516: create_sign_and_verify_transaction_hex *)
Definition says_create_transaction (inputs design : pyval) (private_keys_hex : list pystr) : told_task :=
  tx_unsigned <== fst (create_transaction (cli_namespace inputs design)) ;;
  tx_unsigned_json <== to_json tx_unsigned ;;
  tx_unsigned_2 <== from_json tx_unsigned_json ;;
  let '(r, tx_signed) := sign tx_unsigned private_keys_hex None in
  u <== r ;;
  invalid_signatures <== verify tx_signed ;;
  if negb (invalid_signatures =? 0) then own ValueError (says_detected invalid_signatures (if 1 <? invalid_signatures then lit "s" else []))
  else
    tx_signed_hex <== to_hex_signed_form tx_signed ;;
    n <== hex_len (PStr tx_signed_hex) ;; (* L505 *)
    tx_signed_2 <== from_hex_signed tx_signed_hex ;;
    invalid_signatures_2 <== verify tx_signed_2 ;;
    if negb (invalid_signatures_2 =? 0) then
      own ValueError (lit "Signed transaction (hex format): " ++ int_str invalid_signatures_2 ++ lit " invalid signature" ++ plural (length (tx_inputs tx_signed_2)) ++ lit " detect! Please re-run using the --debug flag.")
    else tell_print tx_signed_hex told_finish.

(** cli.py L207-215: an assert without a message *)
Definition says_check_single_key (c : cli_args) (k : told_task) : told_task :=
  if task_is c single_key_tasks then (if Nat.eqb (length (private_keys c)) 1 then k else own AssertionError []) else k.

(** cli.py L217-226 *)
Definition says_check_data (c : cli_args) (k : told_task) : told_task :=
  if task_is c ["sign_data"; "validate_unsigned_transaction_json"]%string then
    match c_data c with
    | None | Some [] => own ValueError (lit "One of these arguments must be supplied: --data <data_string> --data-file <file_path>")
    | _ => k
    end
  else k.

(** cli.py L228-252 *)
Definition says_load_files (c : cli_args) (k : pyval -> pyval -> told_task) : told_task :=
  if task_is c ["create_unsigned_transaction_json"; "create_sign_and_verify_transaction_hex";
                "create_transaction"]%string then
    match c_input_file c, c_design_file c with
    | None, _ => own ValueError (lit "This argument must be supplied: --input-file '<input_file>'")
    | _, None => own ValueError (lit "This argument must be supplied: --design-file '<design_file>'")
    | Some i, Some d =>
        inputs <== json_loads i ;;
        design <== json_loads d ;;
        k inputs design
    end
  else k PNone PNone.

(** cli.py L263-293, and L535-539 for stop *)
Definition says_dispatch (sh : shell) (c : cli_args) (inputs design : pyval) : told_task :=
  let keys := private_keys c in
  let key := hd [] keys in
  let is s := str_eqb (c_task c) (lit s) in
  if negb (str_in (c_task c) tasks) then
    tell_print (lit "Unrecognised task: " ++ c_task c ++ [10] ++ lit "Task list: " ++ repr_names tasks) (own SystemExit [])
  else if is "hello"%string then says_hello
  else if is "hello2"%string then says_hello
  else if is "get_python_version"%string then says_get_python_version sh
  else if is "get_private_key_wif"%string then says_get_private_key_wif key
  else if is "private_key_wif_to_hex"%string then says_private_key_wif_to_hex (c_private_key_wif c)
  else if is "get_public_key"%string then says_get_public_key key
  else if is "get_address"%string then says_get_address key
  else if is "sign_data"%string then says_sign_data key (c_data c)
  else if is "verify_data_signature"%string then
    says_verify_data_signature (c_public_key_hex c) (c_signature_hex c) (c_data c)
  else if is "create_unsigned_transaction_json"%string then says_create_unsigned_transaction_json inputs design
  else if is "validate_unsigned_transaction_json"%string then says_validate_unsigned_transaction_json (c_data c)
  else if is "create_signed_transaction_json"%string then says_create_signed_transaction_json (c_data c) keys
  else if is "verify_signed_transaction_json"%string then says_verify_signed_transaction_json (c_data c)
  else if is "create_signed_transaction_hex"%string then says_create_signed_transaction_hex (c_data c)
  else if is "verify_signed_transaction_hex"%string then says_verify_signed_transaction_hex (c_data c)
  else if is "decode_signed_transaction_hex"%string then says_decode_signed_transaction_hex (c_data c)
  else if is "create_sign_and_verify_transaction_hex"%string then says_create_transaction inputs design keys
  else says_create_transaction inputs design keys.   (* create_transaction, L521 *)

(** cli.py L183-293: main after parse_args *)
Definition main_says (sh : shell) (c : cli_args) : told_task :=
  says_check_single_key c (says_check_data c (says_load_files c (says_dispatch sh c))).

End WithEnv.
