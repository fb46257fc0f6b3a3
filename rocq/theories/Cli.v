(** Model of the tasks of cli.py: what is printed (in order) and how the task ends.
    Not modelled here: argparse (see Args.v), the file system (file contents are given as strings), logging set-up
    (Logger.v).  Shell commands are an arbitrary function. *)
From Coq Require Import String.
From Verif Require Import PyBase Env PyNum Validate Basic TxInput TxOutput Tx Create.

(** The parsed command line (cli.py L77-174), with files replaced by their contents. *)
Record cli_args : Type := mk_args {
  c_task : pystr;
  c_private_key_hex : list pystr;          (* --private-key-hex, flattened (L195) *)
  c_private_key_files : list pystr;        (* contents of the --private-key-file / -dir files (L199, L204) *)
  c_private_key_wif : option pystr;
  c_public_key_hex : option pystr;
  c_signature_hex : option pystr;
  c_data : option pystr;                   (* --data, or the contents of --data-file (L188) *)
  c_input_file : option pystr;             (* contents *)
  c_design_file : option pystr             (* contents *)
}.

(** Printed lines and outcome. *)
Definition task : Type := (list pystr * res unit)%type.

Definition print_then (s : pystr) (k : task) : task := let '(out, r) := k in (s :: out, r).
Definition fail (e : exn) : task := ([], Err e).
Definition finish : task := ([], Ok tt).
Definition after {A : Type} (m : res A) (k : A -> task) : task :=
  match m with Ok a => k a | Err e => fail e end.

Notation "x <-- m ;; k" := (after m (fun x => k))
  (at level 61, m at next level, right associativity, only parsing).
Notation "' p <-- m ;; k" := (after m (fun p => k))
  (at level 61, p pattern, m at next level, right associativity, only parsing).

Section WithEnv.
Context {E : Env}.

(** str.strip(): ASCII white space including 28..31, and Unicode white space. *)
Definition is_strip_space (c : Z) : bool :=
  if c <? 128 then ((9 <=? c) && (c <=? 13)) || ((28 <=? c) && (c <=? 32)) else uni_isspace c.
Fixpoint lstrip_ws (s : pystr) : pystr :=
  match s with c :: r => if is_strip_space c then lstrip_ws r else s | [] => [] end.
Definition strip (s : pystr) : pystr := rev (lstrip_ws (rev (lstrip_ws s))).

(** a.data used as a str by from_json / .strip() when it is None. *)
Definition data_for_json (d : option pystr) : res pystr :=
  match d with Some s => Ok s | None => Err TypeError end.
Definition data_strip (d : option pystr) : res pystr :=
  match d with Some s => Ok (strip s) | None => Err AttributeError end.

(** The machine's shell: what a command writes to stdout and stderr (bytes) and its exit code. *)
Definition shell : Type := pystr -> list Z * list Z * Z.

(** bytes.decode('ascii'): UnicodeDecodeError is a ValueError. *)
Definition decode_ascii (b : list Z) : res pystr := if forallb (fun c => c <? 128) b then Ok b else Err ValueError.

(** util/misc.py L31-40 and L45-49: run_local_cmd, stop.  The continuation receives output and exit code. *)
Definition run_local_cmd (sh : shell) (cmd : pystr) (k : pystr -> Z -> task) : task :=
  let '(out, err, exit_code) := sh cmd in
  output <-- decode_ascii out ;;
  e <-- decode_ascii err ;;
  match e with
  | [] => k output exit_code
  | _ => print_then (lit "COMMAND FAILED" ++ [10] ++ lit "$ " ++ cmd ++ [10] ++ e) (fail SystemExit)
  end.

(** util/misc.py L21-26: shell_tool_exists *)
Definition shell_tool_exists (sh : shell) (tool : pystr) (k : bool -> task) : task :=
  if existsb (fun c => c =? 32) tool then fail ValueError
  else run_local_cmd sh (lit "command -v " ++ tool) (fun _ exit_code => k (exit_code =? 0)).

(** cli.py L318-331: get_python_version.  validate_boolean(check) holds, since check is "not exit_code". *)
Definition task_get_python_version (sh : shell) : task :=
  shell_tool_exists sh (lit "python3") (fun check =>
    if check then
      run_local_cmd sh (lit "python3 --version") (fun output exit_code =>
        if negb (exit_code =? 0) then fail ValueError else print_then (strip output) finish)
    else fail ValueError).

(** cli.py L298-304 and L309-313 (code/hello.py L50-54): hello, hello2 *)
Definition task_hello : task := print_then (lit "hello world") finish.

(** cli.py L336-338: get_private_key_wif *)
Definition task_get_private_key_wif (private_key_hex : pystr) : task :=
  w <-- private_key_hex_to_wif private_key_hex ;;
  print_then w finish.

(** cli.py L343-345: private_key_wif_to_hex *)
Definition task_private_key_wif_to_hex (wif : option pystr) : task :=
  h <-- private_key_wif_to_hex (opt_str wif) ;;
  print_then h finish.

(** cli.py L350-352: get_public_key *)
Definition task_get_public_key (private_key_hex : pystr) : task :=
  p <-- private_key_hex_to_public_key_hex private_key_hex ;;
  print_then p finish.

(** cli.py L357-359: get_address *)
Definition task_get_address (private_key_hex : pystr) : task :=
  a <-- private_key_hex_to_address private_key_hex ;;
  print_then a finish.

(** cli.py L367, L382: hexlify(data_ascii.encode()).decode('ascii'); the data is ASCII at this point,
    so UTF-8 encoding is the identity on code points. *)
Definition hexlify_ascii (s : pystr) : pystr := bytes_hex s.

(** cli.py L364-374: sign_data *)
Definition task_sign_data (private_key_hex : pystr) (data : option pystr) : task :=
  u <-- validate_string_is_printable_ascii (opt_str data) ;;
  s <-- data_for_json data ;;
  let data_hex := hexlify_ascii s in
  signature_hex <-- create_deterministic_signature private_key_hex data_hex ;;
  print_then signature_hex
   (public_key_hex <-- private_key_hex_to_public_key_hex private_key_hex ;;
    valid_signature <-- verify_signature (PStr public_key_hex) (PStr data_hex) (PStr signature_hex) ;;
    if valid_signature : bool then finish else fail ValueError).

(** cli.py L379-387: verify_data_signature *)
Definition task_verify_data_signature (public_key_hex signature_hex data : option pystr) : task :=
  u <-- validate_string_is_printable_ascii (opt_str data) ;;
  s <-- data_for_json data ;;
  let data_hex := hexlify_ascii s in
  valid_signature <-- verify_signature (opt_str public_key_hex) (PStr data_hex) (opt_str signature_hex) ;;
  if valid_signature : bool then print_then (lit "Valid signature.") finish
  else print_then (lit "Invalid signature!") finish.

(** 's' if n > 1 else '' *)
Definition plural (n : nat) : pystr := if Nat.ltb 1 n then lit "s" else [].

(** The object passed to create_transaction (L393, L489): the parsed arguments, which have no attribute
    allow_duplicate_output_address or change_output_index. *)
Definition cli_namespace (inputs design : pyval) : namespace := mk_ns (Some inputs) (Some design) None None.

(** cli.py L392-397: create_unsigned_transaction_json *)
Definition task_create_unsigned_transaction_json (inputs design : pyval) : task :=
  tx_unsigned <-- fst (create_transaction (cli_namespace inputs design)) ;;
  tx_unsigned_json <-- to_json tx_unsigned ;;
  print_then tx_unsigned_json
   (t2 <-- from_json tx_unsigned_json ;; finish).

(** cli.py L402-405: validate_unsigned_transaction_json *)
Definition task_validate_unsigned_transaction_json (data : option pystr) : task :=
  s <-- data_for_json data ;;
  tx_unsigned <-- from_json s ;;
  print_then (lit "Unsigned transaction data validated.") finish.

(** cli.py L410-423: create_signed_transaction_json *)
Definition task_create_signed_transaction_json (data : option pystr) (private_keys_hex : list pystr) : task :=
  s <-- data_for_json data ;;
  tx_unsigned <-- from_json s ;;
  let '(r, tx_signed) := sign tx_unsigned private_keys_hex None in
  u <-- r ;;
  j <-- to_json tx_signed ;;
  print_then j
   (invalid_signatures <-- verify tx_signed ;;
    if negb (invalid_signatures =? 0) then fail ValueError else finish).

(** cli.py L428-439: verify_signed_transaction_json *)
Definition task_verify_signed_transaction_json (data : option pystr) : task :=
  s <-- data_for_json data ;;
  tx_signed <-- from_json s ;;
  invalid_signatures <-- verify tx_signed ;;
  let p := plural (length (tx_inputs tx_signed)) in
  if invalid_signatures =? 0 then print_then (lit "Valid signature" ++ p ++ lit ".") finish
  else print_then (lit "Invalid signature" ++ p ++ lit "!.") finish.

(** cli.py L444-453: create_signed_transaction_hex.  L451 reads invalid_signatures, which is never bound
    (L447 binds valid_signatures): NameError. *)
Definition task_create_signed_transaction_hex (data : option pystr) : task :=
  s <-- data_for_json data ;;
  tx_signed <-- from_json s ;;
  valid_signatures <-- verify tx_signed ;;
  h <-- to_hex_signed_form tx_signed ;;
  print_then h (fail NameError).

(** cli.py L458-467: decode_signed_transaction_hex *)
Definition task_decode_signed_transaction_hex (data : option pystr) : task :=
  s <-- data_strip data ;;
  tx_signed <-- from_hex_signed s ;;
  invalid_signatures <-- verify tx_signed ;;
  j <-- to_json tx_signed ;;
  print_then j
   (if negb (invalid_signatures =? 0) then fail ValueError else finish).

(** cli.py L472-482: verify_signed_transaction_hex *)
Definition task_verify_signed_transaction_hex (data : option pystr) : task :=
  s <-- data_strip data ;;
  tx_signed <-- from_hex_signed s ;;
  invalid_signatures <-- verify tx_signed ;;
  if negb (invalid_signatures =? 0) then fail ValueError
  else print_then (lit "Valid signature" ++ plural (length (tx_inputs tx_signed)) ++ lit ".") finish.

(** cli.py L487-516: create_sign_and_verify_transaction_hex, also called create_transaction (L521-522) *)
Definition task_create_transaction (inputs design : pyval) (private_keys_hex : list pystr) : task :=
  tx_unsigned <-- fst (create_transaction (cli_namespace inputs design)) ;;
  tx_unsigned_json <-- to_json tx_unsigned ;;
  tx_unsigned_2 <-- from_json tx_unsigned_json ;;
  let '(r, tx_signed) := sign tx_unsigned private_keys_hex None in
  u <-- r ;;
  invalid_signatures <-- verify tx_signed ;;
  if negb (invalid_signatures =? 0) then fail ValueError
  else
    tx_signed_hex <-- to_hex_signed_form tx_signed ;;
    n <-- hex_len (PStr tx_signed_hex) ;; (* L505 *)
    tx_signed_2 <-- from_hex_signed tx_signed_hex ;;
    invalid_signatures_2 <-- verify tx_signed_2 ;;
    if negb (invalid_signatures_2 =? 0) then fail ValueError
    else print_then tx_signed_hex finish.

(** cli.py L192-205: a.private_keys_hex *)
Definition private_keys (c : cli_args) : list pystr := c_private_key_hex c ++ map strip (c_private_key_files c).

Definition task_is (c : cli_args) (l : list string) : bool := str_in (c_task c) (map lit l).

(** cli.py L207-215 *)
Definition single_key_tasks : list string :=
  ["get_private_key_wif"; "get_public_key"; "get_address"; "sign_data"]%string.
Definition check_single_key (c : cli_args) : res unit :=
  if task_is c single_key_tasks then assert_ (Nat.eqb (length (private_keys c)) 1) else Ok tt.

(** cli.py L217-226 *)
Definition check_data (c : cli_args) : res unit :=
  if task_is c ["sign_data"; "validate_unsigned_transaction_json"]%string then
    match c_data c with None | Some [] => Err ValueError | _ => Ok tt end
  else Ok tt.

(** cli.py L228-252: a.inputs and a.design *)
Definition load_files (c : cli_args) : res (pyval * pyval) :=
  if task_is c ["create_unsigned_transaction_json"; "create_sign_and_verify_transaction_hex";
                "create_transaction"]%string then
    match c_input_file c, c_design_file c with
    | None, _ => Err ValueError
    | _, None => Err ValueError
    | Some i, Some d =>
        inputs <- json_loads i ;;
        design <- json_loads d ;;
        Ok (inputs, design)
    end
  else Ok (PNone, PNone).

(** cli.py L265-284: the list of tasks *)
Definition tasks : list pystr := map lit
  ["hello"; "hello2"; "get_python_version"; "get_private_key_wif"; "private_key_wif_to_hex"; "get_public_key"; "get_address";
   "sign_data"; "verify_data_signature"; "create_unsigned_transaction_json"; "validate_unsigned_transaction_json";
   "create_signed_transaction_json"; "verify_signed_transaction_json"; "create_signed_transaction_hex";
   "verify_signed_transaction_hex"; "decode_signed_transaction_hex"; "create_sign_and_verify_transaction_hex";
   "create_transaction"]%string.

(** str.join *)
Fixpoint join (sep : pystr) (l : list pystr) : pystr :=
  match l with [] => [] | [x] => x | x :: r => x ++ sep ++ join sep r end.

(** repr() of a list of such names: "['hello', 'hello2', ...]" *)
Definition repr_names (l : list pystr) : pystr :=
  lit "[" ++ join (lit ", ") (map (fun n => [39] ++ n ++ [39]) l) ++ lit "]".

(** cli.py L263-293: the rest of main, after the arguments were checked.  A task that needs a single key uses the only one. *)
Definition dispatch (sh : shell) (c : cli_args) (inputs design : pyval) : task :=
  let keys := private_keys c in
  let key := hd [] keys in
  let is s := str_eqb (c_task c) (lit s) in
  if negb (str_in (c_task c) tasks) then
    print_then (lit "Unrecognised task: " ++ c_task c ++ [10] ++ lit "Task list: " ++ repr_names tasks) (fail SystemExit)
  else if is "hello"%string then task_hello
  else if is "hello2"%string then task_hello
  else if is "get_python_version"%string then task_get_python_version sh
  else if is "get_private_key_wif"%string then task_get_private_key_wif key
  else if is "private_key_wif_to_hex"%string then task_private_key_wif_to_hex (c_private_key_wif c)
  else if is "get_public_key"%string then task_get_public_key key
  else if is "get_address"%string then task_get_address key
  else if is "sign_data"%string then task_sign_data key (c_data c)
  else if is "verify_data_signature"%string then
    task_verify_data_signature (c_public_key_hex c) (c_signature_hex c) (c_data c)
  else if is "create_unsigned_transaction_json"%string then task_create_unsigned_transaction_json inputs design
  else if is "validate_unsigned_transaction_json"%string then task_validate_unsigned_transaction_json (c_data c)
  else if is "create_signed_transaction_json"%string then task_create_signed_transaction_json (c_data c) keys
  else if is "verify_signed_transaction_json"%string then task_verify_signed_transaction_json (c_data c)
  else if is "create_signed_transaction_hex"%string then task_create_signed_transaction_hex (c_data c)
  else if is "verify_signed_transaction_hex"%string then task_verify_signed_transaction_hex (c_data c)
  else if is "decode_signed_transaction_hex"%string then task_decode_signed_transaction_hex (c_data c)
  else if is "create_sign_and_verify_transaction_hex"%string then task_create_transaction inputs design keys
  else task_create_transaction inputs design keys.   (* create_transaction, L521 *)

(** cli.py L183-293: main after parse_args, given the contents of the files (Files.v has the version that reads them) and with a
    logging set-up that succeeds. *)
Definition main (sh : shell) (c : cli_args) : task :=
  u1 <-- check_single_key c ;;
  u2 <-- check_data c ;;
  '(inputs, design) <-- load_files c ;;
  dispatch sh c inputs design.

End WithEnv.
