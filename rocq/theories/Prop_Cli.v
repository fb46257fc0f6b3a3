(** Property theorems: generated by tools/genprops.py from C_Cli.v, which holds the proofs. *)
From Coq Require Import String Floats.SpecFloat Permutation Sorted Lia.
From Verif Require Import PyBase Env PyNum Validate Basic Spec EnvOk TxInput TxOutput Tx Create Cli CliSpec TxSpec SignSpec CreateSpec JsonSpec ValidSpec Demo DemoTx DemoCreate.
Open Scope Z_scope.
From Verif Require C_Cli.

(** C49.  create_transaction on the command line either prints nothing and fails, or prints one line and succeeds. *)
Theorem C49_all_or_nothing : forall E : Env,
  forall inputs design keys out r, task_create_transaction inputs design keys = (out, r) ->
  (out = [] /\ exists e, r = Err e) \/ (r = Ok tt /\ exists h, out = [h]).
Proof. exact (fun E => C_Cli.c49_all_or_nothing). Qed.
Print Assumptions C49_all_or_nothing.

(** C49.  What is printed is the wire format of the planned transaction: it spends the selected outpoints, makes the planned
    outputs, and each input carries a signature of its sighash by a supplied key that controls the input's address.  It
    decodes, and the decoded transaction verifies. *)
Theorem C49_printed : forall E : Env,
  CryptoOk E -> UniOk E -> forall inputs design keys h, task_create_transaction inputs design keys = ([h], Ok tt) ->
  exists q sel outs f chg ins ws t, asked (cli_namespace inputs design) q /\ plan q sel outs f chg /\
    Forall2 (fun o w => exists h, is_address h (oa_address o) /\ w = mk_soutput (oa_value o) (p2pkh h)) outs ws /\
    h = hex_of (wire ins ws) /\ bytes (wire ins ws) /\ map i_txid ins = map ia_txid sel /\ map i_index ins = map ia_index sel /\
    (forall n i a, nth_error ins n = Some i -> nth_error sel n = Some a ->
       exists key pub sig, In key keys /\ key_pub key pub /\ is_address (hash160 pub) (ia_address a) /\ bytes sig /\ length sig = 64%nat /\
         ec_sign_digest key (hex_of (digest (sighash_bytes n (p2pkh (hash160 pub)) ins ws))) = Ok (hex_of sig) /\
         i_script i = build_script_sig (der_of sig) pub) /\
    from_hex_signed h = Ok t /\ verify t = Ok 0.
Proof. exact (fun E => C_Cli.c49_printed). Qed.
Print Assumptions C49_printed.

(** C49.  It succeeds exactly if there is a plan, all its amounts are positive, all supplied keys are valid, and every selected input
    is controlled by one of them. *)
Theorem C49_succeeds_iff : forall E : Env,
  CryptoOk E -> SignTotal E -> UniOk E -> JsonOk E -> forall inputs design keys,
  (exists h, task_create_transaction inputs design keys = ([h], Ok tt)) <->
  exists q sel outs f chg, asked (cli_namespace inputs design) q /\ plan q sel outs f chg /\
    Forall (fun i => 0 < ia_value i) sel /\ Forall (fun o => 0 < oa_value o) outs /\
    Forall (fun k => exists a, controls k a) keys /\ Forall (fun i => exists k, In k keys /\ controls k (ia_address i)) sel.
Proof. exact (fun E => C_Cli.c49_succeeds_iff). Qed.
Print Assumptions C49_succeeds_iff.

(** C49.  In particular, with a key that is not valid, or without a key for one of the selected inputs, nothing is printed. *)
Theorem C49_refused : forall E : Env,
  CryptoOk E -> UniOk E -> forall inputs design keys q sel outs f chg, asked (cli_namespace inputs design) q -> plan q sel outs f chg ->
  (exists k, In k keys /\ forall a, ~ controls k a) \/ (exists i, In i sel /\ forall k, In k keys -> ~ controls k (ia_address i)) ->
  exists e, task_create_transaction inputs design keys = ([], Err e).
Proof. exact (fun E => C_Cli.c49_refused). Qed.
Print Assumptions C49_refused.

(** C50.  create_signed_transaction_hex never succeeds... *)
Theorem C50_never_succeeds : forall E : Env,
  forall data out r, task_create_signed_transaction_hex data = (out, r) -> r <> Ok tt.
Proof. exact (fun E => C_Cli.c50_never_succeeds). Qed.
Print Assumptions C50_never_succeeds.

(** C50.  ... but for every document that can be read and whose signatures can be checked, it first prints the serialised transaction,
    however many of the signatures are invalid. *)
Theorem C50_prints_first : forall E : Env,
  HashOk E -> ZeroAddressOk E -> UniOk E -> forall s t n, from_json s = Ok t -> verify t = Ok n ->
  exists h, to_hex_signed_form t = Ok h /\ task_create_signed_transaction_hex (Some s) = ([h], Err NameError).
Proof. exact (fun E => C_Cli.c50_prints_first). Qed.
Print Assumptions C50_prints_first.

(** C50.  Nothing is printed if the document cannot be read or its signatures cannot be checked. *)
Theorem C50_refused : forall E : Env,
  forall s, (forall t n, from_json s = Ok t -> verify t <> Ok n) -> exists e, task_create_signed_transaction_hex (Some s) = ([], Err e).
Proof. exact (fun E => C_Cli.c50_refused). Qed.
Print Assumptions C50_refused.

(** C55.  The exact behaviour of verify_data_signature: data that is not printable is refused, and so are a public key or a signature that are
    not 64 bytes of hex; otherwise the library decides. *)
Theorem C55_verify : forall E : Env,
  (forall p s d, ~ Forall printable_char d -> task_verify_data_signature p s (Some d) = ([], Err ValueError)) /\
  (forall p s, task_verify_data_signature p s None = ([], Err TypeError)) /\
  (forall p s d, (forall bs, bytes bs -> length bs = 64%nat -> p <> Some (hex_of bs)) \/ (forall bs, bytes bs -> length bs = 64%nat -> s <> Some (hex_of bs)) ->
     exists e, task_verify_data_signature p s d = ([], Err e) /\ (e = ValueError \/ e = TypeError)) /\
  (forall pub sig d, bytes pub -> length pub = 64%nat -> bytes sig -> length sig = 64%nat -> Forall printable_char d ->
     task_verify_data_signature (Some (hex_of pub)) (Some (hex_of sig)) (Some d) =
     match ec_verify (hex_of pub) (hex_of d) (hex_of sig) with
     | Ok true => ([lit "Valid signature."], Ok tt)
     | Ok false => ([lit "Invalid signature!"], Ok tt)
     | Err e => ([], Err e)
     end).
Proof. exact (fun E => C_Cli.c55_verify). Qed.
Print Assumptions C55_verify.

(** C55.  Whatever sign_data prints on success is one signature of the (printable) data that the library accepts, and
    verify_data_signature agrees. *)
Theorem C55_agree : forall E : Env,
  KeysOk E -> forall key d out, task_sign_data key (Some d) = (out, Ok tt) ->
  Forall printable_char d /\
  exists sig pub, bytes sig /\ length sig = 64%nat /\ bytes pub /\ length pub = 64%nat /\ out = [hex_of sig] /\ ec_sign key (hex_of d) = Ok (hex_of sig) /\
    private_key_hex_to_public_key_hex key = Ok (hex_of pub) /\
    task_verify_data_signature (Some (hex_of pub)) (Some (hex_of sig)) (Some d) = ([lit "Valid signature."], Ok tt).
Proof. exact (fun E => C_Cli.c55_agree). Qed.
Print Assumptions C55_agree.

(** C55.  With a valid key and printable data sign_data succeeds whenever the library signs, and nothing else is printed; data that is not printable
    is refused before anything is signed. *)
Theorem C55_signs : forall E : Env,
  KeysOk E -> SignOk E ->
  (forall key pub d s, key_pub key pub -> Forall printable_char d -> ec_sign key (hex_of d) = Ok s -> task_sign_data key (Some d) = ([s], Ok tt)) /\
  (forall key d e, Forall printable_char d -> ec_sign key (hex_of d) = Err e -> task_sign_data key (Some d) = ([], Err e)) /\
  (forall key d, ~ Forall printable_char d -> task_sign_data key (Some d) = ([], Err ValueError)).
Proof. exact (fun E => C_Cli.c55_signs). Qed.
Print Assumptions C55_signs.

(** C62.  The steps of create_transaction can also be taken one at a time: unsigned JSON, validation, signed JSON, verification, hex (which is printed,
    though the task then fails, see C50), verification and decoding of the hex, with white space around it.  The same hex results. *)
Theorem C62_workflow : forall E : Env,
  CryptoOk E -> UniOk E -> JsonOk E -> forall inputs design keys h, task_create_transaction inputs design keys = ([h], Ok tt) ->
  exists j js jd t, 
    task_create_unsigned_transaction_json inputs design = ([j], Ok tt) /\
    task_validate_unsigned_transaction_json (Some j) = ([lit "Unsigned transaction data validated."], Ok tt) /\
    task_create_signed_transaction_json (Some j) keys = ([js], Ok tt) /\
    from_hex_signed h = Ok t /\ (0 < length (tx_inputs t))%nat /\
    let valid := if (1 <? length (tx_inputs t))%nat then lit "Valid signatures." else lit "Valid signature." in
    task_verify_signed_transaction_json (Some js) = ([valid], Ok tt) /\
    task_create_signed_transaction_hex (Some js) = ([h], Err NameError) /\
    forall before after, Forall blank before -> Forall blank after ->
      task_verify_signed_transaction_hex (Some (before ++ h ++ after)) = ([valid], Ok tt) /\
      task_decode_signed_transaction_hex (Some (before ++ h ++ after)) = ([jd], Ok tt).
Proof. exact (fun E => C_Cli.c62_workflow). Qed.
Print Assumptions C62_workflow.

(** C63.  Tasks that use a private key need exactly one. *)
Theorem C63_one_key : forall E : Env,
  forall sh c, In (c_task c) [lit "get_private_key_wif"; lit "get_public_key"; lit "get_address"; lit "sign_data"] ->
  length (private_keys c) <> 1%nat -> main sh c = ([], Err AssertionError).
Proof. exact (fun E => C_Cli.c63_one_key). Qed.
Print Assumptions C63_one_key.

(** C63.  Keys are those given on the command line, then those in files, without the white space around them. *)
Theorem C63_keys : forall E : Env,
  (forall c ks, private_keys c = c_private_key_hex c ++ ks <-> Forall2 stripped (c_private_key_files c) ks) /\
  (forall bs before after, bytes bs -> Forall blank before -> Forall blank after -> stripped (before ++ hex_of bs ++ after) (hex_of bs)).
Proof. exact (fun E => C_Cli.c63_keys). Qed.
Print Assumptions C63_keys.

(** C63.  sign_data and validate_unsigned_transaction_json need data that is not empty. *)
Theorem C63_data : forall E : Env,
  forall sh c, c_task c = lit "validate_unsigned_transaction_json" \/ (c_task c = lit "sign_data" /\ length (private_keys c) = 1%nat) ->
  c_data c = None \/ c_data c = Some [] -> main sh c = ([], Err ValueError).
Proof. exact (fun E => C_Cli.c63_data). Qed.
Print Assumptions C63_data.

(** C63.  The tasks that create a transaction need both files, and both must be JSON. *)
Theorem C63_files : forall E : Env,
  forall sh c, In (c_task c) [lit "create_unsigned_transaction_json"; lit "create_sign_and_verify_transaction_hex"; lit "create_transaction"] ->
  (c_input_file c = None \/ c_design_file c = None -> main sh c = ([], Err ValueError)) /\
  (forall i d e, c_input_file c = Some i -> c_design_file c = Some d -> json_loads i = Err e -> main sh c = ([], Err e)) /\
  (forall i d v e, c_input_file c = Some i -> c_design_file c = Some d -> json_loads i = Ok v -> json_loads d = Err e -> main sh c = ([], Err e)) /\
  (forall i d inputs design, c_input_file c = Some i -> c_design_file c = Some d -> json_loads i = Ok inputs -> json_loads d = Ok design ->
     main sh c = if str_eqb (c_task c) (lit "create_unsigned_transaction_json") then task_create_unsigned_transaction_json inputs design
                 else task_create_transaction inputs design (private_keys c)).
Proof. exact (fun E => C_Cli.c63_files). Qed.
Print Assumptions C63_files.

(** C63.  The other tasks. *)
Theorem C63_runs : forall E : Env,
  forall sh c,
  (c_task c = lit "hello" \/ c_task c = lit "hello2" -> main sh c = ([lit "hello world"], Ok tt)) /\
  (c_task c = lit "get_python_version" -> main sh c = task_get_python_version sh) /\
  (c_task c = lit "private_key_wif_to_hex" -> main sh c = task_private_key_wif_to_hex (c_private_key_wif c)) /\
  (forall key, private_keys c = [key] ->
     (c_task c = lit "get_private_key_wif" -> main sh c = task_get_private_key_wif key) /\
     (c_task c = lit "get_public_key" -> main sh c = task_get_public_key key) /\
     (c_task c = lit "get_address" -> main sh c = task_get_address key) /\
     (forall d, d <> [] -> c_data c = Some d -> c_task c = lit "sign_data" -> main sh c = task_sign_data key (Some d))) /\
  (forall d, d <> [] -> c_data c = Some d -> c_task c = lit "validate_unsigned_transaction_json" -> main sh c = task_validate_unsigned_transaction_json (Some d)) /\
  (c_task c = lit "verify_data_signature" -> main sh c = task_verify_data_signature (c_public_key_hex c) (c_signature_hex c) (c_data c)) /\
  (c_task c = lit "create_signed_transaction_json" -> main sh c = task_create_signed_transaction_json (c_data c) (private_keys c)) /\
  (c_task c = lit "verify_signed_transaction_json" -> main sh c = task_verify_signed_transaction_json (c_data c)) /\
  (c_task c = lit "create_signed_transaction_hex" -> main sh c = task_create_signed_transaction_hex (c_data c)) /\
  (c_task c = lit "verify_signed_transaction_hex" -> main sh c = task_verify_signed_transaction_hex (c_data c)) /\
  (c_task c = lit "decode_signed_transaction_hex" -> main sh c = task_decode_signed_transaction_hex (c_data c)).
Proof. exact (fun E => C_Cli.c63_runs). Qed.
Print Assumptions C63_runs.

(** C63.  Any other name is refused, with a message, whatever the other arguments are. *)
Theorem C63_unknown : forall E : Env,
  forall sh c,
  ~ In (c_task c) (map lit ["hello"; "hello2"; "get_python_version"; "get_private_key_wif"; "private_key_wif_to_hex"; "get_public_key"; "get_address";
   "sign_data"; "verify_data_signature"; "create_unsigned_transaction_json"; "validate_unsigned_transaction_json";
   "create_signed_transaction_json"; "verify_signed_transaction_json"; "create_signed_transaction_hex";
   "verify_signed_transaction_hex"; "decode_signed_transaction_hex"; "create_sign_and_verify_transaction_hex"; "create_transaction"]%string) ->
  main sh c = ([lit "Unrecognised task: " ++ c_task c ++ [10] ++
    lit "Task list: ['hello', 'hello2', 'get_python_version', 'get_private_key_wif', 'private_key_wif_to_hex', 'get_public_key', 'get_address', 'sign_data', 'verify_data_signature', 'create_unsigned_transaction_json', 'validate_unsigned_transaction_json', 'create_signed_transaction_json', 'verify_signed_transaction_json', 'create_signed_transaction_hex', 'verify_signed_transaction_hex', 'decode_signed_transaction_hex', 'create_sign_and_verify_transaction_hex', 'create_transaction']"],
    Err SystemExit).
Proof. exact (fun E => C_Cli.c63_unknown). Qed.
Print Assumptions C63_unknown.

(** C64.  For a valid key the key tasks print its public key, its address, and its WIF, from which the key is recovered. *)
Theorem C64_key_tasks : forall E : Env,
  HashOk E -> ZeroAddressOk E -> KeysOk E -> forall key pub, key_pub key pub ->
  task_get_public_key key = ([hex_of pub], Ok tt) /\
  (exists a, is_address (hash160 pub) a /\ task_get_address key = ([a], Ok tt)) /\
  (exists w bs, bytes bs /\ length bs = 32%nat /\ key = hex_of bs /\ is_base58check (128 :: bs) w /\ task_get_private_key_wif key = ([w], Ok tt) /\
     task_private_key_wif_to_hex (Some w) = ([key], Ok tt)).
Proof. exact (fun E => C_Cli.c64_key_tasks). Qed.
Print Assumptions C64_key_tasks.

(** C64.  A key that cannot be formatted or is not valid is refused and nothing is printed. *)
Theorem C64_refused : forall E : Env,
  HashOk E -> KeysOk E -> forall key, (forall k, ec_format_private_key_hex key = Ok k -> ec_validate_private_key_hex k <> Ok tt) ->
  (exists e, task_get_public_key key = ([], Err e)) /\ (exists e, task_get_address key = ([], Err e)) /\ (exists e, task_get_private_key_wif key = ([], Err e)).
Proof. exact (fun E => C_Cli.c64_refused). Qed.
Print Assumptions C64_refused.

(** C65.  get_python_version prints one line only if both shell commands end with code 0 and write nothing to stderr and only ASCII to stdout;
    the line is what "python3 --version" wrote, without the white space around it.  Whatever the shell does, it never succeeds otherwise. *)
Theorem C65_version : forall E : Env,
  forall sh out, task_get_python_version sh = (out, Ok tt) <->
  exists o1 o2, sh (lit "command -v python3") = (o1, [], 0) /\ sh (lit "python3 --version") = (o2, [], 0) /\
    Forall (fun c => c < 128) o1 /\ Forall (fun c => c < 128) o2 /\ exists line, stripped o2 line /\ out = [line].
Proof. exact (fun E => C_Cli.c65_version). Qed.
Print Assumptions C65_version.

(** C65.  A local command: output that is not ASCII is a ValueError; anything on stderr is printed after the command and ends the program;
    otherwise the caller gets the output and the exit code. *)
Theorem C65_command : forall E : Env,
  forall sh cmd k out err code, sh cmd = (out, err, code) ->
  (~ Forall (fun c => c < 128) (out ++ err) -> run_local_cmd sh cmd k = ([], Err ValueError)) /\
  (Forall (fun c => c < 128) (out ++ err) -> err <> [] ->
     run_local_cmd sh cmd k = ([lit "COMMAND FAILED" ++ [10] ++ lit "$ " ++ cmd ++ [10] ++ err], Err SystemExit)) /\
  (Forall (fun c => c < 128) (out ++ err) -> err = [] -> run_local_cmd sh cmd k = k out code).
Proof. exact (fun E => C_Cli.c65_command). Qed.
Print Assumptions C65_command.

(** C65.  A tool name with a space is refused before any command is run. *)
Theorem C65_space : forall E : Env,
  forall sh tool k, In 32 tool -> shell_tool_exists sh tool k = ([], Err ValueError).
Proof. exact (fun E => C_Cli.c65_space). Qed.
Print Assumptions C65_space.

(** C66.  verify_signature_digest checks that the public key is 64 bytes of hex (ValueError) and that the digest is hex of any length (AttributeError,
    from building the message with 64 as the name); nothing about the signature is checked before the library is asked. *)
Theorem C66_digest : forall E : Env,
  forall p d s,
  ((forall bs, bytes bs -> length bs = 64%nat -> p <> hex_of bs) -> verify_signature_digest p d s = Err ValueError) /\
  (forall pub, bytes pub -> length pub = 64%nat -> p = hex_of pub -> ~ is_hex d -> verify_signature_digest p d s = Err AttributeError) /\
  (forall pub bs, bytes pub -> length pub = 64%nat -> p = hex_of pub -> bytes bs -> d = hex_of bs -> verify_signature_digest p d s = ec_verify_digest p d s).
Proof. exact (fun E => C_Cli.c66_digest). Qed.
Print Assumptions C66_digest.

(** C66.  verify_signature checks all three arguments, in order. *)
Theorem C66_data : forall E : Env,
  forall p d s,
  ((forall bs, bytes bs -> length bs = 64%nat -> p <> hex_of bs) \/ ~ is_hex d \/ (forall bs, bytes bs -> length bs = 64%nat -> s <> hex_of bs) ->
     verify_signature (PStr p) (PStr d) (PStr s) = Err ValueError) /\
  (forall b1 b2 b3, bytes b1 -> length b1 = 64%nat -> p = hex_of b1 -> bytes b2 -> d = hex_of b2 -> bytes b3 -> length b3 = 64%nat -> s = hex_of b3 ->
     verify_signature (PStr p) (PStr d) (PStr s) = ec_verify p d s).
Proof. exact (fun E => C_Cli.c66_data). Qed.
Print Assumptions C66_data.

(** Beside C49: both keys are needed, in either order. *)
Example ex49_demo : forall E : Env,
  @asked demo_env (cli_namespace cli_inputs cli_design) demo_order /\
  @task_create_transaction demo_env cli_inputs cli_design [key1; key2] = ([signed_hex], Ok tt) /\
  @task_create_transaction demo_env cli_inputs cli_design [key1] = ([], Err ValueError).
Proof. exact (fun E => C_Cli.ex49_demo). Qed.

(** Beside C50: a transaction whose signatures do not verify is printed all the same. *)
Example ex50_demo : forall E : Env,
  @from_json demo_env forged_json = Ok forged_loaded /\
  exists h, @to_hex_signed_form forged_loaded = Ok h /\ @task_create_signed_transaction_hex demo_env (Some forged_json) = ([h], Err NameError).
Proof. exact (fun E => C_Cli.ex50_demo). Qed.

(** Beside C55. *)
Example ex55_demo : forall E : Env,
  exists s p, @task_sign_data demo_env key1 (Some (lit "hello world")) = ([s], Ok tt) /\ @task_get_public_key demo_env key1 = ([p], Ok tt) /\
  @task_verify_data_signature demo_env (Some p) (Some s) (Some (lit "hello world")) = ([lit "Valid signature."], Ok tt) /\
  @task_verify_data_signature demo_env (Some p) (Some s) (Some (lit "hello")) = ([lit "Invalid signature!"], Ok tt) /\
  @task_verify_data_signature demo_env (Some p) None (Some (lit "hello")) = ([], Err TypeError).
Proof. exact (fun E => C_Cli.ex55_demo). Qed.

(** Beside C62: the steps reproduce the hex of ex49_demo. *)
Example ex62_demo : forall E : Env,
  exists j js, @task_create_unsigned_transaction_json demo_env cli_inputs cli_design = ([j], Ok tt) /\
  @task_create_signed_transaction_json demo_env (Some j) [key1; key2] = ([js], Ok tt) /\ @task_create_signed_transaction_hex demo_env (Some js) = ([signed_hex], Err NameError).
Proof. exact (fun E => C_Cli.ex62_demo). Qed.

(** Beside C63. *)
Example ex63_demo : forall E : Env,
  @main demo_env no_shell (command "hello" [] [] None) = ([lit "hello world"], Ok tt) /\
  @main demo_env no_shell (command "get_address" [] [[32] ++ key1 ++ [10]] None) = ([addr1], Ok tt) /\
  @main demo_env no_shell (command "get_address" [key1; key2] [] None) = ([], Err AssertionError) /\
  @main demo_env no_shell (command "sign_data" [key1] [] (Some [])) = ([], Err ValueError) /\
  @main demo_env no_shell (command "create_transaction" [key1] [] None) = ([], Err ValueError) /\
  @main demo_env no_shell (command "get_python_version" [] [] None) = ([], Err ValueError) /\
  snd (@main demo_env no_shell (command "stop" [] [] None)) = Err SystemExit.
Proof. exact (fun E => C_Cli.ex63_demo). Qed.

(** Beside C64: a valid key, and an invalid one. *)
Example ex64_demo : forall E : Env,
  (exists pub, @key_pub demo_env key1 pub) /\
  (forall k, @ec_format_private_key_hex demo_env (hex_of (repeat 0 32)) = Ok k -> @ec_validate_private_key_hex demo_env k <> Ok tt).
Proof. exact (fun E => C_Cli.ex64_demo). Qed.

(** Beside C65. *)
Example ex65_demo : forall E : Env,
  @task_get_python_version demo_env (fun c => if str_eqb c (lit "python3 --version") then (lit "Python 3.9.2" ++ [10], [], 0) else (lit "/usr/bin/python3" ++ [10], [], 0)) = ([lit "Python 3.9.2"], Ok tt) /\
  (exists out, @task_get_python_version demo_env (fun c => ([], lit "no", 0)) = (out, Err SystemExit)) /\
  shell_tool_exists no_shell (lit "rm x") (fun _ => finish) = ([], Err ValueError).
Proof. exact (fun E => C_Cli.ex65_demo). Qed.

(** Beside C66: a digest of any length is accepted, and anything that is hex for the signature reaches the library. *)
Example ex66_demo : forall E : Env,
  forall E : Env, @verify_signature_digest E (hex_of (repeat 1 64)) [] [] = ec_verify_digest (hex_of (repeat 1 64)) [] [] /\
  @verify_signature_digest E (hex_of (repeat 1 64)) (lit "0") [] = Err AttributeError /\ @verify_signature_digest E [] [] [] = Err ValueError /\
  @verify_signature E (PStr (hex_of (repeat 1 64))) (PStr []) (PStr []) = Err ValueError.
Proof. exact (fun E => C_Cli.ex66_demo). Qed.

