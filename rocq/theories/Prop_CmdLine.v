(** Property theorems: generated by tools/genprops.py from C_CmdLine.v, which holds the proofs. *)
From Coq Require Import String Lia.
From Verif Require Import PyBase Env PyNum Logger LogSpec Cli Files FilesSpec Demo DemoTx DemoCreate DemoFiles Args ArgsSpec DemoArgs.
Open Scope Z_scope.
From Verif Require C_CmdLine.

(** C77.  A list of words is accepted, with result p, iff it is a command (a sequence of options written in one of the documented ways) whose settings go together, and p is what they mean. *)
Theorem C77_parsed : forall E : Env,
  forall ws p, parse_args ws = Parsed p <-> exists s, command ws s /\ go_together s /\ meaning s p.
Proof. exact (fun E => C_CmdLine.c77_parsed). Qed.
Print Assumptions C77_parsed.

(** C77.  Settings that go together have exactly one meaning. *)
Theorem C77_meaning : forall E : Env,
  forall ws s, command ws s -> go_together s -> exists p, meaning s p /\ forall p', meaning s p' -> p' = p.
Proof. exact (fun E => C_CmdLine.c77_meaning). Qed.
Print Assumptions C77_meaning.

(** C77.  A command shows the help (exit status 0) iff the settings before the first request for help go together; it is refused (exit status 2) iff its settings do not go together and it does not show the help. *)
Theorem C77_exits : forall E : Env,
  forall ws s, command ws s ->
  (parse_args ws = Helped <-> exists a b, s = a ++ (O_help, []) :: b /\ go_together a) /\
  (parse_args ws = Refused <-> ~ go_together s /\ ~ exists a b, s = a ++ (O_help, []) :: b /\ go_together a).
Proof. exact (fun E => C_CmdLine.c77_exits). Qed.
Print Assumptions C77_exits.

(** C77.  The program does what the settings ask for; if the words are no command, or the settings do not go together, it ends in an exception (as a rule SystemExit, after a usage message) that depends on the words only:
    no file is read, nothing is signed, and no result is printed. *)
Theorem C77_program : forall E : Env,
  forall ws,
  (forall s p, command ws s -> go_together s -> meaning s p -> forall fs sh ls dirs, program fs sh ls dirs ws = run fs sh ls dirs p) /\
  ((forall s, command ws s -> ~ go_together s) -> exists e, (e = SystemExit \/ e = ValueError \/ e = IndexError) /\ forall fs sh ls dirs, program fs sh ls dirs ws = ([], Err e)).
Proof. exact (fun E => C_CmdLine.c77_program). Qed.
Print Assumptions C77_program.

(** C77.  From the words to the effect: if the words are a command whose settings go together, and the files named by the settings can be read, the program has the effect of the command with the contents of the files (C63-C65, C73).
    The log level needs no hypothesis (compare C74): only existing levels get through. *)
Theorem C77_effect : forall E : Env,
  forall fs sh ls dirs ws s p c, command ws s -> go_together s -> meaning s p -> listing_ok fs -> log_dir_ok p dirs -> contents fs p c ->
  program fs sh ls dirs ws = main sh c.
Proof. exact (fun E => C_CmdLine.c77_effect). Qed.
Print Assumptions C77_effect.

(** C78.  The order of the options on the command line makes no difference, as long as the occurrences of each single option stay in their order. *)
Theorem C78_order : forall E : Env,
  forall ws ws' s s', command ws s -> command ws' s' -> (forall o, occurrences s o = occurrences s' o) ->
  (forall p, parse_args ws = Parsed p <-> parse_args ws' = Parsed p) /\
  (forall p fs sh ls dirs, parse_args ws = Parsed p -> program fs sh ls dirs ws = program fs sh ls dirs ws').
Proof. exact (fun E => C_CmdLine.c78_order). Qed.
Print Assumptions C78_order.

(** C78.  Any text except "--" can be given as the value of an option with "=", whatever it looks like; the last value wins. *)
Theorem C78_equals : forall E : Env,
  forall ws s o v, command ws s -> single o -> v <> lit "--" ->
  command (ws ++ [long o ++ lit "=" ++ v]) (s ++ [(o, [v])]) /\ last_value (s ++ [(o, [v])]) o v.
Proof. exact (fun E => C_CmdLine.c78_equals). Qed.
Print Assumptions C78_equals.

(** C78.  As the word after the option, a text that begins like an option is not taken as its value: such a command line is never accepted as the one option with that value. *)
Theorem C78_dash_value_refuted : forall E : Env,
  ~ (forall o v, single o -> v <> lit "--" -> exists p, parse_args [long o; v] = Parsed p /\ last_value [(o, [v])] o v).
Proof. exact (fun E => C_CmdLine.c78_dash_value_refuted). Qed.
Print Assumptions C78_dash_value_refuted.

(** C78.  Nothing that is not an option or its value gets through: not "--", and no word in front of the first option. *)
Theorem C78_stray : forall E : Env,
  forall ws p, parse_args ws = Parsed p -> ~ In (lit "--") ws /\ forall w r, ws = w :: r -> ~ value_word w.
Proof. exact (fun E => C_CmdLine.c78_stray). Qed.
Print Assumptions C78_stray.

(** C78.  At most one source of keys and at most one source of data gets through, and the log level is one of the four. *)
Theorem C78_sources : forall E : Env,
  forall ws p, parse_args ws = Parsed p ->
  (p_private_key_hex p = None \/ p_private_key_file p = None) /\ (p_private_key_hex p = None \/ p_private_key_dir p = None) /\ (p_private_key_hex p = None \/ p_private_key_wif p = None) /\
  (p_private_key_file p = None \/ p_private_key_dir p = None) /\ (p_private_key_file p = None \/ p_private_key_wif p = None) /\ (p_private_key_dir p = None \/ p_private_key_wif p = None) /\
  (p_data p = None \/ p_data_file p = None) /\ In (p_log_level p) [lit "debug"; lit "info"; lit "warning"; lit "error"].
Proof. exact (fun E => C_CmdLine.c78_sources). Qed.
Print Assumptions C78_sources.

(** C78.  The commands of the README, with any file names that do not begin with a dash. *)
Theorem C78_readme : forall E : Env,
  forall keys inputs design data, Forall (fun f => forall r, f <> lit "-" ++ r) [keys; inputs; design; data] ->
  parse_args [lit "--task"; lit "create_transaction"; lit "--private-key-dir"; keys; lit "--input-file"; inputs; lit "--design-file"; design] =
    Parsed (mk_parsed (lit "create_transaction") None None (Some keys) None None None None None (Some inputs) (Some design) (lit "error") false false false (lit "log_bitcoin_toolset.txt")) /\
  parse_args [lit "--task"; lit "create_signed_transaction_json"; lit "--private-key-dir"; keys; lit "--data-file"; data] =
    Parsed (mk_parsed (lit "create_signed_transaction_json") None None (Some keys) None None None None (Some data) None None (lit "error") false false false (lit "log_bitcoin_toolset.txt")).
Proof. exact (fun E => C_CmdLine.c78_readme). Qed.
Print Assumptions C78_readme.

Example ex77_parsed : forall E : Env,
  @parse_args demo_env (words ["--task"; "sign_data"; "--private-key-hex"; "01"; "--data=hello world"]%string) = Parsed (parsed_with "sign_data" "error" false false false (Some (lit "hello world")) (Some [[lit "01"]])) /\
  @parse_args demo_env (words ["-dsxthello"; "--private-key-h"; "01"; "02"; "--log-l"; "info"; "--private-key-hex=03"]%string) =
    Parsed (parsed_with "hello" "info" true true true None (Some [[lit "01"; lit "02"]; [lit "03"]])) /\
  @parse_args demo_env (words ["-t"; "a"; "--task=b"; "--data"; "-5"]%string) = Parsed (parsed_with "b" "error" false false false (Some (lit "-5")) None) /\
  @parse_args demo_env [] = Parsed (parsed_with "hello" "error" false false false None None).
Proof. exact (fun E => C_CmdLine.ex77_parsed). Qed.

Example ex77_exits : forall E : Env,
  @parse_args demo_env (words ["--private-key-hex"; "01"; "--private-key-wif"; "5H"]%string) = Refused /\ @parse_args demo_env (words ["--data=a"; "--data-file"; "f"]%string) = Refused /\
  @parse_args demo_env (words ["--log-level"; "fatal"]%string) = Refused /\ @parse_args demo_env (words ["--private-key"; "01"]%string) = Refused /\ @parse_args demo_env (words ["hello"]%string) = Refused /\
  @parse_args demo_env (words ["--task"]%string) = Refused /\ @parse_args demo_env (words ["--task"; "--"; "hello"]%string) = Refused /\ @parse_args demo_env (words ["--debug=1"]%string) = Refused /\
  @parse_args demo_env (words ["-dh"; "--log-level"; "fatal"]%string) = Helped /\ @parse_args demo_env (words ["--task=--"]%string) = Raised ValueError /\ @parse_args demo_env (words ["-d="]%string) = Raised IndexError.
Proof. exact (fun E => C_CmdLine.ex77_exits). Qed.

Example ex77_meets : forall E : Env,
  exists s p, @command demo_env (words ["--task"; "get_address"; "--private-key-dir"; "one/"]%string) s /\ go_together s /\ meaning s p /\ p = demo_parsed "get_address" (Some (lit "one/")).
Proof. exact (fun E => C_CmdLine.ex77_meets). Qed.

Example ex77_program : forall E : Env,
  @program demo_env demo_files no_shell [fresh_logger] (fun _ => Ok tt) (words ["--task"; "get_address"; "--private-key-dir=one/"]%string) = ([addr1], Ok tt).
Proof. exact (fun E => C_CmdLine.ex77_program). Qed.

Example ex78_order : forall E : Env,
  @parse_args demo_env (words ["--data=x"; "-t"; "sign_data"; "-d"; "--data=y"]%string) = @parse_args demo_env (words ["-dtsign_data"; "--data=x"; "--data=y"]%string) /\
  @parse_args demo_env (words ["--data=x"; "-t"; "sign_data"; "-d"; "--data=y"]%string) = Parsed (parsed_with "sign_data" "error" true false false (Some (lit "y")) None).
Proof. exact (fun E => C_CmdLine.ex78_order). Qed.

