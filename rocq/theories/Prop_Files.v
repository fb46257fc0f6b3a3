(** Property theorems: generated by tools/genprops.py from C_Files.v, which holds the proofs. *)
From Coq Require Import String Floats.SpecFloat Lia.
From Verif Require Import PyBase Env PyNum Validate Basic TxInput TxOutput Tx Create Logger LogSpec Cli CliSpec Files FilesSpec Demo DemoTx DemoCreate DemoFiles.
Open Scope Z_scope.
From Verif Require C_Files.

(** C74.  With the four levels the command line offers, and if the log directory can be made when it is needed, logging is set up without error, whatever the state of the loggers. *)
Theorem C74_logging : forall E : Env,
  forall ls p dirs, (exists n, level_named (p_log_level p) n) -> log_dir_ok p dirs -> fst (setup_all ls (log_arguments p) dirs 0) = Ok tt.
Proof. exact (fun E => C_Files.c74_logging). Qed.
Print Assumptions C74_logging.

(** C74.  If every file the command needs can be read, running it has the effect of the command with the contents of the files in place of their names: the command of C63-C65.
    Log settings do not change what is printed. *)
Theorem C74_contents : forall E : Env,
  forall fs sh ls dirs p c, listing_ok fs -> (exists n, level_named (p_log_level p) n) -> log_dir_ok p dirs ->
  contents fs p c -> run fs sh ls dirs p = main sh c.
Proof. exact (fun E => C_Files.c74_contents). Qed.
Print Assumptions C74_contents.

(** C74.  If data or keys cannot be read, the command prints nothing and fails with the error of the first file, in the order data file, key files, key directory, its files. *)
Theorem C74_sources : forall E : Env,
  forall fs sh ls dirs p, listing_ok fs ->
  (forall e, sources_fail fs p e -> run fs sh ls dirs p = ([], Err e)) /\
  ((forall e, ~ sources_fail fs p e) -> (exists d, data_content fs p d) /\ (exists l, keys_content fs p l)).
Proof. exact (fun E => C_Files.c74_sources). Qed.
Print Assumptions C74_sources.

(** C74.  If the input file, or then the design file, cannot be read, a command that builds a transaction prints nothing and fails with this error (unless the design file is not given, which is found first). *)
Theorem C74_json_files : forall E : Env,
  forall fs sh ls dirs p, listing_ok fs -> builds (p_task p) -> (forall e, ~ sources_fail fs p e) ->
  (not_given (p_input_file p) \/ not_given (p_design_file p) -> run fs sh ls dirs p = ([], Err ValueError)) /\
  (forall f g e, given (p_input_file p) f -> given (p_design_file p) g -> fs_read fs f = Err e -> run fs sh ls dirs p = ([], Err e)) /\
  (forall f g s e, given (p_input_file p) f -> given (p_design_file p) g -> holds fs f s -> json_loads s = Err e -> run fs sh ls dirs p = ([], Err e)) /\
  (forall f g s v e, given (p_input_file p) f -> given (p_design_file p) g -> holds fs f s -> json_loads s = Ok v -> fs_read fs g = Err e -> run fs sh ls dirs p = ([], Err e)).
Proof. exact (fun E => C_Files.c74_json_files). Qed.
Print Assumptions C74_json_files.

(** C74.  If the log directory is wanted and cannot be made, the command prints nothing and fails: with this error, or with the error it would have failed with anyway. *)
Theorem C74_log_dir : forall E : Env,
  forall fs sh ls dirs p e, p_log_to_file p = true -> p_log_file p <> [] -> (exists n, level_named (p_log_level p) n) -> dirs 0%nat = Err e ->
  exists e', run fs sh (fresh_logger :: ls) dirs p = ([], Err e') /\ (e' = e \/ run fs sh (fresh_logger :: ls) (fun _ => Ok tt) p = ([], Err e')).
Proof. exact (fun E => C_Files.c74_log_dir). Qed.
Print Assumptions C74_log_dir.

(** C74.  The command reads nothing else: if two file systems agree on the files it wants (the data file, the key files, the .txt files of the key directory, and, only if it builds
    a transaction, the input and the design file) and on the listing of the key directory, it does the same with both. *)
Theorem C74_nothing_else : forall E : Env,
  forall fs fs' sh ls dirs p, listing_ok fs -> same_for p fs fs' -> run fs sh ls dirs p = run fs' sh ls dirs p.
Proof. exact (fun E => C_Files.c74_nothing_else). Qed.
Print Assumptions C74_nothing_else.

(** C74.  Which entries of the key directory are read, and under which path. *)
Theorem C74_key_dir : forall E : Env,
  forall fs p d names, listing_ok fs -> given (p_private_key_dir p) d -> fs_list fs d = Ok names ->
  exists paths, dir_paths fs p paths /\ forall path, In path paths <-> exists x, In x names /\ key_file_name x /\ in_dir d x path.
Proof. exact (fun E => C_Files.c74_key_dir). Qed.
Print Assumptions C74_key_dir.

(** Beside C74: a key directory with two key files and other entries, a data file, and a command that needs neither an input file nor a design file. *)
Example ex74_address : forall E : Env,
  @run demo_env demo_files no_shell [fresh_logger] (fun _ => Ok tt) (demo_parsed "get_address" (Some (lit "keys"))) = ([], Err AssertionError) /\
  @run demo_env demo_files no_shell [fresh_logger] (fun _ => Ok tt) (demo_parsed "get_address" (Some (lit "one/"))) = ([addr1], Ok tt) /\
  @run demo_env demo_files no_shell [fresh_logger] (fun _ => Ok tt) (demo_parsed "get_address" (Some (lit "absent"))) = ([], Err LibraryError).
Proof. exact (fun E => C_Files.ex74_address). Qed.

Example ex74_meets : forall E : Env,
  listing_ok demo_files /\ (exists n, level_named (p_log_level (demo_parsed "get_address" (Some (lit "keys")))) n) /\
  (exists c, contents demo_files (demo_parsed "get_address" (Some (lit "keys"))) c /\ map (@strip demo_env) (c_private_key_files c) = [key1; key2]).
Proof. exact (fun E => C_Files.ex74_meets). Qed.

