(** Model of main of cli.py (L183-293) as it starts from the parsed command line: it reads files, sets up logging and runs the task.
    The record holds what parse_args (Args.v) returned.  The file system is given by two functions; an error of the
    operating system (FileNotFoundError, PermissionError, ...) is one of the exceptions they may return.  Files are not modified
    between two reads. *)
From Coq Require Import String.
From Verif Require Import PyBase Env PyNum Validate Basic TxInput TxOutput Tx Create Logger Cli.

(** a = parser.parse_args() (cli.py L77-174): the options in the order they are declared. *)
Record parsed : Type := mk_parsed {
  p_task : pystr;
  p_private_key_hex : option (list (list pystr));    (* nargs='+', action='append' *)
  p_private_key_file : option (list (list pystr));
  p_private_key_dir : option pystr;
  p_private_key_wif : option pystr;
  p_public_key_hex : option pystr;
  p_signature_hex : option pystr;
  p_data : option pystr;
  p_data_file : option pystr;
  p_input_file : option pystr;
  p_design_file : option pystr;
  p_log_level : pystr;
  p_debug : bool;
  p_log_timestamp : bool;
  p_log_to_file : bool;
  p_log_file : pystr
}.

(** open(x).read() and os.listdir(x). *)
Record file_system : Type := mk_fs { fs_read : pystr -> res pystr; fs_list : pystr -> res (list pystr) }.

(** Position of the last c in s, or -1: str.rfind. *)
Fixpoint rfind_from (c : Z) (s : pystr) (i last : Z) : Z :=
  match s with [] => last | x :: r => rfind_from c r (i + 1) (if x =? c then i else last) end.
Definition rfind (c : Z) (s : pystr) : Z := rfind_from c s 0 (-1).
(** os.path.splitext(p)[1] on POSIX (genericpath._splitext): from the last dot, if it comes after the last slash and a character
    that is not a dot stands between them. *)
Definition splitext_1 (p : pystr) : pystr :=
  let sep := rfind 47 p in
  let dot := rfind 46 p in
  if sep <? dot then
    if existsb (fun c => negb (c =? 46)) (firstn (Z.to_nat (dot - (sep + 1))) (skipn (Z.to_nat (sep + 1)) p)) then skipn (Z.to_nat dot) p else []
  else [].
(** os.path.join(d, x) on POSIX. *)
Definition first_is (c : Z) (s : pystr) : bool := match s with x :: _ => x =? c | [] => false end.
Definition path_join (d x : pystr) : pystr :=
  if first_is 47 x then x
  else if match d with [] => true | _ => first_is 47 (rev d) end then d ++ x
  else d ++ [47] ++ x.

(** An option given and not empty: "if a.x:". *)
Definition given_text (o : option pystr) : option pystr := match o with Some (c :: r) => Some (c :: r) | _ => None end.

Section WithEnv.
Context {E : Env}.

(** cli.py L183-205: a.data, a.private_keys_hex.  The keys of files are stripped. *)
Definition read_data (fs : file_system) (p : parsed) : res (option pystr) :=
  match given_text (p_data_file p) with
  | Some f => d <- fs_read fs f ;; Ok (Some d)
  | None => Ok (p_data p)
  end.
Definition key_files (fs : file_system) (p : parsed) : res (list pystr) :=
  from_files <- (match p_private_key_file p with Some l => mapM (fs_read fs) (concat l) | None => Ok [] end) ;;
  from_dir <- (match given_text (p_private_key_dir p) with
               | Some d =>
                   names <- fs_list fs d ;;
                   mapM (fs_read fs) (map (path_join d) (filter (fun x => str_eqb (splitext_1 x) (lit ".txt")) names))
               | None => Ok [] end) ;;
  Ok (from_files ++ from_dir).
(** The arguments with contents in place of files; the two JSON files are read later. *)
Definition with_contents (fs : file_system) (p : parsed) : res cli_args :=
  data <- read_data fs p ;;
  files <- key_files fs p ;;
  Ok (mk_args (p_task p) (match p_private_key_hex p with Some l => concat l | None => [] end) files
        (p_private_key_wif p) (p_public_key_hex p) (p_signature_hex p) data None None).
(** cli.py L228-252: a.inputs and a.design; json.load(f) is json.loads(f.read()). *)
Definition read_json_files (fs : file_system) (p : parsed) (c : cli_args) : res (pyval * pyval) :=
  if task_is c ["create_unsigned_transaction_json"; "create_sign_and_verify_transaction_hex";
                "create_transaction"]%string then
    match given_text (p_input_file p), given_text (p_design_file p) with
    | None, _ => Err ValueError
    | _, None => Err ValueError
    | Some i, Some d =>
        inputs <- (s <- fs_read fs i ;; json_loads s) ;;
        design <- (s <- fs_read fs d ;; json_loads s) ;;
        Ok (inputs, design)
    end
  else Ok (PNone, PNone).
(** cli.py L180-181, L254-261: the arguments of setup. *)
Definition log_arguments (p : parsed) : log_call :=
  mk_call (PStr (p_log_level p)) (PBool (p_debug p)) (PBool (p_log_timestamp p))
    (if p_log_to_file p then PStr (p_log_file p) else PNone) (Ok tt).
(** cli.py L177-293: main from the parsed command line.  [ls] are the loggers that setup configures and [dirs] the outcomes of
    creating the log directory; log lines go to stderr and are not part of what is printed. *)
Definition run (fs : file_system) (sh : shell) (ls : list logger) (dirs : nat -> res unit) (p : parsed) : task :=
  c <-- with_contents fs p ;;
  u1 <-- check_single_key c ;;
  u2 <-- check_data c ;;
  '(inputs, design) <-- read_json_files fs p c ;;
  u3 <-- fst (setup_all ls (log_arguments p) dirs 0) ;;
  dispatch sh c inputs design.

End WithEnv.
