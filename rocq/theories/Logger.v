(** Model of bitcoin_toolset/util/module_logger.py: configure_module_logger as a state machine on one logger. *)
From Coq Require Import String.
From Verif Require Import PyBase Env PyNum Validate.

(** Handlers in the order they were added.  NullHandler comes from the module preamble
    (e.g. basic.py L31: logger.addHandler(logging.NullHandler())). *)
Inductive handler : Type :=
| NullHandler
| ConsoleHandler (level : Z) (timestamp : bool)
| FileHandler (path : pystr) (level : Z) (timestamp : bool).

Record logger : Type := mk_logger {
  lg_initialised : bool;
  lg_propagate : bool;
  lg_level : Z;
  lg_handlers : list handler
}.

(** Module preamble: a NullHandler and level ERROR (basic.py L30-32). *)
Definition fresh_logger : logger := mk_logger false true 40 [NullHandler].

Record log_call : Type := mk_call {
  lc_log_level : pyval;
  lc_debug : pyval;
  lc_log_timestamp : pyval;
  lc_log_file : pyval;
  lc_makedirs : res unit   (* outcome of creating the log directory, if it has to be created (L148-151) *)
}.

Section WithEnv.
Context {E : Env}.

(** module_logger.py L56-62: levels[level_str]; 40/30/20/10 are logging.ERROR .. logging.DEBUG *)
Definition level_of (s : pystr) : res Z :=
  if str_eqb s (lit "error") then Ok 40
  else if str_eqb s (lit "warning") then Ok 30
  else if str_eqb s (lit "info") then Ok 20
  else if str_eqb s (lit "debug") then Ok 10
  else Err KeyError.

(** module_logger.py L45-51 *)
Definition validate_log_args (c : log_call) : res unit :=
  validate_string (lc_log_level c) ;;;
  validate_boolean (lc_debug c) ;;;
  (if is_none (lc_log_timestamp c) then Ok tt else validate_boolean (lc_log_timestamp c)) ;;;
  (if is_none (lc_log_file c) then Ok tt else validate_string (lc_log_file c)).

(** module_logger.py L33-164: configure_module_logger (the formatter is reduced to whether it has a timestamp;
    logger_name is always a str). *)
Definition configure_module_logger (l : logger) (c : log_call) : res unit * logger :=
  if lg_initialised l then (Ok tt, l)
  else
    match validate_log_args c with
    | Err e => (Err e, l)
    | Ok _ =>
        let l1 := mk_logger false false (lg_level l) (lg_handlers l) in
        let level_str := if truthy (lc_debug c) then lit "debug"
                         else match lc_log_level c with PStr s => s | _ => [] end in
        match level_of level_str with
        | Err e => (Err e, l1)
        | Ok level =>
            let ts := truthy (lc_log_timestamp c) in
            let l2 := mk_logger false false level (lg_handlers l1 ++ [ConsoleHandler level ts]) in
            match lc_log_file c with
            | PStr (x :: r) =>
                match lc_makedirs c with
                | Err e => (Err e, l2)
                | Ok _ => (Ok tt, mk_logger true false level
                                    (lg_handlers l2 ++ [FileHandler (x :: r) level ts]))
                end
            | _ => (Ok tt, mk_logger true false level (lg_handlers l2))
            end
        end
    end.

(** module_logger.py L68-73: the method setLevelStr of a configured logger.  It changes the level of the logger only, not that of
    its handlers. *)
Definition set_level_str (l : logger) (s : pystr) : res unit * logger :=
  match level_of s with
  | Err e => (Err e, l)
  | Ok level => (Ok tt, mk_logger (lg_initialised l) (lg_propagate l) level (lg_handlers l))
  end.

(** logging.Logger.callHandlers restricted to one logger: a record of level n is passed to a handler if neither the level of the
    logger nor that of the handler is higher. *)
Definition handler_level (h : handler) : Z :=
  match h with NullHandler => 0 | ConsoleHandler n _ => n | FileHandler _ n _ => n end.
Definition emit (l : logger) (n : Z) : list handler :=
  if lg_level l <=? n then filter (fun h => handler_level h <=? n) (lg_handlers l) else [].

(** setup() of a package: the loggers of its modules are configured one after the other with the same arguments, until one
    fails (cli.py L43-67, bitcoin_toolset/__init__.py L24-53, code/__init__.py L27-84, submodules/__init__.py L27-61).  The n-th call
    creates the log directory with outcome [dirs n]. *)
Fixpoint setup_all (ls : list logger) (c : log_call) (dirs : nat -> res unit) (n : nat) : res unit * list logger :=
  match ls with
  | [] => (Ok tt, [])
  | l :: r =>
      let '(x, l') := configure_module_logger l
        (mk_call (lc_log_level c) (lc_debug c) (lc_log_timestamp c) (lc_log_file c) (dirs n)) in
      match x with
      | Err e => (Err e, l' :: r)
      | Ok _ => let '(y, r') := setup_all r c dirs (S n) in (y, l' :: r')
      end
  end.

(** A history of setup() calls on one module logger; exceptions are caught by whoever calls setup. *)
Fixpoint run_calls (l : logger) (cs : list log_call) : logger :=
  match cs with
  | [] => l
  | c :: r => run_calls (snd (configure_module_logger l c)) r
  end.

End WithEnv.
