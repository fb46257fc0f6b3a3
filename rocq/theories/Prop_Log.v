(** Property theorems: generated by tools/genprops.py from C_Log.v, which holds the proofs. *)
From Coq Require Import String Floats.SpecFloat Lia.
From Verif Require Import PyBase Env PyNum Validate Spec EnvOk Logger LogSpec Demo.
Open Scope Z_scope.
From Verif Require C_Log.

(** C56.  What one call does, completely: nothing to an initialised logger; with proper arguments it adds a console handler and, if asked, a
    file handler, and sets the level (but if the log directory cannot be created it fails and leaves the console handler); with
    improper arguments it fails and leaves level and handlers alone. *)
Theorem C56_call : forall E : Env,
  forall l c,
  (lg_initialised l = true -> configure_module_logger l c = (Ok tt, l)) /\
  (lg_initialised l = false ->
    (forall n ts, log_args c n ts None -> configure_module_logger l c = (Ok tt, mk_logger true false n (lg_handlers l ++ added n ts None))) /\
    (forall n ts f, log_args c n ts (Some f) -> lc_makedirs c = Ok tt -> configure_module_logger l c = (Ok tt, mk_logger true false n (lg_handlers l ++ added n ts (Some f)))) /\
    (forall n ts f e, log_args c n ts (Some f) -> lc_makedirs c = Err e -> configure_module_logger l c = (Err e, mk_logger false false n (lg_handlers l ++ added n ts None))) /\
    ((forall n ts file, ~ log_args c n ts file) ->
       exists e p, configure_module_logger l c = (Err e, mk_logger false p (lg_level l) (lg_handlers l)) /\ (e = TypeError \/ e = KeyError))).
Proof. exact (fun E => C_Log.c56_call). Qed.
Print Assumptions C56_call.

(** C56.  Once a call has succeeded, no later call changes the logger. *)
Theorem C56_frozen : forall E : Env,
  forall l c l', configure_module_logger l c = (Ok tt, l') -> lg_initialised l' = true /\ forall cs, run_calls l' cs = l'.
Proof. exact (fun E => C_Log.c56_frozen). Qed.
Print Assumptions C56_frozen.

(** C56.  After any history of calls in which the log directory could always be created, a module logger either never had a proper call
    and has its initial handlers and level, or has exactly the handlers and level asked for by the first proper call. *)
Theorem C56_history : forall E : Env,
  forall cs, Forall (fun c => lc_makedirs c = Ok tt) cs ->
  let l := run_calls fresh_logger cs in
  (lg_initialised l = false /\ lg_level l = 40 /\ lg_handlers l = [NullHandler] /\ (forall c n ts file, In c cs -> ~ log_args c n ts file)) \/
  (exists before c after n ts file, cs = before ++ c :: after /\ (forall c' n ts file, In c' before -> ~ log_args c' n ts file) /\ log_args c n ts file /\
     l = mk_logger true false n (NullHandler :: added n ts file)).
Proof. exact (fun E => C_Log.c56_history). Qed.
Print Assumptions C56_history.

(** C56.  After any history of calls, the logger passes its messages on to its ancestors exactly if no call had arguments of the right types. *)
Theorem C56_propagate : forall E : Env,
  forall cs, lg_propagate (run_calls fresh_logger cs) = true <-> (forall c, In c cs -> ~ log_types c).
Proof. exact (fun E => C_Log.c56_propagate). Qed.
Print Assumptions C56_propagate.

(** C56, naive claim "however often setup is called, there is at most one console handler" refuted: each call that fails to create the log
    directory leaves one. *)
Theorem C56_twice_refuted : forall E : Env,
  exists c1 c2 l, run_calls fresh_logger [c1; c2] = l /\ fst (configure_module_logger fresh_logger c1) = Err LibraryError /\
  lg_initialised l = true /\ lg_handlers l = [NullHandler; ConsoleHandler 40 false; ConsoleHandler 40 false].
Proof. exact (fun E => C_Log.c56_twice_refuted). Qed.
Print Assumptions C56_twice_refuted.

(** C60.  Package setup: if it returns normally then every logger is initialised, those that were before are unchanged, and the others
    all have the level asked for. *)
Theorem C60_setup_ok : forall E : Env,
  forall ls c dirs n ls', setup_all ls c dirs n = (Ok tt, ls') ->
  Forall2 (fun l l' => lg_initialised l' = true /\ (lg_initialised l = true -> l' = l) /\
    (lg_initialised l = false -> exists lvl ts file, log_args c lvl ts file /\ l' = mk_logger true false lvl (lg_handlers l ++ added lvl ts file))) ls ls'.
Proof. exact (fun E => C_Log.c60_setup_ok). Qed.
Print Assumptions C60_setup_ok.

(** C60.  If package setup fails, it fails at some logger: those before it are initialised, those after it untouched. *)
Theorem C60_setup_failed : forall E : Env,
  forall ls c dirs n e ls', setup_all ls c dirs n = (Err e, ls') ->
  exists before l after before' l', ls = before ++ l :: after /\ ls' = before' ++ l' :: after /\ length before' = length before /\
    Forall (fun x => lg_initialised x = true) before' /\ lg_initialised l = false /\ lg_initialised l' = false.
Proof. exact (fun E => C_Log.c60_setup_failed). Qed.
Print Assumptions C60_setup_failed.

(** C61.  A freshly configured logger writes exactly the messages of the configured level or above, to the console and to the log file if
    there is one. *)
Theorem C61_emitted : forall E : Env,
  forall c l n ts file m, log_args c n ts file -> configure_module_logger fresh_logger c = (Ok tt, l) ->
  filter (fun h => match h with NullHandler => false | _ => true end) (emit l m) = if n <=? m then added n ts file else [].
Proof. exact (fun E => C_Log.c61_emitted). Qed.
Print Assumptions C61_emitted.

(** C61.  Before any set-up a module is silent: its messages reach no console and no file, and those below the level ERROR reach no handler at all. *)
Theorem C61_silent : forall E : Env,
  forall m, emit fresh_logger m = if 40 <=? m then [NullHandler] else [].
Proof. exact (fun E => C_Log.c61_silent). Qed.
Print Assumptions C61_silent.

(** C61, naive claim "after setLevelStr the messages of the new level or above are written" refuted: the handlers keep their level, so
    messages below the configured level are still not written. *)
Theorem C61_set_level_refuted : forall E : Env,
  forall c l n ts file name k l' m, log_args c n ts file -> configure_module_logger fresh_logger c = (Ok tt, l) ->
  level_named name k -> set_level_str l name = (Ok tt, l') -> m < n ->
  filter (fun h => match h with NullHandler => false | _ => true end) (emit l' m) = [].
Proof. exact (fun E => C_Log.c61_set_level_refuted). Qed.
Print Assumptions C61_set_level_refuted.

(** Concrete cases: a proper call, an improper one, a failing one, and package setup with ten loggers. *)
Example ex56_calls : forall E : Env,
  log_args (mk_call (PStr (lit "info")) (PBool false) PNone (PStr (lit "a.log")) (Ok tt)) 20 false (Some (lit "a.log")) /\
  (forall n ts file, ~ log_args (mk_call (PStr (lit "verbose")) (PBool false) PNone PNone (Ok tt)) n ts file) /\
  run_calls fresh_logger [mk_call (PStr (lit "verbose")) (PBool false) PNone PNone (Ok tt); mk_call (PStr (lit "info")) (PBool false) PNone (PStr (lit "a.log")) (Ok tt);
    mk_call (PStr (lit "debug")) (PBool true) PNone PNone (Ok tt)] = mk_logger true false 20 [NullHandler; ConsoleHandler 20 false; FileHandler (lit "a.log") 20 false].
Proof. exact (fun E => C_Log.ex56_calls). Qed.

Example ex60_setup : forall E : Env,
  setup_all (repeat fresh_logger 10) (mk_call (PStr (lit "error")) (PBool true) (PBool true) PNone (Ok tt)) (fun _ => Ok tt) 0 =
    (Ok tt, repeat (mk_logger true false 10 [NullHandler; ConsoleHandler 10 true]) 10) /\
  setup_all (repeat fresh_logger 2) (mk_call (PStr (lit "error")) (PBool false) (PBool false) (PStr (lit "d/f")) (Ok tt)) (fun n => match n with O => Ok tt | _ => Err LibraryError end) 0 =
    (Err LibraryError, [mk_logger true false 40 [NullHandler; ConsoleHandler 40 false; FileHandler (lit "d/f") 40 false]; mk_logger false false 40 [NullHandler; ConsoleHandler 40 false]]).
Proof. exact (fun E => C_Log.ex60_setup). Qed.

Example ex61_levels : forall E : Env,
  exists c l l', log_args c 40 false None /\ configure_module_logger fresh_logger c = (Ok tt, l) /\ set_level_str l (lit "debug") = (Ok tt, l') /\
  emit l' 10 = [NullHandler] /\ emit l' 40 = [NullHandler; ConsoleHandler 40 false].
Proof. exact (fun E => C_Log.ex61_levels). Qed.

