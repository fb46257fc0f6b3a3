(** Specification of the logger configuration. *)
From Coq Require Import String.
From Verif Require Import PyBase Logger.

(** The level names, with the numbers of the logging module. *)
Definition level_named (name : pystr) (n : Z) : Prop :=
  (name = lit "error" /\ n = 40) \/ (name = lit "warning" /\ n = 30) \/ (name = lit "info" /\ n = 20) \/ (name = lit "debug" /\ n = 10).

(** The arguments ask for level n, for lines with a timestamp or not, and for a log file or none (None and '' both mean none). *)
Definition log_args (c : log_call) (n : Z) (ts : bool) (file : option pystr) : Prop :=
  (exists name debug, lc_log_level c = PStr name /\ lc_debug c = PBool debug /\ level_named (if debug then lit "debug" else name) n) /\
  ((lc_log_timestamp c = PNone /\ ts = false) \/ lc_log_timestamp c = PBool ts) /\
  match file with
  | None => lc_log_file c = PNone \/ lc_log_file c = PStr []
  | Some f => lc_log_file c = PStr f /\ f <> []
  end.

(** The handlers that a successful call adds. *)
Definition added (n : Z) (ts : bool) (file : option pystr) : list handler :=
  ConsoleHandler n ts :: match file with Some f => [FileHandler f n ts] | None => [] end.

(** The arguments have the right types (the level need not be the name of one). *)
Definition log_types (c : log_call) : Prop :=
  (exists name, lc_log_level c = PStr name) /\ (exists debug, lc_debug c = PBool debug) /\
  (lc_log_timestamp c = PNone \/ exists ts, lc_log_timestamp c = PBool ts) /\ (lc_log_file c = PNone \/ exists file, lc_log_file c = PStr file).
