(** Property theorems: generated by tools/genprops.py from C_History.v, which holds the proofs. *)
From Coq Require Import String Floats.SpecFloat Permutation Sorted Lia.
From Verif Require Import PyBase Env PyNum Validate Basic Spec EnvOk TxInput TxOutput Tx Create TxSpec SignSpec FloatSpec NumSpec CreateSpec RefuseSpec HistorySpec Demo DemoTx DemoCreate DemoRefuse DemoHistory.
Open Scope Z_scope.
From Verif Require C_History.

(** C81.  One call settles the argument object: a second call, whatever the outcome of either, changes nothing in it. *)
Theorem C81_settles : forall E : Env,
  HashOk E -> ZeroAddressOk E -> UniOk E -> forall a,
  snd (create_transaction (snd (create_transaction a))) = snd (create_transaction a).
Proof. exact (fun E => C_History.c81_settles). Qed.
Print Assumptions C81_settles.

(** C81.  So every later call ends like the second one. *)
Theorem C81_history : forall E : Env,
  HashOk E -> ZeroAddressOk E -> UniOk E -> forall a n,
  fst (create_transaction (Nat.iter (S n) (fun x => snd (create_transaction x)) a)) = fst (create_transaction (snd (create_transaction a))).
Proof. exact (fun E => C_History.c81_history). Qed.
Print Assumptions C81_history.

(** C81.  A call refused for the form of its arguments is refused again with the same exception. *)
Theorem C81_refused_again : forall E : Env,
  HashOk E -> ZeroAddressOk E -> UniOk E -> forall a e,
  first_problem (form_checks a) e ->
  fst (create_transaction a) = Err e /\ fst (create_transaction (snd (create_transaction a))) = Err e.
Proof. exact (fun E => C_History.c81_refused_again). Qed.
Print Assumptions C81_refused_again.

(** C81.  After any other call, successful or not, the argument object is refused with ValueError (if it names an input or an output). *)
Theorem C81_used_up : forall E : Env,
  HashOk E -> ZeroAddressOk E -> UniOk E -> forall a,
  all_pass (form_checks a) -> ~ empty_request a ->
  fst (create_transaction (snd (create_transaction a))) = Err ValueError.
Proof. exact (fun E => C_History.c81_used_up). Qed.
Print Assumptions C81_used_up.

(** C81.  A request that names neither an input nor an output can be repeated: every call ends like the first. *)
Theorem C81_empty : forall E : Env,
  HashOk E -> ZeroAddressOk E -> UniOk E -> forall a,
  all_pass (form_checks a) -> empty_request a ->
  fst (create_transaction (snd (create_transaction a))) = fst (create_transaction a).
Proof. exact (fun E => C_History.c81_empty). Qed.
Print Assumptions C81_empty.

(** C81.  The checks of form are those of C69 that are made before any amount is converted. *)
Theorem C81_form_first : forall E : Env,
  forall a, argument_checks a = form_checks a ++ late_checks a.
Proof. exact (fun E => C_History.c81_form_first). Qed.
Print Assumptions C81_form_first.

(** C82.  After a call that passed the checks of form, successful or not, the argument object is known entry by entry. *)
Theorem C82_done : forall E : Env,
  HashOk E -> ZeroAddressOk E -> UniOk E -> forall a, all_pass (form_checks a) -> arguments_done a (snd (create_transaction a)).
Proof. exact (fun E => C_History.c82_done). Qed.
Print Assumptions C82_done.

(** C82.  After a call refused for the form of its arguments, each entry is as it was or has been rewritten in the same way; none has been added or removed. *)
Theorem C82_tried : forall E : Env,
  HashOk E -> ZeroAddressOk E -> UniOk E -> forall a e, first_problem (form_checks a) e -> arguments_tried a (snd (create_transaction a)).
Proof. exact (fun E => C_History.c82_tried). Qed.
Print Assumptions C82_tried.

(** C81.  Not every refusal is repeated: a selection approach that is not implemented is reported once; the second call reports something else. *)
Theorem C81_same_refusal_refuted : forall E : Env,
  exists a, fst (@create_transaction demo_env a) = Err NotImplementedError /\
  fst (@create_transaction demo_env (snd (@create_transaction demo_env a))) = Err ValueError.
Proof. exact (fun E => C_History.c81_same_refusal_refuted). Qed.
Print Assumptions C81_same_refusal_refuted.

Example ex81_refused_again : forall E : Env,
  first_problem (@form_checks demo_env two_problems) ValueError /\
  fst (@create_transaction demo_env (snd (@create_transaction demo_env two_problems))) = Err ValueError.
Proof. exact (fun E => C_History.ex81_refused_again). Qed.

Example ex81_used_up : forall E : Env,
  (all_pass (@form_checks demo_env demo_ns) /\ ~ empty_request demo_ns) /\ fst (@create_transaction demo_env demo_ns) = Ok created /\
  forall n, fst (@create_transaction demo_env (Nat.iter (S n) (fun x => snd (@create_transaction demo_env x)) demo_ns)) = Err ValueError.
Proof. exact (fun E => C_History.ex81_used_up). Qed.

(** A request without inputs and outputs can be repeated. *)
Example ex81_empty : forall E : Env,
  empty_request nothing /\ fst (@create_transaction demo_env nothing) = Err OutputAndFeeValueNotCovered /\
  fst (@create_transaction demo_env (snd (@create_transaction demo_env nothing))) = Err OutputAndFeeValueNotCovered.
Proof. exact (fun E => C_History.ex81_empty). Qed.

(** What is left of a request: the index "7" became 7, the fee "10000" became 10000, the amount "0.501" became "0.50100000", and the satoshi were added. *)
Example ex82_done : forall E : Env,
  @arguments_done demo_env demo_ns (snd (@create_transaction demo_env demo_ns)) /\ snd (@create_transaction demo_env spelled) = spelled_after.
Proof. exact (fun E => C_History.ex82_done). Qed.

