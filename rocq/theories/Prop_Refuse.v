(** Property theorems: generated by tools/genprops.py from C_Refuse.v, which holds the proofs. *)
From Coq Require Import String Floats.SpecFloat Permutation Sorted Lia Classical.
From Verif Require Import PyBase Env PyNum Validate Basic Spec EnvOk TxInput TxOutput Tx Create TxSpec FloatSpec NumSpec ValidSpec CreateSpec RefuseSpec Demo DemoTx DemoCreate DemoRefuse.
Open Scope Z_scope.
From Verif Require C_Refuse.

(** C69.  The first of the argument checks that fails decides the exception. *)
Theorem C69_first_problem : forall E : Env,
  HashOk E -> ZeroAddressOk E -> UniOk E -> forall a e,
  first_problem (argument_checks a) e -> fst (create_transaction a) = Err e.
Proof. exact (fun E => C_Refuse.c69_first_problem). Qed.
Print Assumptions C69_first_problem.

(** C69.  Passing all of them is exactly being a well-formed order whose indices fit in 4 bytes (or fee=True). *)
Theorem C69_well_formed : forall E : Env,
  HashOk E -> ZeroAddressOk E -> UniOk E -> forall a, ~ fee_is_true a ->
  (all_pass (argument_checks a) <-> exists q, asked a q /\ Forall (fun i => ia_index i < 2 ^ 32) (q_inputs q)).
Proof. exact (fun E => C_Refuse.c69_well_formed). Qed.
Print Assumptions C69_well_formed.

(** C69.  A fee of True is never accepted. *)
Theorem C69_fee_true : forall E : Env,
  HashOk E -> ZeroAddressOk E -> UniOk E -> forall a, fee_is_true a -> exists e, fst (create_transaction a) = Err e.
Proof. exact (fun E => C_Refuse.c69_fee_true). Qed.
Print Assumptions C69_fee_true.

(** C70.  For a well-formed order: the first of the order checks that fails decides the exception, and if none fails
    there is a transaction. *)
Theorem C70_first_problem : forall E : Env,
  HashOk E -> ZeroAddressOk E -> UniOk E -> forall a q,
  asked a q -> double (q_max_spend q) -> Forall (fun i => ia_index i < 2 ^ 32) (q_inputs q) ->
  ((exists t, fst (create_transaction a) = Ok t) <-> all_pass (order_checks q)) /\
  (forall e, fst (create_transaction a) = Err e <-> first_problem (order_checks q) e).
Proof. exact (fun E => C_Refuse.c70_first_problem). Qed.
Print Assumptions C70_first_problem.

(** C71.  Nothing else can happen: a call that raises e has a first problem with that exception, in the arguments or in
    the order. *)
Theorem C71_every_error : forall E : Env,
  HashOk E -> ZeroAddressOk E -> UniOk E -> forall a e, ~ fee_is_true a ->
  (forall d f, ns_design a = Some (PDict d) -> percentage d f -> double f) ->
  (fst (create_transaction a) = Err e <->
   first_problem (argument_checks a) e \/
   (exists q, asked a q /\ Forall (fun i => ia_index i < 2 ^ 32) (q_inputs q) /\ first_problem (order_checks q) e)).
Proof. exact (fun E => C_Refuse.c71_every_error). Qed.
Print Assumptions C71_every_error.

(** Two things are wrong; the one that is looked at first is reported. *)
Example ex69_two_problems : forall E : Env,
  first_problem (@argument_checks demo_env two_problems) ValueError /\ fst (@create_transaction demo_env two_problems) = Err ValueError.
Proof. exact (fun E => C_Refuse.ex69_two_problems). Qed.

Example ex69_change_address : forall E : Env,
  first_problem (@argument_checks demo_env bad_change_address) TypeError /\ fst (@create_transaction demo_env bad_change_address) = Err TypeError.
Proof. exact (fun E => C_Refuse.ex69_change_address). Qed.

Example ex69_demo : forall E : Env,
  all_pass (@argument_checks demo_env demo_ns) /\ ~ fee_is_true demo_ns.
Proof. exact (fun E => C_Refuse.ex69_demo). Qed.

Example ex69_fee_true : forall E : Env,
  fee_is_true true_fee /\ exists e, fst (@create_transaction demo_env true_fee) = Err e.
Proof. exact (fun E => C_Refuse.ex69_fee_true). Qed.

Example ex70_repeated : forall E : Env,
  @asked demo_env repeated repeated_order /\ first_problem (@order_checks repeated_order) DuplicateOutputAddressError /\
  fst (@create_transaction demo_env repeated) = Err DuplicateOutputAddressError.
Proof. exact (fun E => C_Refuse.ex70_repeated). Qed.

Example ex70_demo : forall E : Env,
  @asked demo_env demo_ns demo_order /\ all_pass (order_checks demo_order).
Proof. exact (fun E => C_Refuse.ex70_demo). Qed.

Example ex71_repeated : forall E : Env,
  ~ fee_is_true repeated /\ (forall d f, ns_design repeated = Some (PDict d) -> @percentage demo_env d f -> double f).
Proof. exact (fun E => C_Refuse.ex71_repeated). Qed.

