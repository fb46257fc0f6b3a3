(** Property theorems: generated by tools/genprops.py from C_BuildSays.v, which holds the proofs. *)
From Coq Require Import String Floats.SpecFloat Permutation Lia.
From Verif Require Import PyBase Env PyNum Validate Basic Spec EnvOk TxInput TxOutput Tx Create TxSpec FloatSpec NumSpec ValidSpec CreateSpec RefuseSpec ReportSpec Messages MessagesSpec Complaints ComplaintsSpec Answer BasicSays BasicSaysSpec DocSays DocSaysSpec Report OrderSays OrderSaysSpec BuildSays BuildSaysSpec Demo DemoTx DemoCreate DemoRefuse DemoOrderSays.
From Verif Require ReportProofs ReportMainProofs.
Open Scope Z_scope.
From Verif Require C_BuildSays.

(** C102.  The answers, without the texts, are the outcomes of create_transaction. *)
Theorem C102_same : forall E : Env,
  forall repr attrs a, lists_attributes attrs a -> fst (create_transaction a) = unsaid (create_answer repr attrs a).
Proof. exact (fun E => C_BuildSays.c102_same). Qed.
Print Assumptions C102_same.

(** C102.  Of malformed arguments it is said what C101 says. *)
Theorem C102_argument : forall E : Env,
  HashOk E -> ZeroAddressOk E -> UniOk E -> forall repr attrs a e text,
  argument_test repr attrs a (Some (e, text)) -> create_answer repr attrs a = Says e text.
Proof. exact (fun E => C_BuildSays.c102_argument). Qed.
Print Assumptions C102_argument.

(** C102.  What is said of a well-formed order: the class and the text of the first check that fails, and nothing if none does. *)
Theorem C102_said : forall E : Env,
  HashOk E -> ZeroAddressOk E -> UniOk E -> forall repr attrs a q mf, lists_attributes attrs a ->
  asked a q -> double (q_max_spend q) -> Forall (fun i => ia_index i < 2 ^ 32) (q_inputs q) -> max_fee_written repr a q mf ->
  (forall e text, create_answer repr attrs a = Says e text <-> first_said (order_says repr q mf) e text) /\
  ((exists t, create_answer repr attrs a = Gives t) <-> all_pass (order_checks q)).
Proof. exact (fun E => C_BuildSays.c102_said). Qed.
Print Assumptions C102_said.

(** C102.  Every exception of create_transaction with its text: it is about the arguments, or about the order. *)
Theorem C102_every_text : forall E : Env,
  HashOk E -> ZeroAddressOk E -> UniOk E -> forall repr attrs a e text, lists_attributes attrs a -> ~ fee_is_true a ->
  (forall d f, ns_design a = Some (PDict d) -> percentage d f -> double f) ->
  (create_answer repr attrs a = Says e text <->
   argument_test repr attrs a (Some (e, text)) \/
   (exists q mf, asked a q /\ Forall (fun i => ia_index i < 2 ^ 32) (q_inputs q) /\ max_fee_written repr a q mf /\ first_said (order_says repr q mf) e text)).
Proof. exact (fun E => C_BuildSays.c102_every_text). Qed.
Print Assumptions C102_every_text.

(** C102.  The one exception to that: a fee of True.  It counts as 1 in the checks of the arguments, and is refused at the latest when it is to be written as an amount. *)
Theorem C102_fee_true : forall E : Env,
  HashOk E -> ZeroAddressOk E -> UniOk E -> forall repr attrs a, lists_attributes attrs a -> fee_is_true a ->
  (exists e text, create_answer repr attrs a = Says e text) /\
  forall e text, create_answer repr attrs a = Says e text <->
    argument_test repr attrs a (Some (e, text)) \/
    (exists a1 q, fee_one a a1 /\ asked a1 q /\ Forall (fun i => ia_index i < 2 ^ 32) (q_inputs q) /\ first_said (true_fee_says repr q) e text).
Proof. exact (fun E => C_BuildSays.c102_fee_true). Qed.
Print Assumptions C102_fee_true.

(** Two of the outputs pay the same address. *)
Example ex102_repeated : forall E : Env,
  @asked demo_env repeated repeated_order /\
  @create_answer demo_env plain_repr demo_attrs repeated = Says DuplicateOutputAddressError (lit "Multiple outputs (2) send to this address: " ++ addr3).
Proof. exact (fun E => C_BuildSays.ex102_repeated). Qed.

Example ex102_two_problems : forall E : Env,
  @create_answer demo_env plain_repr demo_attrs two_problems = Says ValueError (lit "invalid literal for int() with base 10: 'a lot'").
Proof. exact (fun E => C_BuildSays.ex102_two_problems). Qed.

Example ex102_demo : forall E : Env,
  lists_attributes demo_attrs demo_ns /\ @asked demo_env demo_ns demo_order /\ (exists mf, max_fee_written plain_repr demo_ns demo_order mf) /\
  exists t, @create_answer demo_env plain_repr demo_attrs demo_ns = Gives t.
Proof. exact (fun E => C_BuildSays.ex102_demo). Qed.

Example ex102_fee_true : forall E : Env,
  fee_is_true true_fee /\
  @create_answer demo_env plain_repr demo_attrs true_fee = Says ValueError (lit "Apart from an optional period ('.'), amount can contain only digits. Amount: 0.0000True").
Proof. exact (fun E => C_BuildSays.ex102_fee_true). Qed.

