(** Property theorems: generated by tools/genprops.py from C_OrderSays.v, which holds the proofs. *)
From Coq Require Import String Floats.SpecFloat Permutation Lia.
From Verif Require Import PyBase Env PyNum Validate Basic Spec EnvOk TxInput TxOutput Tx Create FloatSpec NumSpec ValidSpec CreateSpec RefuseSpec Messages MessagesSpec Complaints ComplaintsSpec Answer BasicSays BasicSaysSpec TxSpec JsonSpec DocSays DocSaysSpec OrderSays OrderSaysSpec Demo DemoTx DemoCreate DemoRefuse DemoOrderSays.
Open Scope Z_scope.
From Verif Require C_OrderSays.

(** C101.  What is said of malformed arguments, for every argument object: the class and the text of the first test that fails, and nothing if none does. *)
Theorem C101_said : forall E : Env,
  HashOk E -> ZeroAddressOk E -> UniOk E -> forall repr attrs a,
  (forall e text, front_says repr attrs a = Says e text <-> argument_test repr attrs a (Some (e, text))) /\
  ((exists x, front_says repr attrs a = Gives x) <-> argument_test repr attrs a None).
Proof. exact (fun E => C_OrderSays.c101_said). Qed.
Print Assumptions C101_said.

(** C101.  It is what the code does before it compares amounts. *)
Theorem C101_same : forall E : Env,
  forall repr attrs a, lists_attributes attrs a ->
  (p <- fst (prepare a) ;; _ <- mapM make_input (p_inputs p) ;; _ <- mapM make_output (p_outputs p) ;; ap <- choose_approach (p_approaches p) ;; Ok (p, ap)) = unsaid (front_says repr attrs a).
Proof. exact (fun E => C_OrderSays.c101_same). Qed.
Print Assumptions C101_same.

(** C101.  A failing test makes create_transaction raise the exception with the text. *)
Theorem C101_create : forall E : Env,
  HashOk E -> ZeroAddressOk E -> UniOk E -> forall repr attrs a e text, lists_attributes attrs a ->
  argument_test repr attrs a (Some (e, text)) -> fst (create_transaction a) = Err e.
Proof. exact (fun E => C_OrderSays.c101_create). Qed.
Print Assumptions C101_create.

(** C101.  The tests are those of C69: exactly one answer is the case, and its class is that of the first problem. *)
Theorem C101_first_problem : forall E : Env,
  HashOk E -> ZeroAddressOk E -> UniOk E -> forall repr attrs a, lists_attributes attrs a ->
  (argument_test repr attrs a None <-> all_pass (argument_checks a)) /\
  (forall e, (exists text, argument_test repr attrs a (Some (e, text))) <-> first_problem (argument_checks a) e) /\
  (forall r r', argument_test repr attrs a r -> argument_test repr attrs a r' -> r = r').
Proof. exact (fun E => C_OrderSays.c101_first_problem). Qed.
Print Assumptions C101_first_problem.

Example ex101_two_problems : forall E : Env,
  @argument_test demo_env plain_repr demo_attrs two_problems (Some (ValueError, lit "invalid literal for int() with base 10: 'a lot'")) /\
  lists_attributes demo_attrs two_problems /\ fst (@create_transaction demo_env two_problems) = Err ValueError.
Proof. exact (fun E => C_OrderSays.ex101_two_problems). Qed.

Example ex101_both_ways : forall E : Env,
  @argument_test demo_env plain_repr demo_attrs both_ways
  (Some (ValueError, lit "In the input selection approach list, cannot use both 'largest_first' and 'smallest_first' together.")).
Proof. exact (fun E => C_OrderSays.ex101_both_ways). Qed.

Example ex101_no_design : forall E : Env,
  @argument_test demo_env plain_repr [lit "inputs"] no_design (Some (ValueError,
  lit "Some items are not in the list." ++ [10] ++ lit "List items:" ++ [10] ++ lit "- inputs" ++ [10] ++ lit "Items not found:" ++ [10] ++ lit "- design")) /\ lists_attributes [lit "inputs"] no_design.
Proof. exact (fun E => C_OrderSays.ex101_no_design). Qed.

Example ex101_demo : forall E : Env,
  @argument_test demo_env plain_repr demo_attrs demo_ns None /\ lists_attributes demo_attrs demo_ns.
Proof. exact (fun E => C_OrderSays.ex101_demo). Qed.

