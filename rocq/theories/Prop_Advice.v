(** Property theorems: generated by tools/genprops.py from C_Advice.v, which holds the proofs. *)
From Coq Require Import String Floats.SpecFloat Permutation Sorted Lia.
From Verif Require Import PyBase Env PyNum Validate Basic Spec EnvOk TxInput TxOutput Tx Create Report TxSpec FloatSpec NumSpec CreateSpec RefuseSpec ReportSpec AdviceSpec Demo DemoTx DemoCreate DemoReport DemoAdvice.
Open Scope Z_scope.
From Verif Require C_Advice.

(** C85.  Whenever more would be spent than permitted, the text of the refusal advises a percentage from 1 to 101; it is 101 exactly if
    everything available would be spent. *)
Theorem C85_advice : forall E : Env,
  HashOk E -> ZeroAddressOk E -> UniOk E -> forall repr a q sel outs f chg limit, asked a q -> overspent q sel outs f chg limit ->
  exists advice, refused_with (create_transaction_says repr a) ValueError (spend_text q limit (in_value sel - chg) advice) /\
    1 <= advice <= 101 /\ (advice = 101 <-> in_value sel - chg = in_value (q_inputs q)).
Proof. exact (fun E => C_Advice.c85_advice). Qed.
Print Assumptions C85_advice.

(** C85.  The advice is sufficient: with the percentage raised to it, written as an int, a float or a str, the same request is answered by the
    transaction that was refused.  (If it does not exceed 100, and if the transaction has at most 252 outputs.) *)
Theorem C85_suffices : forall E : Env,
  HashOk E -> ZeroAddressOk E -> UniOk E -> forall a q sel outs f chg limit advice v, asked a q -> overspent q sel outs f chg limit ->
  (length outs <= 252)%nat -> advised q (in_value sel - chg) advice -> advice <= 100 -> float_of_value v (float_of advice) ->
  exists t, fst (create_transaction (with_percentage a v)) = Ok t /\ tx_of sel outs (q_change_address q) t.
Proof. exact (fun E => C_Advice.c85_suffices). Qed.
Print Assumptions C85_suffices.

(** C85.  Where everything available would be spent, following the advice is refused, whatever the form of the number; 100 would do. *)
Theorem C85_everything_refuted : forall E : Env,
  HashOk E -> ZeroAddressOk E -> UniOk E -> forall a q sel outs f chg limit advice, asked a q -> overspent q sel outs f chg limit ->
  in_value sel - chg = in_value (q_inputs q) -> advised q (in_value sel - chg) advice ->
  advice = 101 /\
  (forall v, float_of_value v (float_of advice) -> fst (create_transaction (with_percentage a v)) = Err ValueError) /\
  (forall v, (length outs <= 252)%nat -> float_of_value v (float_of 100) ->
   exists t, fst (create_transaction (with_percentage a v)) = Ok t /\ tx_of sel outs (q_change_address q) t).
Proof. exact (fun E => C_Advice.c85_everything_refuted). Qed.
Print Assumptions C85_everything_refuted.

Example ex85_suffices : forall E : Env,
  exists t, fst (@create_transaction demo_env (with_percentage half (PInt 100))) = Ok t /\
  @tx_of demo_env (rev demo_iargs) [mk_oarg addr1 90000; mk_oarg addr3 50100000] addr1 t.
Proof. exact (fun E => C_Advice.ex85_suffices). Qed.

Example ex85_everything : forall E : Env,
  advised everything_order 50200000 101 /\
  (forall v, @float_of_value demo_env v (float_of 101) -> fst (@create_transaction demo_env (with_percentage everything v)) = Err ValueError) /\
  exists t, fst (@create_transaction demo_env (with_percentage everything (PInt 100))) = Ok t /\ @tx_of demo_env (rev demo_iargs) [mk_oarg addr3 50190000] addr1 t.
Proof. exact (fun E => C_Advice.ex85_everything). Qed.

