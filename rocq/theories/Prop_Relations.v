(** Property theorems: generated by tools/genprops.py from C_Relations.v, which holds the proofs. *)
From Coq Require Import String Floats.SpecFloat Permutation Sorted Lia.
From Verif Require Import PyBase Env PyNum Validate Basic Spec EnvOk TxInput TxOutput Tx Create TxSpec SignSpec FloatSpec NumSpec ValidSpec CreateSpec RefuseSpec RelSpec Demo DemoTx DemoCreate DemoRel.
Open Scope Z_scope.
From Verif Require C_Relations.

(** C75.  Only what is asked for counts: two argument objects that ask for the same thing (written differently: the order of dictionary keys,
    numbers as int or str, options missing or None) give the same transaction, or are both refused. *)
Theorem C75_same_request : forall E : Env,
  HashOk E -> ZeroAddressOk E -> UniOk E -> forall a a' q t, asked a q -> asked a' q ->
  (fst (create_transaction a) = Ok t <-> fst (create_transaction a') = Ok t).
Proof. exact (fun E => C_Relations.c75_same_request). Qed.
Print Assumptions C75_same_request.

(** C75.  Listing the available inputs in another order: the payments, the change, the fee and the amounts spent stay the same, and
    so does the refusal. *)
Theorem C75_listing_order : forall E : Env,
  HashOk E -> ZeroAddressOk E -> UniOk E -> forall a a' q q' t, asked a q -> asked a' q' -> relisted q q' ->
  fst (create_transaction a) = Ok t -> exists t', fst (create_transaction a') = Ok t' /\ same_amounts t t'.
Proof. exact (fun E => C_Relations.c75_listing_order). Qed.
Print Assumptions C75_listing_order.

(** C75.  If no two available inputs have the same amount, the transaction is the same. *)
Theorem C75_distinct_amounts : forall E : Env,
  HashOk E -> ZeroAddressOk E -> UniOk E -> forall a a' q q' t, asked a q -> asked a' q' -> relisted q q' ->
  NoDup (map ia_value (q_inputs q)) -> (fst (create_transaction a) = Ok t <-> fst (create_transaction a') = Ok t).
Proof. exact (fun E => C_Relations.c75_distinct_amounts). Qed.
Print Assumptions C75_distinct_amounts.

(** C75.  In another order, or written differently, the same exception is raised. *)
Theorem C75_same_exception : forall E : Env,
  HashOk E -> ZeroAddressOk E -> UniOk E -> forall a a' q q' e, asked a q -> asked a' q' -> relisted q q' ->
  double (q_max_spend q) -> Forall (fun i => ia_index i < 2 ^ 32) (q_inputs q) ->
  (fst (create_transaction a) = Err e <-> fst (create_transaction a') = Err e).
Proof. exact (fun E => C_Relations.c75_same_exception). Qed.
Print Assumptions C75_same_exception.

(** C76.  The order of the private keys, repeated keys, and further keys that control no input, make no difference: signing gives the same
    outcome and the same transaction (when nonces are given, as many keys as before). *)
Theorem C76_key_list : forall E : Env,
  CryptoOk E -> forall t keys keys' rv, usable keys -> usable keys' -> one_key_each keys -> same_keys_for t keys keys' ->
  rv = None \/ rv = Some [] \/ length keys = length keys' -> sign t keys rv = sign t keys' rv.
Proof. exact (fun E => C_Relations.c76_key_list). Qed.
Print Assumptions C76_key_list.

(** C76.  What had been signed before makes no difference: if signing t succeeds, then signing any t2 that differs from t in public keys
    and scriptSigs only gives the same transaction (no two of the keys controlling the same address).  In particular signing again changes nothing. *)
Theorem C76_already_signed : forall E : Env,
  CryptoOk E -> forall t ins outs keys rv t' xs2, tx_body t ins outs -> one_key_each keys ->
  map unsign xs2 = map unsign (tx_inputs t) ->
  sign t keys rv = (Ok tt, t') -> sign (set_inputs t xs2) keys rv = (Ok tt, t').
Proof. exact (fun E => C_Relations.c76_already_signed). Qed.
Print Assumptions C76_already_signed.

Theorem C76_again : forall E : Env,
  CryptoOk E -> forall t ins outs keys rv t', tx_body t ins outs -> one_key_each keys ->
  sign t keys rv = (Ok tt, t') -> sign t' keys rv = (Ok tt, t').
Proof. exact (fun E => C_Relations.c76_again). Qed.
Print Assumptions C76_again.

(** C75.  The naive property fails: with two available inputs of the same amount, the order in which they are listed decides which one
    is spent. *)
Theorem C75_equal_amounts_refuted : forall E : Env,
  exists a a' q q' t t', @asked demo_env a q /\ @asked demo_env a' q' /\ relisted q q' /\
  fst (@create_transaction demo_env a) = Ok t /\ fst (@create_transaction demo_env a') = Ok t' /\
  map ti_txid (tx_inputs t) <> map ti_txid (tx_inputs t').
Proof. exact (fun E => C_Relations.c75_equal_amounts_refuted). Qed.
Print Assumptions C75_equal_amounts_refuted.

Example ex75_demo : forall E : Env,
  @asked demo_env demo_ns demo_order /\ @asked demo_env backwards backwards_order /\ relisted demo_order backwards_order /\
  NoDup (map ia_value (q_inputs demo_order)) /\ fst (@create_transaction demo_env demo_ns) = Ok created.
Proof. exact (fun E => C_Relations.ex75_demo). Qed.

(** Signing the demo transaction with its keys in another order, a key repeated and one key more. *)
Example ex76_demo : forall E : Env,
  @usable demo_env [key1; key2] /\ @usable demo_env [key2; key3; key1; key2] /\ @one_key_each demo_env [key1; key2] /\
  @same_keys_for demo_env created [key1; key2] [key2; key3; key1; key2] /\ (exists ins outs, @tx_body demo_env created ins outs) /\
  @sign demo_env created [key1; key2] None = (Ok tt, signed_tx).
Proof. exact (fun E => C_Relations.ex76_demo). Qed.

