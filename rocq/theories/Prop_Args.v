(** Property theorems: generated by tools/genprops.py from C_Args.v, which holds the proofs. *)
From Coq Require Import String Floats.SpecFloat Permutation Sorted Lia.
From Verif Require Import PyBase Env PyNum Validate Basic Spec EnvOk TxInput TxOutput Tx Create TxSpec SignSpec FloatSpec NumSpec CreateSpec Demo DemoTx DemoCreate.
Open Scope Z_scope.
From Verif Require C_Args.

(** C47.  A call rewrites the input dicts it was given: the index becomes an int and 'satoshi_amount' is added. *)
Theorem C47_rewrites_arguments : forall E : Env,
  HashOk E -> ZeroAddressOk E -> UniOk E -> forall a q, asked a q ->
  exists l, ns_inputs (snd (create_transaction a)) = Some (PList l) /\
    Forall2 (fun i v => exists d, v = PDict d /\ dict_find (lit "previous_output_index") d = Some (PInt (ia_index i)) /\
                                  dict_find (lit "satoshi_amount") d = Some (PInt (ia_value i))) (q_inputs q) l.
Proof. exact (fun E => C_Args.c47_rewrites_arguments). Qed.
Print Assumptions C47_rewrites_arguments.

(** C47.  A second call with the same argument object raises ValueError. *)
Theorem C47_second_call : forall E : Env,
  HashOk E -> ZeroAddressOk E -> UniOk E -> forall a q, asked a q -> q_inputs q <> [] ->
  fst (create_transaction (snd (create_transaction a))) = Err ValueError.
Proof. exact (fun E => C_Args.c47_second_call). Qed.
Print Assumptions C47_second_call.

(** C48.  Distinct available outpoints give distinct spent outpoints. *)
Theorem C48_distinct_outpoints : forall E : Env,
  HashOk E -> ZeroAddressOk E -> UniOk E -> forall a q t,
  asked a q -> fst (create_transaction a) = Ok t ->
  NoDup (map (fun i => (ia_txid i, ia_index i)) (q_inputs q)) ->
  NoDup (map (fun x => (ti_txid x, as_int (ti_previous_output_index_int x))) (tx_inputs t)).
Proof. exact (fun E => C_Args.c48_distinct_outpoints). Qed.
Print Assumptions C48_distinct_outpoints.

(** C52.  The result depends only on these entries of the design. *)
Theorem C52_entries_read : forall E : Env,
  HashOk E -> ZeroAddressOk E -> UniOk E -> forall a d d' t,
  ns_design a = Some (PDict d) ->
  (forall k, In k (map lit ["outputs"; "change_address"; "max_fee"; "max_spend_percentage"; "fee"; "fee_rate"; "input_selection_approaches"]%string) ->
     dict_find k d' = dict_find k d) ->
  (fst (create_transaction a) = Ok t <-> fst (create_transaction (set_ns_design a (PDict d'))) = Ok t).
Proof. exact (fun E => C_Args.c52_entries_read). Qed.
Print Assumptions C52_entries_read.

(** C52.  In particular an entry 'input_selection_approach', the documented spelling, has no influence. *)
Theorem C52_documented_key_ignored : forall E : Env,
  HashOk E -> ZeroAddressOk E -> UniOk E -> forall a d v t,
  ns_design a = Some (PDict d) ->
  (fst (create_transaction a) = Ok t <->
   fst (create_transaction (set_ns_design a (PDict (dict_set (lit "input_selection_approach") v d)))) = Ok t).
Proof. exact (fun E => C_Args.c52_documented_key_ignored). Qed.
Print Assumptions C52_documented_key_ignored.

(** C52.  'input_selection_approaches' is read: the request's approach is the one it names, 'largest_first' by default. *)
Theorem C52_approaches_read : forall E : Env,
  forall a q d, asked a q -> ns_design a = Some (PDict d) ->
  approach_arg (dict_find (lit "input_selection_approaches") d) (q_approach q).
Proof. exact (fun E => C_Args.c52_approaches_read). Qed.
Print Assumptions C52_approaches_read.

(** Hypotheses met; the argument object of a successful call is used up. *)
Example ex47_second_call : forall E : Env,
  @asked demo_env demo_ns demo_order /\ q_inputs demo_order <> [] /\ fst (@create_transaction demo_env demo_ns) = Ok created /\
  fst (@create_transaction demo_env (snd (@create_transaction demo_env demo_ns))) = Err ValueError.
Proof. exact (fun E => C_Args.ex47_second_call). Qed.

(** The same outpoint can be spent twice by one transaction. *)
Example ex48_same_outpoint_refuted : forall E : Env,
  fst (@create_transaction demo_env same_twice) = Ok same_twice_tx /\
  map (fun x => (ti_txid x, as_int (ti_previous_output_index_int x))) (tx_inputs same_twice_tx) =
  [(hex_of (repeat 205 32), Some 1); (hex_of (repeat 205 32), Some 1)].
Proof. exact (fun E => C_Args.ex48_same_outpoint_refuted). Qed.

Example ex48_distinct : forall E : Env,
  @asked demo_env demo_ns demo_order /\ NoDup (map (fun i => (ia_txid i, ia_index i)) (q_inputs demo_order)).
Proof. exact (fun E => C_Args.ex48_distinct). Qed.

(** The documented key does nothing, the other one does. *)
Example ex52_keys : forall E : Env,
  fst (@create_transaction demo_env documented) = Ok documented_tx /\ map ti_satoshi_amount (tx_inputs documented_tx) = [Some 50000000] /\
  fst (@create_transaction demo_env working) = Ok working_tx /\ map ti_satoshi_amount (tx_inputs working_tx) = [Some 200000].
Proof. exact (fun E => C_Args.ex52_keys). Qed.

