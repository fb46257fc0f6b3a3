(** Property theorems: generated by tools/genprops.py from C_Create.v, which holds the proofs. *)
From Coq Require Import String Floats.SpecFloat Permutation Sorted Reals Lra Lia.
From Verif Require Import PyBase Env PyNum Validate Basic Spec EnvOk TxInput TxOutput Tx Create TxSpec SignSpec FloatSpec NumSpec CreateSpec Demo DemoTx DemoCreate.
Open Scope Z_scope.
From Verif Require C_Create.

(** C35.  create_transaction returns t exactly when its argument describes a request q and t is the transaction of a plan
    for q (CreateSpec.v). *)
Theorem C35_created_iff : forall E : Env,
  HashOk E -> ZeroAddressOk E -> UniOk E -> forall a t,
  fst (create_transaction a) = Ok t <->
  exists q sel outs f chg, asked a q /\ plan q sel outs f chg /\ tx_of sel outs (q_change_address q) t.
Proof. exact (fun E => C_Create.c35_created_iff). Qed.
Print Assumptions C35_created_iff.

(** C35.  An argument object describes at most one request. *)
Theorem C35_request_unique : forall E : Env,
  UniOk E -> forall a q q', asked a q -> asked a q' -> q = q'.
Proof. exact (fun E => C_Create.c35_request_unique). Qed.
Print Assumptions C35_request_unique.

(** C35.  Value is conserved: what the transaction spends is what it pays plus the fee, and the fee is the requested one. *)
Theorem C35_value_conservation : forall E : Env,
  HashOk E -> ZeroAddressOk E -> UniOk E -> forall a q t,
  asked a q -> fst (create_transaction a) = Ok t ->
  exists f, fee_due q f /\ fee t = Some f /\ total_input t = Some (total_output t + f).
Proof. exact (fun E => C_Create.c35_value_conservation). Qed.
Print Assumptions C35_value_conservation.

(** C36.  The fee never exceeds max_fee. *)
Theorem C36_fee_limit : forall E : Env,
  HashOk E -> ZeroAddressOk E -> UniOk E -> forall a q t,
  asked a q -> fst (create_transaction a) = Ok t -> exists f, fee t = Some f /\ 0 <= f <= q_max_fee q.
Proof. exact (fun E => C_Create.c36_fee_limit). Qed.
Print Assumptions C36_fee_limit.

(** C36.  A request that passes the earlier checks and whose fee exceeds max_fee is refused. *)
Theorem C36_fee_too_high : forall E : Env,
  HashOk E -> ZeroAddressOk E -> UniOk E -> forall a q f,
  asked a q -> ready q -> fee_due q f -> f <= max_money -> q_max_fee q < f -> fst (create_transaction a) = Err ValueError.
Proof. exact (fun E => C_Create.c36_fee_too_high). Qed.
Print Assumptions C36_fee_too_high.

(** C37.  The transaction as bytes: it spends the outpoints of sel and pays outs, and nothing else (so the theorems about
    signing, verifying and serialising apply to every created transaction). *)
Theorem C37_wire : forall E : Env,
  HashOk E -> ZeroAddressOk E -> UniOk E -> forall a q t,
  asked a q -> fst (create_transaction a) = Ok t ->
  exists sel outs f chg ws, plan q sel outs f chg /\
    Forall2 (fun o w => exists h, is_address h (oa_address o) /\ w = mk_soutput (oa_value o) (p2pkh h)) outs ws /\
    tx_body t (map (fun i => mk_sinput (ia_txid i) (ia_index i) []) sel) ws /\
    Forall in_unsigned (tx_inputs t) /\ Forall2 (fun i x => in_worth x (ia_value i)) sel (tx_inputs t).
Proof. exact (fun E => C_Create.c37_wire). Qed.
Print Assumptions C37_wire.

(** C37.  The payments to addresses other than the change address are exactly those asked for, in order and amount; the
    change address receives, beyond what was asked for, exactly the surplus of the selected inputs over payments and fee. *)
Theorem C37_payments : forall E : Env,
  HashOk E -> ZeroAddressOk E -> UniOk E -> forall a q t,
  asked a q -> fst (create_transaction a) = Ok t ->
  exists f surplus, fee t = Some f /\ 0 <= surplus /\ total_input t = Some (out_value (q_outputs q) + f + surplus) /\
    map (fun y => mk_oarg (to_address y) (to_satoshi_amount y)) (filter (fun y => negb (str_eqb (to_address y) (q_change_address q))) (tx_outputs t))
      = filter (fun o => negb (str_eqb (oa_address o) (q_change_address q))) (q_outputs q) /\
    Zsum (map to_satoshi_amount (filter (fun y => str_eqb (to_address y) (q_change_address q)) (tx_outputs t)))
      = out_value (filter (fun o => str_eqb (oa_address o) (q_change_address q)) (q_outputs q)) + surplus.
Proof. exact (fun E => C_Create.c37_payments). Qed.
Print Assumptions C37_payments.

(** C37.  Where the surplus goes: one output, among those paying the change address. *)
Theorem C37_change_output : forall E : Env,
  HashOk E -> ZeroAddressOk E -> UniOk E -> forall a q t,
  asked a q -> fst (create_transaction a) = Ok t ->
  exists outs surplus chg, surplus_paid (q_change_address q) (q_change_index q) (q_outputs q) surplus outs chg /\
    Forall2 (fun o y => made_output (oa_address o) (oa_value o) y) outs (tx_outputs t) /\
    exists f, fee t = Some f /\ total_input t = Some (out_value (q_outputs q) + f + surplus).
Proof. exact (fun E => C_Create.c37_change_output). Qed.
Print Assumptions C37_change_output.

(** C37.  Several outputs pay the change address, there is a surplus, and change_output_index is missing or too large: refused. *)
Theorem C37_ambiguous_change : forall E : Env,
  HashOk E -> ZeroAddressOk E -> UniOk E -> forall a q f s sel,
  asked a q -> ready q -> fee_due q f -> 0 <= f <= q_max_fee q -> out_value (q_outputs q) + f <= in_value (q_inputs q) ->
  sorted_for (q_approach q) (q_inputs q) s -> chosen (q_approach q) (out_value (q_outputs q) + f) s sel ->
  in_value sel <> out_value (q_outputs q) + f ->
  (1 < length (filter (pays (q_change_address q)) (q_outputs q)))%nat ->
  (q_change_index q = PNone \/ exists z, whole (q_change_index q) z /\ Z.of_nat (length (filter (pays (q_change_address q)) (q_outputs q))) <= z) ->
  fst (create_transaction a) = Err ValueError.
Proof. exact (fun E => C_Create.c37_ambiguous_change). Qed.
Print Assumptions C37_ambiguous_change.

(** C38.  The inputs spent: an initial segment of the available inputs, sorted by value with ties in the given order. *)
Theorem C38_selection : forall E : Env,
  HashOk E -> ZeroAddressOk E -> UniOk E -> forall a q t,
  asked a q -> fst (create_transaction a) = Ok t ->
  exists s sel f, fee t = Some f /\ sorted_for (q_approach q) (q_inputs q) s /\
    chosen (q_approach q) (out_value (q_outputs q) + f) s sel /\
    Forall2 (fun i x => ti_txid x = hex_of (ia_txid i) /\ as_int (ti_previous_output_index_int x) = Some (ia_index i) /\
                        ti_address x = ia_address i /\ ti_satoshi_amount x = Some (ia_value i)) sel (tx_inputs t).
Proof. exact (fun E => C_Create.c38_selection). Qed.
Print Assumptions C38_selection.

(** C38.  A sorted order exists and is unique. *)
Theorem C38_sorted_unique : forall E : Env,
  forall ap l, exists s, sorted_for ap l s /\ forall s', sorted_for ap l s' -> s' = s.
Proof. exact (fun E => C_Create.c38_sorted_unique). Qed.
Print Assumptions C38_sorted_unique.

(** C38.  'all' spends every available input. *)
Theorem C38_all : forall E : Env,
  HashOk E -> ZeroAddressOk E -> UniOk E -> forall a q t,
  asked a q -> q_approach q = All -> fst (create_transaction a) = Ok t ->
  Permutation (map (fun i => (hex_of (ia_txid i), Some (ia_index i))) (q_inputs q))
              (map (fun x => (ti_txid x, as_int (ti_previous_output_index_int x))) (tx_inputs t)).
Proof. exact (fun E => C_Create.c38_all). Qed.
Print Assumptions C38_all.

(** C39.  largest_first spends as few inputs as possible: any collection of available inputs that covers payments and fee
    has at least as many members, unless the available inputs match them exactly. *)
Theorem C39_fewest_inputs : forall E : Env,
  HashOk E -> ZeroAddressOk E -> UniOk E -> forall a q t f,
  asked a q -> q_approach q = LargestFirst -> fst (create_transaction a) = Ok t -> fee t = Some f ->
  0 < out_value (q_outputs q) + f < in_value (q_inputs q) ->
  forall some others, Permutation (some ++ others) (q_inputs q) -> out_value (q_outputs q) + f <= in_value some ->
  (length (tx_inputs t) <= length some)%nat.
Proof. exact (fun E => C_Create.c39_fewest_inputs). Qed.
Print Assumptions C39_fewest_inputs.

(** C40.  Outputs not covered. *)
Theorem C40_outputs_not_covered : forall E : Env,
  HashOk E -> ZeroAddressOk E -> UniOk E -> forall a q f,
  asked a q -> ready q -> fee_due q f -> 0 <= f <= q_max_fee q -> f <= max_money ->
  in_value (q_inputs q) < out_value (q_outputs q) -> fst (create_transaction a) = Err OutputValueNotCovered.
Proof. exact (fun E => C_Create.c40_outputs_not_covered). Qed.
Print Assumptions C40_outputs_not_covered.

(** C40.  Outputs covered, but not outputs and fee. *)
Theorem C40_fee_not_covered : forall E : Env,
  HashOk E -> ZeroAddressOk E -> UniOk E -> forall a q f,
  asked a q -> ready q -> fee_due q f -> 0 <= f <= q_max_fee q ->
  out_value (q_outputs q) <= in_value (q_inputs q) < out_value (q_outputs q) + f -> out_value (q_outputs q) + f <= max_money ->
  fst (create_transaction a) = Err OutputAndFeeValueNotCovered.
Proof. exact (fun E => C_Create.c40_fee_not_covered). Qed.
Print Assumptions C40_fee_not_covered.

(** C40.  When funds suffice neither is raised. *)
Theorem C40_covered : forall E : Env,
  HashOk E -> ZeroAddressOk E -> UniOk E -> forall a q f,
  asked a q -> ready q -> fee_due q f -> 0 <= f <= q_max_fee q -> out_value (q_outputs q) + f <= in_value (q_inputs q) ->
  fst (create_transaction a) <> Err OutputValueNotCovered /\ fst (create_transaction a) <> Err OutputAndFeeValueNotCovered.
Proof. exact (fun E => C_Create.c40_covered). Qed.
Print Assumptions C40_covered.

(** C41.  No output address is repeated, unless that is allowed. *)
Theorem C41_distinct_addresses : forall E : Env,
  HashOk E -> ZeroAddressOk E -> UniOk E -> forall a q t,
  asked a q -> q_allow_duplicates q = false -> fst (create_transaction a) = Ok t ->
  NoDup (map to_address (tx_outputs t)).
Proof. exact (fun E => C_Create.c41_distinct_addresses). Qed.
Print Assumptions C41_distinct_addresses.

(** C41.  A request with a repeated output address is refused. *)
Theorem C41_repeated_address : forall E : Env,
  HashOk E -> ZeroAddressOk E -> UniOk E -> forall a q,
  asked a q -> Forall (fun i => ia_index i < 2 ^ 32) (q_inputs q) ->
  in_value (q_inputs q) <= max_money -> out_value (q_outputs q) <= max_money ->
  q_allow_duplicates q = false -> ~ NoDup (map oa_address (q_outputs q)) ->
  fst (create_transaction a) = Err DuplicateOutputAddressError.
Proof. exact (fun E => C_Create.c41_repeated_address). Qed.
Print Assumptions C41_repeated_address.

(** Hypotheses met: a request, the transaction made for it, and its totals. *)
Example ex35_created : forall E : Env,
  @asked demo_env demo_ns demo_order /\ fst (@create_transaction demo_env demo_ns) = Ok created /\
  fee created = Some 10000 /\ total_input created = Some 50200000 /\ total_output created = 50190000.
Proof. exact (fun E => C_Create.ex35_created). Qed.

Example ex36_fee_too_high : forall E : Env,
  forall a, a = request demo_inputs [demo_output addr3 (lit "0.501")] (fixed 10000) 9999 (lit "100.00") None None ->
  exists q, @asked demo_env a q /\ ready q /\ fee_due q 10000 /\ q_max_fee q = 9999 /\ fst (@create_transaction demo_env a) = Err ValueError.
Proof. exact (fun E => C_Create.ex36_fee_too_high). Qed.

Example ex37_change : forall E : Env,
  map (fun y => (to_address y, to_satoshi_amount y)) (tx_outputs created) = [(addr1, 90000); (addr3, 50100000)].
Proof. exact (fun E => C_Create.ex37_change). Qed.

Example ex37_ambiguous : forall E : Env,
  @asked demo_env ambiguous ambiguous_order /\ fst (@create_transaction demo_env ambiguous) = Err ValueError.
Proof. exact (fun E => C_Create.ex37_ambiguous). Qed.

Example ex38_order : forall E : Env,
  map (fun x => (ti_address x, ti_satoshi_amount x)) (tx_inputs created) = [(addr1, Some 50000000); (addr2, Some 200000)]
  /\ map (fun i => (ia_address i, ia_value i)) (q_inputs demo_order) = [(addr2, 200000); (addr1, 50000000)].
Proof. exact (fun E => C_Create.ex38_order). Qed.

Example ex39_strict : forall E : Env,
  q_approach demo_order = LargestFirst /\ fee created = Some 10000 /\
  0 < out_value (q_outputs demo_order) + 10000 < in_value (q_inputs demo_order).
Proof. exact (fun E => C_Create.ex39_strict). Qed.

Example ex40_outputs : forall E : Env,
  exists a q, @asked demo_env a q /\ ready q /\ fee_due q 10000 /\ in_value (q_inputs q) < out_value (q_outputs q) /\
  fst (@create_transaction demo_env a) = Err OutputValueNotCovered.
Proof. exact (fun E => C_Create.ex40_outputs). Qed.

Example ex40_fee : forall E : Env,
  exists a q, @asked demo_env a q /\ ready q /\ fee_due q 10000 /\
  out_value (q_outputs q) <= in_value (q_inputs q) < out_value (q_outputs q) + 10000 /\
  fst (@create_transaction demo_env a) = Err OutputAndFeeValueNotCovered.
Proof. exact (fun E => C_Create.ex40_fee). Qed.

Example ex41_repeated : forall E : Env,
  @asked demo_env repeated repeated_order /\ ~ NoDup (map oa_address (q_outputs repeated_order)) /\
  fst (@create_transaction demo_env repeated) = Err DuplicateOutputAddressError.
Proof. exact (fun E => C_Create.ex41_repeated). Qed.

