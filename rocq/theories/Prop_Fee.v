(** Property theorems: generated by tools/genprops.py from C_Fee.v, which holds the proofs. *)
From Coq Require Import String Floats.SpecFloat Permutation Sorted Reals Lra Lia.
From Verif Require Import PyBase Env PyNum Validate Basic Spec EnvOk TxInput TxOutput Tx Create TxSpec SignSpec FloatSpec NumSpec CreateSpec Demo DemoTx DemoCreate.
From Flocq Require Import Core BinarySingleNaN.
Open Scope Z_scope.
From Verif Require C_Fee.

(** C42.  Fee and payments to other addresses stay below the given percentage of the available value, up to less than one
    satoshi and a relative rounding error of 2^-51. *)
Theorem C42_spend_limit : forall E : Env,
  HashOk E -> ZeroAddressOk E -> UniOk E -> forall a q t,
  asked a q -> double (q_max_spend q) -> fst (create_transaction a) = Ok t ->
  exists f, fee t = Some f /\
    (IZR (f + Zsum (map to_satoshi_amount (filter (fun o => negb (str_eqb (to_address o) (q_change_address q))) (tx_outputs t))))
     < float_value (q_max_spend q) / 100 * IZR (in_value (q_inputs q)) * (1 + / IZR (2 ^ 51)) + 1)%R.
Proof. exact (fun E => C_Fee.c42_spend_limit). Qed.
Print Assumptions C42_spend_limit.

(** C42.  A request that would spend more than the limit is refused. *)
Theorem C42_too_much : forall E : Env,
  HashOk E -> ZeroAddressOk E -> UniOk E -> forall a q f s sel outs chg limit,
  asked a q -> ready q -> fee_due q f -> 0 <= f <= q_max_fee q ->
  out_value (q_outputs q) + f <= in_value (q_inputs q) -> 0 < in_value (q_inputs q) ->
  sorted_for (q_approach q) (q_inputs q) s -> chosen (q_approach q) (out_value (q_outputs q) + f) s sel ->
  surplus_paid (q_change_address q) (q_change_index q) (q_outputs q) (in_value sel - (out_value (q_outputs q) + f)) outs chg ->
  spend_limit (q_max_spend q) (in_value (q_inputs q)) limit -> limit < in_value sel - chg ->
  fst (create_transaction a) = Err ValueError.
Proof. exact (fun E => C_Fee.c42_too_much). Qed.
Print Assumptions C42_too_much.

(** C43.  Which percentages pass validation: those strictly between -1 and 101. *)
Theorem C43_percentage_range : forall E : Env,
  forall a q d p, asked a q -> ns_design a = Some (PDict d) ->
  ((exists q', asked (set_ns_design a (PDict (dict_set (lit "max_spend_percentage") (PFloat p) d))) q') <->
   is_finite_SF p = true /\ (-1 < float_value p < 101)%R).
Proof. exact (fun E => C_Fee.c43_percentage_range). Qed.
Print Assumptions C43_percentage_range.

(** C43.  Negative and zero percentages are never usable, although they pass validation. *)
Theorem C43_usable : forall E : Env,
  HashOk E -> ZeroAddressOk E -> UniOk E -> forall a q t,
  asked a q -> double (q_max_spend q) -> fst (create_transaction a) = Ok t -> (0 < float_value (q_max_spend q) < 101)%R.
Proof. exact (fun E => C_Fee.c43_usable). Qed.
Print Assumptions C43_usable.

(** C44.  A zero fee without a rate is never accepted. *)
Theorem C44_zero_fee : forall E : Env,
  HashOk E -> ZeroAddressOk E -> UniOk E -> forall a d t,
  ns_design a = Some (PDict d) -> no_fee (dict_find (lit "fee") d) ->
  (dict_find (lit "fee_rate") d = None \/ dict_find (lit "fee_rate") d = Some PNone \/ dict_find (lit "fee_rate") d = Some (PStr [])) ->
  fst (create_transaction a) <> Ok t.
Proof. exact (fun E => C_Fee.c44_zero_fee). Qed.
Print Assumptions C44_zero_fee.

(** C44.  Nor are a fee and a rate together, unless one of them is zero or empty. *)
Theorem C44_both : forall E : Env,
  HashOk E -> ZeroAddressOk E -> UniOk E -> forall a d n v t,
  ns_design a = Some (PDict d) -> dict_find (lit "fee") d = Some (PInt n) -> n <> 0 ->
  dict_find (lit "fee_rate") d = Some v -> ~ counts_as_false v -> fst (create_transaction a) <> Ok t.
Proof. exact (fun E => C_Fee.c44_both). Qed.
Print Assumptions C44_both.

(** C44.  A zero fee together with a rate is accepted, and the rate is used. *)
Theorem C44_zero_fee_with_rate : forall E : Env,
  HashOk E -> ZeroAddressOk E -> UniOk E -> forall a d v t,
  ns_design a = Some (PDict d) -> dict_find (lit "fee") d = Some (PInt 0) -> dict_find (lit "fee_rate") d = Some v ->
  fst (create_transaction a) = Ok t -> exists q r f, asked a q /\ q_fee q = FeeRate r /\ rate_arg v r /\ fee t = Some f /\
    rate_fee r (estimated_size (length (q_inputs q)) (length (q_outputs q))) f.
Proof. exact (fun E => C_Fee.c44_zero_fee_with_rate). Qed.
Print Assumptions C44_zero_fee_with_rate.

(** C45.  With a whole-number rate the fee is exactly rate times estimated size. *)
Theorem C45_whole_rate : forall E : Env,
  HashOk E -> ZeroAddressOk E -> UniOk E -> forall a q d v z t,
  asked a q -> ns_design a = Some (PDict d) -> dict_find (lit "fee_rate") d = Some v ->
  (v = PInt z \/ exists s ip, v = PStr s /\ Forall2 dec_char s ip /\ ip <> [] /\ z = val 10 ip) ->
  fst (create_transaction a) = Ok t ->
  fee t = Some (z * estimated_size (length (q_inputs q)) (length (q_outputs q))).
Proof. exact (fun E => C_Fee.c45_whole_rate). Qed.
Print Assumptions C45_whole_rate.

(** C45.  With a decimal rate the fee is the product rounded up, up to floating-point error. *)
Theorem C45_decimal_rate : forall E : Env,
  HashOk E -> ZeroAddressOk E -> UniOk E -> forall a q d s ip fp t,
  asked a q -> ns_design a = Some (PDict d) -> dict_find (lit "fee_rate") d = Some (PStr s) -> rate_text s ip fp ->
  fst (create_transaction a) = Ok t ->
  exists f, fee t = Some f /\
    let exact := (IZR (estimated_size (length (q_inputs q)) (length (q_outputs q))) * decimal ip fp)%R in
    (exact * (1 - / IZR (2 ^ 52)) - powerRZ 2 (-900) <= IZR f < exact * (1 + / IZR (2 ^ 51)) + 1)%R.
Proof. exact (fun E => C_Fee.c45_decimal_rate). Qed.
Print Assumptions C45_decimal_rate.

(** C46.  The size used for the fee is not the size of the resulting transaction: unused inputs are counted, and an added
    change output is not. *)
Theorem C46_estimate : forall E : Env,
  HashOk E -> ZeroAddressOk E -> UniOk E -> forall a q r t,
  asked a q -> q_fee q = FeeRate r -> fst (create_transaction a) = Ok t ->
  exists f unused added, fee t = Some f /\ rate_fee r (estimated_size (length (q_inputs q)) (length (q_outputs q))) f /\
    length (q_inputs q) = (length (tx_inputs t) + unused)%nat /\ length (tx_outputs t) = (length (q_outputs q) + added)%nat /\
    (added = 1%nat <-> (exists o, hd_error (tx_outputs t) = Some o /\ to_address o = q_change_address q) /\
       (forall o, In o (q_outputs q) -> oa_address o <> q_change_address q)) /\ (added <= 1)%nat /\
    estimated_size (length (tx_inputs t)) (length (tx_outputs t)) =
      estimated_size (length (q_inputs q)) (length (q_outputs q)) - 179 * Z.of_nat unused + 34 * Z.of_nat added.
Proof. exact (fun E => C_Fee.c46_estimate). Qed.
Print Assumptions C46_estimate.

(** Hypotheses met. *)
Example ex42_limit : forall E : Env,
  @asked demo_env demo_ns demo_order /\ double (q_max_spend demo_order) /\ fst (@create_transaction demo_env demo_ns) = Ok created.
Proof. exact (fun E => C_Fee.ex42_limit). Qed.

Example ex42_too_much : forall E : Env,
  @asked demo_env half half_order /\ spend_limit (q_max_spend half_order) (in_value (q_inputs half_order)) 25100000 /\
  fst (@create_transaction demo_env half) = Err ValueError.
Proof. exact (fun E => C_Fee.ex42_too_much). Qed.

(** 100.9 is accepted as a percentage. *)
Example ex43_above_100 : forall E : Env,
  fst (@create_transaction demo_env over_100) = Ok created.
Proof. exact (fun E => C_Fee.ex43_above_100). Qed.

(** A zero fee raises TypeError; with a rate, the rate is used. *)
Example ex44_zero_fee : forall E : Env,
  fst (@create_transaction demo_env zero_fee) = Err TypeError.
Proof. exact (fun E => C_Fee.ex44_zero_fee). Qed.

Example ex44_zero_and_rate : forall E : Env,
  fst (@create_transaction demo_env zero_and_rate) = Ok rate_tx /\ fee rate_tx = Some (2 * estimated_size 2 1).
Proof. exact (fun E => C_Fee.ex44_zero_and_rate). Qed.

(** The fee can exceed the exact product rounded up: 325 bytes at 0.28 is 91 exactly, but 92 is paid. *)
Example ex45_rounding : forall E : Env,
  @asked demo_env round_up round_up_order /\ fst (@create_transaction demo_env round_up) = Ok round_up_tx /\
  rate_text (lit "0.28") [0] [2; 8] /\ fee round_up_tx = Some 92 /\ (IZR (estimated_size 1 4) * decimal [0]%Z [2; 8]%Z = 91)%R.
Proof. exact (fun E => C_Fee.ex45_rounding). Qed.

(** At a rate of 2, less than twice the estimated size of the result is paid, or more. *)
Example ex46_below : forall E : Env,
  fst (@create_transaction demo_env below) = Ok below_tx /\ fee below_tx = Some 446 /\
  2 * estimated_size (length (tx_inputs below_tx)) (length (tx_outputs below_tx)) = 514.
Proof. exact (fun E => C_Fee.ex46_below). Qed.

Example ex46_above : forall E : Env,
  fst (@create_transaction demo_env above) = Ok above_tx /\ fee above_tx = Some 804 /\
  2 * estimated_size (length (tx_inputs above_tx)) (length (tx_outputs above_tx)) = 514.
Proof. exact (fun E => C_Fee.ex46_above). Qed.

