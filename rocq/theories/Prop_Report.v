(** Property theorems: generated by tools/genprops.py from C_Report.v, which holds the proofs. *)
From Coq Require Import String Floats.SpecFloat Permutation Sorted Lia.
From Verif Require Import PyBase Env PyNum Validate Basic Spec EnvOk TxInput TxOutput Tx Create Report TxSpec FloatSpec NumSpec CreateSpec RefuseSpec ReportSpec Demo DemoTx DemoCreate DemoReport.
Open Scope Z_scope.
From Verif Require C_Report.

(** C83.  Logging changes nothing: with what is logged left out, the call is the one of C20-C38. *)
Theorem C83_erasure : forall E : Env,
  forall repr a, result (create_transaction_says repr a) = fst (create_transaction a).
Proof. exact (fun E => C_Report.c83_erasure). Qed.
Print Assumptions C83_erasure.

(** C83.  Any request has the texts that the report shows. *)
Theorem C83_texts : forall E : Env,
  UniOk E -> forall repr a q, asked a q -> exists ta tb mf, texts repr a q ta tb mf.
Proof. exact (fun E => C_Report.c83_texts). Qed.
Print Assumptions C83_texts.

(** C83.  The report of a successful call, from the first line to the last. *)
Theorem C83_report : forall E : Env,
  HashOk E -> ZeroAddressOk E -> UniOk E -> forall repr a q ta tb mf s f sel outs chg limit,
  asked a q -> texts repr a q ta tb mf -> plan q sel outs f chg -> sorted_for (q_approach q) (q_inputs q) s ->
  spend_limit (q_max_spend q) (in_value (q_inputs q)) limit ->
  exists t, tx_of sel outs (q_change_address q) t /\
    create_transaction_says repr a = (whole_report repr a q ta tb s f mf sel outs chg limit, Done t).
Proof. exact (fun E => C_Report.c83_report). Qed.
Print Assumptions C83_report.

(** C83.  The report says that the input value is at most the output value whenever it is at least the output value. *)
Theorem C83_comparison_refuted : forall E : Env,
  HashOk E -> ZeroAddressOk E -> UniOk E -> forall repr a q sel outs f chg,
  asked a q -> plan q sel outs f chg -> 0 < f ->
  out_value (q_outputs q) < in_value (q_inputs q) /\
  In (lit "Total available input value is less than or equal to total output value.") (fst (create_transaction_says repr a)).
Proof. exact (fun E => C_Report.c83_comparison_refuted). Qed.
Print Assumptions C83_comparison_refuted.

(** C83.  If the inputs match exactly, the report says that none is selected, although all are. *)
Theorem C83_selected_refuted : forall E : Env,
  HashOk E -> ZeroAddressOk E -> UniOk E -> forall repr a q sel outs f chg,
  asked a q -> plan q sel outs f chg -> in_value (q_inputs q) = out_value (q_outputs q) + f ->
  length sel = length (q_inputs q) /\ sel <> [] /\ In (lit "Selected inputs: 0") (fst (create_transaction_says repr a)).
Proof. exact (fun E => C_Report.c83_selected_refuted). Qed.
Print Assumptions C83_selected_refuted.

(** C84.  Several outputs pay one address, which is not allowed: the text names the first such address and the number of outputs. *)
Theorem C84_duplicate : forall E : Env,
  HashOk E -> ZeroAddressOk E -> UniOk E -> forall repr a q ta tb mf s l1 o l2,
  asked a q -> texts repr a q ta tb mf -> sorted_for (q_approach q) (q_inputs q) s ->
  Forall (fun i => ia_index i < 2 ^ 32) (q_inputs q) -> in_value (q_inputs q) <= max_money -> out_value (q_outputs q) <= max_money ->
  q_allow_duplicates q = false -> q_outputs q = l1 ++ o :: l2 ->
  (forall o', In o' l1 -> length (filter (pays (oa_address o')) (q_outputs q)) = 1%nat) -> (1 < length (filter (pays (oa_address o)) (q_outputs q)))%nat ->
  create_transaction_says repr a =
  (until_duplicates repr a q ta tb s, Raised DuplicateOutputAddressError (Some (duplicate_text q (oa_address o)))).
Proof. exact (fun E => C_Report.c84_duplicate). Qed.
Print Assumptions C84_duplicate.

(** C84.  The fee exceeds the maximum. *)
Theorem C84_fee : forall E : Env,
  HashOk E -> ZeroAddressOk E -> UniOk E -> forall repr a q ta tb mf s f,
  asked a q -> texts repr a q ta tb mf -> sorted_for (q_approach q) (q_inputs q) s -> ready q -> fee_due q f -> f <= max_money -> q_max_fee q < f ->
  create_transaction_says repr a = (until_max_fee repr a q ta tb s f mf, Raised ValueError (Some (max_fee_text f mf))).
Proof. exact (fun E => C_Report.c84_fee). Qed.
Print Assumptions C84_fee.

(** C84.  The inputs do not cover the outputs: the text names what is missing. *)
Theorem C84_outputs : forall E : Env,
  HashOk E -> ZeroAddressOk E -> UniOk E -> forall repr a q ta tb mf s f,
  asked a q -> texts repr a q ta tb mf -> sorted_for (q_approach q) (q_inputs q) s -> ready q -> fee_due q f -> 0 <= f <= q_max_fee q -> f <= max_money ->
  in_value (q_inputs q) < out_value (q_outputs q) ->
  create_transaction_says repr a = (until_outputs_covered repr a q ta tb s f mf,
    Raised OutputValueNotCovered (Some (shortfall_text "output" (out_value (q_outputs q) - in_value (q_inputs q))))).
Proof. exact (fun E => C_Report.c84_outputs). Qed.
Print Assumptions C84_outputs.

(** C84.  They cover the outputs but not the fee. *)
Theorem C84_outputs_and_fee : forall E : Env,
  HashOk E -> ZeroAddressOk E -> UniOk E -> forall repr a q ta tb mf s f,
  asked a q -> texts repr a q ta tb mf -> sorted_for (q_approach q) (q_inputs q) s -> ready q -> fee_due q f -> 0 <= f <= q_max_fee q ->
  out_value (q_outputs q) <= in_value (q_inputs q) < out_value (q_outputs q) + f -> out_value (q_outputs q) + f <= max_money ->
  create_transaction_says repr a = (until_fee_covered repr a q ta tb s f mf,
    Raised OutputAndFeeValueNotCovered (Some (shortfall_text "output + fee" (out_value (q_outputs q) + f - in_value (q_inputs q))))).
Proof. exact (fun E => C_Report.c84_outputs_and_fee). Qed.
Print Assumptions C84_outputs_and_fee.

(** C84.  There is change, several outputs pay the change address, and no index, or too large an index, says which of them is meant. *)
Theorem C84_change : forall E : Env,
  HashOk E -> ZeroAddressOk E -> UniOk E -> forall repr a q ta tb mf s f sel,
  asked a q -> texts repr a q ta tb mf -> sorted_for (q_approach q) (q_inputs q) s -> ready q -> fee_due q f -> 0 <= f <= q_max_fee q ->
  out_value (q_outputs q) + f <= in_value (q_inputs q) -> chosen (q_approach q) (out_value (q_outputs q) + f) s sel ->
  in_value sel <> out_value (q_outputs q) + f -> (1 < length (filter (pays (q_change_address q)) (q_outputs q)))%nat ->
  (q_change_index q = PNone ->
   create_transaction_says repr a = (until_change repr a q ta tb s f mf sel, Raised ValueError (Some (ambiguous_text q)))) /\
  (forall z, whole (q_change_index q) z -> Z.of_nat (length (filter (pays (q_change_address q)) (q_outputs q))) <= z ->
   create_transaction_says repr a = (until_change repr a q ta tb s f mf sel, Raised ValueError (Some (index_text repr q)))).
Proof. exact (fun E => C_Report.c84_change). Qed.
Print Assumptions C84_change.

(** C84.  More would be spent than the design permits: the text names both amounts and advises a percentage. *)
Theorem C84_spend : forall E : Env,
  HashOk E -> ZeroAddressOk E -> UniOk E -> forall repr a q ta tb mf s f sel outs chg limit,
  asked a q -> texts repr a q ta tb mf -> sorted_for (q_approach q) (q_inputs q) s -> ready q -> fee_due q f -> 0 <= f <= q_max_fee q ->
  out_value (q_outputs q) + f <= in_value (q_inputs q) -> 0 < in_value (q_inputs q) -> chosen (q_approach q) (out_value (q_outputs q) + f) s sel ->
  surplus_paid (q_change_address q) (q_change_index q) (q_outputs q) (in_value sel - (out_value (q_outputs q) + f)) outs chg ->
  spend_limit (q_max_spend q) (in_value (q_inputs q)) limit -> 0 <= limit < in_value sel - chg ->
  exists advice, advised q (in_value sel - chg) advice /\
    create_transaction_says repr a = (until_spent repr a q ta tb s f mf sel outs chg limit, Raised ValueError (Some (spend_text q limit (in_value sel - chg) advice))).
Proof. exact (fun E => C_Report.c84_spend). Qed.
Print Assumptions C84_spend.

(** C84.  The design names both a fee and a fee rate, or neither. *)
Theorem C84_fee_choice : forall E : Env,
  HashOk E -> ZeroAddressOk E -> UniOk E -> forall repr a l d lo,
  ns_inputs a = Some (PList l) -> ns_design a = Some (PDict d) -> entry "outputs" d = Some (PList lo) -> all_pass (checks_before_fees l d lo) ->
  (~ no_fee (entry "fee" d) /\ ~ no_rate (entry "fee_rate" d)) \/ (absent (entry "fee" d) /\ absent (entry "fee_rate" d)) ->
  create_transaction_says repr a = ([], Raised ValueError (Some fee_choice_text)).
Proof. exact (fun E => C_Report.c84_fee_choice). Qed.
Print Assumptions C84_fee_choice.

(** C84.  The design names two approaches that exclude each other: the text names the first such pair. *)
Theorem C84_conflict : forall E : Env,
  HashOk E -> ZeroAddressOk E -> UniOk E -> forall repr a l d lo la before x y after,
  ns_inputs a = Some (PList l) -> ns_design a = Some (PDict d) -> entry "outputs" d = Some (PList lo) -> all_pass (checks_before_fees l d lo) ->
  all_pass (fee_checks (entry "fee" d) (entry "fee_rate" d)) ->
  entry "input_selection_approaches" d = Some (PList la) -> (forall v, In v la -> exists n, v = PStr n /\ In n approach_names) -> ~ In (PStr (lit "all")) la ->
  conflicting = before ++ (x, y) :: after -> In (PStr (lit x)) la -> In (PStr (lit y)) la ->
  Forall (fun p => ~ (In (PStr (lit (fst p))) la /\ In (PStr (lit (snd p))) la)) before ->
  create_transaction_says repr a = ([repr (PList la)], Raised ValueError (Some (conflict_text x y))).
Proof. exact (fun E => C_Report.c84_conflict). Qed.
Print Assumptions C84_conflict.

Example ex83_report : forall E : Env,
  forall repr, exists t, @tx_of demo_env (rev demo_iargs) [mk_oarg addr1 90000; mk_oarg addr3 50100000] addr1 t /\
  exists log, @create_transaction_says demo_env repr demo_ns = (log, Done t) /\ In (lit "Change amount: 0.00090000 bitcoin (90000 satoshi)") log.
Proof. exact (fun E => C_Report.ex83_report). Qed.

Example ex83_comparison : forall E : Env,
  forall repr, In (lit "Total available input value is less than or equal to total output value.") (fst (@create_transaction_says demo_env repr demo_ns)) /\
  (out_value (q_outputs demo_order), in_value (q_inputs demo_order)) = (50100000, 50200000).
Proof. exact (fun E => C_Report.ex83_comparison). Qed.

Example ex83_selected : forall E : Env,
  forall repr a, a = request demo_inputs [demo_output addr3 (lit "0.50190000")] (fixed 10000) 250000 (lit "100.00") None None ->
  In (lit "Selected inputs: 0") (fst (@create_transaction_says demo_env repr a)).
Proof. exact (fun E => C_Report.ex83_selected). Qed.

Example ex84_duplicate : forall E : Env,
  forall repr, exists log, @create_transaction_says demo_env repr repeated =
  (log, Raised DuplicateOutputAddressError (Some (lit "Multiple outputs (2) send to this address: " ++ addr3))).
Proof. exact (fun E => C_Report.ex84_duplicate). Qed.

Example ex84_fee : forall E : Env,
  forall repr a, a = request demo_inputs [demo_output addr3 (lit "0.501")] (fixed 10000) 9999 (lit "100.00") None None ->
  exists log mf, @create_transaction_says demo_env repr a = (log, Raised ValueError (Some (lit "The fee (10000 satoshi) is greater than the specified maximum fee (" ++ mf ++ lit " satoshi)."))).
Proof. exact (fun E => C_Report.ex84_fee). Qed.

Example ex84_outputs : forall E : Env,
  forall repr a, a = request demo_inputs [demo_output addr3 (lit "0.50200001")] (fixed 10000) 250000 (lit "100.00") None None ->
  exists log, @create_transaction_says demo_env repr a = (log, Raised OutputValueNotCovered (Some (lines
    [lit "Total available input value is less than total output value."; lit "- Shortfall: 0.00000001 bitcoin (1 satoshi)"]))).
Proof. exact (fun E => C_Report.ex84_outputs). Qed.

Example ex84_outputs_and_fee : forall E : Env,
  forall repr a, a = request demo_inputs [demo_output addr3 (lit "0.50190001")] (fixed 10000) 250000 (lit "100.00") None None ->
  exists log, @create_transaction_says demo_env repr a = (log, Raised OutputAndFeeValueNotCovered (Some (lines
    [lit "Total available input value is less than total output + fee value."; lit "- Shortfall: 0.00000001 bitcoin (1 satoshi)"]))).
Proof. exact (fun E => C_Report.ex84_outputs_and_fee). Qed.

Example ex84_change : forall E : Env,
  forall repr, exists log, @create_transaction_says demo_env repr ambiguous =
  (log, Raised ValueError (Some (lit "Multiple outputs (2) send to the change address: " ++ addr1))).
Proof. exact (fun E => C_Report.ex84_change). Qed.

Example ex84_spend : forall E : Env,
  forall repr, exists log, @create_transaction_says demo_env repr half =
  (log, Raised ValueError (Some (lit "Spend amount (0.50110000 bitcoin) is greater than the maximum permitted spend amount (0.25100000 bitcoin). To spend this amount, you will need to increase the --max-spend-percentage value from 50 to 100."))).
Proof. exact (fun E => C_Report.ex84_spend). Qed.

Example ex84_fee_choice : forall E : Env,
  forall repr, @create_transaction_says demo_env repr no_fee_ns = ([], Raised ValueError (Some fee_choice_text)).
Proof. exact (fun E => C_Report.ex84_fee_choice). Qed.

Example ex84_conflict : forall E : Env,
  forall repr, exists log, @create_transaction_says demo_env repr conflict_ns =
  (log, Raised ValueError (Some (lit "In the input selection approach list, cannot use both 'any_address' and 'one_address_at_a_time' together."))).
Proof. exact (fun E => C_Report.ex84_conflict). Qed.

