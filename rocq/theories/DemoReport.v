(** Requests whose report is looked at, in the demo environment. *)
From Coq Require Import String Floats.SpecFloat.
From Verif Require Import PyBase Env Create DemoTx DemoCreate.

(** Neither a fee nor a fee rate. *)
Definition no_fee_design : dict :=
  [(lit "change_address", PStr addr1); (lit "max_fee", PInt 250000);
   (lit "max_spend_percentage", PStr (lit "100.00")); (lit "outputs", PList [demo_output addr3 (lit "0.501")])].
Definition no_fee_ns : namespace := mk_ns (Some (PList demo_inputs)) (Some (PDict no_fee_design)) None None.
(** Two approaches that exclude each other. *)
Definition conflict_design : dict :=
  [(lit "change_address", PStr addr1); (lit "fee", PInt 10000); (lit "max_fee", PInt 250000);
   (lit "max_spend_percentage", PStr (lit "100.00")); (lit "outputs", PList [demo_output addr3 (lit "0.501")]);
   (lit "input_selection_approaches", PList [PStr (lit "one_address_at_a_time"); PStr (lit "any_address")])].
Definition conflict_ns : namespace := mk_ns (Some (PList demo_inputs)) (Some (PDict conflict_design)) None None.
