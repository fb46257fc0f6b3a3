(** More argument objects that create_transaction refuses, in the demo environment (C101). *)
From Coq Require Import String Floats.SpecFloat.
From Verif Require Import PyBase Env Create DemoTx DemoCreate.

Definition demo_attrs : list pystr := [lit "outputs_file"; lit "inputs"; lit "design"].
(** No inputs and no outputs, and two approaches that exclude each other. *)
Definition both_ways : namespace :=
  mk_ns (Some (PList [])) (Some (PDict [(lit "change_address", PStr addr3); (lit "fee", PInt 10000); (lit "max_fee", PInt 250000); (lit "max_spend_percentage", PStr (lit "100.00"));
    (lit "outputs", PList []); (lit "input_selection_approaches", PList [PStr (lit "smallest_first"); PStr (lit "largest_first")])])) None None.
(** No design. *)
Definition no_design : namespace := mk_ns (Some (PList [])) None None None.
