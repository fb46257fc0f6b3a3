(** Argument objects that create_transaction refuses, in the demo environment. *)
From Coq Require Import String Floats.SpecFloat.
From Verif Require Import PyBase Env Create DemoTx DemoCreate.

(** The change address is not a str; and max_fee is not a number either, which is noticed first. *)
Definition bad_design (max_fee : pyval) : dict :=
  [(lit "change_address", PInt 5); (lit "fee", PInt 10000); (lit "max_fee", max_fee);
   (lit "max_spend_percentage", PStr (lit "100.00")); (lit "outputs", PList [demo_output addr3 (lit "0.501")])].
Definition bad_change_address : namespace := mk_ns (Some (PList demo_inputs)) (Some (PDict (bad_design (PInt 250000)))) None None.
Definition two_problems : namespace := mk_ns (Some (PList demo_inputs)) (Some (PDict (bad_design (PStr (lit "a lot"))))) None None.
(** The fee is True. *)
Definition true_fee : namespace :=
  mk_ns (Some (PList demo_inputs)) (Some (PDict (dict_set (lit "fee") (PBool true) (demo_design [demo_output addr3 (lit "0.501")])))) None None.
