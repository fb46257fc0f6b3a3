(** A request that spends everything that is available, in the demo environment. *)
From Coq Require Import String Floats.SpecFloat.
From Verif Require Import PyBase Env PyNum Create CreateSpec AdviceSpec DemoTx DemoCreate.
Open Scope Z_scope.

(** All 50,200,000 satoshi: 50,190,000 and a fee of 10,000; 50 percent are permitted. *)
Definition everything : namespace :=
  with_percentage (request demo_inputs [demo_output addr3 (lit "0.50190000")] (fixed 10000) 250000 (lit "100.00") None None) (PStr (lit "50")).
Definition everything_order : order := order_of demo_iargs [mk_oarg addr3 50190000] (FixedFee 10000) 250000 (float_of_dec false 50 0).
