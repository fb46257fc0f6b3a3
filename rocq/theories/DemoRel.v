(** Requests for C75: the demo request with its inputs listed backwards; and two listings of inputs of equal amount. *)
From Coq Require Import String Floats.SpecFloat.
From Verif Require Import PyBase Env PyNum Spec EnvOk Tx Create CreateSpec Demo DemoTx DemoCreate.

Definition backwards : namespace := request (rev demo_inputs) (pay3 "0.501") (fixed 10000) 250000 (lit "100.00") None None.
Definition backwards_order : order := order_of (rev demo_iargs) [mk_oarg addr3 50100000] (FixedFee 10000) 250000 hundred.
Definition equal_inputs : list pyval := [demo_input addr2 171 7 (lit "0.3"); demo_input addr1 205 1 (lit "0.3")].
Definition equal_iargs : list iarg := [mk_iarg addr2 (repeat 171 32) 7 30000000; mk_iarg addr1 (repeat 205 32) 1 30000000].
Definition equal_request (ins : list pyval) : namespace := request ins (pay3 "0.1") (fixed 10000) 250000 (lit "100.00") None None.
Definition equal_order (ins : list iarg) : order := order_of ins [mk_oarg addr3 10000000] (FixedFee 10000) 250000 hundred.
Definition equal_tx1 : tx := Eval vm_compute in or_dummy (fst (@create_transaction demo_env (equal_request equal_inputs))).
Definition equal_tx2 : tx := Eval vm_compute in or_dummy (fst (@create_transaction demo_env (equal_request (rev equal_inputs)))).
