(** Concrete requests to create_transaction in the demo environment. *)
From Coq Require Import String Floats.SpecFloat.
From Verif Require Import PyBase Env PyNum Spec EnvOk Tx Create Cli CreateSpec Demo DemoTx.

(** Available inputs: 0.002 at addr2 and 0.5 at addr1, as in DemoTx.demo_ns. *)
Definition demo_inputs : list pyval := [demo_input addr2 171 7 (lit "0.002"); demo_input addr1 205 1 (lit "0.5")].
Definition demo_iargs : list iarg := [mk_iarg addr2 (repeat 171 32) 7 200000; mk_iarg addr1 (repeat 205 32) 1 50000000].

(** A request on them: outputs, fee entries, max_fee, percentage, other entries, options. *)
Definition request (ins outs : list pyval) (fees : dict) (max_fee : Z) (percentage : pystr) (dup : option pyval) (idx : option pyval) : namespace :=
  mk_ns (Some (PList ins))
    (Some (PDict (fees ++ [(lit "change_address", PStr addr1); (lit "max_fee", PInt max_fee);
                           (lit "max_spend_percentage", PStr percentage); (lit "outputs", PList outs)]))) dup idx.
Definition fixed (n : Z) : dict := [(lit "fee", PInt n)].
Definition rate (s : pystr) : dict := [(lit "fee_rate", PStr s)].
Definition hundred : spec_float := Eval vm_compute in float_of_dec false 10000 (-2).
Definition order_of (ins : list iarg) (outs : list oarg) (c : fee_choice) (max_fee : Z) (p : spec_float) : order :=
  mk_order ins outs c addr1 max_fee p LargestFirst false PNone.

(** The request of DemoTx.demo_ns. *)
Definition demo_order : order := order_of demo_iargs [mk_oarg addr3 50100000] (FixedFee 10000) 250000 hundred.
(** Two outputs to the change address. *)
Definition ambiguous : namespace :=
  request demo_inputs [demo_output addr1 (lit "0.1"); demo_output addr1 (lit "0.2")] (fixed 10000) 250000 (lit "100.00") (Some (PBool true)) None.
Definition ambiguous_order : order :=
  mk_order demo_iargs [mk_oarg addr1 10000000; mk_oarg addr1 20000000] (FixedFee 10000) addr1 250000 hundred LargestFirst true PNone.
(** The same output address twice, not allowed. *)
Definition repeated : namespace := request demo_inputs [demo_output addr3 (lit "0.1"); demo_output addr3 (lit "0.2")] (fixed 10000) 250000 (lit "100.00") None None.
Definition repeated_order : order := order_of demo_iargs [mk_oarg addr3 10000000; mk_oarg addr3 20000000] (FixedFee 10000) 250000 hundred.

(** Requests with a fee rate, and an odd percentage. *)
Definition pay3 (amount : string) : list pyval := [demo_output addr3 (lit amount)].
Definition half : namespace := request demo_inputs (pay3 "0.501") (fixed 10000) 250000 (lit "50") None None.
Definition half_order : order := order_of demo_iargs [mk_oarg addr3 50100000] (FixedFee 10000) 250000 (float_of_dec false 50 0).
Definition over_100 : namespace := request demo_inputs (pay3 "0.501") (fixed 10000) 250000 (lit "100.9") None None.
Definition zero_fee : namespace := request demo_inputs (pay3 "0.501") (fixed 0) 250000 (lit "100.00") None None.
Definition zero_and_rate : namespace := request demo_inputs (pay3 "0.501") (fixed 0 ++ rate (lit "2")) 250000 (lit "100.00") None None.
Definition rate_tx : tx := Eval vm_compute in or_dummy (fst (@create_transaction demo_env zero_and_rate)).
Definition round_up : namespace :=
  request [demo_input addr1 205 1 (lit "0.5")] (pay3 "0.1" ++ pay3 "0.1" ++ pay3 "0.1" ++ pay3 "0.1") (rate (lit "0.28")) 250000 (lit "100.00") (Some (PBool true)) None.
Definition round_up_order : order :=
  mk_order [mk_iarg addr1 (repeat 205 32) 1 50000000] (repeat (mk_oarg addr3 10000000) 4) (FeeRate (float_of_dec false 28 (-2))) addr1 250000 hundred LargestFirst true PNone.
Definition round_up_tx : tx := Eval vm_compute in or_dummy (fst (@create_transaction demo_env round_up)).
(** One input, all of it needed, and a change output. *)
Definition below : namespace := request [demo_input addr1 205 1 (lit "0.5")] (pay3 "0.1") (rate (lit "2")) 250000 (lit "100.00") None None.
Definition below_tx : tx := Eval vm_compute in or_dummy (fst (@create_transaction demo_env below)).
(** Two inputs available, one used. *)
Definition above : namespace := request demo_inputs (pay3 "0.1") (rate (lit "2")) 250000 (lit "100.00") None None.
Definition above_tx : tx := Eval vm_compute in or_dummy (fst (@create_transaction demo_env above)).
(** The same outpoint offered twice. *)
Definition same_twice : namespace :=
  request [demo_input addr1 205 1 (lit "0.3"); demo_input addr1 205 1 (lit "0.3")] (pay3 "0.501") (fixed 10000) 250000 (lit "100.00") None None.
Definition same_twice_tx : tx := Eval vm_compute in or_dummy (fst (@create_transaction demo_env same_twice)).
(** The two spellings of the selection key. *)
Definition documented : namespace :=
  request demo_inputs (pay3 "0.001") (fixed 10000 ++ [(lit "input_selection_approach", PStr (lit "smallest_first"))]) 250000 (lit "100.00") None None.
Definition documented_tx : tx := Eval vm_compute in or_dummy (fst (@create_transaction demo_env documented)).
Definition working : namespace :=
  request demo_inputs (pay3 "0.001") (fixed 10000 ++ [(lit "input_selection_approaches", PList [PStr (lit "smallest_first")])]) 250000 (lit "100.00") None None.
Definition working_tx : tx := Eval vm_compute in or_dummy (fst (@create_transaction demo_env working)).

(** The command line for the same transaction. *)
Definition cli_inputs : pyval := PList demo_inputs.
Definition cli_design : pyval := PDict (demo_design [demo_output addr3 (lit "0.501")]).
Definition no_shell : shell := fun _ => ([], [], 1).
Definition command (t : string) (keys files : list pystr) (data : option pystr) : cli_args := mk_args (lit t) keys files None None None data None None.
