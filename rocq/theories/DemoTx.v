(** Concrete transactions in the demo environment, used by the examples beside the theorems. *)
From Coq Require Import String.
From Verif Require Import PyBase Env PyNum Validate Basic TxInput TxOutput Tx Create Demo Spec.

Definition key1 : pystr := hex_of (repeat 17 32).
Definition key2 : pystr := hex_of (repeat 34 32).
Definition key3 : pystr := hex_of (repeat 51 32).

Definition or_nil (r : res pystr) : pystr := match r with Ok s => s | Err _ => [] end.
Definition addr1 : pystr := Eval vm_compute in or_nil (@private_key_hex_to_address demo_env key1).
Definition addr2 : pystr := Eval vm_compute in or_nil (@private_key_hex_to_address demo_env key2).
Definition addr3 : pystr := Eval vm_compute in or_nil (@private_key_hex_to_address demo_env key3).

Definition demo_input (a : pystr) (b idx : Z) (amount : pystr) : pyval :=
  PDict [(lit "address", PStr a); (lit "transaction_id", PStr (hex_of (repeat b 32)));
         (lit "previous_output_index", PInt idx); (lit "bitcoin_amount", PStr amount)].
Definition demo_output (a : pystr) (amount : pystr) : pyval :=
  PDict [(lit "address", PStr a); (lit "bitcoin_amount", PStr amount)].

(** Two inputs of 0.5 and 0.002, one payment of 0.501, fee 10000 satoshi. *)
Definition demo_design (outs : list pyval) : dict :=
  [(lit "change_address", PStr addr1); (lit "fee", PInt 10000); (lit "max_fee", PInt 250000);
   (lit "max_spend_percentage", PStr (lit "100.00")); (lit "outputs", PList outs)].
Definition demo_ns : namespace :=
  mk_ns (Some (PList [demo_input addr2 171 7 (lit "0.002"); demo_input addr1 205 1 (lit "0.5")]))
        (Some (PDict (demo_design [demo_output addr3 (lit "0.501")]))) None None.

Definition dummy_tx : tx := mk_tx [] [] [] [] [] [] [] [] None.
Definition or_dummy (r : res tx) : tx := match r with Ok t => t | Err _ => dummy_tx end.
Definition created : tx := Eval vm_compute in or_dummy (fst (@create_transaction demo_env demo_ns)).
Definition signed_tx : tx := Eval vm_compute in snd (@sign demo_env created [key1; key2] None).
Definition signed_hex : pystr := Eval vm_compute in or_nil (to_hex_signed_form signed_tx).
(** signed_hex with another last byte in its last output script. *)
Definition tampered_hex : pystr := firstn (length signed_hex - 12) signed_hex ++ lit "00" ++ skipn (length signed_hex - 10) signed_hex.

Example created_ok : fst (@create_transaction demo_env demo_ns) = Ok created.
Proof. vm_compute. reflexivity. Qed.
Example signed_ok : @sign demo_env created [key1; key2] None = (Ok tt, signed_tx).
Proof. vm_compute. reflexivity. Qed.
Example signed_hex_ok : to_hex_signed_form signed_tx = Ok signed_hex.
Proof. vm_compute. reflexivity. Qed.
Example decoded_ok : exists t, @from_hex_signed demo_env signed_hex = Ok t /\ to_hex_signed_form t = Ok signed_hex /\ @verify demo_env t = Ok 0.
Proof. eexists. split; [vm_compute; reflexivity|]. split; vm_compute; reflexivity. Qed.

(** A transaction signed throughout by key3, which controls none of its inputs. *)
Definition forge1 (t : tx) (n : nat) (x : txin) : txin :=
  match @make_script_sig demo_env t n key3 (or_nil (@private_key_hex_to_public_key_hex demo_env key3)) None with
  | Ok (l, n, s) => set_script x l n s
  | Err _ => x
  end.
Definition forged : tx := Eval vm_compute in
  match tx_inputs created with
  | [x; y] => set_inputs created [forge1 created 0 x; forge1 created 1 y]
  | _ => dummy_tx
  end.
Definition forged_json : pystr := Eval vm_compute in or_nil (@to_json demo_env forged).
Definition forged_loaded : tx := Eval vm_compute in or_dummy (@from_json demo_env forged_json).

(** Two inputs at the same address: one key suffices, and so does one nonce for the first input. *)
Definition twice_ns : namespace :=
  mk_ns (Some (PList [demo_input addr1 171 7 (lit "0.002"); demo_input addr1 205 1 (lit "0.5")]))
        (Some (PDict (demo_design [demo_output addr3 (lit "0.501")]))) None None.
Definition twice : tx := Eval vm_compute in or_dummy (fst (@create_transaction demo_env twice_ns)).
