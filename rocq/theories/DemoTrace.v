(** Concrete log lines for C86-C88. *)
From Coq Require Import String.
From Verif Require Import PyBase Env Spec Tx Demo DemoTx TraceSpec.
Definition signed_lines : list pystr :=
  [lit "Creating deterministic signature 1 of 2. Source address = " ++ match tx_inputs created with x :: _ => TxInput.ti_address x | _ => [] end;
   lit "Creating deterministic signature 2 of 2. Source address = " ++ match tx_inputs created with _ :: x :: _ => TxInput.ti_address x | _ => [] end;
   lit "Transaction signed with 2 signatures."].
(** The signed demo transaction with the scriptSigs of its two inputs exchanged: each signature is of the other input. *)
Definition exchanged : tx := Eval vm_compute in
  match tx_inputs signed_tx with
  | [x; y] => match TxInput.ti_script_sig x, TxInput.ti_script_sig y, TxInput.ti_script_length x, TxInput.ti_script_length y with
              | Some sx, Some sy, Some lx, Some ly =>
                  set_inputs signed_tx [TxInput.mk_txin (TxInput.ti_previous_output_hash x) (TxInput.ti_previous_output_index x) (TxInput.ti_previous_output_index_int x)
                    (TxInput.ti_sequence x) (TxInput.ti_public_key_hex x) (TxInput.ti_script_pub_key_length x) (TxInput.ti_script_pub_key_length_int x)
                    (TxInput.ti_script_pub_key x) (Some ly) (TxInput.ti_script_length_int y) (Some sy)
                    (TxInput.ti_address x) (TxInput.ti_txid x) (TxInput.ti_satoshi_amount x) (TxInput.ti_bitcoin_amount x);
                    TxInput.mk_txin (TxInput.ti_previous_output_hash y) (TxInput.ti_previous_output_index y) (TxInput.ti_previous_output_index_int y)
                    (TxInput.ti_sequence y) (TxInput.ti_public_key_hex y) (TxInput.ti_script_pub_key_length y) (TxInput.ti_script_pub_key_length_int y)
                    (TxInput.ti_script_pub_key y) (Some lx) (TxInput.ti_script_length_int x) (Some sx)
                    (TxInput.ti_address y) (TxInput.ti_txid y) (TxInput.ti_satoshi_amount y) (TxInput.ti_bitcoin_amount y)]
              | _, _, _, _ => dummy_tx
              end
  | _ => dummy_tx
  end.
