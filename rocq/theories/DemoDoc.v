(** Concrete documents: an input and an output of the demonstration transaction, with single entries changed. *)
From Coq Require Import String.
From Verif Require Import PyBase Env Spec TxInput TxOutput Tx Demo DemoTx.
Open Scope Z_scope.

Definition demo_input : pyval := Eval vm_compute in match tx_inputs signed_tx with x :: _ => txin_to_dict x | [] => PNone end.
Definition demo_output : pyval := Eval vm_compute in match tx_outputs signed_tx with y :: _ => txout_to_dict y | [] => PNone end.
(** The object v with the entry k replaced by w; without the entry k. *)
Definition with_entry (k : string) (w v : pyval) : pyval :=
  match v with PDict d => PDict (map (fun p : pystr * pyval => if str_eqb (fst p) (lit k) then (fst p, w) else p) d) | _ => v end.
Definition without_entry (k : string) (v : pyval) : pyval :=
  match v with PDict d => PDict (filter (fun p : pystr * pyval => negb (str_eqb (fst p) (lit k))) d) | _ => v end.
