(** Argument objects for C81 and C82, in the demo environment. *)
From Coq Require Import String Floats.SpecFloat.
From Verif Require Import PyBase Env Create DemoTx DemoCreate.

(** A known selection approach that is not implemented. *)
Definition unimplemented : namespace :=
  request demo_inputs (pay3 "0.1") (fixed 10000 ++ [(lit "input_selection_approaches", PList [PStr (lit "any_address")])]) 250000 (lit "100.00") None None.
(** Neither inputs nor outputs. *)
Definition nothing : namespace := request [] [] (fixed 10000) 250000 (lit "100.00") None None.
(** Numbers spelled as str; not enough money. *)
Definition an_input (index amount : pyval) (rest : dict) : pyval :=
  PDict ([(lit "address", PStr addr2); (lit "transaction_id", PStr (concat (repeat (lit "ab") 32))); (lit "previous_output_index", index); (lit "bitcoin_amount", amount)] ++ rest).
Definition an_output (amount : string) (rest : dict) : pyval := PDict ([(lit "address", PStr addr3); (lit "bitcoin_amount", PStr (lit amount))] ++ rest).
Definition a_design (fee max_fee : pyval) (out : pyval) : dict :=
  [(lit "fee", fee); (lit "change_address", PStr addr1); (lit "max_fee", max_fee); (lit "max_spend_percentage", PStr (lit "100.00")); (lit "outputs", PList [out])].
Definition spelled : namespace :=
  mk_ns (Some (PList [an_input (PStr (lit "7")) (PStr (lit "0.002")) []])) (Some (PDict (a_design (PStr (lit "10000")) (PStr (lit "250000")) (an_output "0.501" [])))) None None.
Definition spelled_after : namespace :=
  mk_ns (Some (PList [an_input (PInt 7) (PStr (lit "0.002")) [(lit "satoshi_amount", PInt 200000)]]))
    (Some (PDict (a_design (PInt 10000) (PInt 250000) (an_output "0.50100000" [(lit "satoshi_amount", PInt 50100000)])))) None None.
