(** The text of the exceptions of the second part of create_transaction (create_transaction.py L197-561), for every exception it can raise:
    Create.v (`build`) again, with texts.  repr is a parameter, attrs are the names of the attributes of the argument object (see OrderSays.v).
    What is logged is in Report.v. *)
From Coq Require Import String Floats.SpecFloat Lia.
From Verif Require Import PyBase Env PyNum Validate Basic Messages Complaints Answer BasicSays DocSays TxInput TxOutput Tx Create Report OrderSays.
Open Scope Z_scope.

Section WithEnv.
Context {E : Env}.

(** x / y for floats; math.ceil(f), which is worded as int(f) is (PyLong_FromDouble in CPython 3.6). *)
Definition div_says (x y : spec_float) : answer spec_float :=
  match fdiv x y with Ok z => Gives z | Err e => Says e (lit "float division by zero") end.
Definition ceil_says (f : spec_float) : answer Z :=
  match py_ceil f with
  | Ok n => Gives n
  | Err e => Says e (match f with S754_nan => lit "cannot convert float NaN to integer" | _ => lit "cannot convert float infinity to integer" end)
  end.

(** create_transaction.py L281-287 and L295-300 *)
Fixpoint sums_say (repr : pyval -> pystr) (m : list (pystr * Z)) : answer unit :=
  match m with
  | [] => Gives tt
  | (_, v) :: r => abind (satoshi_to_bitcoin_says repr (PInt v)) (fun _ => sums_say repr r)
  end.
(** create_transaction.py L303-308 *)
Fixpoint duplicates_say (allow : bool) (outputs : list txout) (addresses : list pystr) : answer unit :=
  match addresses with
  | [] => Gives tt
  | a :: r =>
      let n := length (filter (fun x => str_eqb (to_address x) a) outputs) in
      if Nat.ltb 1 n && negb allow
      then Says DuplicateOutputAddressError (lit "Multiple outputs (" ++ count n ++ lit ") send to this address: " ++ a)
      else duplicates_say allow outputs r
  end.
(** basic.py L79-108: estimate_transaction_size *)
Definition estimate_says (repr : pyval -> pystr) (n_inputs n_outputs : nat) : answer Z :=
  abind (int_to_var_int_says repr (PInt (Z.of_nat n_inputs))) (fun ic =>
  abind (hex_len_says repr (PStr ic)) (fun input_count_bytes =>
  abind (int_to_var_int_says repr (PInt (Z.of_nat n_outputs))) (fun oc =>
  abind (hex_len_says repr (PStr oc)) (fun output_count_bytes =>
  Gives (4 + Z.of_nat input_count_bytes + Z.of_nat n_inputs * (32 + 4 + 1 + 138 + 4) + Z.of_nat output_count_bytes + Z.of_nat n_outputs * (8 + 1 + 25) + 4))))).
(** create_transaction.py L329-334 *)
Definition final_fee_says (repr : pyval -> pystr) (fee : pyval) (rate : option spec_float) (size : Z) : answer pyval :=
  match rate with
  | None => Gives fee
  | Some r => abind (float_says repr (PInt size)) (fun fs => abind (ceil_says (fmul fs r)) (fun n => Gives (PInt n)))
  end.
(** create_transaction.py L316-347 *)
Definition fee_answer (repr : pyval -> pystr) (p : prepared) (n_inputs n_outputs : nat) : answer Z :=
  abind (estimate_says repr n_inputs n_outputs) (fun size =>
  abind (final_fee_says repr (p_fee p) (p_fee_rate p) size) (fun final_fee =>
  abind (float_says repr final_fee) (fun ff =>
  abind (float_says repr (PInt size)) (fun fs =>
  abind (div_says ff fs) (fun _ =>
  abind (satoshi_to_bitcoin_says repr final_fee) (fun _ =>
  match as_int final_fee with
  | None => Says TypeError [] (* not reached: satoshi_to_bitcoin has refused *)
  | Some n =>
      match py_int_gt n (p_max_fee p) with
      | Err e => Says e [] (* not reached: the maximum fee is a number *)
      | Ok true => Says ValueError (lit "The fee (" ++ show repr final_fee ++ lit " satoshi) is greater than the specified maximum fee (" ++ show repr (p_max_fee p) ++ lit " satoshi).")
      | Ok false => Gives n
      end
  end)))))).

(** create_transaction.py L391-418 *)
Definition selection_answer (repr : pyval -> pystr) (ap : approach) (inputs : list txin) (total_input target : Z) : answer (list txin) :=
  if total_input <? target then
    abind (satoshi_to_bitcoin_says repr (PInt (target - total_input))) (fun bitcoin =>
    Says OutputAndFeeValueNotCovered (lit "Total available input value is less than total output + fee value." ++ newline ++ lit "- Shortfall: " ++ both bitcoin (target - total_input)))
  else if total_input =? target then Gives inputs
  else
    abind (satoshi_to_bitcoin_says repr (PInt (total_input - target))) (fun _ =>
    Gives (select_loop (match ap with All => true | _ => false end) target 0 inputs)).

(** create_transaction.py L455-462: change_outputs[change_output_index] *)
Definition position_says (repr : pyval -> pystr) (idx : pyval) (n : nat) (change_address : pystr) : answer nat :=
  match change_position idx n with
  | Ok k => Gives k
  | Err ValueError =>
      Says ValueError match idx with
                      | PNone => lit "Multiple outputs (" ++ count n ++ lit ") send to the change address: " ++ change_address
                      | _ => lit "change_output_index (" ++ show repr idx ++ lit ") must be less than the number of change outputs (" ++ count n ++ lit ")."
                      end
  | Err e => Says e (lit "list indices must be integers or slices, not " ++ type_name idx) (* idx is a float: other types have been refused *)
  end.
(** transaction_output.py L167-173: set_satoshi_amount *)
Definition set_amount_says (repr : pyval -> pystr) (o : txout) (satoshi_amount : Z) : answer txout :=
  check (positive_check repr (PInt satoshi_amount)) (
  abind (le_field_says repr (PInt satoshi_amount) 8) (fun value =>
  abind (satoshi_to_bitcoin_says repr (PInt satoshi_amount)) (fun bitcoin_amount =>
  Gives {| to_value := value; to_script_length := to_script_length o; to_script_length_int := to_script_length_int o;
           to_script_pub_key := to_script_pub_key o; to_address := to_address o;
           to_bitcoin_amount := bitcoin_amount; to_satoshi_amount := satoshi_amount |}))).
(** create_transaction.py L462-482: the k-th output that pays a is updated. *)
Fixpoint update_says (repr : pyval -> pystr) (a : pystr) (k : nat) (surplus : Z) (l : list txout) : answer (list txout * txout) :=
  match l with
  | [] => Says IndexError (lit "list index out of range")
  | o :: r =>
      if str_eqb (to_address o) a then
        match k with
        | O =>
            abind (set_amount_says repr o (to_satoshi_amount o + surplus)) (fun o' =>
            abind (satoshi_to_bitcoin_says repr (PInt (to_satoshi_amount o))) (fun _ => Gives (o' :: r, o')))
        | S k' => abind (update_says repr a k' surplus r) (fun '(r', o') => Gives (o :: r', o'))
        end
      else abind (update_says repr a k surplus r) (fun '(r', o') => Gives (o :: r', o'))
  end.
(** create_transaction.py L438-494 *)
Definition change_answer (repr : pyval -> pystr) (change_address : pystr) (idx : pyval) (outputs : list txout) (total_selected target : Z) : answer (list txout * Z) :=
  if total_selected =? target then Gives (outputs, 0)
  else
    let surplus := total_selected - target in
    abind (satoshi_to_bitcoin_says repr (PInt surplus)) (fun _ =>
    let n := length (filter (fun x => str_eqb (to_address x) change_address) outputs) in
    if Nat.ltb 1 n then
      abind (position_says repr idx n change_address) (fun k =>
      abind (update_says repr change_address k surplus outputs) (fun '(outs, o) => Gives (outs, to_satoshi_amount o)))
    else if Nat.eqb n 1 then
      abind (update_says repr change_address 0 surplus outputs) (fun '(outs, o) => Gives (outs, to_satoshi_amount o))
    else
      abind (txout_create_says repr (PStr change_address) surplus) (fun o => Gives (o :: outputs, to_satoshi_amount o))).

(** create_transaction.py L527-552.  int(spend_percentage) cannot fail where it is used (see says_spend in Report.v). *)
Definition spend_answer (repr : pyval -> pystr) (msp : spec_float) (total_input spend : Z) : answer unit :=
  abind (float_says repr (PInt 100)) (fun f100 =>
  abind (div_says msp f100) (fun q =>
  abind (float_says repr (PInt total_input)) (fun ft =>
  abind (ceil_says (fmul q ft)) (fun max_spend =>
  abind (satoshi_to_bitcoin_says repr (PInt max_spend)) (fun max_spend_bitcoin =>
  abind (satoshi_to_bitcoin_says repr (PInt spend)) (fun spend_bitcoin =>
  abind (float_says repr (PInt spend)) (fun fsp =>
  abind (div_says fsp ft) (fun r =>
  if spend <=? max_spend then
    abind (float_says repr (PInt max_spend)) (fun fm => abind (div_says fsp fm) (fun _ => Gives tt))
  else
    Says ValueError
      (lit "Spend amount (" ++ spend_bitcoin ++ lit " bitcoin) is greater than the maximum permitted spend amount (" ++ max_spend_bitcoin ++
       lit " bitcoin). To spend this amount, you will need to increase the --max-spend-percentage value from " ++ fixed 0 msp ++ lit " to " ++
       match py_trunc (fmul r f100) with Ok n => int_str (n + 1) | Err _ => [] end ++ lit "."))))))))).

(** transaction.py L193-199: Transaction.create *)
Definition tx_create_says (repr : pyval -> pystr) (inputs : list txin) (outputs : list txout) : answer tx :=
  abind (int_to_var_int_says repr (PInt (Z.of_nat (length inputs)))) (fun input_count =>
  abind (int_to_var_int_says repr (PInt (Z.of_nat (length outputs)))) (fun output_count =>
  Gives {| tx_version := default_version; tx_input_count := input_count; tx_inputs := inputs;
           tx_output_count := output_count; tx_outputs := outputs; tx_block_lock_time := default_block_lock_time;
           tx_hash_type_4_byte := default_hash_type_4_byte; tx_hash_type_1_byte := default_hash_type_1_byte; tx_change_address := None |})).

(** create_transaction.py L197-561 *)
Definition build_answer (repr : pyval -> pystr) (p : prepared) : answer tx :=
  abind (all_say (make_input_says repr) (p_inputs p)) (fun inputs =>
  abind (all_say (make_output_says repr) (p_outputs p)) (fun outputs =>
  abind (choose_says repr (p_approaches p)) (fun ap =>
  let n_inputs := length inputs in
  let n_outputs := length outputs in
  let inputs := sort_inputs ap inputs in
  abind (sums_say repr (per_address (map (fun x => (ti_address x, ti_sat x)) inputs))) (fun _ =>
  let output_addresses := per_address (map (fun x => (to_address x, to_satoshi_amount x)) outputs) in
  abind (sums_say repr output_addresses) (fun _ =>
  abind (duplicates_say (p_allow_duplicate p) outputs (map fst output_addresses)) (fun _ =>
  abind (fee_answer repr p n_inputs n_outputs) (fun final_fee =>
  let total_in := Zsum (map ti_sat inputs) in
  let total_out := Zsum (map to_satoshi_amount outputs) in
  abind (satoshi_to_bitcoin_says repr (PInt total_in)) (fun _ =>
  abind (satoshi_to_bitcoin_says repr (PInt total_out)) (fun _ =>
  abind (if total_in <? total_out then
           abind (satoshi_to_bitcoin_says repr (PInt (total_out - total_in))) (fun bitcoin =>
           Says OutputValueNotCovered (lit "Total available input value is less than total output value." ++ newline ++ lit "- Shortfall: " ++ both bitcoin (total_out - total_in)))
         else Gives tt) (fun _ =>
  let target := total_out + final_fee in
  abind (satoshi_to_bitcoin_says repr (PInt target)) (fun _ =>
  abind (selection_answer repr ap inputs total_in target) (fun selected =>
  let total_selected := Zsum (map ti_sat selected) in
  abind (satoshi_to_bitcoin_says repr (PInt total_selected)) (fun _ =>
  match p_change_address p with
  | PStr change_address =>
      abind (change_answer repr change_address (p_change_output_index p) outputs total_selected target) (fun '(outputs, change) =>
      let total_out := Zsum (map to_satoshi_amount outputs) in
      abind (if total_selected =? target then Gives tt
             else abind (satoshi_to_bitcoin_says repr (PInt total_out)) (fun _ => abind (satoshi_to_bitcoin_says repr (PInt (total_out + final_fee))) (fun _ => Gives tt))) (fun _ =>
      if negb (total_selected =? total_out + final_fee) then Says ValueError []
      else
        abind (satoshi_to_bitcoin_says repr (PInt change)) (fun _ =>
        abind (spend_answer repr (p_max_spend_percentage p) total_in (total_selected - change)) (fun _ =>
        abind (tx_create_says repr selected outputs) (fun t => Gives (set_change_address t (Some change_address)))))))
  | _ => Says TypeError [] (* not reached: the change address has been validated *)
  end))))))))))))).

(** create_transaction.py L89-561: create_transaction, with the texts of all exceptions. *)
Definition create_answer (repr : pyval -> pystr) (attrs : list pystr) (a : namespace) : answer tx :=
  abind (prepare_says repr attrs a) (build_answer repr).

End WithEnv.
