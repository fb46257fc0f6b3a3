(** Model of bitcoin_toolset/code/create_transaction.py. *)
From Coq Require Import String Floats.SpecFloat.
From Verif Require Import PyBase Env PyNum Validate Basic TxInput TxOutput Tx.

(** The argument object: an argparse.Namespace; only these attributes are ever read (L102-105, L108, L124).
    L96 (TypeError for an object that is not a Namespace) is not modelled.  L139 stores a.outputs, an alias
    of design['outputs'] that is written before it is read; it is not part of the model's state.
    Simplification: distinct list elements are distinct objects (no aliasing between the dicts supplied). *)
Record namespace : Type := mk_ns {
  ns_inputs : option pyval;
  ns_design : option pyval;
  ns_allow_duplicate_output_address : option pyval;
  ns_change_output_index : option pyval
}.
Definition set_ns_inputs (a : namespace) (v : pyval) : namespace :=
  mk_ns (Some v) (ns_design a) (ns_allow_duplicate_output_address a) (ns_change_output_index a).
Definition set_ns_design (a : namespace) (v : pyval) : namespace :=
  mk_ns (ns_inputs a) (Some v) (ns_allow_duplicate_output_address a) (ns_change_output_index a).

(** A for loop that mutates the elements: elements before a failing one keep their new value, the failing one
    keeps what was done to it, later ones are untouched. *)
Fixpoint for_each {A : Type} (f : A -> res unit * A) (l : list A) : res unit * list A :=
  match l with
  | [] => (Ok tt, [])
  | x :: r =>
      let '(o, x') := f x in
      match o with
      | Err e => (Err e, x' :: r)
      | Ok _ => let '(o', r') := for_each f r in (o', x' :: r')
      end
  end.

(** design[k] if k in received else None *)
Definition get_or_none (k : pystr) (d : dict) : pyval :=
  match dict_find k d with Some v => v | None => PNone end.

Section WithEnv.
Context {E : Env}.

(** create_transaction.py L112-123: adjust value types in the design. *)
Definition adjust_design (d : dict) : res unit * dict :=
  match (match dict_find (lit "fee") d with
         | Some (PStr s) => match py_int_str 10 s with
                            | Ok n => inl (dict_set (lit "fee") (PInt n) d)
                            | Err e => inr e
                            end
         | _ => inl d
         end) with
  | inr e => (Err e, d)
  | inl d =>
      let d := match dict_find (lit "fee_rate") d with
               | Some (PInt z) => dict_set (lit "fee_rate") (PStr (py_str_int (PInt z))) d
               | Some (PBool b) => dict_set (lit "fee_rate") (PStr (py_str_int (PBool b))) d
               | _ => d
               end in
      match dict_find (lit "max_fee") d with
      | Some (PStr s) => match py_int_str 10 s with
                         | Ok n => (Ok tt, dict_set (lit "max_fee") (PInt n) d)
                         | Err e => (Err e, d)
                         end
      | _ => (Ok tt, d)
      end
  end.

(** create_transaction.py L125: input_['previous_output_index'] = int(input_['previous_output_index']).
    Subscripting a non-dict with a str raises TypeError. *)
Definition adjust_input (v : pyval) : res unit * pyval :=
  match v with
  | PDict d =>
      match dict_find (lit "previous_output_index") d with
      | None => (Err KeyError, v)
      | Some x => match py_int x with
                  | Ok n => (Ok tt, PDict (dict_set (lit "previous_output_index") (PInt n) d))
                  | Err e => (Err e, v)
                  end
      end
  | _ => (Err TypeError, v)
  end.

(** create_transaction.py L579-589: the body of the loop of validate_inputs *)
Definition validate_input (v : pyval) : res unit :=
  d <- as_dict v ;;
  validate_lists_are_identical (dict_keys d)
    (map lit ["address"; "transaction_id"; "previous_output_index"; "bitcoin_amount"]%string) ;;;
  address <- dict_get (lit "address") d ;;
  validate_bitcoin_address address ;;;
  transaction_id <- dict_get (lit "transaction_id") d ;;
  validate_hex_length transaction_id 32 ;;;
  previous_output_index <- dict_get (lit "previous_output_index") d ;;
  validate_whole_number previous_output_index ;;;
  bitcoin_amount <- dict_get (lit "bitcoin_amount") d ;;
  validate_positive_bitcoin_amount bitcoin_amount.

(** create_transaction.py L566-589: validate_inputs *)
Definition validate_inputs (inputs : pyval) : res unit :=
  validate_list inputs ;;;
  l <- as_list inputs ;;
  iterM validate_input l.

(** create_transaction.py L639-648: the body of the output loop of validate_design; it rewrites
    bitcoin_amount with 8 decimals. *)
Definition validate_output (v : pyval) : res unit * pyval :=
  match v with
  | PDict d =>
      match (validate_lists_are_identical (dict_keys d) (map lit ["address"; "bitcoin_amount"]%string) ;;;
             address <- dict_get (lit "address") d ;;
             validate_bitcoin_address address ;;;
             bitcoin_amount <- dict_get (lit "bitcoin_amount") d ;;
             validate_positive_bitcoin_amount bitcoin_amount ;;;
             s <- as_str bitcoin_amount ;;
             ensure_8_decimal_places s) with
      | Ok s => (Ok tt, PDict (dict_set (lit "bitcoin_amount") (PStr s) d))
      | Err e => (Err e, v)
      end
  | _ => (Err AttributeError, v)
  end.

(** create_transaction.py L677-682: available_approaches *)
Definition available_approaches : list pystr :=
  map lit ["all"; "largest_first"; "smallest_first"; "any_address"; "one_address_at_a_time";
           "largest_address_first"; "smallest_address_first"]%string.

(** x in approaches, for a literal x *)
Definition in_approaches (x : string) (l : list pyval) : bool := existsb (fun v => py_eq_str v (lit x)) l.

(** create_transaction.py L671-701: validation of input_selection_approaches *)
Definition validate_approaches (approaches : pyval) : res unit :=
  if negb (truthy approaches) then Ok tt
  else
    validate_list approaches ;;;
    l <- as_list approaches ;;
    if existsb (fun v => negb (existsb (py_eq_str v) available_approaches)) l then Err ValueError
    else if in_approaches "all" l && Nat.ltb 1 (length l) then Err ValueError
    else if in_approaches "largest_first" l && in_approaches "smallest_first" l then Err ValueError
    else if in_approaches "any_address" l && in_approaches "one_address_at_a_time" l then Err ValueError
    else if in_approaches "largest_address_first" l && in_approaches "smallest_address_first" l then Err ValueError
    else Ok tt.

(** create_transaction.py L650-669: validation of fee / fee_rate *)
Definition validate_fees (fee fee_rate : pyval) : res unit :=
  if (truthy fee && truthy fee_rate) || (is_none fee && is_none fee_rate) then Err ValueError
  else
    (if truthy fee then validate_whole_number fee else Ok tt) ;;;
    (if truthy fee_rate then validate_string_is_whole_number_or_decimal fee_rate else Ok tt).

(** create_transaction.py L611-638: the part of validate_design before the output loop *)
Definition validate_design_head (d : dict) : res (list pyval) :=
  validate_list_contains_items (dict_keys d)
    (map lit ["change_address"; "max_fee"; "max_spend_percentage"; "outputs"]%string) ;;;
  change_address <- dict_get (lit "change_address") d ;;
  max_fee <- dict_get (lit "max_fee") d ;;
  max_spend_percentage <- dict_get (lit "max_spend_percentage") d ;;
  outputs <- dict_get (lit "outputs") d ;;
  validate_bitcoin_address change_address ;;;
  validate_whole_number max_fee ;;;
  f <- py_float max_spend_percentage ;;
  n <- py_trunc f ;;
  validate_integer_domain (PInt n) 0 100 ;;;
  validate_list outputs ;;;
  as_list outputs.

(** create_transaction.py L594-701: validate_design *)
Definition validate_design (d : dict) : res unit * dict :=
  match validate_design_head d with
  | Err e => (Err e, d)
  | Ok l =>
      let '(o, l') := for_each validate_output l in
      let d' := dict_set (lit "outputs") (PList l') d in
      match o with
      | Err e => (Err e, d')
      | Ok _ =>
          ((validate_fees (get_or_none (lit "fee") d) (get_or_none (lit "fee_rate") d) ;;;
            validate_approaches (get_or_none (lit "input_selection_approaches") d)), d')
      end
  end.

(** create_transaction.py L159-162: x['satoshi_amount'] = bitcoin_to_satoshi(x['bitcoin_amount']) *)
Definition add_satoshi_amount (v : pyval) : res unit * pyval :=
  match v with
  | PDict d =>
      match (b <- dict_get (lit "bitcoin_amount") d ;; bitcoin_to_satoshi b) with
      | Ok n => (Ok tt, PDict (dict_set (lit "satoshi_amount") (PInt n) d))
      | Err e => (Err e, v)
      end
  | _ => (Err TypeError, v)
  end.

(** The values the second half of the function works with (L138-162). *)
Record prepared : Type := mk_prepared {
  p_inputs : list pyval;
  p_outputs : list pyval;
  p_fee : pyval;
  p_fee_rate : option spec_float;   (* Some r: fee_type == 'fee_rate' (L154-156) *)
  p_change_address : pyval;
  p_max_fee : pyval;
  p_max_spend_percentage : spec_float;
  p_approaches : pyval;
  p_allow_duplicate : bool;
  p_change_output_index : pyval
}.

(** create_transaction.py L140-156: unpack and convert; no mutation. *)
Definition unpack (a : namespace) (d : dict) : res (spec_float * option spec_float * pyval * pyval * pyval * pyval) :=
  let fee := get_or_none (lit "fee") d in
  let fee_rate := get_or_none (lit "fee_rate") d in
  change_address <- dict_get (lit "change_address") d ;;
  max_fee <- dict_get (lit "max_fee") d ;;
  max_spend_percentage <- dict_get (lit "max_spend_percentage") d ;;
  let approaches := match dict_find (lit "input_selection_approaches") d with
                    | Some v => v
                    | None => PList [PStr (lit "largest_first")]
                    end in
  msp <- py_float max_spend_percentage ;;
  rate <- (if truthy fee then Ok None else r <- py_float fee_rate ;; Ok (Some r)) ;;
  Ok (msp, rate, fee, change_address, max_fee, approaches).

(** create_transaction.py L130-133 *)
Definition validate_options (a : namespace) : res unit :=
  (match ns_allow_duplicate_output_address a with
   | None | Some PNone => Ok tt
   | Some v => validate_boolean v
   end) ;;;
  (match ns_change_output_index a with
   | None | Some PNone => Ok tt
   | Some v => validate_whole_number v
   end).

(** create_transaction.py L98-162: everything that reads or mutates the argument object. *)
Definition prepare (a : namespace) : res prepared * namespace :=
  match ns_inputs a, ns_design a with
  | Some vin, Some vdesign =>
      match vdesign with
      | PDict d =>
          let '(o1, d1) := adjust_design d in
          let a1 := set_ns_design a (PDict d1) in
          match o1 with
          | Err e => (Err e, a1)
          | Ok _ =>
              match vin with
              | PList l =>
                  let '(o2, l2) := for_each adjust_input l in
                  let a2 := set_ns_inputs a1 (PList l2) in
                  match (o2 ;;; validate_inputs (PList l2)) with
                  | Err e => (Err e, a2)
                  | Ok _ =>
                      let '(o3, d3) := validate_design d1 in
                      let a3 := set_ns_design a2 (PDict d3) in
                      match (o3 ;;; validate_options a ;;;
                             u <- unpack a d3 ;;
                             outs <- dict_get (lit "outputs") d3 ;;
                             lo <- as_list outs ;;
                             Ok (u, lo)) with
                      | Err e => (Err e, a3)
                      | Ok (u, lo) =>
                          let '(o4, l4) := for_each add_satoshi_amount l2 in
                          let a4 := set_ns_inputs a3 (PList l4) in
                          match o4 with
                          | Err e => (Err e, a4)
                          | Ok _ =>
                              let '(o5, lo5) := for_each add_satoshi_amount lo in
                              let a5 := set_ns_design a4 (PDict (dict_set (lit "outputs") (PList lo5) d3)) in
                              match o5 with
                              | Err e => (Err e, a5)
                              | Ok _ =>
                                  let '(msp, rate, fee, change_address, max_fee, approaches) := u in
                                  (Ok {| p_inputs := l4; p_outputs := lo5; p_fee := fee; p_fee_rate := rate;
                                         p_change_address := change_address; p_max_fee := max_fee;
                                         p_max_spend_percentage := msp; p_approaches := approaches;
                                         p_allow_duplicate :=
                                           match ns_allow_duplicate_output_address a with
                                           | Some v => truthy v | None => false end;
                                         p_change_output_index :=
                                           match ns_change_output_index a with Some v => v | None => PNone end |}, a5)
                              end
                          end
                      end
                  end
              | _ => (Err TypeError, a1)
              end
          end
      | _ => (Err AttributeError, a)
      end
  | _, _ => (Err ValueError, a)
  end.

(** * Building the transaction (no further mutation of the arguments) *)

(** create_transaction.py L199-206 *)
Definition make_input (v : pyval) : res txin :=
  d <- (match v with PDict d => Ok d | _ => Err TypeError end) ;;
  address <- dict_get (lit "address") d ;;
  txid <- dict_get (lit "transaction_id") d ;;
  index <- dict_get (lit "previous_output_index") d ;;
  sat <- dict_get (lit "satoshi_amount") d ;;
  n <- (match as_int sat with Some z => Ok z | None => Err TypeError end) ;;
  txin_create address txid index n.

(** create_transaction.py L210-215 *)
Definition make_output (v : pyval) : res txout :=
  d <- (match v with PDict d => Ok d | _ => Err TypeError end) ;;
  address <- dict_get (lit "address") d ;;
  sat <- dict_get (lit "satoshi_amount") d ;;
  n <- (match as_int sat with Some z => Ok z | None => Err TypeError end) ;;
  txout_create address n.

(** list.sort(key=satoshi_amount[, reverse=True]): stable in both directions. *)
Fixpoint insert_asc (x : txin) (l : list txin) : list txin :=
  match l with
  | [] => [x]
  | y :: r => if ti_sat x <=? ti_sat y then x :: l else y :: insert_asc x r
  end.
Fixpoint insert_desc (x : txin) (l : list txin) : list txin :=
  match l with
  | [] => [x]
  | y :: r => if ti_sat y <=? ti_sat x then x :: l else y :: insert_desc x r
  end.
Definition sort_asc (l : list txin) : list txin := fold_right insert_asc [] l.
Definition sort_desc (l : list txin) : list txin := fold_right insert_desc [] l.

Inductive approach : Set := LargestFirst | SmallestFirst | All.

(** create_transaction.py L223-235: which approach is used.  len() and [0] on whatever was supplied. *)
Definition choose_approach (v : pyval) : res approach :=
  match v with
  | PList [] => Err IndexError
  | PList [x] =>
      if py_eq_str x (lit "largest_first") then Ok LargestFirst
      else if py_eq_str x (lit "smallest_first") then Ok SmallestFirst
      else if py_eq_str x (lit "all") then Ok All
      else Err NotImplementedError
  | PList _ => Err NotImplementedError
  | PStr [] => Err IndexError
  | PStr [_] => Err NotImplementedError
  | PStr _ => Err NotImplementedError
  | PDict [] => Err KeyError
  | PDict [_] => Err KeyError
  | PDict _ => Err NotImplementedError
  | _ => Err TypeError
  end.
Definition sort_inputs (ap : approach) (l : list txin) : list txin :=
  match ap with SmallestFirst => sort_asc l | _ => sort_desc l end.

(** input_addresses[address] += satoshi (L275-279, L290-294), in insertion order. *)
Fixpoint add_amount (k : pystr) (n : Z) (m : list (pystr * Z)) : list (pystr * Z) :=
  match m with
  | [] => [(k, n)]
  | (k', v) :: r => if str_eqb k' k then (k', v + n) :: r else (k', v) :: add_amount k n r
  end.
Definition per_address (l : list (pystr * Z)) : list (pystr * Z) :=
  fold_left (fun m p => add_amount (fst p) (snd p) m) l [].

(** create_transaction.py L281-287, L296-300: the log lines convert each sum, which raises when out of range. *)
Definition report_sums (m : list (pystr * Z)) : res unit :=
  iterM (fun p => satoshi_to_bitcoin (PInt (snd p)) ;;; Ok tt) m.

(** create_transaction.py L303-308 *)
Definition check_duplicates (allow : bool) (outputs : list txout) (addresses : list pystr) : res unit :=
  iterM (fun a =>
           if Nat.ltb 1 (length (filter (fun x => str_eqb (to_address x) a) outputs)) && negb allow
           then Err DuplicateOutputAddressError else Ok tt) addresses.

(** create_transaction.py L329-334: final_fee *)
Definition compute_fee (fee : pyval) (rate : option spec_float) (size : Z) : res pyval :=
  match rate with
  | None => Ok fee
  | Some r =>
      fs <- py_float_int size ;;
      n <- py_ceil (fmul fs r) ;;
      Ok (PInt n)
  end.

(** n > v, for an int n and a number v (L345); TypeError if v is not a number. *)
Definition py_int_gt (n : Z) (v : pyval) : res bool :=
  match v with
  | PInt z => Ok (z <? n)
  | PBool b => Ok (b2z b <? n)
  | PFloat f => Ok (match float_cmp_int f n with Some Lt => true | _ => false end)
  | _ => Err TypeError
  end.

(** create_transaction.py L316-347: fee management; returns final_fee. *)
Definition manage_fee (p : prepared) (n_inputs n_outputs : nat) : res Z :=
  size <- estimate_transaction_size n_inputs n_outputs ;;
  final_fee <- compute_fee (p_fee p) (p_fee_rate p) size ;;
  ff <- py_float final_fee ;; (* L337 *)
  fs <- py_float_int size ;;
  fdiv ff fs ;;;
  satoshi_to_bitcoin final_fee ;;; (* L344 *)
  n <- (match as_int final_fee with Some z => Ok z | None => Err TypeError end) ;;
  b <- py_int_gt n (p_max_fee p) ;;
  if b : bool then Err ValueError else Ok n.

(** create_transaction.py L410-418: the selection loop *)
Fixpoint select_loop (all : bool) (target total : Z) (l : list txin) : list txin :=
  match l with
  | [] => []
  | x :: r =>
      let total := total + ti_sat x in
      if (target <=? total) && negb all then [x] else x :: select_loop all target total r
  end.

(** create_transaction.py L391-418 *)
Definition select_inputs (ap : approach) (inputs : list txin) (total_input target : Z) : res (list txin) :=
  if total_input <? target then
    satoshi_to_bitcoin (PInt (target - total_input)) ;;; Err OutputAndFeeValueNotCovered
  else if total_input =? target then Ok inputs
  else
    satoshi_to_bitcoin (PInt (total_input - target)) ;;;
    Ok (select_loop (match ap with All => true | _ => false end) target 0 inputs).

(** change_outputs[change_output_index] for the index value supplied (L457-461): position, or the error. *)
Definition change_position (idx : pyval) (n : nat) : res nat :=
  match idx with
  | PNone => Err ValueError
  | _ =>
      b <- (match as_int idx with
            | Some z => Ok (z <? Z.of_nat n)
            | None => match idx with
                      | PFloat f => Ok (match float_cmp_int f (Z.of_nat n) with Some Lt => true | _ => false end)
                      | _ => Err TypeError
                      end
            end) ;;
      if negb b then Err ValueError
      else match as_int idx with
           | Some z => if z <? 0 then Err IndexError (* not reached: validated >= 0 *) else Ok (Z.to_nat z)
           | None => Err TypeError
           end
  end.

(** Updating, in place, the k-th output that pays [a]; returns the outputs and the updated one. *)
Fixpoint update_change (a : pystr) (k : nat) (surplus : Z) (l : list txout) : res (list txout * txout) :=
  match l with
  | [] => Err IndexError
  | o :: r =>
      if str_eqb (to_address o) a then
        match k with
        | O =>
            o' <- set_satoshi_amount o (to_satoshi_amount o + surplus) ;;
            satoshi_to_bitcoin (PInt (to_satoshi_amount o)) ;;; (* L466, L478 *)
            Ok (o' :: r, o')
        | S k' => '(r', o') <- update_change a k' surplus r ;; Ok (o :: r', o')
        end
      else '(r', o') <- update_change a k surplus r ;; Ok (o :: r', o')
  end.

(** create_transaction.py L438-506: handle change; returns the outputs and the change amount (L434, L510). *)
Definition handle_change (change_address : pystr) (idx : pyval) (outputs : list txout)
    (total_selected target : Z) : res (list txout * Z) :=
  if total_selected =? target then Ok (outputs, 0)
  else
    let surplus := total_selected - target in
    satoshi_to_bitcoin (PInt surplus) ;;;
    let n := length (filter (fun x => str_eqb (to_address x) change_address) outputs) in
    if Nat.ltb 1 n then
      k <- change_position idx n ;;
      '(outs, o) <- update_change change_address k surplus outputs ;;
      Ok (outs, to_satoshi_amount o)
    else if Nat.eqb n 1 then
      '(outs, o) <- update_change change_address 0 surplus outputs ;;
      Ok (outs, to_satoshi_amount o)
    else
      o <- txout_create (PStr change_address) surplus ;;
      Ok (o :: outputs, to_satoshi_amount o).

(** create_transaction.py L527-552: the spending limit. *)
Definition check_spend (msp : spec_float) (total_input spend : Z) : res unit :=
  f100 <- py_float_int 100 ;;
  q <- fdiv msp f100 ;;
  ft <- py_float_int total_input ;;
  max_spend <- py_ceil (fmul q ft) ;;
  satoshi_to_bitcoin (PInt max_spend) ;;; (* L530 *)
  satoshi_to_bitcoin (PInt spend) ;;; (* L535 *)
  fsp <- py_float_int spend ;;
  fdiv fsp ft ;;; (* L539 *)
  if spend <=? max_spend then
    fm <- py_float_int max_spend ;;
    fdiv fsp fm ;;; (* L543 *)
    Ok tt
  else Err ValueError.

(** create_transaction.py L197-561 *)
Definition build (p : prepared) : res tx :=
  inputs <- mapM make_input (p_inputs p) ;;
  outputs <- mapM make_output (p_outputs p) ;;
  let n_inputs := length inputs in
  let n_outputs := length outputs in
  ap <- choose_approach (p_approaches p) ;;
  let inputs := sort_inputs ap inputs in
  report_sums (per_address (map (fun x => (ti_address x, ti_sat x)) inputs)) ;;;
  let output_addresses := per_address (map (fun x => (to_address x, to_satoshi_amount x)) outputs) in
  report_sums output_addresses ;;;
  check_duplicates (p_allow_duplicate p) outputs (map fst output_addresses) ;;;
  final_fee <- manage_fee p n_inputs n_outputs ;;
  let total_in := Zsum (map ti_sat inputs) in
  let total_out := Zsum (map to_satoshi_amount outputs) in
  satoshi_to_bitcoin (PInt total_in) ;;; (* L360 *)
  satoshi_to_bitcoin (PInt total_out) ;;; (* L362 *)
  (if total_in <? total_out then
     satoshi_to_bitcoin (PInt (total_out - total_in)) ;;; Err OutputValueNotCovered
   else Ok tt) ;;;
  let target := total_out + final_fee in
  satoshi_to_bitcoin (PInt target) ;;; (* L384 *)
  selected <- select_inputs ap inputs total_in target ;;
  let total_selected := Zsum (map ti_sat selected) in
  satoshi_to_bitcoin (PInt total_selected) ;;; (* L423 *)
  change_address <- as_str (p_change_address p) ;;
  '(outputs, change) <- handle_change change_address (p_change_output_index p) outputs total_selected target ;;
  let total_out := Zsum (map to_satoshi_amount outputs) in
  (if total_selected =? target then Ok tt
   else satoshi_to_bitcoin (PInt total_out) ;;; (* L498 *)
        satoshi_to_bitcoin (PInt (total_out + final_fee)) ;;; Ok tt) ;;; (* L503 *)
  if negb (total_selected =? total_out + final_fee) then Err ValueError (* L508 *)
  else
    satoshi_to_bitcoin (PInt change) ;;; (* L512 *)
    check_spend (p_max_spend_percentage p) total_in (total_selected - change) ;;;
    t <- tx_create selected outputs ;;
    Ok (set_change_address t (Some change_address)).

(** create_transaction.py L89-561: create_transaction; the second component is the argument object afterwards. *)
Definition create_transaction (a : namespace) : res tx * namespace :=
  let '(r, a') := prepare a in
  match r with
  | Err e => (Err e, a')
  | Ok p => (build p, a')
  end.

End WithEnv.
