(** The text of the exceptions about the arguments of create_transaction: the first part of Create.v (everything that is checked before the amounts are compared, up to L235) again, with the text of what it raises.
    repr (the Python built-in) is a parameter, and attrs, the names of the attributes of the argument object in order (list(vars(a).keys()), L98).
    Nothing here describes what happens to the argument object (Create.v does); exceptions are worded as by CPython 3.6. *)
From Coq Require Import String Floats.SpecFloat Lia.
From Verif Require Import PyBase Env PyNum Validate Basic Messages Complaints Answer BasicSays DocSays TxInput TxOutput Tx Create.
Open Scope Z_scope.

Section WithEnv.
Context {E : Env}.

(** int(v) *)
Definition int_says (repr : pyval -> pystr) (v : pyval) : answer Z :=
  match v with
  | PInt z => Gives z
  | PBool b => Gives (b2z b)
  | PStr s => int_text repr 10 s
  | PFloat f =>
      match py_trunc f with
      | Ok n => Gives n
      | Err e => Says e (match f with S754_nan => lit "cannot convert float NaN to integer" | _ => lit "cannot convert float infinity to integer" end)
      end
  | _ => Says TypeError (lit "int() argument must be a string, a bytes-like object or a number, not '" ++ type_name v ++ lit "'")
  end.
(** float(v).  For a str of white space only the value is not shown (by its repr), but what is left of it. *)
Definition float_says (repr : pyval -> pystr) (v : pyval) : answer spec_float :=
  match py_float v with
  | Ok f => Gives f
  | Err e =>
      Says e match v with
             | PStr s => lit "could not convert string to float: " ++ (match strip_end (skip_spaces (map to_ascii s)) with [] => [] | _ => repr v end)
             | PInt _ => lit "int too large to convert to float"
             | _ => lit "float() argument must be a string or a number, not '" ++ type_name v ++ lit "'"
             end
  end.

(** v[k] for a str k *)
Definition subscript_says (repr : pyval -> pystr) (v : pyval) (k : string) : answer pyval :=
  match v with
  | PDict d => item repr d k
  | PStr _ => Says TypeError (lit "string indices must be integers")
  | PList _ => Says TypeError (lit "list indices must be integers or slices, not str")
  | _ => Says TypeError (lit "'" ++ type_name v ++ lit "' object is not subscriptable")
  end.
(** What a for loop over v visits. *)
Definition items_says (v : pyval) : answer (list pyval) :=
  match v with
  | PList l => Gives l
  | PStr s => Gives (map (fun c => PStr [c]) s)
  | PDict d => Gives (map PStr (dict_keys d))
  | _ => Says TypeError (lit "'" ++ type_name v ++ lit "' object is not iterable")
  end.

(** create_transaction.py L112-123: if k in received and isinstance(design[k], str): design[k] = int(design[k]) *)
Definition number_says (repr : pyval -> pystr) (k : string) (d : dict) : answer dict :=
  match dict_find (lit k) d with
  | Some (PStr s) => abind (int_text repr 10 s) (fun n => Gives (dict_set (lit k) (PInt n) d))
  | _ => Gives d
  end.
Definition adjust_says (repr : pyval -> pystr) (d : dict) : answer dict :=
  abind (number_says repr "fee" d) (fun d =>
  let d := match dict_find (lit "fee_rate") d with
           | Some (PInt z) => dict_set (lit "fee_rate") (PStr (py_str_int (PInt z))) d
           | Some (PBool b) => dict_set (lit "fee_rate") (PStr (py_str_int (PBool b))) d
           | _ => d
           end in
  number_says repr "max_fee" d).
(** create_transaction.py L125 *)
Definition index_says (repr : pyval -> pystr) (v : pyval) : answer pyval :=
  abind (subscript_says repr v "previous_output_index") (fun w =>
  abind (int_says repr w) (fun n =>
  match v with PDict d => Gives (PDict (dict_set (lit "previous_output_index") (PInt n) d)) | _ => Says TypeError [] (* not reached *) end)).

(** create_transaction.py L579-589: the body of the loop of validate_inputs *)
Definition input_says (repr : pyval -> pystr) (v : pyval) : answer unit :=
  abind (dict_says v) (fun d =>
  check (validate_lists_are_identical_says repr (dict_keys d) (map lit ["address"; "transaction_id"; "previous_output_index"; "bitcoin_amount"]%string)) (
  abind (item repr d "address") (fun address =>
  check (validate_bitcoin_address_says repr address) (
  abind (item repr d "transaction_id") (fun transaction_id =>
  check (hex_length_check repr transaction_id 32) (
  abind (item repr d "previous_output_index") (fun previous_output_index =>
  check (whole_check repr previous_output_index) (
  abind (item repr d "bitcoin_amount") (fun bitcoin_amount =>
  check (validate_positive_bitcoin_amount_says repr bitcoin_amount) (Gives tt)))))))))).

(** create_transaction.py L639-648: the body of the output loop of validate_design *)
Definition output_says (repr : pyval -> pystr) (v : pyval) : answer pyval :=
  abind (dict_says v) (fun d =>
  check (validate_lists_are_identical_says repr (dict_keys d) (map lit ["address"; "bitcoin_amount"]%string)) (
  abind (item repr d "address") (fun address =>
  check (validate_bitcoin_address_says repr address) (
  abind (item repr d "bitcoin_amount") (fun bitcoin_amount =>
  check (validate_positive_bitcoin_amount_says repr bitcoin_amount) (
  abind (ensure_8_decimal_places_says (str_of bitcoin_amount)) (fun s => Gives (PDict (dict_set (lit "bitcoin_amount") (PStr s) d))))))))).

(** create_transaction.py L611-638: the part of validate_design before the output loop *)
Definition head_says (repr : pyval -> pystr) (d : dict) : answer (list pyval) :=
  check (validate_list_contains_items_says (dict_keys d) (map lit ["change_address"; "max_fee"; "max_spend_percentage"; "outputs"]%string)) (
  abind (item repr d "change_address") (fun change_address =>
  abind (item repr d "max_fee") (fun max_fee =>
  abind (item repr d "max_spend_percentage") (fun max_spend_percentage =>
  abind (item repr d "outputs") (fun outputs =>
  check (validate_bitcoin_address_says repr change_address) (
  check (whole_check repr max_fee) (
  abind (float_says repr max_spend_percentage) (fun f =>
  abind (int_says repr (PFloat f)) (fun n =>
  check (domain_check repr (PInt n) 0 100) (
  check (list_check repr outputs) (
  Gives (list_of outputs)))))))))))).

(** create_transaction.py L650-669: validation of fee / fee_rate *)
Definition one_fee_text : pystr :=
  lit "Design must contain exactly one of these keys:" ++ newline ++ lit "- fee (integer)" ++ newline ++ lit "- fee_rate (integer or decimal)".
Definition rate_check (repr : pyval -> pystr) (v : pyval) : option (exn * pystr) :=
  validate_string_is_whole_number_or_decimal_says repr v PNone None PNone (PStr (lit "integer")).
Definition fees_says (repr : pyval -> pystr) (fee fee_rate : pyval) : answer unit :=
  check (if (truthy fee && truthy fee_rate) || (is_none fee && is_none fee_rate) then Some (ValueError, one_fee_text) else None) (
  check (if truthy fee then whole_check repr fee else None) (
  check (if truthy fee_rate then rate_check repr fee_rate else None) (
  Gives tt))).

(** create_transaction.py L671-701: validation of input_selection_approaches; L685 and L690 raise without a text. *)
Definition conflict_check (l : list pyval) (x y : string) : option (exn * pystr) :=
  if in_approaches x l && in_approaches y l
  then Some (ValueError, lit "In the input selection approach list, cannot use both '" ++ lit x ++ lit "' and '" ++ lit y ++ lit "' together.") else None.
Definition approaches_says (repr : pyval -> pystr) (approaches : pyval) : answer unit :=
  if negb (truthy approaches) then Gives tt
  else
    check (list_check repr approaches) (
    let l := list_of approaches in
    check (if existsb (fun v => negb (existsb (py_eq_str v) available_approaches)) l then Some (ValueError, []) else None) (
    check (if in_approaches "all" l && Nat.ltb 1 (length l) then Some (ValueError, []) else None) (
    check (conflict_check l "largest_first" "smallest_first") (
    check (conflict_check l "any_address" "one_address_at_a_time") (
    check (conflict_check l "largest_address_first" "smallest_address_first") (
    Gives tt)))))).

(** create_transaction.py L130-133 *)
Definition options_says (repr : pyval -> pystr) (a : namespace) : answer unit :=
  check (match ns_allow_duplicate_output_address a with None | Some PNone => None | Some v => boolean_check repr v end) (
  check (match ns_change_output_index a with None | Some PNone => None | Some v => whole_check repr v end) (
  Gives tt)).

(** create_transaction.py L159-162: the body of the loops *)
Definition satoshi_says (repr : pyval -> pystr) (v : pyval) : answer pyval :=
  abind (subscript_says repr v "bitcoin_amount") (fun b =>
  abind (bitcoin_to_satoshi_says repr b) (fun n =>
  match v with PDict d => Gives (PDict (dict_set (lit "satoshi_amount") (PInt n) d)) | _ => Says TypeError [] (* not reached *) end)).

(** create_transaction.py L98-162 *)
Definition prepare_says (repr : pyval -> pystr) (attrs : list pystr) (a : namespace) : answer prepared :=
  check (validate_list_contains_items_says attrs (map lit ["inputs"; "design"]%string)) (
  abind (dict_says (match ns_design a with Some v => v | None => PNone end)) (fun d =>
  let vin := match ns_inputs a with Some v => v | None => PNone end in
  abind (adjust_says repr d) (fun d1 =>
  abind (items_says vin) (fun l =>
  abind (all_say (index_says repr) l) (fun l2 =>
  check (list_check repr vin) (
  abind (all_say (input_says repr) l2) (fun _ =>
  abind (head_says repr d1) (fun lo =>
  abind (all_say (output_says repr) lo) (fun lo2 =>
  let fee := get_or_none (lit "fee") d1 in
  let fee_rate := get_or_none (lit "fee_rate") d1 in
  abind (fees_says repr fee fee_rate) (fun _ =>
  abind (approaches_says repr (get_or_none (lit "input_selection_approaches") d1)) (fun _ =>
  abind (options_says repr a) (fun _ =>
  abind (item repr d1 "change_address") (fun change_address =>
  abind (item repr d1 "max_fee") (fun max_fee =>
  abind (item repr d1 "max_spend_percentage") (fun max_spend_percentage =>
  abind (float_says repr max_spend_percentage) (fun msp =>
  abind (if truthy fee then Gives None else abind (float_says repr fee_rate) (fun r => Gives (Some r))) (fun rate =>
  abind (all_say (satoshi_says repr) l2) (fun l4 =>
  abind (all_say (satoshi_says repr) lo2) (fun lo5 =>
  Gives {| p_inputs := l4; p_outputs := lo5; p_fee := fee; p_fee_rate := rate;
           p_change_address := change_address; p_max_fee := max_fee;
           p_max_spend_percentage := msp;
           p_approaches := match dict_find (lit "input_selection_approaches") d1 with Some v => v | None => PList [PStr (lit "largest_first")] end;
           p_allow_duplicate := match ns_allow_duplicate_output_address a with Some v => truthy v | None => false end;
           p_change_output_index := match ns_change_output_index a with Some v => v | None => PNone end |}))))))))))))))))))).

(** basic.py L351-354: address_to_script_pub_key *)
Definition address_to_script_says (repr : pyval -> pystr) (address : pyval) : answer (pystr * pystr) :=
  abind (bitcoin_address_to_public_key_hash_hex_says repr address) (public_key_hash_hex_to_script_pub_key_says repr).
(** transaction_input.py L103-129: TransactionInput.create, and transaction_output.py L75-92: TransactionOutput.create *)
Definition txin_create_says (repr : pyval -> pystr) (address txid previous_output_index_int : pyval) (satoshi_amount : Z) : answer txin :=
  check (validate_bitcoin_address_says repr address) (
  check (hex_length_check repr txid 32) (
  abind (reverse_hex_order_says repr txid) (fun previous_output_hash =>
  check (integer_check repr previous_output_index_int) (
  abind (le_field_says repr previous_output_index_int 4) (fun previous_output_index =>
  abind (address_to_script_says repr address) (fun '(script_pub_key, script_pub_key_length) =>
  abind (var_int_to_int_says repr (PStr script_pub_key_length)) (fun script_pub_key_length_int =>
  abind (satoshi_to_bitcoin_says repr (PInt satoshi_amount)) (fun bitcoin_amount =>
  Gives {| ti_previous_output_hash := previous_output_hash;
           ti_previous_output_index := previous_output_index;
           ti_previous_output_index_int := previous_output_index_int;
           ti_sequence := default_sequence;
           ti_public_key_hex := None;
           ti_script_pub_key_length := Some script_pub_key_length;
           ti_script_pub_key_length_int := PInt script_pub_key_length_int;
           ti_script_pub_key := Some script_pub_key;
           ti_script_length := None;
           ti_script_length_int := PNone;
           ti_script_sig := None;
           ti_address := str_of address;
           ti_txid := str_of txid;
           ti_satoshi_amount := Some satoshi_amount;
           ti_bitcoin_amount := Some bitcoin_amount |})))))))).
Definition txout_create_says (repr : pyval -> pystr) (address : pyval) (satoshi_amount : Z) : answer txout :=
  abind (le_field_says repr (PInt satoshi_amount) 8) (fun value =>
  abind (address_to_script_says repr address) (fun '(script_pub_key, script_length) =>
  abind (var_int_to_int_says repr (PStr script_length)) (fun script_length_int =>
  abind (satoshi_to_bitcoin_says repr (PInt satoshi_amount)) (fun bitcoin_amount =>
  Gives {| to_value := value; to_script_length := script_length; to_script_length_int := PInt script_length_int;
           to_script_pub_key := script_pub_key; to_address := str_of address;
           to_bitcoin_amount := bitcoin_amount; to_satoshi_amount := satoshi_amount |})))).
(** create_transaction.py L199-206 and L210-215: the bodies of the loops.  The amounts are ints: L160 and L162 have put them there. *)
Definition make_input_says (repr : pyval -> pystr) (v : pyval) : answer txin :=
  abind (subscript_says repr v "address") (fun address =>
  abind (subscript_says repr v "transaction_id") (fun txid =>
  abind (subscript_says repr v "previous_output_index") (fun index =>
  abind (subscript_says repr v "satoshi_amount") (fun sat =>
  txin_create_says repr address txid index (int_of sat))))).
Definition make_output_says (repr : pyval -> pystr) (v : pyval) : answer txout :=
  abind (subscript_says repr v "address") (fun address =>
  abind (subscript_says repr v "satoshi_amount") (fun sat =>
  txout_create_says repr address (int_of sat))).

(** create_transaction.py L223-235: len(v) > 1 (L224 raises without a text), v[0], and what is said of it. *)
Definition choose_says (repr : pyval -> pystr) (v : pyval) : answer approach :=
  let unrecognised x := Says NotImplementedError (lit "Unrecognised input_selection_approach: " ++ shown repr x) in
  match v with
  | PList [] => Says IndexError (lit "list index out of range")
  | PList [x] =>
      if py_eq_str x (lit "largest_first") then Gives LargestFirst
      else if py_eq_str x (lit "smallest_first") then Gives SmallestFirst
      else if py_eq_str x (lit "all") then Gives All
      else unrecognised x
  | PList _ => Says NotImplementedError []
  | PStr [] => Says IndexError (lit "string index out of range")
  | PStr [_] => unrecognised v
  | PStr _ => Says NotImplementedError []
  | PDict [] | PDict [_] => Says KeyError (repr (PInt 0)) (* keys are strings *)
  | PDict _ => Says NotImplementedError []
  | _ => Says TypeError (lit "object of type '" ++ type_name v ++ lit "' has no len()")
  end.

(** create_transaction.py L98-235 *)
Definition front_says (repr : pyval -> pystr) (attrs : list pystr) (a : namespace) : answer (prepared * approach) :=
  abind (prepare_says repr attrs a) (fun p =>
  abind (all_say (make_input_says repr) (p_inputs p)) (fun _ =>
  abind (all_say (make_output_says repr) (p_outputs p)) (fun _ =>
  abind (choose_says repr (p_approaches p)) (fun ap => Gives (p, ap))))).

End WithEnv.
