(** What create_transaction logs at level INFO (create_transaction.py L135-559, L675), and the text of the exceptions that it raises itself.
    The lines of a call are collected in order; an exception raised by one of the functions it calls has no text here.
    str.format is applied to templates as written in the code; the texts inserted (addresses, numbers) contain no braces, so that applying
    format() to a partly filled template (L287, L300, L447, L470, L481) only fills what is left. *)
From Coq Require Import String Floats.SpecFloat.
From Verif Require Import PyBase Env PyNum Validate Basic TxInput TxOutput Tx Create.
Open Scope Z_scope.

(** The result of a call: a value, or an exception with its text. *)
Inductive outcome (A : Type) : Type :=
| Done (x : A)
| Raised (e : exn) (text : option pystr).
Arguments Done {A} x.
Arguments Raised {A} e text.
(** A computation that logs: the lines logged, and how it ended. *)
Definition logged (A : Type) : Type := (list pystr * outcome A)%type.
Definition lbind {A B : Type} (m : logged A) (k : A -> logged B) : logged B :=
  match m with
  | (l, Done x) => let '(l', o) := k x in (l ++ l', o)
  | (l, Raised e t) => (l, Raised e t)
  end.
(** Code that logs nothing. *)
Definition quiet {A : Type} (r : res A) : logged A :=
  ([], match r with Ok x => Done x | Err e => Raised e None end).
(** log(msg); raise e(msg) *)
Definition say (s : pystr) : logged unit := ([s], Done tt).
Definition raise_with {A : Type} (e : exn) (s : pystr) : logged A := ([], Raised e (Some s)).
(** What remains when the log and the texts are ignored. *)
Definition result {A : Type} (m : logged A) : res A :=
  match snd m with Done x => Ok x | Raised e _ => Err e end.

Notation "x <~ m ;; k" := (lbind m (fun x => k)) (at level 61, m at next level, right associativity).
Notation "' p <~ m ;; k" := (lbind m (fun p => k)) (at level 61, p pattern, m at next level, right associativity).
Notation "m ~; k" := (lbind m (fun _ => k)) (at level 61, right associativity).

Fixpoint say_all (l : list pystr) : logged unit :=
  match l with [] => quiet (Ok tt) | s :: r => say s ~; say_all r end.

Definition nl : pystr := [10].

(** '{:.kf}'.format(x) for a float x: the decimal with k decimals nearest to its exact value, ties to even. *)
Definition decimals (k : nat) (n : Z) : pystr := match k with O => int_str n | _ => dec_text k n end.
Definition fixed (k : nat) (x : pyfloat) : pystr :=
  match x with
  | S754_nan => lit "nan"
  | S754_infinity s => (if s then lit "-" else []) ++ lit "inf"
  | S754_zero s => (if s then lit "-" else []) ++ decimals k 0
  | S754_finite s m e =>
      (if s then lit "-" else []) ++
      decimals k (if 0 <=? e then Z.pos m * 2 ^ e * 10 ^ Z.of_nat k else div_half_even (Z.pos m * 10 ^ Z.of_nat k) (2 ^ (- e)))
  end.

Section WithEnv.
Context {E : Env}.
(** repr(), the Python built-in, for anything but a str or an int: only ever used for a float, a bool or the list of approaches. *)
Context (repr : pyval -> pystr).

(** str(v), as '{}'.format(v) and the logging module write it. *)
Definition show (v : pyval) : pystr :=
  match v with
  | PInt z => int_str z
  | PStr s => s
  | _ => repr v
  end.
(** "{} bitcoin ({} satoshi)" *)
Definition both (bitcoin : pystr) (satoshi : Z) : pystr := bitcoin ++ lit " bitcoin (" ++ int_str satoshi ++ lit " satoshi)".
Definition count (n : nat) : pystr := int_str (Z.of_nat n).

(** create_transaction.py L175-181, L252-258: an input.  (ba is a str, sa an int.) *)
Definition input_line (i : nat) (address txid index ba sa : pyval) : pystr :=
  lit "Input " ++ count i ++ lit ":" ++ nl ++
  lit "- address: " ++ show address ++ nl ++
  lit "- txid: " ++ show txid ++ nl ++
  lit "- previous_output_index: " ++ show index ++ nl ++
  lit "- bitcoin_amount: " ++ show ba ++ lit " (" ++ show sa ++ lit " satoshi)".
(** L187-191, L264-268: an output. *)
Definition output_line (i : nat) (address ba sa : pyval) : pystr :=
  lit "Output " ++ count i ++ lit ":" ++ nl ++
  lit "- address: " ++ show address ++ nl ++
  lit "- bitcoin_amount: " ++ show ba ++ lit " (" ++ show sa ++ lit " satoshi)".
(** for i, x in enumerate(l) *)
Fixpoint enumerate {A : Type} (f : nat -> A -> pystr) (i : nat) (l : list A) : list pystr :=
  match l with [] => [] | x :: r => f i x :: enumerate f (S i) r end.

(** L169-182: the inputs as supplied.  Every entry is there: it was read before (L125, L160, validate_inputs). *)
Definition supplied_input_line (i : nat) (v : pyval) : pystr :=
  match v with
  | PDict d => let get k := get_or_none (lit k) d in
      input_line i (get "address"%string) (get "transaction_id"%string) (get "previous_output_index"%string) (get "bitcoin_amount"%string) (get "satoshi_amount"%string)
  | _ => []
  end.
(** L183-192. *)
Definition supplied_output_line (i : nat) (v : pyval) : pystr :=
  match v with
  | PDict d => let get k := get_or_none (lit k) d in
      output_line i (get "address"%string) (get "bitcoin_amount"%string) (get "satoshi_amount"%string)
  | _ => []
  end.
(** L246-259, L260-269: the same of the objects. *)
Definition of_opt (o : option pystr) : pyval := match o with Some s => PStr s | None => PNone end.
Definition sorted_input_line (i : nat) (x : txin) : pystr :=
  input_line i (PStr (ti_address x)) (PStr (ti_txid x)) (ti_previous_output_index_int x) (of_opt (ti_bitcoin_amount x)) (PInt (ti_sat x)).
Definition sorted_output_line (i : nat) (x : txout) : pystr :=
  output_line i (PStr (to_address x)) (PStr (to_bitcoin_amount x)) (PInt (to_satoshi_amount x)).

(** L280-287: the message about the input addresses, built up line by line. *)
Fixpoint input_sums (inputs : list txin) (m : list (pystr * Z)) (msg : pystr) : res pystr :=
  match m with
  | [] => Ok msg
  | (address, satoshi) :: r =>
      bitcoin <- satoshi_to_bitcoin (PInt satoshi) ;;
      let n := length (filter (fun x => str_eqb (ti_address x) address) inputs) in
      input_sums inputs r
        (msg ++ nl ++ lit "- " ++ address ++ lit ": " ++ both bitcoin satoshi ++ lit ", " ++ count n ++ lit " input" ++
         (if Nat.ltb 1 n then lit "s" else []) ++ lit ".")
  end.
(** L295-300 *)
Fixpoint output_sums (m : list (pystr * Z)) (msg : pystr) : res pystr :=
  match m with
  | [] => Ok msg
  | (address, satoshi) :: r =>
      bitcoin <- satoshi_to_bitcoin (PInt satoshi) ;;
      output_sums r (msg ++ nl ++ lit "- " ++ address ++ lit ": " ++ both bitcoin satoshi)
  end.

(** L303-308 *)
Fixpoint says_duplicates (allow : bool) (outputs : list txout) (addresses : list pystr) : logged unit :=
  match addresses with
  | [] => quiet (Ok tt)
  | a :: r =>
      let n := length (filter (fun x => str_eqb (to_address x) a) outputs) in
      if Nat.ltb 1 n && negb allow
      then raise_with DuplicateOutputAddressError (lit "Multiple outputs (" ++ count n ++ lit ") send to this address: " ++ a)
      else says_duplicates allow outputs r
  end.

(** L316-347: the fee. *)
Definition says_fee (p : prepared) (n_inputs n_outputs : nat) : logged Z :=
  size <~ quiet (estimate_transaction_size n_inputs n_outputs) ;;
  say (lit "Estimated transaction size: " ++ int_str size ++ lit " bytes") ~;
  say (lit "Fee type: " ++ match p_fee_rate p with None => lit "fee" | Some _ => lit "fee_rate" end) ~;
  say (match p_fee_rate p with
       | None => lit "Fee: " ++ show (p_fee p) ++ lit " (satoshi)"
       | Some r => lit "Fee rate: " ++ show (PFloat r) ++ lit " (satoshi/byte)"
       end) ~;
  final_fee <~ quiet (compute_fee (p_fee p) (p_fee_rate p) size) ;;
  say (lit "Transaction fee: " ++ show final_fee ++ lit " satoshi") ~;
  final_fee_rate <~ quiet (ff <- py_float final_fee ;; fs <- py_float_int size ;; fdiv ff fs) ;;
  (match p_fee_rate p with
   | None => say (lit "Estimated fee rate: " ++ fixed 4 final_fee_rate ++ lit " satoshi/byte")
   | Some _ => quiet (Ok tt)
   end) ~;
  say (lit "Maximum fee: " ++ show (p_max_fee p) ++ lit " satoshi") ~;
  quiet (satoshi_to_bitcoin final_fee) ~;
  n <~ quiet (match as_int final_fee with Some z => Ok z | None => Err TypeError end) ;;
  b <~ quiet (py_int_gt n (p_max_fee p)) ;;
  if b : bool then
    raise_with ValueError (lit "The fee (" ++ show final_fee ++ lit " satoshi) is greater than the specified maximum fee (" ++
                           show (p_max_fee p) ++ lit " satoshi).")
  else quiet (Ok n).

(** L391-418: the selection; the number in "Selected inputs: ..." is that of the loop, 0 if there was no loop (L353, L413, L420). *)
Definition says_selection (approaches : pyval) (ap : approach) (inputs : list txin) (total_input target : Z) : logged (list txin) :=
  if total_input <? target then
    bitcoin <~ quiet (satoshi_to_bitcoin (PInt (target - total_input))) ;;
    raise_with OutputAndFeeValueNotCovered
      (lit "Total available input value is less than total output + fee value." ++ nl ++ lit "- Shortfall: " ++ both bitcoin (target - total_input))
  else if total_input =? target then
    say (lit "Total available input value exactly matches total output + fee value.") ~;
    say (lit "Selected inputs: " ++ count 0) ~;
    quiet (Ok inputs)
  else
    bitcoin <~ quiet (satoshi_to_bitcoin (PInt (total_input - target))) ;;
    say (lit "Total available input value is greater than total output + fee value." ++ nl ++ lit "- Surplus value: " ++ both bitcoin (total_input - target)) ~;
    say (lit "Selecting inputs according to input selection approaches " ++ show approaches ++
         lit " until [total selected input value] exceeds [total output + fee value].") ~;
    let selected := select_loop (match ap with All => true | _ => false end) target 0 inputs in
    say (lit "Selected inputs: " ++ count (length selected)) ~;
    quiet (Ok selected).

(** L463-472, L475-482: the output that receives the change, and what it was worth before. *)
Definition old_amount (change_address : pystr) (k : nat) (outputs : list txout) : Z :=
  match nth_error (filter (fun x => str_eqb (to_address x) change_address) outputs) k with Some o => to_satoshi_amount o | None => 0 end.
Definition old_line (first : pystr) (bitcoin : pystr) (old : Z) : pystr := first ++ nl ++ lit "- Old change amount: " ++ both bitcoin old.

(** L455-462: change_outputs[change_output_index], with the messages of the two errors. *)
Definition says_position (idx : pyval) (n : nat) (change_address : pystr) : logged nat :=
  match change_position idx n, idx with
  | Err ValueError, PNone => raise_with ValueError (lit "Multiple outputs (" ++ count n ++ lit ") send to the change address: " ++ change_address)
  | Err ValueError, _ =>
      raise_with ValueError (lit "change_output_index (" ++ show idx ++ lit ") must be less than the number of change outputs (" ++ count n ++ lit ").")
  | r, _ => quiet r
  end.

(** L438-494: the change. *)
Definition says_change (change_address : pystr) (idx : pyval) (outputs : list txout) (total_selected target : Z) : logged (list txout * Z) :=
  if total_selected =? target then
    say (lit "Total selected input value exactly matches total output + fee value.") ~;
    quiet (Ok (outputs, 0))
  else
    let surplus := total_selected - target in
    bitcoin <~ quiet (satoshi_to_bitcoin (PInt surplus)) ;;
    say (lit "Total selected input value is greater than total output + fee value." ++ nl ++
         lit "- Surplus value: " ++ both bitcoin surplus ++ nl ++
         lit "- This extra value will be sent to the change address." ++ nl ++
         lit "- Change address: " ++ change_address) ~;
    let n := length (filter (fun x => str_eqb (to_address x) change_address) outputs) in
    if Nat.ltb 1 n then
      k <~ says_position idx n change_address ;;
      '(outs, o) <~ quiet (update_change change_address k surplus outputs) ;;
      bitcoin <~ quiet (satoshi_to_bitcoin (PInt (old_amount change_address k outputs))) ;;
      say (old_line (count n ++ lit " outputs send to the same address. Out of this group, output " ++ show idx ++
                     lit " has been selected to receive change.") bitcoin (old_amount change_address k outputs)) ~;
      quiet (Ok (outs, to_satoshi_amount o))
    else if Nat.eqb n 1 then
      '(outs, o) <~ quiet (update_change change_address 0 surplus outputs) ;;
      bitcoin <~ quiet (satoshi_to_bitcoin (PInt (old_amount change_address 0 outputs))) ;;
      say (old_line (lit "Change address found within outputs.") bitcoin (old_amount change_address 0 outputs)) ~;
      quiet (Ok (outs, to_satoshi_amount o))
    else
      o <~ quiet (txout_create (PStr change_address) surplus) ;;
      say (lit "New output created to send change to change address.") ~;
      say (lit "New number of outputs: " ++ count (length (o :: outputs))) ~;
      quiet (Ok (o :: outputs, to_satoshi_amount o)).

(** L523-552: the spending limit. *)
Definition says_spend (msp : pyfloat) (total_input spend : Z) : logged unit :=
  say (lit "Maximum percentage of input value (prior to fee subtraction) that can be spent: " ++ fixed 2 msp ++ lit "%" ++ nl ++
       lit "- Note: ""spend"" == send bitcoin to any address that is not the change address.") ~;
  f100 <~ quiet (py_float_int 100) ;;
  q <~ quiet (fdiv msp f100) ;;
  ft <~ quiet (py_float_int total_input) ;;
  max_spend <~ quiet (py_ceil (fmul q ft)) ;;
  max_spend_bitcoin <~ quiet (satoshi_to_bitcoin (PInt max_spend)) ;;
  say (lit "Maximum spend amount: " ++ both max_spend_bitcoin max_spend) ~;
  spend_bitcoin <~ quiet (satoshi_to_bitcoin (PInt spend)) ;;
  say (lit "Spend amount: " ++ both spend_bitcoin spend) ~;
  fsp <~ quiet (py_float_int spend) ;;
  r <~ quiet (fdiv fsp ft) ;;
  let spend_percentage := fmul r f100 in
  say (lit "The spend amount is " ++ fixed 2 spend_percentage ++ lit "% of the available input value.") ~;
  if spend <=? max_spend then
    fm <~ quiet (py_float_int max_spend) ;;
    r2 <~ quiet (fdiv fsp fm) ;;
    say (lit "The spend amount is " ++ fixed 2 (fmul r2 f100) ++ lit "% of the maximum permitted spend amount.")
  else
    (* int() and '{:.0f}' of an int cannot fail here: the percentage is finite and not large (lemma suggestion_ok). *)
    raise_with ValueError
      (lit "Spend amount (" ++ spend_bitcoin ++ lit " bitcoin) is greater than the maximum permitted spend amount (" ++ max_spend_bitcoin ++
       lit " bitcoin). To spend this amount, you will need to increase the --max-spend-percentage value from " ++ fixed 0 msp ++ lit " to " ++
       match py_trunc spend_percentage with Ok n => int_str (n + 1) | Err _ => [] end ++ lit ".").

(** L166-561: everything after the arguments were converted. *)
Definition build_says (p : prepared) : logged tx :=
  say (lit "Report supplied data for inputs and outputs.") ~;
  say_all (enumerate supplied_input_line 0 (p_inputs p)) ~;
  say_all (enumerate supplied_output_line 0 (p_outputs p)) ~;
  inputs <~ quiet (mapM make_input (p_inputs p)) ;;
  let n_inputs := length inputs in
  say (lit "Number of inputs: " ++ count n_inputs) ~;
  outputs <~ quiet (mapM make_output (p_outputs p)) ;;
  let n_outputs := length outputs in
  say (lit "Number of outputs: " ++ count n_outputs) ~;
  ap <~ quiet (choose_approach (p_approaches p)) ;;
  let inputs := sort_inputs ap inputs in
  say (count (length inputs) ++ lit " inputs sorted according to the input selection approach: " ++ show (p_approaches p)) ~;
  say (lit "Report inputs (now sorted) and outputs.") ~;
  say_all (enumerate sorted_input_line 0 inputs) ~;
  say_all (enumerate sorted_output_line 0 outputs) ~;
  msg <~ quiet (input_sums inputs (per_address (map (fun x => (ti_address x, ti_sat x)) inputs))
                 (lit "Input addresses and the value that they each contain:")) ;;
  say msg ~;
  let output_addresses := per_address (map (fun x => (to_address x, to_satoshi_amount x)) outputs) in
  msg <~ quiet (output_sums output_addresses (lit "Output addresses, with total value to be sent to each:")) ;;
  say msg ~;
  says_duplicates (p_allow_duplicate p) outputs (map fst output_addresses) ~;
  final_fee <~ says_fee p n_inputs n_outputs ;;
  let total_in := Zsum (map ti_sat inputs) in
  let total_out := Zsum (map to_satoshi_amount outputs) in
  total_in_bitcoin <~ quiet (satoshi_to_bitcoin (PInt total_in)) ;;
  total_out_bitcoin <~ quiet (satoshi_to_bitcoin (PInt total_out)) ;;
  say (lit "Total available input value: " ++ both total_in_bitcoin total_in) ~;
  say (lit "Total output value: " ++ both total_out_bitcoin total_out) ~;
  (if total_in <? total_out then
     bitcoin <~ quiet (satoshi_to_bitcoin (PInt (total_out - total_in))) ;;
     raise_with OutputValueNotCovered
       (lit "Total available input value is less than total output value." ++ nl ++ lit "- Shortfall: " ++ both bitcoin (total_out - total_in))
   else say (lit "Total available input value is less than or equal to total output value.")) ~;
  let target := total_out + final_fee in
  target_bitcoin <~ quiet (satoshi_to_bitcoin (PInt target)) ;;
  say (lit "Total output + fee value: " ++ both target_bitcoin target) ~;
  selected <~ says_selection (p_approaches p) ap inputs total_in target ;;
  let total_selected := Zsum (map ti_sat selected) in
  selected_bitcoin <~ quiet (satoshi_to_bitcoin (PInt total_selected)) ;;
  say (lit "Total selected input value: " ++ both selected_bitcoin total_selected) ~;
  change_address <~ quiet (as_str (p_change_address p)) ;;
  '(outputs, change) <~ says_change change_address (p_change_output_index p) outputs total_selected target ;;
  let total_out := Zsum (map to_satoshi_amount outputs) in
  (if total_selected =? target then quiet (Ok tt)
   else
     total_out_bitcoin <~ quiet (satoshi_to_bitcoin (PInt total_out)) ;;
     say (lit "New total output value: " ++ both total_out_bitcoin total_out) ~;
     target_bitcoin <~ quiet (satoshi_to_bitcoin (PInt (total_out + final_fee))) ;;
     say (lit "New total output + fee value: " ++ both target_bitcoin (total_out + final_fee))) ~;
  if negb (total_selected =? total_out + final_fee) then quiet (Err ValueError)
  else
    change_bitcoin <~ quiet (satoshi_to_bitcoin (PInt change)) ;;
    say (lit "Change amount: " ++ both change_bitcoin change) ~;
    says_spend (p_max_spend_percentage p) total_in (total_selected - change) ~;
    t <~ quiet (tx_create selected outputs) ;;
    say (lit "Transaction created.") ~;
    quiet (Ok (set_change_address t (Some change_address))).

(** validate_design L650-665: fee and fee_rate, with the text of the error. *)
Definition says_fees (fee fee_rate : pyval) : logged unit :=
  if (truthy fee && truthy fee_rate) || (is_none fee && is_none fee_rate) then
    raise_with ValueError (lit "Design must contain exactly one of these keys:" ++ nl ++ lit "- fee (integer)" ++ nl ++ lit "- fee_rate (integer or decimal)")
  else
    quiet ((if truthy fee then validate_whole_number fee else Ok tt) ;;;
           (if truthy fee_rate then validate_string_is_whole_number_or_decimal fee_rate else Ok tt)).

(** L693-701: two approaches that exclude each other. *)
Fixpoint says_conflicts (l : list pyval) (conflicts : list (string * string)) : logged unit :=
  match conflicts with
  | [] => quiet (Ok tt)
  | (x, y) :: r =>
      if in_approaches x l && in_approaches y l then
        raise_with ValueError (lit "In the input selection approach list, cannot use both '" ++ lit x ++ lit "' and '" ++ lit y ++ lit "' together.")
      else says_conflicts l r
  end.

(** L671-701: the approaches, which are logged (L675). *)
Definition says_approaches (approaches : pyval) : logged unit :=
  if negb (truthy approaches) then quiet (Ok tt)
  else
    say (show approaches) ~;
    l <~ quiet (validate_list approaches ;;; as_list approaches) ;;
    if existsb (fun v => negb (existsb (py_eq_str v) available_approaches)) l then quiet (Err ValueError)
    else if in_approaches "all" l && Nat.ltb 1 (length l) then quiet (Err ValueError)
    else says_conflicts l [("largest_first", "smallest_first"); ("any_address", "one_address_at_a_time");
                           ("largest_address_first", "smallest_address_first")]%string.

(** L98-135: everything up to the line that says so. *)
Definition validation_says (a : namespace) : logged unit :=
  match ns_inputs a, ns_design a with
  | Some vin, Some vdesign =>
      match vdesign with
      | PDict d =>
          let '(o1, d1) := adjust_design d in
          quiet o1 ~;
          match vin with
          | PList l =>
              let '(o2, l2) := for_each adjust_input l in
              quiet (o2 ;;; validate_inputs (PList l2)) ~;
              outputs <~ quiet (validate_design_head d1) ;;
              quiet (fst (for_each validate_output outputs)) ~;
              says_fees (get_or_none (lit "fee") d1) (get_or_none (lit "fee_rate") d1) ~;
              says_approaches (get_or_none (lit "input_selection_approaches") d1) ~;
              quiet (validate_options a) ~;
              say (lit "All arguments validated. No problems found.")
          | _ => quiet (Err TypeError)
          end
      | _ => quiet (Err AttributeError)
      end
  | _, _ => quiet (Err ValueError)
  end.

(** create_transaction (L89-561) with what it logs.  L136-162, between the two parts, log nothing; an error there has no text here. *)
Definition create_transaction_says (a : namespace) : logged tx :=
  validation_says a ~;
  p <~ quiet (fst (prepare a)) ;;
  build_says p.

End WithEnv.
