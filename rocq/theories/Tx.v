(** Model of bitcoin_toolset/code/transaction.py. *)
From Coq Require Import String.
From Verif Require Import PyBase Env PyNum Validate Basic TxInput TxOutput.

(** transaction.py L165-177: Transaction.__init__.  input_count and output_count are set by every
    constructor (L195, L369, L656). *)
Record tx : Type := mk_tx {
  tx_version : pystr;
  tx_input_count : pystr;
  tx_inputs : list txin;
  tx_output_count : pystr;
  tx_outputs : list txout;
  tx_block_lock_time : pystr;
  tx_hash_type_4_byte : pystr;
  tx_hash_type_1_byte : pystr;
  tx_change_address : option pystr
}.

(** transaction.py L167, L172, L174, L176: default attribute values *)
Definition default_version : pystr := lit "01000000".
Definition default_block_lock_time : pystr := lit "00000000".
Definition default_hash_type_4_byte : pystr := lit "01000000".
Definition default_hash_type_1_byte : pystr := lit "01".

(** Assigning self.inputs' elements / tx.change_address in place. *)
Definition set_inputs (t : tx) (ins : list txin) : tx :=
  mk_tx (tx_version t) (tx_input_count t) ins (tx_output_count t) (tx_outputs t)
        (tx_block_lock_time t) (tx_hash_type_4_byte t) (tx_hash_type_1_byte t) (tx_change_address t).
Definition set_change_address (t : tx) (a : option pystr) : tx :=
  mk_tx (tx_version t) (tx_input_count t) (tx_inputs t) (tx_output_count t) (tx_outputs t)
        (tx_block_lock_time t) (tx_hash_type_4_byte t) (tx_hash_type_1_byte t) a.

Section WithEnv.
Context {E : Env}.

(** transaction.py L192-199: Transaction.create; also L368-372 and L655-659. *)
Definition tx_create (inputs : list txin) (outputs : list txout) : res tx :=
  input_count <- int_to_var_int (PInt (Z.of_nat (length inputs))) ;;
  output_count <- int_to_var_int (PInt (Z.of_nat (length outputs))) ;;
  Ok {| tx_version := default_version; tx_input_count := input_count; tx_inputs := inputs;
        tx_output_count := output_count; tx_outputs := outputs;
        tx_block_lock_time := default_block_lock_time;
        tx_hash_type_4_byte := default_hash_type_4_byte;
        tx_hash_type_1_byte := default_hash_type_1_byte;
        tx_change_address := None |}.

(** transaction.py L202-205: signed *)
Definition tx_signed (t : tx) : bool := forallb txin_signed (tx_inputs t).

(** transaction.py L208-210: input_values_known *)
Definition input_values_known (t : tx) : bool :=
  forallb (fun x => match ti_satoshi_amount x with Some _ => true | None => false end) (tx_inputs t).

(** x.satoshi_amount where it is known to be an int. *)
Definition ti_sat (x : txin) : Z := match ti_satoshi_amount x with Some z => z | None => 0 end.

(** transaction.py L212-216: total_input *)
Definition total_input (t : tx) : option Z :=
  if negb (input_values_known t) then None else Some (Zsum (map ti_sat (tx_inputs t))).

(** transaction.py L219-221: total_output *)
Definition total_output (t : tx) : Z := Zsum (map to_satoshi_amount (tx_outputs t)).

(** transaction.py L224-228: fee *)
Definition fee (t : tx) : option Z :=
  match total_input t with None => None | Some i => Some (i - total_output t) end.

(** transaction.py L231-236: change (an empty or missing change_address is falsy) *)
Definition change (t : tx) : option Z :=
  match tx_change_address t with
  | None | Some [] => None
  | Some a => Some (Zsum (map to_satoshi_amount (filter (fun x => str_eqb (to_address x) a) (tx_outputs t))))
  end.

(** * Hex forms *)

(** transaction.py L475-493 + L454-466: to_hex_signable_form.  [pos] is the loop counter of L478. *)
Fixpoint signable_inputs (pos input_index : nat) (ins : list txin) : res pystr :=
  match ins with
  | [] => Ok []
  | x :: r =>
      h <- (if Nat.eqb pos input_index then txin_hex_signable_form x else txin_hex_signable_form_empty x) ;;
      hs <- signable_inputs (S pos) input_index r ;;
      Ok (h ++ hs)
  end.
Definition to_hex_signable_form (t : tx) (input_index : nat) : res pystr :=
  ins <- signable_inputs 0 input_index (tx_inputs t) ;;
  Ok (tx_version t ++ tx_input_count t ++ ins ++ tx_output_count t
      ++ concat (map txout_hex_form (tx_outputs t)) ++ tx_block_lock_time t ++ tx_hash_type_4_byte t).

(** transaction.py L559-572 + L536-550: to_hex_signed_form *)
Definition to_hex_signed_form (t : tx) : res pystr :=
  ins <- mapM txin_hex_signed_form (tx_inputs t) ;;
  Ok (tx_version t ++ tx_input_count t ++ concat ins ++ tx_output_count t
      ++ concat (map txout_hex_form (tx_outputs t)) ++ tx_block_lock_time t).

(** transaction.py L665-672: calculate_txid *)
Definition calculate_txid (t : tx) : res pystr :=
  if negb (tx_signed t) then Err ValueError
  else
    tx_signed_hex <- to_hex_signed_form t ;;
    hash_hex <- get_double_sha256 tx_signed_hex ;;
    reverse_hex_order (PStr hash_hex).

(** * Signing *)

(** transaction.py L437-451: create_signature_for_one_input; None and '' both mean "deterministic". *)
Definition create_signature_for_one_input (t : tx) (input_index : nat) (private_key_hex : pystr)
    (random_value_hex : option pystr) : res pystr :=
  signable_form_hex <- to_hex_signable_form t input_index ;;
  digest_hex <- get_double_sha256 signable_form_hex ;;
  validate_hex_length (PStr digest_hex) 32 ;;;
  match random_value_hex with
  | None | Some [] => create_deterministic_signature_for_digest private_key_hex digest_hex
  | Some k => create_signature_for_digest private_key_hex digest_hex k
  end.

(** map_address_to_private_key_hex[address] = private_key_hex, and lookup. *)
Fixpoint map_set (k v : pystr) (m : list (pystr * pystr)) : list (pystr * pystr) :=
  match m with
  | [] => [(k, v)]
  | (k', v') :: r => if str_eqb k' k then (k', v) :: r else (k', v') :: map_set k v r
  end.
Fixpoint map_find (k : pystr) (m : list (pystr * pystr)) : option pystr :=
  match m with
  | [] => None
  | (k', v) :: r => if str_eqb k' k then Some v else map_find k r
  end.

(** transaction.py L392-396: the address map *)
Fixpoint build_key_map (keys : list pystr) (m : list (pystr * pystr)) : res (list (pystr * pystr)) :=
  match keys with
  | [] => Ok m
  | k :: r =>
      validate_hex_length (PStr k) 32 ;;;
      address <- private_key_hex_to_address k ;;
      build_key_map r (map_set address k m)
  end.

(** input_.public_key_hex = p (L411); input_.script_length = .. etc. (L428-430) *)
Definition set_public_key (x : txin) (p : pystr) : txin :=
  mk_txin (ti_previous_output_hash x) (ti_previous_output_index x) (ti_previous_output_index_int x)
          (ti_sequence x) (Some p) (ti_script_pub_key_length x) (ti_script_pub_key_length_int x)
          (ti_script_pub_key x) (ti_script_length x) (ti_script_length_int x) (ti_script_sig x)
          (ti_address x) (ti_txid x) (ti_satoshi_amount x) (ti_bitcoin_amount x).
Definition set_script (x : txin) (script_length : pystr) (n : Z) (script_sig : pystr) : txin :=
  mk_txin (ti_previous_output_hash x) (ti_previous_output_index x) (ti_previous_output_index_int x)
          (ti_sequence x) (ti_public_key_hex x) (ti_script_pub_key_length x) (ti_script_pub_key_length_int x)
          (ti_script_pub_key x) (Some script_length) (PInt n) (Some script_sig)
          (ti_address x) (ti_txid x) (ti_satoshi_amount x) (ti_bitcoin_amount x).

(** transaction.py L388: len(set(l)) *)
Fixpoint distinct_count (l : list pystr) : nat :=
  match l with
  | [] => O
  | x :: r => if str_in x r then distinct_count r else S (distinct_count r)
  end.

(** transaction.py L414-426: everything between storing the public key and storing the script;
    [t] is the transaction with the public key already stored. *)
Definition make_script_sig (t : tx) (i : nat) (private_key_hex public_key_hex : pystr)
    (random_value_hex : option pystr) : res (pystr * Z * pystr) :=
  hex_len (PStr public_key_hex) ;;; (* L412 *)
  signature_hex <- create_signature_for_one_input t i private_key_hex random_value_hex ;;
  hex_len (PStr signature_hex) ;;; (* L415 *)
  signature_hex <- signature_to_der signature_hex ;;
  hex_len (PStr signature_hex) ;;; (* L419 *)
  let signature_hex := signature_hex ++ tx_hash_type_1_byte t in
  hex_len (PStr signature_hex) ;;; (* L423 *)
  '(script_sig, script_length) <- signature_hex_and_public_key_hex_to_script_sig signature_hex public_key_hex ;;
  script_length_int <- var_int_to_int (PStr script_length) ;;
  Ok (script_length, script_length_int, script_sig).

(** transaction.py L401: random_values_hex[i] if random_values_hex else None *)
Definition random_value_at (random_values_hex : option (list pystr)) (i : nat) : res (option pystr) :=
  match random_values_hex with
  | None | Some [] => Ok None
  | Some l => match nth_error l i with Some k => Ok (Some k) | None => Err IndexError end
  end.

(** transaction.py L399-430: the signing loop.  [done] are the inputs already processed (with their new
    attributes), [todo] the rest; the result carries the inputs as they are when the loop ends or raises. *)
Fixpoint sign_loop (t : tx) (m : list (pystr * pystr)) (rv : option (list pystr))
    (done todo : list txin) : res unit * list txin :=
  match todo with
  | [] => (Ok tt, done)
  | x :: r =>
      let i := length done in
      match random_value_at rv i with
      | Err e => (Err e, done ++ x :: r)
      | Ok random_value_hex =>
          match map_find (ti_address x) m with
          | None => (Err ValueError, done ++ x :: r)
          | Some private_key_hex =>
              match private_key_hex_to_public_key_hex private_key_hex with
              | Err e => (Err e, done ++ x :: r)
              | Ok p =>
                  let x1 := set_public_key x p in
                  match make_script_sig (set_inputs t (done ++ x1 :: r)) i private_key_hex p random_value_hex with
                  | Err e => (Err e, done ++ x1 :: r)
                  | Ok (script_length, n, script_sig) =>
                      sign_loop t m rv (done ++ [set_script x1 script_length n script_sig]) r
                  end
              end
          end
      end
  end.

(** transaction.py L387-391 *)
Definition check_random_values (private_keys_hex : list pystr) (rv : option (list pystr)) : res unit :=
  match rv with
  | None | Some [] => Ok tt
  | Some l =>
      if negb (Nat.eqb (length l) (distinct_count l)) then Err ValueError
      else if negb (Nat.eqb (length l) (length private_keys_hex)) then Err ValueError
      else Ok tt
  end.

(** transaction.py L380-434: sign; the second component is the object after the call. *)
Definition sign (t : tx) (private_keys_hex : list pystr) (random_values_hex : option (list pystr))
    : res unit * tx :=
  match check_random_values private_keys_hex random_values_hex with
  | Err e => (Err e, t)
  | Ok _ =>
      match build_key_map private_keys_hex [] with
      | Err e => (Err e, t)
      | Ok m =>
          let '(r, ins) := sign_loop t m random_values_hex [] (tx_inputs t) in
          (r, set_inputs t ins)
      end
  end.

(** * Verifying *)

(** transaction.py L523-533: verify_signature_for_one_input *)
Definition verify_signature_for_one_input (t : tx) (input_index : nat) (public_key_hex signature_hex : pystr)
    : res bool :=
  signable_form_hex <- to_hex_signable_form t input_index ;;
  digest_hex <- get_double_sha256 signable_form_hex ;;
  validate_hex_length (PStr digest_hex) 32 ;;;
  verify_signature_digest public_key_hex digest_hex signature_hex.

(** transaction.py L499-516: the loop of verify *)
Fixpoint verify_loop (t : tx) (i : nat) (ins : list txin) (invalid_signatures : Z) : res Z :=
  match ins with
  | [] => Ok invalid_signatures
  | x :: r =>
      match ti_script_sig x with
      | None => Err ValueError
      | Some script_sig =>
          '(signature_hex, public_key_hex) <- script_sig_to_signature_hex_and_public_key_hex script_sig ;;
          signature_hex <- signature_from_der signature_hex ;;
          valid_signature <- verify_signature_for_one_input t i public_key_hex signature_hex ;;
          verify_loop t (S i) r (if valid_signature : bool then invalid_signatures else invalid_signatures + 1)
      end
  end.

(** transaction.py L496-520: verify *)
Definition verify (t : tx) : res Z := verify_loop t 0 (tx_inputs t) 0.

(** * Parsing the signed hex form *)

(** hex_bytes[i] / hex_bytes[i:i+n], where [bs] are the bytes from position i on. *)
Definition take1 (bs : list pystr) : res (pystr * list pystr) :=
  match bs with b :: r => Ok (b, r) | [] => Err IndexError end.
Definition take_n (n : nat) (bs : list pystr) : pystr * list pystr := (concat (firstn n bs), skipn n bs).

(** transaction.py L598-623: one iteration of the input loop *)
Definition parse_input (bs : list pystr) : res (txin * list pystr) :=
  let '(previous_output_hash, bs) := take_n 32 bs in
  let '(previous_output_index, bs) := take_n 4 bs in
  '(script_length, bs) <- take1 bs ;;
  script_length_int <- var_int_to_int (PStr script_length) ;;
  let '(script_sig, bs) := take_n (Z.to_nat script_length_int) bs in
  '(signature_hex, public_key_hex) <- script_sig_to_signature_hex_and_public_key_hex script_sig ;;
  hex_len (PStr signature_hex) ;;; (* L615 *)
  hex_len (PStr public_key_hex) ;;; (* L616 *)
  let '(sequence, bs) := take_n 4 bs in
  if negb (str_eqb sequence (lit "ffffffff")) then Err ValueError
  else
    input_ <- txin_create_from_signed_tx_data public_key_hex previous_output_hash previous_output_index
                script_length script_sig ;;
    Ok (input_, bs).

(** transaction.py L631-647: one iteration of the output loop *)
Definition parse_output (bs : list pystr) : res (txout * list pystr) :=
  let '(value, bs) := take_n 8 bs in
  satoshi_amount <- hex_le_to_int (PStr value) ;;
  satoshi_to_bitcoin (PInt satoshi_amount) ;;; (* L636 *)
  '(script_length, bs) <- take1 bs ;;
  script_length_int <- var_int_to_int (PStr script_length) ;;
  let '(script_pub_key, bs) := take_n (Z.to_nat script_length_int) bs in
  output <- txout_create_from_signed_tx_data value script_length script_pub_key ;;
  Ok (output, bs).

(** for x in range(n): ... *)
Fixpoint parse_many {A : Type} (f : list pystr -> res (A * list pystr)) (n : nat) (bs : list pystr)
    : res (list A * list pystr) :=
  match n with
  | O => Ok ([], bs)
  | S n' =>
      '(a, bs) <- f bs ;;
      '(l, bs) <- parse_many f n' bs ;;
      Ok (a :: l, bs)
  end.

(** transaction.py L575-662: from_hex_signed.  The bytes after the lock time are never looked at. *)
Definition from_hex_signed (s : pystr) : res tx :=
  hex_len (PStr s) ;;; (* L583 *)
  let bs := chunks2 s in
  let '(version, bs) := take_n 4 bs in
  if negb (str_eqb version (lit "01000000")) then Err ValueError
  else
    '(input_count, bs) <- take1 bs ;;
    input_count_int <- var_int_to_int (PStr input_count) ;;
    '(inputs, bs) <- parse_many parse_input (Z.to_nat input_count_int) bs ;;
    '(output_count, bs) <- take1 bs ;;
    output_count_int <- var_int_to_int (PStr output_count) ;;
    '(outputs, bs) <- parse_many parse_output (Z.to_nat output_count_int) bs ;;
    let '(block_lock_time, bs) := take_n 4 bs in
    if negb (str_eqb block_lock_time (lit "00000000")) then Err ValueError
    else tx_create inputs outputs.

(** * JSON *)

(** Rounding a / b (a >= 0, b > 0) to the nearest integer, ties to even: decimal.ROUND_HALF_EVEN. *)
Definition div_half_even (a b : Z) : Z :=
  let q := a / b in
  let r := a mod b in
  if 2 * r <? b then q else if b <? 2 * r then q + 1 else if Z.even q then q else q + 1.

(** The numeral of n / 10^k (n >= 0) with exactly k decimals. *)
Definition dec_text (k : nat) (n : Z) : pystr :=
  let s := int_str n in
  let s := rep_str (S k - length s) (lit "0") ++ s in
  drop_last_n k s ++ lit "." ++ last_n k s.

(** Decimal(a) / b (a >= 0, b > 0) in the default context: the quotient rounded to 28 significant digits, ties to even, as
    coefficient c and number of decimals k, worth c / 10^k.  (k is not negative as long as a < 10^28 * b; a is at most
    21 * 10^14 here.) *)
Definition count_digits (n : Z) : Z := Z.of_nat (length (digits 10 n)).
Definition decimal_quotient (a b : Z) : Z * Z :=
  let k0 := 27 + count_digits b - count_digits a in
  let k := if a * 10 ^ k0 <? 10 ^ 27 * b then k0 + 1 else k0 in
  (div_half_even (a * 10 ^ k) b, k).

(** transaction.py L262-263, L314-315: '{:.4f}'.format(Decimal(fee) / size), in units of 10^-4: the quotient is rounded a
    second time. *)
Definition fee_rate_units (fee size : Z) : Z :=
  let '(c, k) := decimal_quotient fee size in div_half_even c (10 ^ (k - 4)).

(** transaction.py L245-250: fee_rate_satoshi_to_bitcoin, from and to units of 10^-4 and 10^-8.  The division by 10^8 is exact: its
    result has at most 28 digits. *)
Definition fee_rate_bitcoin_units (u : Z) : Z := div_half_even u (10 ^ 4).

(** A dict with satoshi_amount / bitcoin_amount, or the two per-byte rates. *)
Definition amounts (s b : pyval) : pyval :=
  PDict [(lit "satoshi_amount", s); (lit "bitcoin_amount", b)].
Definition rates (s b : pyval) : pyval :=
  PDict [(lit "satoshi_per_byte", s); (lit "bitcoin_per_byte", b)].

(** transaction.py L239-321: to_dict *)
Definition to_dict (t : tx) : res pyval :=
  estimated_size_bytes <- estimate_transaction_size (length (tx_inputs t)) (length (tx_outputs t)) ;;
  (* L253-264 *)
  '(total_input_bitcoin, fee_bitcoin, er_satoshi, er_bitcoin) <-
    (match total_input t, fee t with
     | Some ti, Some f =>
         tib <- satoshi_to_bitcoin (PInt ti) ;;
         fb <- satoshi_to_bitcoin (PInt f) ;;
         let u := fee_rate_units f estimated_size_bytes in
         Ok (PStr tib, PStr fb, PStr (dec_text 4 u), PStr (dec_text 8 (fee_rate_bitcoin_units u)))
     | _, _ => Ok (PNone, PNone, PNone, PNone)
     end) ;;
  total_output_bitcoin <- satoshi_to_bitcoin (PInt (total_output t)) ;;
  (* L305-309 *)
  chg <- (match change t with
          | Some c => cb <- satoshi_to_bitcoin (PInt c) ;; Ok (amounts (PInt c) (PStr cb))
          | None => Ok (amounts PNone PNone)
          end) ;;
  (* L310-320 *)
  '(size_bytes, fee_rate) <-
    (if tx_signed t then
       h <- to_hex_signed_form t ;;
       n <- hex_len (PStr h) ;;
       let fr := match fee t with
                 | Some f =>
                     let u := fee_rate_units f (Z.of_nat n) in
                     rates (PStr (dec_text 4 u)) (PStr (dec_text 8 (fee_rate_bitcoin_units u)))
                 | None => amounts PNone PNone
                 end in
       Ok (PInt (Z.of_nat n), fr)
     else Ok (PNone, amounts PNone PNone)) ;;
  Ok (PDict
    [ (lit "version", PStr (tx_version t));
      (lit "input_count", PStr (tx_input_count t));
      (lit "inputs", PList (map txin_to_dict (tx_inputs t)));
      (lit "output_count", PStr (tx_output_count t));
      (lit "outputs", PList (map txout_to_dict (tx_outputs t)));
      (lit "block_lock_time", PStr (tx_block_lock_time t));
      (lit "hash_type_4_byte", PStr (tx_hash_type_4_byte t));
      (lit "hash_type_1_byte", PStr (tx_hash_type_1_byte t));
      (lit "signed", PBool (tx_signed t));
      (lit "total_input", amounts (opt_int (total_input t)) total_input_bitcoin);
      (lit "total_output", amounts (PInt (total_output t)) (PStr total_output_bitcoin));
      (lit "fee", amounts (opt_int (fee t)) fee_bitcoin);
      (lit "change_address", opt_str (tx_change_address t));
      (lit "change", chg);
      (lit "estimated_size_bytes", PInt estimated_size_bytes);
      (lit "estimated_fee_rate", rates er_satoshi er_bitcoin);
      (lit "size_bytes", size_bytes);
      (lit "fee_rate", fee_rate) ]).

(** transaction.py L324-327: to_json *)
Definition to_json (t : tx) : res pystr :=
  d <- to_dict t ;;
  Ok (json_dumps d).

(** transaction.py L338-342: expected *)
Definition tx_expected_keys : list pystr :=
  map lit ["version"; "input_count"; "inputs"; "output_count"; "outputs";
           "block_lock_time"; "hash_type_4_byte"; "hash_type_1_byte"; "signed"]%string.

(** transaction.py L343-377: from_json after json.loads.  d['version'] is never read. *)
Definition from_dict (v : pyval) : res tx :=
  d <- as_dict v ;;
  validate_list_contains_items (dict_keys d) tx_expected_keys ;;;
  d_input_count <- dict_get (lit "input_count") d ;;
  validate_hex d_input_count ;;;
  d_inputs <- dict_get (lit "inputs") d ;;
  validate_list d_inputs ;;;
  d_outputs <- dict_get (lit "outputs") d ;;
  validate_list d_outputs ;;;
  l_inputs <- as_list d_inputs ;;
  l_outputs <- as_list d_outputs ;;
  input_count <- var_int_to_int d_input_count ;;
  assert_ (input_count =? Z.of_nat (length l_inputs)) ;;;
  d_output_count <- dict_get (lit "output_count") d ;;
  output_count <- var_int_to_int d_output_count ;;
  assert_ (output_count =? Z.of_nat (length l_outputs)) ;;;
  inputs <- mapM txin_from_dict l_inputs ;;
  outputs <- mapM txout_from_dict l_outputs ;;
  d_lock <- dict_get (lit "block_lock_time") d ;;
  assert_ (py_eq_str d_lock (lit "00000000")) ;;;
  d_h4 <- dict_get (lit "hash_type_4_byte") d ;;
  assert_ (py_eq_str d_h4 (lit "01000000")) ;;;
  d_h1 <- dict_get (lit "hash_type_1_byte") d ;;
  assert_ (py_eq_str d_h1 (lit "01")) ;;;
  d_signed <- dict_get (lit "signed") d ;;
  validate_boolean d_signed ;;;
  let total_in := Zsum (map ti_sat inputs) in
  let total_out := Zsum (map to_satoshi_amount outputs) in
  assert_ (total_out <=? total_in) ;;;
  t <- tx_create inputs outputs ;;
  (match d_signed with PBool true => assert_ (tx_signed t) | _ => Ok tt end) ;;;
  Ok t.

(** transaction.py L330-377: from_json *)
Definition from_json (s : pystr) : res tx :=
  v <- json_loads s ;;
  from_dict v.

End WithEnv.
