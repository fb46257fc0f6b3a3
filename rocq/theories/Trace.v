(** The log records written while a transaction is signed, verified or loaded (transaction.py, and the functions of basic.py that these call).
    No other function called on the way writes a record: basic.py logs in three functions only, transaction_input.py, transaction_output.py
    and validate.py in none. *)
From Coq Require Import String.
From Verif Require Import PyBase Env PyNum Validate Basic TxInput TxOutput Tx.
Open Scope Z_scope.

(** A record: its level (logging.ERROR = 40, INFO = 20, DEBUG = 10) and its text. *)
Definition record : Type := (Z * pystr)%type.
(** A computation that logs: the records in order, and how it ended. *)
Definition trace (A : Type) : Type := (list record * res A)%type.
Definition tbind {A B : Type} (m : trace A) (k : A -> trace B) : trace B :=
  match m with
  | (l, Ok x) => let '(l', r) := k x in (l ++ l', r)
  | (l, Err e) => (l, Err e)
  end.
(** Code that logs nothing. *)
Definition silent {A : Type} (r : res A) : trace A := ([], r).
(** deb(msg), log(msg), logger.error(msg) *)
Definition deb (s : pystr) : trace unit := ([(10, s)], Ok tt).
Definition info (s : pystr) : trace unit := ([(20, s)], Ok tt).
Definition error (s : pystr) : trace unit := ([(40, s)], Ok tt).

Notation "x <~ m ;; k" := (tbind m (fun x => k)) (at level 61, m at next level, right associativity).
Notation "' p <~ m ;; k" := (tbind m (fun p => k)) (at level 61, p pattern, m at next level, right associativity).
Notation "m ~; k" := (tbind m (fun _ => k)) (at level 61, right associativity).

(** '{}'.format(n) for the int n, '{} ({} bytes){}{}'.format(name, hex_len(s), sep, s) *)
Definition num (n : nat) : pystr := int_str (Z.of_nat n).
Definition deb_hex (name sep : string) (s : pystr) : trace unit :=
  n <~ silent (hex_len (PStr s)) ;;
  deb (lit name ++ lit " (" ++ num n ++ lit " bytes)" ++ lit sep ++ s).

Section WithEnv.
Context {E : Env}.

(** basic.py L279-307: script_sig_to_signature_hex_and_public_key_hex *)
Definition script_parts_says (script_sig : pystr) : trace (pystr * pystr) :=
  silent (validate_hex (PStr script_sig)) ~;
  let b := slice 0 2 script_sig in
  n <~ silent (var_int_to_int (PStr b)) ;;
  let m := (Z.to_nat n * 2 + 2)%nat in
  let signature_hex := slice 2 m script_sig in
  deb_hex "signature_hex (DER-encoded, 1-byte hash type appended)" ": " signature_hex ~;
  let b := slice m (m + 2) script_sig in
  n2 <~ silent (var_int_to_int (PStr b)) ;;
  let m2 := (m + 2 + Z.to_nat n2 * 2)%nat in
  let public_key_hex := slice (m + 2) m2 script_sig in
  deb_hex "public_key_hex" ": " public_key_hex ~;
  let b := last_n 2 signature_hex in
  deb (lit "1-byte hash type appended to signature_hex = " ++ b) ~;
  if negb (str_eqb b (lit "01")) then silent (Err ValueError)
  else
    let signature_hex := drop_last_n 2 signature_hex in
    deb_hex "signature_hex (DER-encoded)" ": " signature_hex ~;
    let b := firstn 2 public_key_hex in
    deb (lit "1-byte compression type prepended to public key = " ++ b) ~;
    if negb (str_eqb b (lit "04")) then silent (Err ValueError)
    else
      let public_key_hex := skipn 2 public_key_hex in
      deb_hex "public_key_hex" ": " public_key_hex ~;
      silent (Ok (signature_hex, public_key_hex)).

(** basic.py L312-346: signature_hex_and_public_key_hex_to_script_sig *)
Definition build_script_says (signature_hex public_key_hex : pystr) : trace (pystr * pystr) :=
  silent (validate_hex (PStr signature_hex)) ~;
  silent (validate_hex_length (PStr public_key_hex) 64) ~;
  let public_key_hex := lit "04" ++ public_key_hex in
  deb_hex "public_key_hex (1-byte compression type prepended)" " = " public_key_hex ~;
  ns <~ silent (hex_len (PStr signature_hex)) ;;
  signature_hex_pushdata <~ silent (int_to_var_int (PInt (Z.of_nat ns))) ;;
  np <~ silent (hex_len (PStr public_key_hex)) ;;
  public_key_hex_pushdata <~ silent (int_to_var_int (PInt (Z.of_nat np))) ;;
  deb_hex "signature_hex_pushdata" " = " signature_hex_pushdata ~;
  deb_hex "public_key_hex_pushdata" " = " public_key_hex_pushdata ~;
  let script_sig := signature_hex_pushdata ++ signature_hex ++ public_key_hex_pushdata ++ public_key_hex in
  nl <~ silent (hex_len (PStr script_sig)) ;;
  script_length <~ silent (int_to_var_int (PInt (Z.of_nat nl))) ;;
  deb_hex "script_sig" " = " script_sig ~;
  deb_hex "script_length" " = " script_length ~;
  silent (Ok (script_sig, script_length)).

(** basic.py L116-132: signature_from_der *)
Definition from_der_says (signature_hex : pystr) : trace pystr :=
  silent (validate_hex (PStr signature_hex)) ~;
  signature_bytes <~ silent (bytes_fromhex signature_hex) ;;
  '(r, s) <~ silent (der_decode signature_bytes) ;;
  r_hex <~ silent (int_to_hex (PInt r)) ;;
  s_hex <~ silent (int_to_hex (PInt s)) ;;
  r_hex <~ silent (pad_hex r_hex 32) ;;
  s_hex <~ silent (pad_hex s_hex 32) ;;
  let signature_hex := r_hex ++ s_hex in
  n <~ silent (hex_len (PStr signature_hex)) ;;
  nr <~ silent (hex_len (PStr r_hex)) ;;
  ns <~ silent (hex_len (PStr s_hex)) ;;
  deb (lit "Signature decoded from DER encoding:" ++
       [10] ++ lit "signature_hex (" ++ num n ++ lit " bytes) = " ++ signature_hex ++
       [10] ++ lit "r_hex (" ++ num nr ++ lit " bytes) = " ++ r_hex ++
       [10] ++ lit "s_hex (" ++ num ns ++ lit " bytes) = " ++ s_hex) ~;
  silent (Ok signature_hex).

(** transaction.py L411-427: the scriptSig of input i. *)
Definition script_sig_says (t : tx) (i : nat) (private_key_hex public_key_hex : pystr)
    (random_value_hex : option pystr) : trace (pystr * Z * pystr) :=
  deb_hex "public_key_hex" " = " public_key_hex ~;
  signature_hex <~ silent (create_signature_for_one_input t i private_key_hex random_value_hex) ;;
  deb_hex "signature_hex" " = " signature_hex ~;
  signature_hex <~ silent (signature_to_der signature_hex) ;;
  deb_hex "signature_hex (DER-encoded)" " = " signature_hex ~;
  let signature_hex := signature_hex ++ tx_hash_type_1_byte t in
  deb_hex "signature_hex (DER-encoded, 1-byte hash type appended)" " = " signature_hex ~;
  '(script_sig, script_length) <~ build_script_says signature_hex public_key_hex ;;
  script_length_int <~ silent (var_int_to_int (PStr script_length)) ;;
  silent (Ok (script_length, script_length_int, script_sig)).

(** transaction.py L399-430: the signing loop, with the records written.  The message of L404 is written before the address is looked up. *)
Fixpoint sign_loop_says (t : tx) (n_inputs : nat) (m : list (pystr * pystr)) (rv : option (list pystr))
    (done todo : list txin) : list record * (res unit * list txin) :=
  match todo with
  | [] => ([], (Ok tt, done))
  | x :: r =>
      let i := length done in
      match random_value_at rv i with
      | Err e => ([], (Err e, done ++ x :: r))
      | Ok random_value_hex =>
          let prefix := match rv with None => [] | Some _ => lit "non-" end in
          let l0 := [(20, lit "Creating " ++ prefix ++ lit "deterministic signature " ++ num (i + 1) ++ lit " of " ++ num n_inputs ++
                          lit ". Source address = " ++ ti_address x)] in
          match map_find (ti_address x) m with
          | None => (l0, (Err ValueError, done ++ x :: r))
          | Some private_key_hex =>
              match private_key_hex_to_public_key_hex private_key_hex with
              | Err e => (l0, (Err e, done ++ x :: r))
              | Ok p =>
                  let x1 := set_public_key x p in
                  match script_sig_says (set_inputs t (done ++ x1 :: r)) i private_key_hex p random_value_hex with
                  | (l1, Err e) => (l0 ++ l1, (Err e, done ++ x1 :: r))
                  | (l1, Ok (script_length, n, script_sig)) =>
                      let '(l2, o) := sign_loop_says t n_inputs m rv (done ++ [set_script x1 script_length n script_sig]) r in
                      (l0 ++ l1 ++ l2, o)
                  end
              end
          end
      end
  end.

(** transaction.py L380-434: sign.  The word is plural unless there is no input (L431). *)
Definition sign_says (t : tx) (private_keys_hex : list pystr) (random_values_hex : option (list pystr))
    : list record * (res unit * tx) :=
  match check_random_values private_keys_hex random_values_hex with
  | Err e => ([], (Err e, t))
  | Ok _ =>
      match build_key_map private_keys_hex [] with
      | Err e => ([], (Err e, t))
      | Ok m =>
          let n_inputs := length (tx_inputs t) in
          match sign_loop_says t n_inputs m random_values_hex [] (tx_inputs t) with
          | (l, (Ok _, ins)) =>
              let plural := if Nat.ltb 0 n_inputs then lit "s" else [] in
              (l ++ [(20, lit "Transaction signed with " ++ num n_inputs ++ lit " signature" ++ plural ++ lit ".")], (Ok tt, set_inputs t ins))
          | (l, (Err e, ins)) => (l, (Err e, set_inputs t ins))
          end
      end
  end.

(** transaction.py L499-516: the loop of verify *)
Fixpoint verify_loop_says (t : tx) (n_inputs i : nat) (ins : list txin) (invalid_signatures : Z) : trace Z :=
  match ins with
  | [] => silent (Ok invalid_signatures)
  | x :: r =>
      deb (lit "Verifying signature " ++ num (i + 1) ++ lit " of " ++ num n_inputs ++ lit ".") ~;
      match ti_script_sig x with
      | None => silent (Err ValueError)
      | Some script_sig =>
          '(signature_hex, public_key_hex) <~ script_parts_says script_sig ;;
          signature_hex <~ from_der_says signature_hex ;;
          valid_signature <~ silent (verify_signature_for_one_input t i public_key_hex signature_hex) ;;
          (if valid_signature : bool then deb (lit "Signature " ++ num (i + 1) ++ lit " of " ++ num n_inputs ++ lit " is valid.")
           else error (lit "Signature " ++ num (i + 1) ++ lit " of " ++ num n_inputs ++ lit " is invalid!")) ~;
          verify_loop_says t n_inputs (S i) r (if valid_signature : bool then invalid_signatures else invalid_signatures + 1)
      end
  end.
(** transaction.py L496-520: verify *)
Definition verify_says (t : tx) : trace Z :=
  let n_inputs := length (tx_inputs t) in
  invalid_signatures <~ verify_loop_says t n_inputs 0 (tx_inputs t) 0 ;;
  let plural := if Nat.ltb 1 n_inputs then lit "s" else [] in
  info (lit "Transaction verified: " ++ num n_inputs ++ lit " valid signature" ++ plural) ~;
  silent (Ok invalid_signatures).

(** transaction.py L536-550: to_hex_signed_form *)
Definition to_hex_says (t : tx) : trace pystr :=
  s <~ silent (to_hex_signed_form t) ;;
  info (lit "Signed transaction converted to hex form.") ~;
  silent (Ok s).

(** transaction.py L598-623: one iteration of the input loop, number k *)
Definition parse_input_says (k : nat) (bs : list pystr) : trace (txin * list pystr) :=
  deb (lit "input " ++ num k ++ lit ":") ~;
  let '(previous_output_hash, bs) := take_n 32 bs in
  deb (lit "- previous_output_hash: " ++ previous_output_hash) ~;
  let '(previous_output_index, bs) := take_n 4 bs in
  deb (lit "- previous_output_index: " ++ previous_output_index) ~;
  '(script_length, bs) <~ silent (take1 bs) ;;
  deb (lit "- script_length: " ++ script_length) ~;
  script_length_int <~ silent (var_int_to_int (PStr script_length)) ;;
  deb (lit "- script_length_int: " ++ int_str script_length_int) ~;
  let '(script_sig, bs) := take_n (Z.to_nat script_length_int) bs in
  deb (lit "- script_sig: " ++ script_sig) ~;
  '(signature_hex, public_key_hex) <~ script_parts_says script_sig ;;
  deb_hex "- signature_hex" ": " signature_hex ~;
  deb_hex "- public_key_hex" ": " public_key_hex ~;
  let '(sequence, bs) := take_n 4 bs in
  deb (lit "- sequence: " ++ sequence) ~;
  if negb (str_eqb sequence (lit "ffffffff")) then silent (Err ValueError)
  else
    input_ <~ silent (txin_create_from_signed_tx_data public_key_hex previous_output_hash previous_output_index script_length script_sig) ;;
    silent (Ok (input_, bs)).

(** transaction.py L631-647: one iteration of the output loop, number k *)
Definition parse_output_says (k : nat) (bs : list pystr) : trace (txout * list pystr) :=
  deb (lit "output " ++ num k ++ lit ":") ~;
  let '(value, bs) := take_n 8 bs in
  satoshi_amount <~ silent (hex_le_to_int (PStr value)) ;;
  bitcoin_amount <~ silent (satoshi_to_bitcoin (PInt satoshi_amount)) ;;
  deb (lit "- value: " ++ value ++ lit " (" ++ bitcoin_amount ++ lit " bitcoin, " ++ int_str satoshi_amount ++ lit " satoshi)") ~;
  '(script_length, bs) <~ silent (take1 bs) ;;
  deb (lit "- script_length: " ++ script_length) ~;
  script_length_int <~ silent (var_int_to_int (PStr script_length)) ;;
  deb (lit "- script_length_int: " ++ int_str script_length_int) ~;
  let '(script_pub_key, bs) := take_n (Z.to_nat script_length_int) bs in
  deb (lit "- script_pub_key: " ++ script_pub_key) ~;
  output <~ silent (txout_create_from_signed_tx_data value script_length script_pub_key) ;;
  silent (Ok (output, bs)).

(** for x in range(n): ..., from x = k on *)
Fixpoint parse_many_says {A : Type} (f : nat -> list pystr -> trace (A * list pystr)) (k n : nat) (bs : list pystr)
    : trace (list A * list pystr) :=
  match n with
  | O => silent (Ok ([], bs))
  | S n' =>
      '(a, bs) <~ f k bs ;;
      '(l, bs) <~ parse_many_says f (S k) n' bs ;;
      silent (Ok (a :: l, bs))
  end.

(** transaction.py L575-662: from_hex_signed *)
Definition from_hex_says (s : pystr) : trace tx :=
  info (lit "Loading signed transaction from hex.") ~;
  deb (lit "hex received: " ++ s) ~;
  n <~ silent (hex_len (PStr s)) ;;
  deb (lit "hex length: " ++ num n) ~;
  let bs := chunks2 s in
  let '(version, bs) := take_n 4 bs in
  if negb (str_eqb version (lit "01000000")) then silent (Err ValueError)
  else
    deb (lit "version: " ++ version) ~;
    '(input_count, bs) <~ silent (take1 bs) ;;
    deb (lit "input_count: " ++ input_count) ~;
    input_count_int <~ silent (var_int_to_int (PStr input_count)) ;;
    deb (lit "input_count_int: " ++ int_str input_count_int) ~;
    '(inputs, bs) <~ parse_many_says parse_input_says 0 (Z.to_nat input_count_int) bs ;;
    '(output_count, bs) <~ silent (take1 bs) ;;
    deb (lit "output_count: " ++ output_count) ~;
    output_count_int <~ silent (var_int_to_int (PStr output_count)) ;;
    deb (lit "output_count_int: " ++ int_str output_count_int) ~;
    '(outputs, bs) <~ parse_many_says parse_output_says 0 (Z.to_nat output_count_int) bs ;;
    let '(block_lock_time, bs) := take_n 4 bs in
    deb (lit "- block_lock_time: " ++ block_lock_time) ~;
    if negb (str_eqb block_lock_time (lit "00000000")) then silent (Err ValueError)
    else
      t <~ silent (tx_create inputs outputs) ;;
      info (lit "Signed transaction successfully loaded from hex format and validated.") ~;
      silent (Ok t).

(** transaction.py L324-377: from_json *)
Definition from_json_says (s : pystr) : trace tx :=
  t <~ silent (from_json s) ;;
  info (lit "Transaction successfully loaded from JSON format and validated.") ~;
  silent (Ok t).

End WithEnv.
