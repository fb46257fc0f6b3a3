(** Model of bitcoin_toolset/code/basic.py. *)
From Coq Require Import String Floats.SpecFloat.
From Verif Require Import PyBase Env PyNum Validate.

Section WithEnv.
Context {E : Env}.

(** * Hex and integer conversion *)

(** basic.py L747-751: hex_len *)
Definition hex_len (x : pyval) : res nat :=
  validate_hex x ;;;
  s <- as_str x ;;
  Ok (Nat.div (length s) 2).

(** basic.py L735-742: reverse_hex_order *)
Definition reverse_hex_order (x : pyval) : res pystr :=
  validate_hex x ;;;
  s <- as_str x ;;
  let output := concat (rev (chunks2 s)) in
  validate_hex (PStr output) ;;;
  Ok output.

(** basic.py L716-730: int_to_hex *)
Definition int_to_hex (n : pyval) : res pystr :=
  validate_integer n ;;;
  z <- (match as_int n with Some z => Ok z | None => Err TypeError end) ;;
  let x := int_hex z in
  let x := skipn 2 x in
  (* L722: x[-1] == "L" *)
  match last x 0, x with
  | _, [] => Err IndexError
  | c, _ =>
      let x := if c =? 76 then drop_last_n 1 x else x in
      let x := if Nat.eqb (Nat.modulo (length x) 2) 1 then 48 :: x else x in
      validate_hex (PStr x) ;;;
      Ok x
  end.

(** basic.py L710-711: hex_to_int *)
Definition hex_to_int (x : pystr) : res Z := py_int_str 16 x.

(** basic.py L701-705: int_to_hex_le *)
Definition int_to_hex_le (n : pyval) : res pystr :=
  x <- int_to_hex n ;;
  reverse_hex_order (PStr x).

(** basic.py L692-696: hex_le_to_int *)
Definition hex_le_to_int (x_le : pyval) : res Z :=
  x <- reverse_hex_order x_le ;;
  hex_to_int x.

(** basic.py L675-687: pad_hex_le (n_bytes is an int literal at every call site) *)
Definition pad_hex_le (x : pystr) (n_bytes : nat) : res pystr :=
  validate_hex (PStr x) ;;;
  n <- hex_len (PStr x) ;;
  if Nat.ltb n_bytes n then Err ValueError
  else
    let m := (n_bytes - n)%nat in
    Ok (if Nat.ltb 0 m then x ++ rep_str m (lit "00") else x).

(** basic.py L659-670: pad_hex *)
Definition pad_hex (x : pystr) (n_bytes : nat) : res pystr :=
  validate_hex (PStr x) ;;;
  n <- hex_len (PStr x) ;;
  if Nat.ltb n_bytes n then Err ValueError
  else
    let m := (n_bytes - n)%nat in
    Ok (if Nat.ltb 0 m then rep_str m (lit "00") ++ x else x).

(** basic.py L648-654: int_to_var_int *)
Definition int_to_var_int (n : pyval) : res pystr :=
  validate_integer_domain n 0 252 ;;;
  x <- int_to_hex n ;;
  validate_hex (PStr x) ;;;
  Ok x.

(** basic.py L635-643: var_int_to_int *)
Definition var_int_to_int (x : pyval) : res Z :=
  validate_hex_length x 1 ;;;
  s <- as_str x ;;
  if str_in s [lit "fd"; lit "fe"; lit "ff"] then Err ValueError
  else
    n <- py_int_str 16 s ;;
    validate_integer_domain (PInt n) 0 252 ;;;
    Ok n.

(** * Hashes *)

(** basic.py L506-509: get_sha256 (sha256.hexdigest = lower-case hex of the digest) *)
Definition get_sha256 (x : pystr) : res pystr :=
  validate_hex (PStr x) ;;;
  y <- bytes_fromhex x ;;
  Ok (bytes_hex (sha256 y)).

(** basic.py L514-517: get_ripemd160 *)
Definition get_ripemd160 (x : pystr) : res pystr :=
  validate_hex (PStr x) ;;;
  y <- bytes_fromhex x ;;
  Ok (bytes_hex (ripemd160 y)).

(** basic.py L498-501: get_double_sha256 *)
Definition get_double_sha256 (x : pystr) : res pystr :=
  y <- get_sha256 x ;;
  get_sha256 y.

(** basic.py L490-493: get_double_sha256_checksum *)
Definition get_double_sha256_checksum (x : pystr) : res pystr :=
  y <- get_double_sha256 x ;;
  Ok (firstn 8 y).

(** * Base 58 *)

(** basic.py L444, L464: base58_symbols *)
Definition base58_symbols : pystr := lit "123456789ABCDEFGHJKLMNPQRSTUVWXYZabcdefghijkmnopqrstuvwxyz".

(** base58_symbols.index(c): position of the first occurrence, ValueError if absent. *)
Fixpoint find_index (c : Z) (s : pystr) (i : Z) : res Z :=
  match s with
  | [] => Err ValueError
  | x :: r => if x =? c then Ok i else find_index c r (i + 1)
  end.

(** basic.py L477-485: count_leading_zero_bytes *)
Fixpoint count_zero_chunks (l : list pystr) : nat :=
  match l with
  | b :: r => if str_eqb b (lit "00") then S (count_zero_chunks r) else O
  | [] => O
  end.
Definition count_leading_zero_bytes (x : pystr) : nat := count_zero_chunks (chunks2 x).

(** basic.py L467-470: the while loop of hex_to_base58; [output] accumulates least significant digit
    first.  Fuel Z.log2 y + 1 always suffices. *)
Fixpoint base58_loop (fuel : nat) (y2 : Z) (output : pystr) : res pystr :=
  match fuel with
  | O => Err LibraryError (* out of fuel: shown unreachable *)
  | S f =>
      if y2 >? 0 then
        let remainder := y2 mod 58 in
        match nth_error base58_symbols (Z.to_nat remainder) with
        | Some c => base58_loop f (y2 / 58) (output ++ [c])
        | None => Err IndexError
        end
      else Ok output
  end.

(** basic.py L460-472: hex_to_base58 *)
Definition hex_to_base58 (x : pystr) : res pystr :=
  validate_hex (PStr x) ;;;
  y <- py_int_str 16 x ;;
  output <- base58_loop (S (S (Z.to_nat (Z.log2 y)))) y [] ;;
  Ok (rev output).

(** basic.py L448-453: the for loop of base58_to_int; 58 ** (m - i) where m - i is the number of
    characters to the right. *)
Fixpoint base58_sum (s : pystr) (t : Z) : res Z :=
  match s with
  | [] => Ok t
  | c :: r =>
      value <- find_index c base58_symbols 0 ;;
      let result := value * 58 ^ (Z.of_nat (length r)) in
      base58_sum r (t + result)
  end.

(** basic.py L441-455: base58_to_int *)
Definition base58_to_int (s : pystr) : res Z :=
  t <- base58_sum s 0 ;;
  validate_positive_integer (PInt t) ;;;
  Ok t.

(** basic.py L430-436: hex_to_base58check *)
Definition hex_to_base58check (x : pystr) : res pystr :=
  checksum_hex <- get_double_sha256_checksum x ;;
  let x := x ++ checksum_hex in
  x_base58 <- hex_to_base58 x ;;
  let n := count_leading_zero_bytes x in
  Ok (repeat 49 n ++ x_base58).

(** basic.py L398-425: base58check_to_hex *)
Definition base58check_to_hex (v : pyval) : res pystr :=
  validate_string v ;;;
  s <- as_str v ;;
  let s2 := lstrip 49 s in
  let count_1 := (length s - length s2)%nat in
  s3 <- base58_to_int s2 ;;
  s4 <- int_to_hex (PInt s3) ;;
  let checksum := last_n 8 s4 in
  let s5 := drop_last_n 8 s4 in
  let s6 := rep_str count_1 (lit "00") ++ s5 in
  checksum_new <- get_double_sha256_checksum s6 ;;
  if negb (str_eqb checksum checksum_new) then Err ValueError
  else Ok s6.

(** * Addresses and scripts *)

(** basic.py L383-393: bitcoin_address_to_public_key_hash_hex *)
Definition bitcoin_address_to_public_key_hash_hex (v : pyval) : res pystr :=
  x <- base58check_to_hex v ;;
  if negb (str_eqb (firstn 2 x) (lit "00")) then Err ValueError
  else
    let x := skipn 2 x in
    validate_hex_length (PStr x) 20 ;;;
    Ok x.

(** basic.py L377-378: validate_bitcoin_address *)
Definition validate_bitcoin_address (v : pyval) : res unit :=
  bitcoin_address_to_public_key_hash_hex v ;;; Ok tt.

(** basic.py L359-372: public_key_hash_hex_to_script_pub_key *)
Definition public_key_hash_hex_to_script_pub_key (x : pystr) : res (pystr * pystr) :=
  let script_pub_key := lit "76" ++ lit "a9" ++ lit "14" ++ x ++ lit "88" ++ lit "ac" in
  n <- hex_len (PStr script_pub_key) ;;
  script_length <- int_to_var_int (PInt (Z.of_nat n)) ;;
  Ok (script_pub_key, script_length).

(** basic.py L351-354: address_to_script_pub_key *)
Definition address_to_script_pub_key (address : pyval) : res (pystr * pystr) :=
  hash_hex <- bitcoin_address_to_public_key_hash_hex address ;;
  public_key_hash_hex_to_script_pub_key hash_hex.

(** basic.py L217-222: public_key_hash_hex_to_address *)
Definition public_key_hash_hex_to_address (hash_hex : pystr) : res pystr :=
  hex_to_base58check (lit "00" ++ hash_hex).

(** basic.py L190-194: script_pub_key_to_address; script_pub_key[3*2:-2*2] *)
Definition script_pub_key_to_address (script_pub_key : pystr) : res pystr :=
  let hash_hex := skipn 6 (drop_last_n 4 script_pub_key) in
  public_key_hash_hex_to_address hash_hex.

(** basic.py L235-243: get_public_key_hash *)
Definition get_public_key_hash (public_key_hex : pystr) : res pystr :=
  let public_key_hex := lit "04" ++ public_key_hex in
  public_key_bytes <- bytes_fromhex public_key_hex ;;
  let digest_1 := sha256 public_key_bytes in
  let digest_2 := ripemd160 digest_1 in
  let digest_2_hex := bytes_hex digest_2 in
  validate_hex_length (PStr digest_2_hex) 20 ;;;
  Ok digest_2_hex.

(** basic.py L227-230: public_key_hex_to_script_pub_key *)
Definition public_key_hex_to_script_pub_key (public_key_hex : pystr) : res (pystr * pystr) :=
  hash_hex <- get_public_key_hash public_key_hex ;;
  public_key_hash_hex_to_script_pub_key hash_hex.

(** basic.py L209-212: public_key_hex_to_address *)
Definition public_key_hex_to_address (public_key_hex : pystr) : res pystr :=
  hash_hex <- get_public_key_hash public_key_hex ;;
  public_key_hash_hex_to_address hash_hex.

(** basic.py L248-252: private_key_hex_to_public_key_hex *)
Definition private_key_hex_to_public_key_hex (private_key_hex : pystr) : res pystr :=
  private_key_hex <- ec_format_private_key_hex private_key_hex ;;
  ec_validate_private_key_hex private_key_hex ;;;
  ec_public_key private_key_hex.

(** basic.py L199-204: private_key_hex_to_address *)
Definition private_key_hex_to_address (private_key_hex : pystr) : res pystr :=
  private_key_hex <- ec_format_private_key_hex private_key_hex ;;
  ec_validate_private_key_hex private_key_hex ;;;
  public_key_hex <- ec_public_key private_key_hex ;;
  public_key_hex_to_address public_key_hex.

(** basic.py L257-264: private_key_hex_to_wif *)
Definition private_key_hex_to_wif (private_key_hex : pystr) : res pystr :=
  private_key_hex <- ec_format_private_key_hex private_key_hex ;;
  ec_validate_private_key_hex private_key_hex ;;;
  let private_key_hex := lit "80" ++ private_key_hex in
  hex_to_base58check private_key_hex.

(** basic.py L269-274: private_key_wif_to_hex *)
Definition private_key_wif_to_hex (private_key_wif : pyval) : res pystr :=
  private_key_hex <- base58check_to_hex private_key_wif ;;
  let private_key_hex := skipn 2 private_key_hex in
  ec_validate_private_key_hex private_key_hex ;;;
  Ok private_key_hex.

(** basic.py L279-307: script_sig_to_signature_hex_and_public_key_hex *)
Definition script_sig_to_signature_hex_and_public_key_hex (script_sig : pystr) : res (pystr * pystr) :=
  validate_hex (PStr script_sig) ;;;
  let b := slice 0 2 script_sig in
  n <- var_int_to_int (PStr b) ;;
  let m := (Z.to_nat n * 2 + 2)%nat in
  let signature_hex := slice 2 m script_sig in
  hex_len (PStr signature_hex) ;;; (* L285, evaluated for the log message *)
  let b := slice m (m + 2) script_sig in
  n2 <- var_int_to_int (PStr b) ;;
  let m2 := (m + 2 + Z.to_nat n2 * 2)%nat in
  let public_key_hex := slice (m + 2) m2 script_sig in
  hex_len (PStr public_key_hex) ;;; (* L290 *)
  let b := last_n 2 signature_hex in
  if negb (str_eqb b (lit "01")) then Err ValueError
  else
    let signature_hex := drop_last_n 2 signature_hex in
    hex_len (PStr signature_hex) ;;; (* L298 *)
    let b := firstn 2 public_key_hex in
    if negb (str_eqb b (lit "04")) then Err ValueError
    else
      let public_key_hex := skipn 2 public_key_hex in
      hex_len (PStr public_key_hex) ;;; (* L306 *)
      Ok (signature_hex, public_key_hex).

(** basic.py L312-346: signature_hex_and_public_key_hex_to_script_sig *)
Definition signature_hex_and_public_key_hex_to_script_sig
    (signature_hex public_key_hex : pystr) : res (pystr * pystr) :=
  validate_hex (PStr signature_hex) ;;;
  validate_hex_length (PStr public_key_hex) 64 ;;;
  let public_key_hex := lit "04" ++ public_key_hex in
  ns <- hex_len (PStr signature_hex) ;;
  signature_hex_pushdata <- int_to_var_int (PInt (Z.of_nat ns)) ;;
  np <- hex_len (PStr public_key_hex) ;;
  public_key_hex_pushdata <- int_to_var_int (PInt (Z.of_nat np)) ;;
  let script_sig := signature_hex_pushdata ++ signature_hex ++ public_key_hex_pushdata ++ public_key_hex in
  nl <- hex_len (PStr script_sig) ;;
  script_length <- int_to_var_int (PInt (Z.of_nat nl)) ;;
  Ok (script_sig, script_length).

(** * Signatures *)

(** basic.py L116-132: signature_from_der *)
Definition signature_from_der (signature_hex : pystr) : res pystr :=
  validate_hex (PStr signature_hex) ;;;
  signature_bytes <- bytes_fromhex signature_hex ;;
  '(r, s) <- der_decode signature_bytes ;;
  r_hex <- int_to_hex (PInt r) ;;
  s_hex <- int_to_hex (PInt s) ;;
  r_hex <- pad_hex r_hex 32 ;;
  s_hex <- pad_hex s_hex 32 ;;
  Ok (r_hex ++ s_hex).

(** basic.py L137-147: signature_to_der *)
Definition signature_to_der (signature_hex : pystr) : res pystr :=
  '(r_hex, s_hex) <- ec_split signature_hex ;;
  r_int <- py_int_str 16 r_hex ;;
  s_int <- py_int_str 16 s_hex ;;
  Ok (bytes_hex (der_encode r_int s_int)).

(** basic.py L152-157: verify_signature_digest *)
Definition verify_signature_digest (public_key_hex digest_hex signature_hex : pystr) : res bool :=
  validate_hex_length (PStr public_key_hex) 64 ;;;
  validate_hex_bad_name (PStr digest_hex) ;;;
  ec_verify_digest public_key_hex digest_hex signature_hex.

(** basic.py L162-167: verify_signature *)
Definition verify_signature (public_key_hex data_hex signature_hex : pyval) : res bool :=
  validate_hex_length public_key_hex 64 ;;;
  validate_hex data_hex ;;;
  validate_hex_length signature_hex 64 ;;;
  p <- as_str public_key_hex ;;
  d <- as_str data_hex ;;
  s <- as_str signature_hex ;;
  ec_verify p d s.

(** basic.py L172-185: create_deterministic_signature, ..._for_digest, create_signature_for_digest *)
Definition create_deterministic_signature (private_key_hex data_hex : pystr) : res pystr :=
  ec_sign private_key_hex data_hex.
Definition create_deterministic_signature_for_digest (private_key_hex digest_hex : pystr) : res pystr :=
  ec_sign_digest private_key_hex digest_hex.
Definition create_signature_for_digest (private_key_hex digest_hex random_value_hex : pystr) : res pystr :=
  ec_sign_digest_k private_key_hex digest_hex random_value_hex.

(** * Amounts *)

(** basic.py L591, L525: max_amount = 21*(10**6) *)
Definition max_amount : Z := 21 * 10 ^ 6.
Definition max_amount_satoshi : Z := max_amount * 10 ^ 8.

(** basic.py L587-614: validate_bitcoin_amount *)
Definition validate_bitcoin_amount (v : pyval) : res unit :=
  validate_string v ;;;
  s <- as_str v ;;
  let dots := count_char 46 s in
  if negb (Nat.eqb dots 0 || Nat.eqb dots 1) then Err ValueError
  else
    let s2 := remove_char 46 s in
    if negb (str_isdigit s2) then Err ValueError
    else
      (if Nat.eqb dots 1 then
         match split_char 46 s with
         | _ :: s3 :: _ => if Nat.ltb 8 (length s3) then Err ValueError else Ok tt
         | _ => Err IndexError (* unreachable with one '.' *)
         end
       else Ok tt) ;;;
      f <- py_float_str s ;;
      fmax <- py_float_int max_amount ;;
      if SFltb f (S754_zero false) then Err ValueError
      else if SFltb fmax f then Err ValueError
      else Ok tt.

(** basic.py L576-582: validate_positive_bitcoin_amount *)
Definition validate_positive_bitcoin_amount (v : pyval) : res unit :=
  validate_string v ;;;
  s <- as_str v ;;
  if str_eqb (remove_char 48 (remove_char 46 s)) [] then Err ValueError
  else validate_bitcoin_amount v.

(** basic.py L522-543: satoshi_to_bitcoin *)
Definition satoshi_to_bitcoin (n : pyval) : res pystr :=
  validate_integer_domain n 0 max_amount_satoshi ;;;
  let s := py_str_int n in
  let p := length s in
  let s :=
    if Nat.leb p 8 then lit "0." ++ (rep_str (8 - p) (lit "0") ++ s)
    else drop_last_n 8 s ++ lit "." ++ last_n 8 s in
  validate_bitcoin_amount (PStr s) ;;;
  Ok s.

(** basic.py L548-571: bitcoin_to_satoshi *)
Definition bitcoin_to_satoshi (v : pyval) : res Z :=
  validate_bitcoin_amount v ;;;
  s <- as_str v ;;
  output <-
    (if Nat.eqb (count_char 46 s) 0 then Ok (s ++ rep_str 8 (lit "0"))
     else if Nat.eqb (count_char 46 s) 1 then
       match split_char 46 s with
       | [s1; s2] => Ok (remove_char 46 s ++ rep_str (8 - length s2) (lit "0"))
       | _ => Err ValueError
       end
     else Err ValueError) ;;
  let output := lstrip 48 output in
  n <- py_int_str 10 output ;;
  validate_whole_number (PInt n) ;;;
  Ok n.

(** basic.py L619-630: ensure_8_decimal_places *)
Definition ensure_8_decimal_places (s : pystr) : res pystr :=
  let s := if Nat.eqb (count_char 46 s) 0 then s ++ lit "." else s in
  match split_char 46 s with
  | _ :: s1 :: _ =>
      let d := length s1 in
      if Nat.ltb 8 d then Err ValueError
      else Ok (s ++ rep_str (8 - d) (lit "0"))
  | _ => Err IndexError (* unreachable: s contains a '.' *)
  end.

(** * Size estimate *)

(** basic.py L79-111: estimate_transaction_size *)
Definition estimate_transaction_size (n_inputs n_outputs : nat) : res Z :=
  ic <- int_to_var_int (PInt (Z.of_nat n_inputs)) ;;
  input_count_bytes <- hex_len (PStr ic) ;;
  let inputs_bytes := Z.of_nat n_inputs * (32 + 4 + 1 + 138 + 4) in
  oc <- int_to_var_int (PInt (Z.of_nat n_outputs)) ;;
  output_count_bytes <- hex_len (PStr oc) ;;
  let outputs_bytes := Z.of_nat n_outputs * (8 + 1 + 25) in
  Ok (4 + Z.of_nat input_count_bytes + inputs_bytes + Z.of_nat output_count_bytes + outputs_bytes + 4).

End WithEnv.
