(** The text of the exceptions of bitcoin_toolset/code/basic.py: the functions of Basic.v again, each with the text of what it raises.  repr (the Python built-in) is a parameter. *)
From Coq Require Import String Floats.SpecFloat Lia.
From Verif Require Import PyBase Env PyNum Validate Basic Messages Complaints Answer.
Open Scope Z_scope.

(** Sequencing. *)
Definition abind {A B} (m : answer A) (f : A -> answer B) : answer B := match m with Gives x => f x | Says e t => Says e t end.
(** A validator called as a statement. *)
Definition check {A} (c : option (exn * pystr)) (k : answer A) : answer A := match c with None => k | Some (e, t) => Says e t end.

Section WithEnv.
Context {E : Env}.

(** The validators with the default values of their arguments (validate.py L88, L235, L247, L260, L285, L303, L374). *)
Definition string_check (repr : pyval -> pystr) (v : pyval) : option (exn * pystr) := validate_string_says repr v None PNone (PStr (lit "string")).
Definition hex_check (repr : pyval -> pystr) (v : pyval) : option (exn * pystr) := validate_hex_says repr v None PNone (PStr (lit "hex")).
Definition hex_length_check (repr : pyval -> pystr) (v : pyval) (n : Z) : option (exn * pystr) := validate_hex_length_says repr v (PInt n) None PNone PNone.
Definition integer_check (repr : pyval -> pystr) (v : pyval) : option (exn * pystr) := validate_integer_says repr v None PNone (PStr (lit "integer")).
Definition positive_check (repr : pyval -> pystr) (v : pyval) : option (exn * pystr) := validate_positive_integer_says repr v None PNone (PStr (lit "positive_integer")).
Definition whole_check (repr : pyval -> pystr) (v : pyval) : option (exn * pystr) := validate_whole_number_says repr v None PNone (PStr (lit "whole_number")).
Definition domain_check (repr : pyval -> pystr) (v : pyval) (lo hi : Z) : option (exn * pystr) := validate_integer_domain_says repr v (PInt lo) (PInt hi).

(** int(s, base): the text of CPython (which cuts the repr at 200 characters; a simplification here). *)
Definition int_text (repr : pyval -> pystr) (base : Z) (s : pystr) : answer Z :=
  match py_int_str base s with Ok n => Gives n | Err e => Says e (lit "invalid literal for int() with base " ++ int_str base ++ lit ": " ++ repr (PStr s)) end.

(** basic.py L587-614: validate_bitcoin_amount.  "{:.8f}".format of 21*(10**6) and 0.00000000 are written out. *)
Definition validate_bitcoin_amount_says (repr : pyval -> pystr) (v : pyval) : option (exn * pystr) :=
  match string_check repr v with
  | Some r => Some r
  | None =>
      match v with
      | PStr s =>
          let dots := count_char 46 s in
          if negb (Nat.eqb dots 0 || Nat.eqb dots 1) then
            Some (ValueError, lit "Amount contains " ++ int_str (Z.of_nat dots) ++ lit " periods ('.'). It must contain either 1 or 0 periods. Amount: " ++ s)
          else
            let s2 := remove_char 46 s in
            if negb (str_isdigit s2) then Some (ValueError, lit "Apart from an optional period ('.'), amount can contain only digits. Amount: " ++ s)
            else
              match (if Nat.eqb dots 1 then
                       match split_char 46 s with
                       | _ :: s3 :: _ => if Nat.ltb 8 (length s3) then Some (ValueError, lit "Amount (" ++ s ++ lit ") has " ++ int_str (Z.of_nat (length s3)) ++ lit " decimal places. It can have at most 8 decimal places.") else None
                       | _ => Some (IndexError, lit "list index out of range")
                       end
                     else None) with
              | Some r => Some r
              | None =>
                  match py_float_str s, py_float_int max_amount with
                  | Ok f, Ok fmax =>
                      if SFltb f (S754_zero false) then Some (ValueError, lit "The minimum possible amount is 0.00000000. Amount: " ++ s)
                      else if SFltb fmax f then Some (ValueError, lit "The maximum possible amount is 21000000.00000000. Amount: " ++ s)
                      else None
                  | Ok _, Err e => Some (e, lit "int too large to convert to float")
                  | Err e, _ => Some (e, lit "could not convert string to float: " ++ repr (PStr s))
                  end
              end
      | _ => None
      end
  end.

(** basic.py L576-582: validate_positive_bitcoin_amount *)
Definition validate_positive_bitcoin_amount_says (repr : pyval -> pystr) (v : pyval) : option (exn * pystr) :=
  match string_check repr v with
  | Some r => Some r
  | None =>
      match v with
      | PStr s =>
          if str_eqb (remove_char 48 (remove_char 46 s)) [] then Some (ValueError, lit "Amount ('" ++ s ++ lit "') cannot be 0.")
          else validate_bitcoin_amount_says repr v
      | _ => None
      end
  end.

(** basic.py L522-543: satoshi_to_bitcoin *)
Definition satoshi_to_bitcoin_says (repr : pyval -> pystr) (n : pyval) : answer pystr :=
  check (domain_check repr n 0 max_amount_satoshi) (
  let s := py_str_int n in
  let p := length s in
  let s := if Nat.leb p 8 then lit "0." ++ (rep_str (8 - p) (lit "0") ++ s) else drop_last_n 8 s ++ lit "." ++ last_n 8 s in
  check (validate_bitcoin_amount_says repr (PStr s)) (Gives s)).

(** basic.py L548-571: bitcoin_to_satoshi *)
Definition bitcoin_to_satoshi_says (repr : pyval -> pystr) (v : pyval) : answer Z :=
  check (validate_bitcoin_amount_says repr v) (
  match v with
  | PStr s =>
      abind
        (if Nat.eqb (count_char 46 s) 0 then Gives (s ++ rep_str 8 (lit "0"))
         else if Nat.eqb (count_char 46 s) 1 then
           match split_char 46 s with
           | [s1; s2] => Gives (remove_char 46 s ++ rep_str (8 - length s2) (lit "0"))
           | _ => Says ValueError (lit "too many values to unpack (expected 2)")
           end
         else Says ValueError (lit "Bitcoin amount should contain 0 or 1 decimal points. Amount received: " ++ s))
        (fun output => abind (int_text repr 10 (lstrip 48 output)) (fun n => check (whole_check repr (PInt n)) (Gives n)))
  | _ => Says TypeError [] (* not reached: validate_bitcoin_amount has refused *)
  end).

(** basic.py L619-630: ensure_8_decimal_places *)
Definition ensure_8_decimal_places_says (s : pystr) : answer pystr :=
  let s := if Nat.eqb (count_char 46 s) 0 then s ++ lit "." else s in
  match split_char 46 s with
  | _ :: s1 :: _ =>
      let d := length s1 in
      if Nat.ltb 8 d then Says ValueError (lit "String decimal (" ++ s ++ lit ") has " ++ int_str (Z.of_nat d) ++ lit " decimal places.")
      else Gives (s ++ rep_str (8 - d) (lit "0"))
  | _ => Says IndexError (lit "list index out of range")
  end.

(** basic.py L716-730: int_to_hex *)
Definition int_to_hex_says (repr : pyval -> pystr) (n : pyval) : answer pystr :=
  check (integer_check repr n) (
  match as_int n with
  | Some z =>
      let x := skipn 2 (int_hex z) in
      match last x 0, x with
      | _, [] => Says IndexError (lit "string index out of range")
      | c, _ =>
          let x := if c =? 76 then drop_last_n 1 x else x in
          let x := if Nat.eqb (Nat.modulo (length x) 2) 1 then 48 :: x else x in
          check (hex_check repr (PStr x)) (Gives x)
      end
  | None => Says TypeError [] (* not reached *)
  end).
(** basic.py L747-751: hex_len *)
Definition hex_len_says (repr : pyval -> pystr) (x : pyval) : answer nat :=
  check (hex_check repr x) (match x with PStr s => Gives (Nat.div (length s) 2) | _ => Says TypeError [] (* not reached *) end).
(** basic.py L659-670 and L675-687: pad_hex and pad_hex_le *)
Definition pad_hex_says (repr : pyval -> pystr) (x : pyval) (n_bytes : pyval) : answer pystr :=
  check (hex_check repr x) (
  check (integer_check repr n_bytes) (
  abind (hex_len_says repr x) (fun n =>
  match x, as_int n_bytes with
  | PStr s, Some k =>
      if k <? Z.of_nat n then Says ValueError (lit "Hex value is already longer than desired padded length. Hex value: " ++ s)
      else
        let m := k - Z.of_nat n in
        Gives (if 0 <? m then rep_str (Z.to_nat m) (lit "00") ++ s else s)
  | _, _ => Says TypeError [] (* not reached *)
  end))).
Definition pad_hex_le_says (repr : pyval -> pystr) (x : pyval) (n_bytes : pyval) : answer pystr :=
  check (hex_check repr x) (
  check (integer_check repr n_bytes) (
  abind (hex_len_says repr x) (fun n =>
  match x, as_int n_bytes with
  | PStr s, Some k =>
      if k <? Z.of_nat n then Says ValueError (lit "Hex value is already longer than desired padded length. Hex value: " ++ s)
      else
        let m := k - Z.of_nat n in
        Gives (if 0 <? m then s ++ rep_str (Z.to_nat m) (lit "00") else s)
  | _, _ => Says TypeError [] (* not reached *)
  end))).
(** basic.py L648-654: int_to_var_int *)
Definition int_to_var_int_says (repr : pyval -> pystr) (n : pyval) : answer pystr :=
  check (domain_check repr n 0 252) (
  abind (int_to_hex_says repr n) (fun x => check (hex_check repr (PStr x)) (Gives x))).
(** basic.py L635-643: var_int_to_int; L640 raises without a text. *)
Definition var_int_to_int_says (repr : pyval -> pystr) (x : pyval) : answer Z :=
  check (hex_length_check repr x 1) (
  match x with
  | PStr s =>
      if str_in s [lit "fd"; lit "fe"; lit "ff"] then Says ValueError []
      else abind (int_text repr 16 s) (fun n => check (domain_check repr (PInt n) 0 252) (Gives n))
  | _ => Says TypeError [] (* not reached *)
  end).

(** basic.py L448-453: the loop of base58_to_int; str.index says "substring not found". *)
Fixpoint base58_sum_says (s : pystr) (t : Z) : answer Z :=
  match s with
  | [] => Gives t
  | c :: r =>
      match find_index c base58_symbols 0 with
      | Ok value => base58_sum_says r (t + value * 58 ^ (Z.of_nat (length r)))
      | Err e => Says e (lit "substring not found")
      end
  end.
(** basic.py L441-455: base58_to_int *)
Definition base58_to_int_says (repr : pyval -> pystr) (s : pystr) : answer Z :=
  abind (base58_sum_says s 0) (fun t => check (positive_check repr (PInt t)) (Gives t)).
(** basic.py L506-509, L498-501, L490-493: get_double_sha256_checksum *)
Definition get_sha256_says (repr : pyval -> pystr) (x : pystr) : answer pystr :=
  check (hex_check repr (PStr x)) (match bytes_fromhex x with Ok y => Gives (bytes_hex (sha256 y)) | Err e => Says e [] (* not reached: x is hex *) end).
Definition get_double_sha256_checksum_says (repr : pyval -> pystr) (x : pystr) : answer pystr :=
  abind (get_sha256_says repr x) (fun y => abind (get_sha256_says repr y) (fun z => Gives (firstn 8 z))).
(** basic.py L398-425: base58check_to_hex, with the text "analysis" (L413-421) *)
Definition base58check_to_hex_says (repr : pyval -> pystr) (v : pyval) : answer pystr :=
  check (string_check repr v) (
  match v with
  | PStr s =>
      let s2 := lstrip 49 s in
      let count_1 := (length s - length s2)%nat in
      abind (base58_to_int_says repr s2) (fun s3 =>
      abind (int_to_hex_says repr (PInt s3)) (fun s4 =>
      let checksum := last_n 8 s4 in
      let s5 := drop_last_n 8 s4 in
      let s6 := rep_str count_1 (lit "00") ++ s5 in
      abind (get_double_sha256_checksum_says repr s6) (fun checksum_new =>
      let analysis := newline ++ lit "- Input: " ++ s ++ newline ++ lit "- Input hex: " ++ s4 ++ newline ++ lit "- Input hex without checksum: " ++ s5 ++ newline ++
        lit "- Input hex without checksum and with zeroes: " ++ s6 ++ newline ++ lit "- Checksum value     : " ++ checksum ++ newline ++ lit "- Calculated checksum: " ++ checksum_new ++ newline in
      if negb (str_eqb checksum checksum_new) then Says ValueError (lit "Checksum value does not match calculated checksum." ++ analysis)
      else Gives s6)))
  | _ => Says TypeError [] (* not reached *)
  end).
(** basic.py L383-393: bitcoin_address_to_public_key_hash_hex; L388 raises without a text. *)
Definition bitcoin_address_to_public_key_hash_hex_says (repr : pyval -> pystr) (v : pyval) : answer pystr :=
  abind (base58check_to_hex_says repr v) (fun x =>
  if negb (str_eqb (firstn 2 x) (lit "00")) then Says ValueError []
  else
    let x := skipn 2 x in
    check (hex_length_check repr (PStr x) 20) (Gives x)).
(** basic.py L377-378: validate_bitcoin_address *)
Definition validate_bitcoin_address_says (repr : pyval -> pystr) (v : pyval) : option (exn * pystr) :=
  match bitcoin_address_to_public_key_hash_hex_says repr v with Gives _ => None | Says e t => Some (e, t) end.

End WithEnv.
