(** Model of bitcoin_toolset/util/validate.py.
    The optional arguments name/location/kind only influence error messages, which are not modelled,
    except for the one call that passes a non-string name (see [validate_hex_bad_name]). *)
From Coq Require Import String Floats.SpecFloat.
From Verif Require Import PyBase Env PyNum.

Section WithEnv.
Context {E : Env}.

(** validate.py L25: hex_digits *)
Definition hex_digits : pystr := lit "0123456789abcdef".

(** validate.py L374-378: validate_string *)
Definition validate_string (v : pyval) : res unit :=
  match v with PStr _ => Ok tt | _ => Err TypeError end.

(** validate.py L303-321: validate_hex.
    L306 odd length, L311-321 any character not in hex_digits. *)
Definition validate_hex (v : pyval) : res unit :=
  validate_string v ;;;
  s <- as_str v ;;
  if negb (Nat.eqb (Nat.modulo (length s) 2) 0) then Err ValueError
  else if existsb (fun c => negb (char_in c hex_digits)) s then Err ValueError
  else Ok tt.

(** basic.py L154 calls v.validate_hex(digest_hex, 64): 64 lands in the parameter [name], so no length
    is checked, and when the check fails build_error_msg (validate.py L394) does 64.split(' '),
    i.e. every failure surfaces as AttributeError. *)
Definition validate_hex_bad_name (v : pyval) : res unit :=
  match validate_hex v with Ok _ => Ok tt | Err _ => Err AttributeError end.

(** validate.py L285-298: validate_hex_length (n is always an int literal in the repository). *)
Definition validate_hex_length (v : pyval) (n : nat) : res unit :=
  validate_hex v ;;;
  s <- as_str v ;;
  if Nat.eqb (length s) (n * 2) then Ok tt else Err ValueError.

(** validate.py L260-264: validate_integer; isinstance(True, int) holds in Python. *)
Definition validate_integer (v : pyval) : res unit :=
  match as_int v with Some _ => Ok tt | None => Err TypeError end.

(** validate.py L247-252: validate_positive_integer *)
Definition validate_positive_integer (v : pyval) : res unit :=
  match as_int v with
  | Some n => if n <? 1 then Err ValueError else Ok tt
  | None => Err TypeError
  end.

(** validate.py L235-239: validate_whole_number; "n == 0" is Python equality. *)
Definition validate_whole_number (v : pyval) : res unit :=
  if py_eq_int v 0 then Ok tt else validate_positive_integer v.

(** validate.py L88-115: validate_integer_domain (min_value, max_value are ints at every call site). *)
Definition validate_integer_domain (v : pyval) (min_value max_value : Z) : res unit :=
  match as_int v with
  | None => Err TypeError
  | Some n =>
      if min_value >? max_value then Err ValueError
      else if (min_value <=? n) && (n <=? max_value) then Ok tt
      else if n <? min_value then Err ValueError
      else if n >? max_value then Err ValueError
      else Ok tt
  end.

(** validate.py L273-277: validate_boolean *)
Definition validate_boolean (v : pyval) : res unit :=
  match v with PBool _ => Ok tt | _ => Err TypeError end.

(** validate.py L217-221, L208-212: validate_list, validate_dict *)
Definition validate_list (v : pyval) : res unit :=
  match v with PList _ => Ok tt | _ => Err TypeError end.
Definition validate_dict (v : pyval) : res unit :=
  match v with PDict _ => Ok tt | _ => Err TypeError end.

(** validate.py L38-55: validate_list_contains_items; both arguments are lists of str at every call site. *)
Definition validate_list_contains_items (input items : list pystr) : res unit :=
  let not_found := filter (fun x => negb (str_in x input)) items in
  if Nat.eqb (length not_found) 0 then Ok tt else Err ValueError.

(** validate.py L60-68: validate_item_in_list (strings). *)
Definition validate_item_in_list (input : pystr) (list1 : list pystr) : res unit :=
  if str_in input list1 then Ok tt else Err ValueError.

(** validate.py L73-83: validate_lists_are_identical (lists of str). *)
Definition validate_lists_are_identical (list1 list2 : list pystr) : res unit :=
  if negb (strs_eqb (str_sorted list1) (str_sorted list2)) then Err ValueError else Ok tt.

(** validate.py L123-126: permitted_data_characters *)
Definition permitted_data_characters : pystr :=
  lit "!#$%&'()*+,-./0123456789:;<=>?@ABCDEFGHIJKLMNOPQRSTUVWXYZ[]^_`abcdefghijklmnopqrstuvwxyz{|}~"
  ++ [34; 92] (* double quote and backslash *) ++ [32; 9; 10] (* ' ', tab, newline *).

(** validate.py L120-139: validate_string_is_printable_ascii (line/index only feed the message). *)
Definition validate_string_is_printable_ascii (v : pyval) : res unit :=
  validate_string v ;;;
  s <- as_str v ;;
  if existsb (fun c => negb (char_in c permitted_data_characters)) s then Err ValueError else Ok tt.

(** validate.py L341-353: validate_string_is_positive_integer *)
Definition validate_string_is_positive_integer (v : pyval) : res unit :=
  validate_string v ;;;
  s <- as_str v ;;
  if str_eqb s (lit "0") then Err ValueError
  else if existsb (fun c => negb (char_isdigit c)) s then Err ValueError
  else Ok tt.

(** validate.py L326-333: validate_string_is_whole_number *)
Definition validate_string_is_whole_number (v : pyval) : res unit :=
  validate_string v ;;;
  s <- as_str v ;;
  if str_eqb s (lit "0") then Ok tt else validate_string_is_positive_integer v.

(** validate.py L167-188: validate_string_is_decimal with dp=None (no caller in the repository passes dp). *)
Definition validate_string_is_decimal (v : pyval) : res unit :=
  validate_string v ;;;
  s <- as_str v ;;
  if negb (Nat.eqb (count_char 46 s) 1) then Err TypeError
  else match split_char 46 s with
       | [s1; s2] => if negb (str_isdigit s1) || negb (str_isdigit s2) then Err TypeError else Ok tt
       | _ => Err ValueError (* unpacking; unreachable with exactly one '.' *)
       end.

(** \d in a regular expression on str: any character with a decimal value. *)
Definition char_re_digit (c : Z) : bool :=
  if c <? 128 then (48 <=? c) && (c <=? 57)
  else match uni_decimal c with Some _ => true | None => false end.

(** The regular expression ^\d*.\d{dp}$ of validate.py L183, matched from the start of s: k digits, any character but a
    newline, dp digits, then the end or a final newline.  Every k is tried (backtracking). *)
Definition dp_match_at (dp : nat) (s : pystr) (k : nat) : bool :=
  forallb char_re_digit (firstn k s) && Nat.leb k (length s) &&
  match skipn k s with
  | [] => false
  | c :: r => negb (c =? 10) && forallb char_re_digit (firstn dp r) && Nat.leb dp (length r) &&
              (match skipn dp r with [] => true | [n] => n =? 10 | _ => false end)
  end.
Definition dp_match (dp : nat) (s : pystr) : bool := existsb (dp_match_at dp s) (seq 0 (S (length s))).

(** validate.py L167-188: validate_string_is_decimal(s, dp).  For an int dp (a bool is one) the pattern of L183 is also tried.
    A repetition count of 2^32-1 or more is refused by re.compile (OverflowError); with a negative count the pattern asks for
    literal braces, which s does not contain. *)
Definition validate_string_is_decimal_dp (v dp : pyval) : res unit :=
  validate_string_is_decimal v ;;;
  s <- as_str v ;;
  match as_int dp with
  | None => Ok tt
  | Some n =>
      if n <? 0 then Err ValueError
      else if 4294967295 <=? n then Err OverflowError
      else if dp_match (Z.to_nat n) s then Ok tt else Err ValueError
  end.

(** validate.py L144-162: validate_string_is_whole_number_or_decimal; the first stored exception is re-raised. *)
Definition validate_string_is_whole_number_or_decimal (v : pyval) : res unit :=
  match validate_string_is_whole_number v, validate_string_is_decimal v with
  | Ok _, _ => Ok tt
  | _, Ok _ => Ok tt
  | Err e1, Err _ => Err e1
  end.

(** validate.py L24, L361-366: validate_string_is_date, regex ^\d{4}-\d{2}-\d{2}$ with re.match:
    \d is any character with a decimal value, $ also matches just before a final newline. *)
Definition date_match (s : pystr) : bool :=
  match s with
  | a :: b :: c :: d :: h1 :: e :: f :: h2 :: g :: h :: rest =>
      char_re_digit a && char_re_digit b && char_re_digit c && char_re_digit d && (h1 =? 45)
      && char_re_digit e && char_re_digit f && (h2 =? 45) && char_re_digit g && char_re_digit h
      && (match rest with [] => true | [n] => n =? 10 | _ => false end)
  | _ => false
  end.
Definition validate_string_is_date (v : pyval) : res unit :=
  validate_string v ;;;
  s <- as_str v ;;
  if date_match s then Ok tt else Err ValueError.

End WithEnv.
