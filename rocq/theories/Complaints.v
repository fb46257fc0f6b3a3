(** The text of the error messages of the remaining validators of bitcoin_toolset/util/validate.py (the others are in Messages.v).  None: the validator returns; Some (e, text): it raises e with that text.
    repr (the Python built-in) is a parameter; name is a string or None. *)
From Coq Require Import String Lia.
From Verif Require Import PyBase Env PyNum Validate Messages.
Open Scope Z_scope.

Section WithEnv.
Context {E : Env}.

(** "{}".format(v): str(v), which is repr(v) unless v is a string. *)
Definition shown (repr : pyval -> pystr) (v : pyval) : pystr := match v with PStr s => s | PInt z => int_str z | _ => repr v end.
(** "which has type '{}', not '...'.".format(type(v).__name__) (L210, L219, L228, L262, L275). *)
Definition wrong_type_msg (v : pyval) (wanted : string) : pystr := lit "which has type '" ++ type_name v ++ lit "', not '" ++ lit wanted ++ lit "'.".

(** validate_dict (L208-212), with its message. *)
Definition validate_dict_says (repr : pyval -> pystr) (v : pyval) (name : option pystr) (location kind : pyval) : option (exn * pystr) :=
  match v with PDict _ => None | _ => complain repr TypeError (wrong_type_msg v "dict") v name location kind end.
(** validate_list (L217-221), with its message. *)
Definition validate_list_says (repr : pyval -> pystr) (v : pyval) (name : option pystr) (location kind : pyval) : option (exn * pystr) :=
  match v with PList _ => None | _ => complain repr TypeError (wrong_type_msg v "list") v name location kind end.
(** validate_bytes (L226-230) of a value that is no bytes object (the model has none); the message names the type int (L228). *)
Definition validate_bytes_says (repr : pyval -> pystr) (v : pyval) (name : option pystr) (location kind : pyval) : option (exn * pystr) :=
  complain repr TypeError (wrong_type_msg v "int") v name location kind.
(** validate_integer (L260-264), with its message. *)
Definition validate_integer_says (repr : pyval -> pystr) (v : pyval) (name : option pystr) (location kind : pyval) : option (exn * pystr) :=
  match as_int v with Some _ => None | None => complain repr TypeError (wrong_type_msg v "int") v name location kind end.
(** validate_boolean (L273-277), with its message. *)
Definition validate_boolean_says (repr : pyval -> pystr) (v : pyval) (name : option pystr) (location kind : pyval) : option (exn * pystr) :=
  match v with PBool _ => None | _ => complain repr TypeError (wrong_type_msg v "bool") v name location kind end.
(** validate_positive_integer (L247-252), with its message. *)
Definition validate_positive_integer_says (repr : pyval -> pystr) (v : pyval) (name : option pystr) (location kind : pyval) : option (exn * pystr) :=
  match validate_integer_says repr v name location kind with
  | Some r => Some r
  | None =>
      match as_int v with
      | Some n => if n <? 1 then complain repr ValueError (lit "which is less than 1.") v name location kind else None
      | None => None
      end
  end.
(** validate_whole_number (L235-239), with its message. *)
Definition validate_whole_number_says (repr : pyval -> pystr) (v : pyval) (name : option pystr) (location kind : pyval) : option (exn * pystr) :=
  if py_eq_int v 0 then None else validate_positive_integer_says repr v name location kind.

(** validate_hex_length (L285-298), with its message; n may be any value. *)
Definition validate_hex_length_says (repr : pyval -> pystr) (v n : pyval) (name : option pystr) (location kind : pyval) : option (exn * pystr) :=
  let kind := match kind with PNone => PStr (lit "hex_length_" ++ shown repr n ++ lit "_bytes") | _ => kind end in
  match validate_hex_says repr v name location kind with
  | Some r => Some r
  | None =>
      match as_int n with
      | None => complain repr TypeError (wrong_type_msg n "int") n (Some (lit "n (i.e. the hex length)")) location PNone
      | Some k =>
          match v with
          | PStr s =>
              if negb (Z.of_nat (length s) =? k * 2) then
                complain repr ValueError (lit "whose length is " ++ int_str (Z.of_nat (length s)) ++ lit " chars, not " ++ int_str (k * 2) ++ lit " chars.") v name location kind
              else None
          | _ => None
          end
      end
  end.

(** validate_string_is_positive_integer (L341-353), with its message; L343-344 raises a plain text. *)
Definition validate_string_is_positive_integer_says (repr : pyval -> pystr) (v : pyval) (name : option pystr) (location kind : pyval) : option (exn * pystr) :=
  match validate_string_says repr v name location kind with
  | Some r => Some r
  | None =>
      match v with
      | PStr s =>
          if str_eqb s (lit "0") then Some (ValueError, lit "0 is not a positive number.")
          else
            let indices := indices_where (fun c => negb (char_isdigit c)) s in
            if 0 <? Z.of_nat (length indices) then
              complain repr ValueError (lit "where the chars at indices " ++ show_indices indices ++ lit " (with values " ++
                repr (PList (map (fun i => PStr [nth i s 0]) indices)) ++ lit ") are not digits.") v name location kind
            else None
      | _ => None
      end
  end.
(** validate_string_is_whole_number (L326-333), with its message. *)
Definition validate_string_is_whole_number_says (repr : pyval -> pystr) (v : pyval) (name : option pystr) (location kind : pyval) : option (exn * pystr) :=
  match validate_string_says repr v name location kind with
  | Some r => Some r
  | None => match v with PStr s => if str_eqb s (lit "0") then None else validate_string_is_positive_integer_says repr v name location kind | _ => None end
  end.
(** validate_string_is_decimal (L167-188), with its message; the first two of its own messages do not pass kind on (L174, L179).  For dp see Validate.v; the text of the OverflowError is that of the standard library's re. *)
Definition validate_string_is_decimal_says (repr : pyval -> pystr) (v dp : pyval) (name : option pystr) (location kind : pyval) : option (exn * pystr) :=
  match validate_string_says repr v name location kind with
  | Some r => Some r
  | None =>
      match v with
      | PStr s =>
          if negb (Nat.eqb (count_char 46 s) 1) then
            complain repr TypeError (lit "which has " ++ int_str (Z.of_nat (count_char 46 s)) ++ lit " decimal points, not 1.") v name location PNone
          else
            match split_char 46 s with
            | [s1; s2] =>
                if negb (str_isdigit s1) || negb (str_isdigit s2) then complain repr TypeError (lit "which has non-digit characters.") v name location PNone
                else
                  match as_int dp with
                  | None => None
                  | Some n =>
                      if 4294967295 <=? n then Some (OverflowError, lit "the repetition number is too large")
                      else if (n <? 0) || negb (dp_match (Z.to_nat n) s) then
                        complain repr ValueError (lit "which is not a valid " ++ shown repr dp ++ lit "-decimal-place decimal value.") v name location kind
                      else None
                  end
            | _ => None (* unreachable with exactly one '.' *)
            end
      | _ => None
      end
  end.
(** validate_string_is_whole_number_or_decimal (L144-162): both are tried, the first stored exception is raised. *)
Definition validate_string_is_whole_number_or_decimal_says (repr : pyval -> pystr) (v dp : pyval) (name : option pystr) (location kind : pyval) : option (exn * pystr) :=
  match validate_string_is_whole_number_says repr v name location kind, validate_string_is_decimal_says repr v dp name location kind with
  | Some e1, Some _ => Some e1
  | _, _ => None
  end.
(** validate_string_is_date (L361-366), with its message. *)
Definition validate_string_is_date_says (repr : pyval -> pystr) (v : pyval) (name : option pystr) (location kind : pyval) : option (exn * pystr) :=
  match validate_string_says repr v name location kind with
  | Some r => Some r
  | None =>
      match v with
      | PStr s => if negb (date_match s) then complain repr ValueError (lit "which is not a valid YYYY-MM-DD date string.") v name location kind else None
      | _ => None
      end
  end.

Definition newline : pystr := [10].
(** validate_integer_domain (L88-115), with its texts; the bounds may be any values. *)
Definition validate_integer_domain_says (repr : pyval -> pystr) (v min_value max_value : pyval) : option (exn * pystr) :=
  let integer := PStr (lit "integer") in
  match validate_integer_says repr v None PNone integer with
  | Some r => Some r
  | None =>
  match validate_integer_says repr min_value None PNone integer with
  | Some r => Some r
  | None =>
  match validate_integer_says repr max_value None PNone integer with
  | Some r => Some r
  | None =>
      match as_int v, as_int min_value, as_int max_value with
      | Some n, Some lo, Some hi =>
          if hi <? lo then
            Some (ValueError, newline ++ lit "Minimum value must be less than maximum value." ++ newline ++ lit "- Mininimum value: " ++ shown repr min_value ++ newline ++
              lit "- Maximum value: " ++ shown repr max_value ++ newline)
          else if (lo <=? n) && (n <=? hi) then None
          else if n <? lo then
            Some (ValueError, newline ++ lit "Input is less than the minimum value." ++ newline ++ lit "- Minimum value: " ++ shown repr min_value ++ newline ++ lit "- Input: " ++ shown repr v ++ newline)
          else if hi <? n then
            Some (ValueError, newline ++ lit "Input is greater than the maximum value." ++ newline ++ lit "- Maximum value: " ++ shown repr max_value ++ newline ++ lit "- Input: " ++ shown repr v ++ newline)
          else None
      | _, _, _ => None
      end
  end
  end
  end.

(** for x in l: msg += "\n- %s" % str(x) (L50, L53, L67), for strings. *)
Definition bullets (l : list pystr) : pystr := fold_left (fun msg x => msg ++ newline ++ lit "- " ++ x) l [].
(** validate_list_contains_items (L38-55), with its text, for lists of strings. *)
Definition validate_list_contains_items_says (input items : list pystr) : option (exn * pystr) :=
  let not_found := fold_left (fun acc x => if negb (str_in x input) then acc ++ [x] else acc) items [] in
  if Z.of_nat (length not_found) =? 0 then None
  else Some (ValueError, lit "Some items are not in the list." ++ newline ++ lit "List items:" ++ bullets input ++ newline ++ lit "Items not found:" ++ bullets not_found).
(** validate_item_in_list (L60-68), with its text, for strings. *)
Definition validate_item_in_list_says (input : pystr) (list1 : list pystr) : option (exn * pystr) :=
  if str_in input list1 then None
  else Some (ValueError, lit "Item not in list. Item: " ++ input ++ newline ++ lit "List items:" ++ bullets list1).
(** validate_lists_are_identical (L73-83), with its text, for lists of strings. *)
Definition validate_lists_are_identical_says (repr : pyval -> pystr) (list1 list2 : list pystr) : option (exn * pystr) :=
  if negb (strs_eqb (str_sorted list1) (str_sorted list2)) then
    Some (ValueError, newline ++ lit "List are not identical." ++ newline ++ lit "- List 1:" ++ newline ++ repr (PList (map PStr list1)) ++ newline ++
      lit "- List 2:" ++ newline ++ repr (PList (map PStr list2)) ++ newline)
  else None.

End WithEnv.
