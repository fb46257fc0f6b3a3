(** Property theorems: generated by tools/genprops.py from C_Complaints.v, which holds the proofs. *)
From Coq Require Import String Floats.SpecFloat Permutation Lia.
From Verif Require Import PyBase Env PyNum Validate Spec EnvOk ValidSpec Messages MessagesSpec Complaints ComplaintsSpec Demo.
Open Scope Z_scope.
From Verif Require C_Complaints.

(** C94.  The validators of a type: a value of another type raises TypeError, and the message names both types. *)
Theorem C94_types : forall E : Env,
  forall repr v name location kind r,
  (validate_integer_says repr v name location kind = r <-> exists f, of_type "int" (fun v => exists n, int_value v n) v f /\ reported repr v name location kind f r) /\
  (validate_boolean_says repr v name location kind = r <-> exists f, of_type "bool" (fun v => exists b, v = PBool b) v f /\ reported repr v name location kind f r) /\
  (validate_list_says repr v name location kind = r <-> exists f, of_type "list" (fun v => exists l, v = PList l) v f /\ reported repr v name location kind f r) /\
  (validate_dict_says repr v name location kind = r <-> exists f, of_type "dict" (fun v => exists d, v = PDict d) v f /\ reported repr v name location kind f r).
Proof. exact (fun E => C_Complaints.c94_types). Qed.
Print Assumptions C94_types.

(** C94, naive claim "the message names the type that was expected" refuted for validate_bytes: it says int. *)
Theorem C94_bytes_refuted : forall E : Env,
  forall repr v name location kind r, validate_bytes_says repr v name location kind = r <->
  exists t, type_called v t /\ reported repr v name location kind (Wrong TypeError (lit "which has type '" ++ lit t ++ lit "', not 'int'.")) r.
Proof. exact (fun E => C_Complaints.c94_bytes_refuted). Qed.
Print Assumptions C94_bytes_refuted.

(** C94.  validate_positive_integer and validate_whole_number. *)
Theorem C94_numbers : forall E : Env,
  forall repr v name location kind r,
  (validate_positive_integer_says repr v name location kind = r <-> exists f, positive v f /\ reported repr v name location kind f r) /\
  (validate_whole_number_says repr v name location kind = r <-> exists f, whole v f /\ reported repr v name location kind f r).
Proof. exact (fun E => C_Complaints.c94_numbers). Qed.
Print Assumptions C94_numbers.

(** C94.  validate_hex_length: first whether the value is hex, then whether n is an int, then the length. *)
Theorem C94_hex_length : forall E : Env,
  forall repr v n name location kind r, validate_hex_length_says repr v n name location kind = r <->
  exists kind', expected_length repr n kind kind' /\ exists value name' kind'' f, hex_with_length v n name kind' value name' kind'' f /\ reported repr value name' location kind'' f r.
Proof. exact (fun E => C_Complaints.c94_hex_length). Qed.
Print Assumptions C94_hex_length.

(** C94.  The validators of strings of digits. *)
Theorem C94_digits : forall E : Env,
  forall repr v name location kind r,
  (validate_string_is_positive_integer_says repr v name location kind = r <-> exists f, positive_digits repr v f /\ reported repr v name location kind f r) /\
  (validate_string_is_whole_number_says repr v name location kind = r <-> exists f, digits repr v f /\ reported repr v name location kind f r).
Proof. exact (fun E => C_Complaints.c94_digits). Qed.
Print Assumptions C94_digits.

(** C94.  validate_string_is_decimal, and whole number or decimal: of two faults the first is reported. *)
Theorem C94_decimal : forall E : Env,
  UniOk E -> forall repr v dp name location kind r,
  (validate_string_is_decimal_says repr v dp name location kind = r <-> exists f, decimal repr dp v f /\ reported repr v name location kind f r) /\
  (validate_string_is_whole_number_or_decimal_says repr v dp name location kind = r <-> exists f, either (digits repr v) (decimal repr dp v) f /\ reported repr v name location kind f r).
Proof. exact (fun E => C_Complaints.c94_decimal). Qed.
Print Assumptions C94_decimal.

(** C94.  validate_string_is_date. *)
Theorem C94_date : forall E : Env,
  UniOk E -> forall repr v name location kind r,
  validate_string_is_date_says repr v name location kind = r <-> exists f, date v f /\ reported repr v name location kind f r.
Proof. exact (fun E => C_Complaints.c94_date). Qed.
Print Assumptions C94_date.

(** C94.  validate_integer_domain: the types of the three values in order, then the interval, then the value. *)
Theorem C94_domain : forall E : Env,
  forall repr v lo hi r, validate_integer_domain_says repr v lo hi = r <->
  exists x f, in_domain repr v lo hi x f /\ reported repr x None PNone (PStr (lit "integer")) f r.
Proof. exact (fun E => C_Complaints.c94_domain). Qed.
Print Assumptions C94_domain.

(** C94.  The validators of lists: the texts list the items given and, for contains_items, exactly the missing ones. *)
Theorem C94_lists : forall E : Env,
  (forall input items r, validate_list_contains_items_says input items = r <->
     (missing input items [] /\ r = None) \/
     (exists m, missing input items m /\ m <> [] /\ r = Some (ValueError, listing "Some items are not in the list." [] ++ [10] ++ listing "List items:" input ++ [10] ++ listing "Items not found:" m))) /\
  (forall x l r, validate_item_in_list_says x l = r <->
     (In x l /\ r = None) \/ (~ In x l /\ r = Some (ValueError, lit "Item not in list. Item: " ++ x ++ [10] ++ listing "List items:" l))) /\
  (forall repr l l' r, validate_lists_are_identical_says repr l l' = r <->
     (Permutation l l' /\ r = None) \/
     (~ Permutation l l' /\ r = Some (ValueError, paragraph [lit "List are not identical."; lit "- List 1:"; repr (PList (map PStr l)); lit "- List 2:"; repr (PList (map PStr l'))]))).
Proof. exact (fun E => C_Complaints.c94_lists). Qed.
Print Assumptions C94_lists.

(** C94.  Each validator raises exactly what its model without texts raises (C11, C53, C54, C58, C59). *)
Theorem C94_same : forall E : Env,
  forall repr v name location kind,
  validate_integer v = outcome_of (validate_integer_says repr v name location kind) /\
  validate_boolean v = outcome_of (validate_boolean_says repr v name location kind) /\
  validate_list v = outcome_of (validate_list_says repr v name location kind) /\
  validate_dict v = outcome_of (validate_dict_says repr v name location kind) /\
  validate_positive_integer v = outcome_of (validate_positive_integer_says repr v name location kind) /\
  validate_whole_number v = outcome_of (validate_whole_number_says repr v name location kind) /\
  (forall n, validate_hex_length v n = outcome_of (validate_hex_length_says repr v (PInt (Z.of_nat n)) name location kind)) /\
  validate_string_is_positive_integer v = outcome_of (validate_string_is_positive_integer_says repr v name location kind) /\
  validate_string_is_whole_number v = outcome_of (validate_string_is_whole_number_says repr v name location kind) /\
  (forall dp, validate_string_is_decimal_dp v dp = outcome_of (validate_string_is_decimal_says repr v dp name location kind)) /\
  validate_string_is_whole_number_or_decimal v = outcome_of (validate_string_is_whole_number_or_decimal_says repr v PNone name location kind) /\
  validate_string_is_date v = outcome_of (validate_string_is_date_says repr v name location kind) /\
  (forall lo hi, validate_integer_domain v lo hi = outcome_of (validate_integer_domain_says repr v (PInt lo) (PInt hi))) /\
  (forall l l', validate_list_contains_items l l' = outcome_of (validate_list_contains_items_says l l')) /\
  (forall x l, validate_item_in_list x l = outcome_of (validate_item_in_list_says x l)) /\
  (forall l l', validate_lists_are_identical l l' = outcome_of (validate_lists_are_identical_says repr l l')).
Proof. exact (fun E => C_Complaints.c94_same). Qed.
Print Assumptions C94_same.

Example ex94_texts : forall E : Env,
  validate_integer_says plain_repr (PStr (lit "7")) (Some (lit "n (a count)")) PNone (PStr (lit "integer")) =
    Some (TypeError, lit "For variable 'n' (a count), expected a 'integer', but received value '7', which has type 'str', not 'int'.") /\
  validate_hex_length_says plain_repr (PStr (lit "aabb")) (PInt 3) None PNone PNone =
    Some (ValueError, lit "Expected a 'hex_length_3_bytes', but received value 'aabb', whose length is 4 chars, not 6 chars.") /\
  @validate_string_is_decimal_says demo_env plain_repr (PStr (lit "1.2.3")) PNone None PNone (PStr (lit "integer")) = Some (TypeError, lit "Received value '1.2.3', which has 2 decimal points, not 1.") /\
  @validate_string_is_positive_integer_says demo_env plain_repr (PStr (lit "0")) None PNone PNone = Some (ValueError, lit "0 is not a positive number.") /\
  validate_integer_domain_says plain_repr (PInt 5) (PInt 1) (PInt 4) = Some (ValueError, paragraph [lit "Input is greater than the maximum value."; lit "- Maximum value: 4"; lit "- Input: 5"]) /\
  validate_list_contains_items_says [lit "a"; lit "b"] [lit "c"; lit "a"; lit "c"] =
    Some (ValueError, lit "Some items are not in the list." ++ [10] ++ lit "List items:" ++ [10] ++ lit "- a" ++ [10] ++ lit "- b" ++ [10] ++ lit "Items not found:" ++ [10] ++ lit "- c" ++ [10] ++ lit "- c").
Proof. exact (fun E => C_Complaints.ex94_texts). Qed.

(** The hypothesis UniOk holds of an environment, and the specifications have faults in them. *)
Example ex94_met : forall E : Env,
  UniOk demo_env /\ @decimal demo_env plain_repr (PInt 2) (PStr (lit "1.5")) (Wrong ValueError (lit "which is not a valid 2-decimal-place decimal value.")) /\
  @digits demo_env plain_repr (PStr (lit "1x")) (Wrong ValueError (lit "where the chars at indices [1] (with values ?) are not digits.")) /\ @date demo_env (PStr (lit "today")) (Wrong ValueError (lit "which is not a valid YYYY-MM-DD date string.")).
Proof. exact (fun E => C_Complaints.ex94_met). Qed.

