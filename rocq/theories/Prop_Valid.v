(** Property theorems: generated by tools/genprops.py from C_Valid.v, which holds the proofs. *)
From Coq Require Import String Floats.SpecFloat Permutation Lia.
From Verif Require Import PyBase Env PyNum Validate Spec EnvOk ValidSpec Demo.
Open Scope Z_scope.
From Verif Require C_Valid.

(** C53.  A string passes validate_string_is_whole_number exactly if all its characters are digits (so the empty string
    does), and validate_string_is_positive_integer exactly if moreover it is not the string 0; otherwise ValueError, or TypeError if it
    is no string. *)
Theorem C53_whole_number : forall E : Env,
  (forall s, Forall digit_char s -> validate_string_is_whole_number (PStr s) = Ok tt) /\
  (forall s, ~ Forall digit_char s -> validate_string_is_whole_number (PStr s) = Err ValueError) /\
  (forall s, Forall digit_char s -> s <> lit "0" -> validate_string_is_positive_integer (PStr s) = Ok tt) /\
  (forall s, ~ (Forall digit_char s /\ s <> lit "0") -> validate_string_is_positive_integer (PStr s) = Err ValueError) /\
  (forall v, (forall s, v <> PStr s) -> validate_string_is_whole_number v = Err TypeError /\ validate_string_is_positive_integer v = Err TypeError).
Proof. exact (fun E => C_Valid.c53_whole_number). Qed.
Print Assumptions C53_whole_number.

(** C53, naive claim "a string accepted by validate_string_is_positive_integer denotes a positive integer" refuted: the empty
    string, and zero written with two digits, are accepted. *)
Theorem C53_positive_refuted : forall E : Env,
  validate_string_is_positive_integer (PStr []) = Ok tt /\ validate_string_is_positive_integer (PStr (lit "00")) = Ok tt /\
  py_int_str 10 (lit "00") = Ok 0 /\ exists e, py_int_str 10 [] = Err e.
Proof. exact (fun E => C_Valid.c53_positive_refuted). Qed.
Print Assumptions C53_positive_refuted.

(** C53.  A string passes validate_string_is_decimal exactly if it consists of digits, one dot and digits, at least one digit on each
    side; otherwise TypeError. *)
Theorem C53_decimal : forall E : Env,
  forall v,
  (validate_string_is_decimal v = Ok tt <-> exists a b, v = PStr (a ++ [46] ++ b) /\ a <> [] /\ b <> [] /\ Forall digit_char a /\ Forall digit_char b) /\
  (validate_string_is_decimal v = Ok tt \/ validate_string_is_decimal v = Err TypeError).
Proof. exact (fun E => C_Valid.c53_decimal). Qed.
Print Assumptions C53_decimal.

(** C53.  The combined validator accepts what one of the two accepts; a string accepted by neither raises ValueError. *)
Theorem C53_either : forall E : Env,
  forall s,
  (validate_string_is_whole_number_or_decimal (PStr s) = Ok tt <->
     Forall digit_char s \/ exists a b, s = a ++ [46] ++ b /\ a <> [] /\ b <> [] /\ Forall digit_char a /\ Forall digit_char b) /\
  (validate_string_is_whole_number_or_decimal (PStr s) = Ok tt \/ validate_string_is_whole_number_or_decimal (PStr s) = Err ValueError).
Proof. exact (fun E => C_Valid.c53_either). Qed.
Print Assumptions C53_either.

(** C53.  validate_string_is_printable_ascii accepts exactly the strings of printable ASCII characters, tabs and newlines; other
    strings raise ValueError. *)
Theorem C53_printable : forall E : Env,
  forall s,
  (Forall printable_char s -> validate_string_is_printable_ascii (PStr s) = Ok tt) /\
  (~ Forall printable_char s -> validate_string_is_printable_ascii (PStr s) = Err ValueError).
Proof. exact (fun E => C_Valid.c53_printable). Qed.
Print Assumptions C53_printable.

(** C53.  validate_string_is_date accepts exactly date texts, and date texts followed by one newline; other strings raise ValueError. *)
Theorem C53_date : forall E : Env,
  UniOk E -> forall s,
  (date_text s \/ (exists r, s = r ++ [10] /\ date_text r) -> validate_string_is_date (PStr s) = Ok tt) /\
  (~ (date_text s \/ (exists r, s = r ++ [10] /\ date_text r)) -> validate_string_is_date (PStr s) = Err ValueError).
Proof. exact (fun E => C_Valid.c53_date). Qed.
Print Assumptions C53_date.

(** C53, naive claim "only YYYY-MM-DD is accepted" refuted. *)
Theorem C53_date_refuted : forall E : Env,
  validate_string_is_date (PStr (lit "2021-06-01" ++ [10])) = Ok tt /\ validate_string_is_date (PStr (lit "9999-99-99")) = Ok tt.
Proof. exact (fun E => C_Valid.c53_date_refuted). Qed.
Print Assumptions C53_date_refuted.

(** C54.  Which values are ints for Python: ints and bools. *)
Theorem C54_integer : forall E : Env,
  forall v,
  validate_integer v = match v with PInt _ | PBool _ => Ok tt | _ => Err TypeError end /\
  validate_positive_integer v = match v with PInt n => if 1 <=? n then Ok tt else Err ValueError | PBool b => if b then Ok tt else Err ValueError | _ => Err TypeError end.
Proof. exact (fun E => C_Valid.c54_integer). Qed.
Print Assumptions C54_integer.

(** C54.  validate_whole_number accepts ints that are not negative, bools, and the floats 0.0 and -0.0; it raises ValueError for
    negative ints and TypeError for everything else. *)
Theorem C54_whole_number : forall E : Env,
  forall v,
  validate_whole_number v =
    match v with
    | PInt n => if 0 <=? n then Ok tt else Err ValueError
    | PBool _ | PFloat (S754_zero _) => Ok tt
    | _ => Err TypeError
    end.
Proof. exact (fun E => C_Valid.c54_whole_number). Qed.
Print Assumptions C54_whole_number.

(** C54, naive claim "validate_whole_number accepts only ints" refuted. *)
Theorem C54_whole_refuted : forall E : Env,
  validate_whole_number (PFloat (S754_zero true)) = Ok tt /\ validate_whole_number (PBool false) = Ok tt /\ validate_integer (PFloat (S754_zero true)) = Err TypeError.
Proof. exact (fun E => C_Valid.c54_whole_refuted). Qed.
Print Assumptions C54_whole_refuted.

(** C54.  validate_integer_domain accepts exactly the ints from min to max. *)
Theorem C54_domain : forall E : Env,
  forall v lo hi,
  (validate_integer_domain v lo hi = Ok tt <-> exists n, as_int v = Some n /\ lo <= n <= hi) /\
  (as_int v = None -> validate_integer_domain v lo hi = Err TypeError) /\
  (forall n, as_int v = Some n -> ~ lo <= n <= hi -> validate_integer_domain v lo hi = Err ValueError).
Proof. exact (fun E => C_Valid.c54_domain). Qed.
Print Assumptions C54_domain.

(** C58.  With dp, validate_string_is_decimal accepts exactly decimals with dp decimal places written with characters that have a decimal
    value (although its pattern leaves the dot unescaped), for every dp. *)
Theorem C58_decimal_places : forall E : Env,
  UniOk E -> forall s n, 0 <= n < 4294967295 ->
  (validate_string_is_decimal_dp (PStr s) (PInt n) = Ok tt <->
     exists a b, s = a ++ [46] ++ b /\ a <> [] /\ b <> [] /\ Forall decimal_char a /\ Forall decimal_char b /\ Z.of_nat (length b) = n).
Proof. exact (fun E => C_Valid.c58_decimal_places). Qed.
Print Assumptions C58_decimal_places.

(** C58.  Otherwise: TypeError if the text is no decimal, else ValueError, or OverflowError if dp is too large for a regular expression;
    a dp that is no int is ignored. *)
Theorem C58_decimal_places_errors : forall E : Env,
  forall v dp,
  (validate_string_is_decimal v <> Ok tt -> validate_string_is_decimal_dp v dp = Err TypeError) /\
  (validate_string_is_decimal v = Ok tt -> as_int dp = None -> validate_string_is_decimal_dp v dp = Ok tt) /\
  (forall n, validate_string_is_decimal v = Ok tt -> as_int dp = Some n ->
     (n < 0 -> validate_string_is_decimal_dp v dp = Err ValueError) /\ (4294967295 <= n -> validate_string_is_decimal_dp v dp = Err OverflowError) /\
     (0 <= n < 4294967295 -> validate_string_is_decimal_dp v dp = Ok tt \/ validate_string_is_decimal_dp v dp = Err ValueError)).
Proof. exact (fun E => C_Valid.c58_decimal_places_errors). Qed.
Print Assumptions C58_decimal_places_errors.

(** C59.  The list validators: contains_items accepts exactly lists with all the items, item_in_list exactly members, and
    lists_are_identical exactly lists that are equal up to order; otherwise ValueError. *)
Theorem C59_lists : forall E : Env,
  (forall input items, validate_list_contains_items input items = if forallb (fun x => str_in x input) items then Ok tt else Err ValueError) /\
  (forall input items, validate_list_contains_items input items = Ok tt <-> forall x, In x items -> In x input) /\
  (forall x l, (In x l -> validate_item_in_list x l = Ok tt) /\ (~ In x l -> validate_item_in_list x l = Err ValueError)) /\
  (forall l l', (Permutation l l' -> validate_lists_are_identical l l' = Ok tt) /\ (~ Permutation l l' -> validate_lists_are_identical l l' = Err ValueError)).
Proof. exact (fun E => C_Valid.c59_lists). Qed.
Print Assumptions C59_lists.

(** Concrete cases: accepted and rejected texts. *)
Example ex53_texts : forall E : Env,
  forall E : Env, Forall digit_char (lit "0123456789") /\ ~ Forall digit_char (lit "1x") /\ Forall printable_char (lit "a b~") /\ ~ Forall printable_char [127] /\
  date_text (lit "2021-06-01") /\ ~ date_text (lit "2021-6-1").
Proof. exact (fun E => C_Valid.ex53_texts). Qed.

Example ex58_places : forall E : Env,
  @validate_string_is_decimal_dp demo_env (PStr (lit "0.00000001")) (PInt 8) = Ok tt /\
  @validate_string_is_decimal_dp demo_env (PStr (lit "0.1")) (PInt 8) = Err ValueError /\
  @validate_string_is_decimal_dp demo_env (PStr (lit "12345678")) (PInt 2) = Err TypeError.
Proof. exact (fun E => C_Valid.ex58_places). Qed.

Example ex59_lists : forall E : Env,
  validate_lists_are_identical [lit "b"; lit "a"] [lit "a"; lit "b"] = Ok tt /\ validate_lists_are_identical [lit "a"; lit "a"] [lit "a"] = Err ValueError.
Proof. exact (fun E => C_Valid.ex59_lists). Qed.

