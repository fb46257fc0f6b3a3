(** What each validator finds wrong with a value (C94), independent of the code. *)
From Coq Require Import String Floats.SpecFloat Permutation.
From Verif Require Import PyBase Env PyNum EnvOk ValidSpec MessagesSpec.
Open Scope Z_scope.

(** What a validator finds: nothing; a fault, reported in the usual message (C72's); a fault, reported in the usual message without the part that says what was expected; a fault reported by a text of its own. *)
Inductive finding :=
| Fine
| Wrong (e : exn) (why : pystr)
| WrongUnexpected (e : exn) (why : pystr)
| Plainly (e : exn) (text : pystr).

(** v is an int for Python (a bool is one: True is 1, False is 0), of value n. *)
Inductive int_value : pyval -> Z -> Prop :=
| an_int : forall n, int_value (PInt n) n
| true_is_one : int_value (PBool true) 1
| false_is_zero : int_value (PBool false) 0.
Definition no_int (v : pyval) : Prop := forall n, ~ int_value v n.
(** v == 0: also for the two float zeros. *)
Definition equals_zero (v : pyval) : Prop := int_value v 0 \/ exists sign, v = PFloat (S754_zero sign).

Section WithEnv.
Context {E : Env}.

(** What the caller of the validator sees. *)
Inductive reported (repr : pyval -> pystr) (value : pyval) (name : option pystr) (location kind : pyval) : finding -> option (exn * pystr) -> Prop :=
| report_fine : reported repr value name location kind Fine None
| report_wrong : forall e why m, message repr why value name location kind m -> reported repr value name location kind (Wrong e why) (Some (e, m))
| report_unexpected : forall e why m, message repr why value name location PNone m -> reported repr value name location kind (WrongUnexpected e why) (Some (e, m))
| report_plainly : forall e text, reported repr value name location kind (Plainly e text) (Some (e, text)).

(** "{}".format(v) *)
Inductive written (repr : pyval -> pystr) : pyval -> pystr -> Prop :=
| written_str : forall s, written repr (PStr s) s
| written_int : forall z, written repr (PInt z) (int_str z)
| written_other : forall v, (forall s, v <> PStr s) -> (forall z, v <> PInt z) -> written repr v (repr v).

(** v should be of the type called [wanted], which the values in [good] are. *)
Inductive of_type (wanted : string) (good : pyval -> Prop) (v : pyval) : finding -> Prop :=
| right_type : good v -> of_type wanted good v Fine
| wrong_type : forall t, ~ good v -> type_called v t -> of_type wanted good v (Wrong TypeError (lit "which has type '" ++ lit t ++ lit "', not '" ++ lit wanted ++ lit "'.")).

Inductive positive (v : pyval) : finding -> Prop :=
| positive_fine : forall n, int_value v n -> 1 <= n -> positive v Fine
| positive_small : forall n, int_value v n -> n < 1 -> positive v (Wrong ValueError (lit "which is less than 1."))
| positive_type : forall t, no_int v -> type_called v t -> positive v (Wrong TypeError (lit "which has type '" ++ lit t ++ lit "', not 'int'.")).
Inductive whole (v : pyval) : finding -> Prop :=
| whole_zero : equals_zero v -> whole v Fine
| whole_positive : forall f, ~ equals_zero v -> positive v f -> whole v f.

(** A string with all characters in [good]: l lists, in increasing order, the positions of those that are not. *)
Definition faults (good : Z -> Prop) (s : pystr) (l : list nat) : Prop :=
  (forall i, In i l <-> exists c, char_at s i c /\ ~ good c) /\ (forall a b l1 l2 l3, l = l1 ++ [a] ++ l2 ++ [b] ++ l3 -> (a < b)%nat).
Definition hex_char (c : Z) : Prop := 48 <= c <= 57 \/ 97 <= c <= 102.
(** The positions as shown. *)
Definition positions (l : list nat) : pystr := lit "[" ++ separated (lit ", ") (map (fun i => int_str (Z.of_nat i)) l) ++ lit "]".

Inductive hexadecimal (v : pyval) : finding -> Prop :=
| hex_type : forall t, (forall s, v <> PStr s) -> type_called v t -> hexadecimal v (Wrong TypeError (lit "which has type '" ++ lit t ++ lit "', not 'str'."))
| hex_odd : forall s, v = PStr s -> Nat.odd (length s) = true -> hexadecimal v (Wrong ValueError (lit "whose length is not an even number (" ++ int_str (Z.of_nat (length s)) ++ lit " chars)."))
| hex_wrong_chars : forall s l cs, v = PStr s -> Nat.odd (length s) = false -> faults hex_char s l -> l <> [] ->
    Forall2 (fun i c => exists x, char_at s i x /\ c = if x =? 10 then [92; 110] else [x]) l cs ->
    hexadecimal v (Wrong ValueError (lit "where the chars at indices " ++ positions l ++ lit " (with values '" ++ separated (lit ",") cs ++ lit "') are not hex chars."))
| hex_fine : forall s, v = PStr s -> Nat.odd (length s) = false -> Forall hex_char s -> hexadecimal v Fine.

(** What validate_hex_length says it expects: the kind given, or one made from the length. *)
Inductive expected_length (repr : pyval -> pystr) (n : pyval) : pyval -> pyval -> Prop :=
| kind_given : forall kind, kind <> PNone -> expected_length repr n kind kind
| kind_made : forall t, written repr n t -> expected_length repr n PNone (PStr (lit "hex_length_" ++ t ++ lit "_bytes")).
(** n bytes in hex: which value is reported (v, or n under a name of its own), and what is said of it. *)
Inductive hex_with_length (v n : pyval) (name : option pystr) (kind : pyval) : pyval -> option pystr -> pyval -> finding -> Prop :=
| length_no_hex : forall f, hexadecimal v f -> f <> Fine -> hex_with_length v n name kind v name kind f
| length_type : forall t, hexadecimal v Fine -> no_int n -> type_called n t ->
    hex_with_length v n name kind n (Some (lit "n (i.e. the hex length)")) PNone (Wrong TypeError (lit "which has type '" ++ lit t ++ lit "', not 'int'."))
| length_wrong : forall s z, v = PStr s -> hexadecimal v Fine -> int_value n z -> Z.of_nat (length s) <> 2 * z ->
    hex_with_length v n name kind v name kind (Wrong ValueError (lit "whose length is " ++ int_str (Z.of_nat (length s)) ++ lit " chars, not " ++ int_str (2 * z) ++ lit " chars."))
| length_fine : forall s z, v = PStr s -> hexadecimal v Fine -> int_value n z -> Z.of_nat (length s) = 2 * z -> hex_with_length v n name kind v name kind Fine.

Inductive digits (repr : pyval -> pystr) (v : pyval) : finding -> Prop :=
| digits_type : forall t, (forall s, v <> PStr s) -> type_called v t -> digits repr v (Wrong TypeError (lit "which has type '" ++ lit t ++ lit "', not 'str'."))
| digits_chars : forall s l cs, v = PStr s -> faults digit_char s l -> l <> [] -> Forall2 (char_at s) l cs ->
    digits repr v (Wrong ValueError (lit "where the chars at indices " ++ positions l ++ lit " (with values " ++ repr (PList (map (fun c => PStr [c]) cs)) ++ lit ") are not digits."))
| digits_fine : forall s, v = PStr s -> Forall digit_char s -> digits repr v Fine.
(** A string of digits that is not "0". *)
Inductive positive_digits (repr : pyval -> pystr) (v : pyval) : finding -> Prop :=
| positive_digits_zero : v = PStr (lit "0") -> positive_digits repr v (Plainly ValueError (lit "0 is not a positive number."))
| positive_digits_other : forall f, v <> PStr (lit "0") -> digits repr v f -> positive_digits repr v f.

(** s has k dots. *)
Inductive dots : nat -> pystr -> Prop :=
| no_dot : forall s, ~ In 46 s -> dots 0 s
| a_dot : forall k s s', ~ In 46 s -> dots k s' -> dots (S k) (s ++ [46] ++ s').
(** Digits, a dot, digits. *)
Definition decimal_digits (good : Z -> Prop) (a b : pystr) : Prop := a <> [] /\ b <> [] /\ Forall good a /\ Forall good b.
Inductive decimal (repr : pyval -> pystr) (dp v : pyval) : finding -> Prop :=
| decimal_type : forall t, (forall s, v <> PStr s) -> type_called v t -> decimal repr dp v (Wrong TypeError (lit "which has type '" ++ lit t ++ lit "', not 'str'."))
| decimal_dots : forall s k, v = PStr s -> dots k s -> k <> 1%nat -> decimal repr dp v (WrongUnexpected TypeError (lit "which has " ++ int_str (Z.of_nat k) ++ lit " decimal points, not 1."))
| decimal_chars : forall a b, v = PStr (a ++ [46] ++ b) -> ~ In 46 a -> ~ In 46 b -> ~ decimal_digits digit_char a b -> decimal repr dp v (WrongUnexpected TypeError (lit "which has non-digit characters."))
| decimal_any : forall a b, v = PStr (a ++ [46] ++ b) -> decimal_digits digit_char a b -> no_int dp -> decimal repr dp v Fine
| decimal_huge : forall a b n, v = PStr (a ++ [46] ++ b) -> decimal_digits digit_char a b -> int_value dp n -> 2 ^ 32 - 1 <= n -> decimal repr dp v (Plainly OverflowError (lit "the repetition number is too large"))
| decimal_places : forall a b n, v = PStr (a ++ [46] ++ b) -> decimal_digits decimal_char a b -> int_value dp n -> Z.of_nat (length b) = n -> n < 2 ^ 32 - 1 -> decimal repr dp v Fine
| decimal_wrong : forall a b n d, v = PStr (a ++ [46] ++ b) -> decimal_digits digit_char a b -> int_value dp n -> n < 2 ^ 32 - 1 ->
    ~ (decimal_digits decimal_char a b /\ Z.of_nat (length b) = n) -> written repr dp d ->
    decimal repr dp v (Wrong ValueError (lit "which is not a valid " ++ d ++ lit "-decimal-place decimal value.")).
(** Either: the fault reported is the first one's. *)
Inductive either (first second : finding -> Prop) : finding -> Prop :=
| either_first : first Fine -> either first second Fine
| either_second : second Fine -> either first second Fine
| either_none : forall f g, first f -> second g -> f <> Fine -> g <> Fine -> either first second f.
Inductive date (v : pyval) : finding -> Prop :=
| date_type : forall t, (forall s, v <> PStr s) -> type_called v t -> date v (Wrong TypeError (lit "which has type '" ++ lit t ++ lit "', not 'str'."))
| date_fine : forall s, v = PStr s -> (date_text s \/ exists r, s = r ++ [10] /\ date_text r) -> date v Fine
| date_wrong : forall s, v = PStr s -> ~ (date_text s \/ exists r, s = r ++ [10] /\ date_text r) -> date v (Wrong ValueError (lit "which is not a valid YYYY-MM-DD date string.")).

(** Lines, each ended by a newline, after an empty one. *)
Definition paragraph (l : list pystr) : pystr := [10] ++ flat_map (fun x => x ++ [10]) l.
(** Which of the three values (input, minimum, maximum) is reported, and what is said of it. *)
Inductive in_domain (repr : pyval -> pystr) (v lo hi : pyval) : pyval -> finding -> Prop :=
| domain_type : forall pre x post t, [v; lo; hi] = pre ++ [x] ++ post -> Forall (fun y => ~ no_int y) pre -> no_int x -> type_called x t ->
    in_domain repr v lo hi x (Wrong TypeError (lit "which has type '" ++ lit t ++ lit "', not 'int'."))
| domain_empty : forall n a b ta tb, int_value v n -> int_value lo a -> int_value hi b -> b < a -> written repr lo ta -> written repr hi tb ->
    in_domain repr v lo hi v (Plainly ValueError (paragraph [lit "Minimum value must be less than maximum value."; lit "- Mininimum value: " ++ ta; lit "- Maximum value: " ++ tb]))
| domain_fine : forall n a b, int_value v n -> int_value lo a -> int_value hi b -> a <= n <= b -> in_domain repr v lo hi v Fine
| domain_less : forall n a b tn ta, int_value v n -> int_value lo a -> int_value hi b -> a <= b -> n < a -> written repr v tn -> written repr lo ta ->
    in_domain repr v lo hi v (Plainly ValueError (paragraph [lit "Input is less than the minimum value."; lit "- Minimum value: " ++ ta; lit "- Input: " ++ tn]))
| domain_greater : forall n a b tn tb, int_value v n -> int_value lo a -> int_value hi b -> a <= b -> b < n -> written repr v tn -> written repr hi tb ->
    in_domain repr v lo hi v (Plainly ValueError (paragraph [lit "Input is greater than the maximum value."; lit "- Maximum value: " ++ tb; lit "- Input: " ++ tn])).

(** A heading and, on lines of their own, the items. *)
Definition listing (heading : string) (l : list pystr) : pystr := lit heading ++ flat_map (fun x => [10] ++ lit "- " ++ x) l.
(** The items of l that are not in l', in order, with repetitions. *)
Inductive missing (l' : list pystr) : list pystr -> list pystr -> Prop :=
| missing_nil : missing l' [] []
| missing_here : forall x l m, In x l' -> missing l' l m -> missing l' (x :: l) m
| missing_not : forall x l m, ~ In x l' -> missing l' l m -> missing l' (x :: l) (x :: m).

(** The exception alone. *)
Definition outcome_of (r : option (exn * pystr)) : res unit := match r with None => Ok tt | Some (e, _) => Err e end.

End WithEnv.
