(** What is wrong with the arguments of create_transaction (C101), independent of the code: the tests that they have to pass, in order. *)
From Coq Require Import String Floats.SpecFloat Permutation.
From Verif Require Import PyBase Env PyNum Spec EnvOk TxInput TxOutput Tx Create FloatSpec NumSpec ValidSpec CreateSpec RefuseSpec MessagesSpec ComplaintsSpec Answer BasicSaysSpec TxSpec JsonSpec DocSaysSpec.
Open Scope Z_scope.

(** ** Combinators (see DocSaysSpec for the others) *)
(** P has to hold. *)
Definition required (P : Prop) (e : exn) (text : pystr) : test := fun r => P /\ r = None \/ ~ P /\ r = Some (e, text).
(** The elements of l are tested one by one. *)
Definition every (P : pyval -> test) (l : list pyval) : test := each P (PList l).
(** What counts as false is not tested. *)
Definition unless_false (P : pyval -> test) (v : pyval) : test := fun r => counts_as_false v /\ r = None \/ ~ counts_as_false v /\ P v r.
(** The entry k, or None. *)
Definition entry_or_none (d : dict) (k : string) (v : pyval) : Prop := has d k v \/ (forall w, ~ has d k w) /\ v = PNone.
(** The attribute o, or None. *)
Definition attribute (o : option pyval) (v : pyval) : Prop := o = Some v \/ o = None /\ v = PNone.

Section WithEnv.
Context {E : Env}.
Context (repr : pyval -> pystr).

(** ** Built-in functions *)
(** int(v) *)
Inductive int_read (v : pyval) : answer Z -> Prop :=
| int_given : forall n, NumSpec.int_value v n -> int_read v (Gives n)
| int_literal : forall s, v = PStr s -> (forall n, ~ int_text s n) -> int_read v (Says ValueError (lit "invalid literal for int() with base 10: " ++ repr v))
| int_nan : v = PFloat S754_nan -> int_read v (Says ValueError (lit "cannot convert float NaN to integer"))
| int_infinite : forall sign, v = PFloat (S754_infinity sign) -> int_read v (Says OverflowError (lit "cannot convert float infinity to integer"))
| int_no_number : forall t, type_called v t -> In t ["NoneType"; "list"; "dict"]%string ->
    int_read v (Says TypeError (lit "int() argument must be a string, a bytes-like object or a number, not '" ++ lit t ++ lit "'")).
(** float(v).  A str of white space is not shown. *)
Inductive float_read (v : pyval) : answer spec_float -> Prop :=
| float_given : forall f, float_of_value v f -> float_read v (Gives f)
| float_blank : forall s, v = PStr s -> Forall space s -> float_read v (Says ValueError (lit "could not convert string to float: "))
| float_literal : forall s, v = PStr s -> ~ Forall space s -> (forall f, ~ float_text s f) -> float_read v (Says ValueError (lit "could not convert string to float: " ++ repr v))
| float_large : forall z, v = PInt z -> (forall f, ~ float_of_value v f) -> float_read v (Says OverflowError (lit "int too large to convert to float"))
| float_no_number : forall t, type_called v t -> In t ["NoneType"; "list"; "dict"]%string ->
    float_read v (Says TypeError (lit "float() argument must be a string or a number, not '" ++ lit t ++ lit "'")).
(** v[k] *)
Inductive subscripted (v : pyval) (k : string) : answer pyval -> Prop :=
| subscript_found : forall d w, v = PDict d -> has d k w -> subscripted v k (Gives w)
| subscript_absent : forall d, v = PDict d -> (forall w, ~ has d k w) -> subscripted v k (Says KeyError (repr (PStr (lit k))))
| subscript_str : forall s, v = PStr s -> subscripted v k (Says TypeError (lit "string indices must be integers"))
| subscript_list : forall l, v = PList l -> subscripted v k (Says TypeError (lit "list indices must be integers or slices, not str"))
| subscript_other : forall t, type_called v t -> In t ["NoneType"; "bool"; "int"; "float"]%string -> subscripted v k (Says TypeError (lit "'" ++ lit t ++ lit "' object is not subscriptable")).
(** for x in v *)
Inductive iterated (v : pyval) : answer (list pyval) -> Prop :=
| iterate_list : forall l, v = PList l -> iterated v (Gives l)
| iterate_str : forall s, v = PStr s -> iterated v (Gives (map (fun c => PStr [c]) s))
| iterate_dict : forall d, v = PDict d -> iterated v (Gives (map (fun p => PStr (fst p)) d))
| iterate_other : forall t, type_called v t -> In t ["NoneType"; "bool"; "int"; "float"]%string -> iterated v (Says TypeError (lit "'" ++ lit t ++ lit "' object is not iterable")).

(** ** Single values *)
Definition a_whole (v : pyval) : test := fun r => exists f, ComplaintsSpec.whole v f /\ reported repr v None PNone (PStr (lit "whole_number")) f r.
Definition number_within (lo hi : Z) (v : pyval) : test := fun r => exists x f, in_domain repr v (PInt lo) (PInt hi) x f /\ reported repr x None PNone (PStr (lit "integer")) f r.
(** Digits, with or without a point between them. *)
Definition a_rate (v : pyval) : test := fun r => exists f, either (digits repr v) (decimal repr PNone v) f /\ reported repr v None PNone (PStr (lit "integer")) f r.
(** A number given as a str is read (it is known that it can be). *)
Definition as_number (v w : pyval) : Prop := (exists s n, v = PStr s /\ int_text s n /\ w = PInt n) \/ (forall s, v <> PStr s) /\ w = v.
(** A rate given as an int (or bool) is written. *)
Definition as_rate (v w : pyval) : Prop :=
  (exists z, v = PInt z /\ w = PStr (int_str z)) \/ v = PBool true /\ w = PStr (lit "True") \/ v = PBool false /\ w = PStr (lit "False") \/
  (forall z, v <> PInt z) /\ (forall b, v <> PBool b) /\ w = v.
(** The entry k, if it is a str, can be read as a number. *)
Definition readable (d : dict) (k : string) : test := fun r =>
  (forall s, ~ has d k (PStr s)) /\ r = None \/ exists s, has d k (PStr s) /\ answers (int_read (PStr s)) no_test r.
(** The entries are those named, in any order. *)
Definition same_names (d : dict) (keys : list string) : test :=
  required (Permutation (map fst d) (map lit keys)) ValueError
    (paragraph [lit "List are not identical."; lit "- List 1:"; repr (PList (map PStr (map fst d))); lit "- List 2:"; repr (PList (map PStr (map lit keys)))]).

(** ** The parts of the arguments *)
Definition index_test (v : pyval) : test := answers (subscripted v "previous_output_index") (fun w => answers (int_read w) no_test).
Definition input_order_test : pyval -> test := object (fun d => first_of
  [ same_names d ["address"; "transaction_id"; "previous_output_index"; "bitcoin_amount"]%string;
    entry d "address" (an_address repr);
    entry d "transaction_id" (a_hex_of repr 32);
    entry d "previous_output_index" (fun v r => exists n, NumSpec.int_value v n /\ a_whole (PInt n) r);
    entry d "bitcoin_amount" (a_positive_amount repr) ]).
Definition output_order_test : pyval -> test := object (fun d => first_of
  [ same_names d ["address"; "bitcoin_amount"]%string;
    entry d "address" (an_address repr);
    entry d "bitcoin_amount" (a_positive_amount repr) ]).
(** The fee and the fee rate, as they are used. *)
Definition with_fees (d : dict) (P : pyval -> pyval -> test) : test := fun r =>
  exists v fee w rate, entry_or_none d "fee" v /\ as_number v fee /\ entry_or_none d "fee_rate" w /\ as_rate w rate /\ P fee rate r.
Definition contains (v x : pyval) : Prop := exists l, v = PList l /\ In x l.
Definition no_conflict (v : pyval) (x y : string) : test :=
  required (~ (contains v (PStr (lit x)) /\ contains v (PStr (lit y)))) ValueError
    (lit "In the input selection approach list, cannot use both '" ++ lit x ++ lit "' and '" ++ lit y ++ lit "' together.").
Definition approaches_test (v : pyval) : test := first_of
  [ a_list repr v;
    required (forall x, contains v x -> exists n, x = PStr n /\ In n approach_names) ValueError [];
    required (contains v (PStr (lit "all")) -> exists x, v = PList [x]) ValueError [];
    no_conflict v "largest_first" "smallest_first";
    no_conflict v "any_address" "one_address_at_a_time";
    no_conflict v "largest_address_first" "smallest_address_first" ].
(** The index of an available input is written in four bytes. *)
Definition fits_test : pyval -> test := object (fun d => entry d "previous_output_index" (fun v r => exists n, NumSpec.int_value v n /\ answers (le_number repr 4 (PInt n)) no_test r)).
(** The approaches (known, or a value that counts as false): one is used, and it is one of three. *)
Inductive one_used (v : pyval) : test :=
| used_one : forall ap, v = PList [PStr (approach_name ap)] -> one_used v None
| used_no_list : forall t, type_called v t -> In t ["NoneType"; "bool"; "int"; "float"]%string -> one_used v (Some (TypeError, lit "object of type '" ++ lit t ++ lit "' has no len()"))
| used_empty : v = PList [] -> one_used v (Some (IndexError, lit "list index out of range"))
| used_empty_str : v = PStr [] -> one_used v (Some (IndexError, lit "string index out of range"))
| used_empty_dict : v = PDict [] -> one_used v (Some (KeyError, repr (PInt 0)))
| used_many : forall x y l, v = PList (x :: y :: l) -> one_used v (Some (NotImplementedError, []))
| used_other : forall n, v = PList [PStr n] -> (forall ap, n <> approach_name ap) -> one_used v (Some (NotImplementedError, lit "Unrecognised input_selection_approach: " ++ n)).

(** attrs are the names of the attributes of a, among them inputs and design. *)
Definition lists_attributes (attrs : list pystr) (a : namespace) : Prop :=
  (In (lit "inputs") attrs <-> ns_inputs a <> None) /\ (In (lit "design") attrs <-> ns_design a <> None).

(** ** All tests *)
Definition order_tests (a : namespace) (d : dict) : list test :=
  let inputs P := fun r => exists v, attribute (ns_inputs a) v /\ P v r in
  [ readable d "fee";
    readable d "max_fee";
    inputs (fun v => answers (iterated v) (every index_test));
    inputs (a_list repr);
    inputs (each input_order_test);
    all_entries d ["change_address"; "max_fee"; "max_spend_percentage"; "outputs"]%string;
    entry d "change_address" (an_address repr);
    entry d "max_fee" (fun v r => exists w, as_number v w /\ a_whole w r);
    entry d "max_spend_percentage" (fun v => answers (float_read v) (fun f => answers (int_read (PFloat f)) (fun n => number_within 0 100 (PInt n))));
    entry d "outputs" (a_list repr);
    entry d "outputs" (each output_order_test);
    with_fees d (fun fee rate => required (~ (~ counts_as_false fee /\ ~ counts_as_false rate) /\ ~ (fee = PNone /\ rate = PNone)) ValueError
      (lit "Design must contain exactly one of these keys:" ++ [10] ++ lit "- fee (integer)" ++ [10] ++ lit "- fee_rate (integer or decimal)"));
    with_fees d (fun fee _ => unless_false a_whole fee);
    with_fees d (fun _ rate => unless_false a_rate rate);
    (fun r => exists v, entry_or_none d "input_selection_approaches" v /\ unless_false approaches_test v r);
    (fun r => exists v, attribute (ns_allow_duplicate_output_address a) v /\ if_present (a_bool repr) v r);
    (fun r => exists v, attribute (ns_change_output_index a) v /\ if_present a_whole v r);
    with_fees d (fun fee rate r => ~ counts_as_false fee /\ r = None \/ counts_as_false fee /\ answers (float_read rate) no_test r);
    inputs (each fits_test);
    (fun r => exists v, (has d "input_selection_approaches" v \/ (forall w, ~ has d "input_selection_approaches" w) /\ v = PList [PStr (lit "largest_first")]) /\ one_used v r) ].
(** The attributes of the argument object, then the design, then the rest. *)
Definition argument_test (attrs : list pystr) (a : namespace) : test := first_of
  [ all_entries (map (fun k => (k, PNone)) attrs) ["inputs"; "design"]%string;
    (fun r => exists v, attribute (ns_design a) v /\ object (fun d => first_of (order_tests a d)) v r) ].

End WithEnv.
