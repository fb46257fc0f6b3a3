(** Which error create_transaction raises: the checks in the order in which they are made, each with the exception raised
    when it fails.  Nothing here refers to the model's functions, only to the record type of the argument object. *)
From Coq Require Import String Floats.SpecFloat Permutation Reals.
From Flocq Require Import Core BinarySingleNaN.
From Verif Require Import PyBase Env Spec EnvOk TxInput TxOutput Tx Create TxSpec FloatSpec NumSpec ValidSpec CreateSpec.
Open Scope Z_scope.

(** A check: what must hold, and the exception raised if it does not. *)
Definition check : Type := (Prop * exn)%type.
(** e is the exception of the first check that fails. *)
Inductive first_problem : list check -> exn -> Prop :=
| fails_here (P : Prop) e l : ~ P -> first_problem ((P, e) :: l) e
| fails_later (P : Prop) e l e' : P -> first_problem l e' -> first_problem ((P, e) :: l) e'.
Definition all_pass (l : list check) : Prop := Forall (fun c => fst c) l.

Definition entry (k : string) (d : dict) : option pyval := dict_find (lit k) d.

(** The entry is a str with property P; otherwise ValueError if it is a str, TypeError if not. *)
Definition text_entry (P : pystr -> Prop) (o : option pyval) : check :=
  (exists s, o = Some (PStr s) /\ P s, match o with Some (PStr _) => ValueError | _ => TypeError end).

Section WithEnv.
Context {E : Env}.

(** int() of the entry previous_output_index. *)
Definition index_checks (v : pyval) : list check :=
  match v with
  | PDict d =>
      match entry "previous_output_index" d with
      | None => [(False, KeyError)]
      | Some w => [(exists n, int_value w n,
                    match w with
                    | PStr _ | PFloat S754_nan => ValueError
                    | PFloat (S754_infinity _) => OverflowError
                    | _ => TypeError
                    end)]
      end
  | _ => [(False, TypeError)]
  end.

(** An available input. *)
Definition input_checks (v : pyval) : list check :=
  match v with
  | PDict d =>
      [ (Permutation (map fst d) (map lit ["address"; "transaction_id"; "previous_output_index"; "bitcoin_amount"]%string), ValueError);
        text_entry address (entry "address" d);
        text_entry (fun s => exists b, s = hex_of b /\ bytes b /\ length b = 32%nat) (entry "transaction_id" d);
        (exists w n, entry "previous_output_index" d = Some w /\ int_value w n /\ 0 <= n, ValueError);
        text_entry (fun s => exists n, amount_arg s n) (entry "bitcoin_amount" d) ]
  | _ => []
  end.

(** A desired output. *)
Definition output_checks (v : pyval) : list check :=
  match v with
  | PDict d =>
      [ (Permutation (map fst d) (map lit ["address"; "bitcoin_amount"]%string), ValueError);
        text_entry address (entry "address" d);
        text_entry (fun s => exists n, amount_arg s n) (entry "bitcoin_amount" d) ]
  | _ => [(False, AttributeError)]
  end.

(** A whole number as an int, or as a str of one. *)
Definition whole_error (o : option pyval) : exn :=
  match o with Some (PStr _) | Some (PInt _) => ValueError | _ => TypeError end.
Definition percentage (d : dict) (f : spec_float) : Prop :=
  exists v, entry "max_spend_percentage" d = Some v /\ float_of_value v f.
Definition design_checks (d : dict) : list check :=
  [ (forall k, In k (map lit ["change_address"; "max_fee"; "max_spend_percentage"; "outputs"]%string) -> In k (map fst d), ValueError);
    text_entry address (entry "change_address" d);
    (exists v z, entry "max_fee" d = Some v /\ whole_arg v z, whole_error (entry "max_fee" d));
    (exists f, percentage d f,
     match entry "max_spend_percentage" d with Some (PStr _) => ValueError | Some (PInt _) => OverflowError | _ => TypeError end);
    (~ percentage d S754_nan, ValueError);
    ((forall b, ~ percentage d (S754_infinity b)), OverflowError);
    (exists f n, percentage d f /\ truncates f n /\ 0 <= n <= 100, ValueError);
    (exists l, entry "outputs" d = Some (PList l), TypeError) ].

(** Fee and fee rate. *)
Definition absent (o : option pyval) : Prop := o = None \/ o = Some PNone.
(** Digits (of any script, decimal or not), or such digits on both sides of a dot; or an int that is not negative. *)
Definition rate_form (o : option pyval) : Prop :=
  (exists s, o = Some (PStr s) /\
     (Forall digit_char s \/ exists a b, s = a ++ [46] ++ b /\ a <> [] /\ b <> [] /\ Forall digit_char a /\ Forall digit_char b)) \/
  (exists z, o = Some (PInt z) /\ 0 <= z).
Definition fee_checks (fee rate : option pyval) : list check :=
  [ (no_fee fee \/ no_rate rate, ValueError);
    (~ (absent fee /\ absent rate), ValueError);
    (no_fee fee \/ (exists v z, fee = Some v /\ whole_arg v z), whole_error fee);
    (no_rate rate \/ rate_form rate, match rate with Some (PStr _) | Some (PInt _) | Some (PBool _) => ValueError | _ => TypeError end) ].
(** If there is no fee, the rate must be readable as a number. *)
Definition rate_checks (fee rate : option pyval) : list check :=
  [ (no_fee fee -> exists v r, rate = Some v /\ rate_arg v r, match rate with Some (PStr _) => ValueError | _ => TypeError end) ].

(** Selection approaches: known, and not contradictory. *)
Definition approach_names : list pystr :=
  map lit ["all"; "largest_first"; "smallest_first"; "any_address"; "one_address_at_a_time"; "largest_address_first"; "smallest_address_first"]%string.
Definition names (k : string) (o : option pyval) : Prop := exists l, o = Some (PList l) /\ In (PStr (lit k)) l.
Definition approach_checks (o : option pyval) : list check :=
  [ ((forall v, o = Some v -> ~ counts_as_false v -> exists l, v = PList l), TypeError);
    ((forall l v, o = Some (PList l) -> In v l -> exists n, v = PStr n /\ In n approach_names), ValueError);
    ((forall l, o = Some (PList l) -> names "all" o -> length l = 1%nat), ValueError);
    (~ (names "largest_first" o /\ names "smallest_first" o), ValueError);
    (~ (names "any_address" o /\ names "one_address_at_a_time" o), ValueError);
    (~ (names "largest_address_first" o /\ names "smallest_address_first" o), ValueError) ].
(** Only one approach may be given, and only three are implemented. *)
Definition chosen_checks (o : option pyval) : list check :=
  [ (exists ap, approach_arg o ap,
     match o with
     | Some (PList []) | Some (PStr _) => IndexError
     | Some (PList _) => NotImplementedError
     | Some (PDict _) => KeyError
     | _ => TypeError
     end) ].

Definition option_checks (a : namespace) : list check :=
  [ (exists b, option_arg (ns_allow_duplicate_output_address a) b, TypeError);
    (exists i, index_arg (ns_change_output_index a) i,
     match ns_change_output_index a with Some (PInt _) => ValueError | _ => TypeError end) ].

Definition number_entry (k : string) (d : dict) : check := (forall s, entry k d = Some (PStr s) -> exists n, int_text s n, ValueError).
Definition fits_4_bytes (v : pyval) : check :=
  (forall d w n, v = PDict d -> entry "previous_output_index" d = Some w -> int_value w n -> n < 2 ^ 32, ValueError).

(** Everything that is checked about the argument object as such, in this order. *)
Definition argument_checks (a : namespace) : list check :=
  match ns_inputs a, ns_design a with
  | Some vin, Some (PDict d) =>
      [ number_entry "fee" d; number_entry "max_fee" d ] ++
      match vin with
      | PList l =>
          flat_map index_checks l ++ flat_map input_checks l ++ design_checks d ++
          match entry "outputs" d with Some (PList lo) => flat_map output_checks lo | _ => [] end ++
          fee_checks (entry "fee" d) (entry "fee_rate" d) ++
          approach_checks (entry "input_selection_approaches" d) ++
          option_checks a ++
          rate_checks (entry "fee" d) (entry "fee_rate" d) ++
          map fits_4_bytes l ++
          chosen_checks (entry "input_selection_approaches" d)
      | _ => [(False, TypeError)]
      end
  | Some _, Some _ => [(False, AttributeError)]
  | _, _ => [(False, ValueError)]
  end.

(** fee given as True, which passes the checks above (a bool is an int) and is refused when it is converted. *)
Definition fee_is_true (a : namespace) : Prop := exists d, ns_design a = Some (PDict d) /\ entry "fee" d = Some (PBool true).

(** The checks on what is asked for, in this order. *)
Definition at_address (a : pystr) (i : iarg) : bool := str_eqb (ia_address i) a.
Definition due (q : order) (P : Z -> Prop) : Prop := forall f, fee_due q f -> P f.
(** What is left once the inputs have been selected. *)
Definition selected (q : order) (P : list iarg -> Z -> Prop) : Prop :=
  forall f s sel, fee_due q f -> sorted_for (q_approach q) (q_inputs q) s ->
    chosen (q_approach q) (out_value (q_outputs q) + f) s sel -> P sel (in_value sel - (out_value (q_outputs q) + f)).
Definition changed (q : order) (P : list oarg -> Z -> Prop) : Prop :=
  selected q (fun sel surplus => forall outs chg,
    surplus_paid (q_change_address q) (q_change_index q) (q_outputs q) surplus outs chg -> P outs (in_value sel - chg)).
Definition order_checks (q : order) : list check :=
  let ins := in_value (q_inputs q) in
  let outs := out_value (q_outputs q) in
  [ ((forall a, in_value (filter (at_address a) (q_inputs q)) <= max_money), ValueError);
    ((forall a, out_value (filter (pays a) (q_outputs q)) <= max_money), ValueError);
    ((q_allow_duplicates q = false -> NoDup (map oa_address (q_outputs q))), DuplicateOutputAddressError);
    ((length (q_inputs q) <= 252)%nat, ValueError);
    ((length (q_outputs q) <= 252)%nat, ValueError);
    (exists f, fee_due q f, OverflowError);
    (due q (fun f => exists g, rounds (IZR f) false g /\ is_finite_SF g = true), OverflowError);
    (due q (fun f => f <= max_money), ValueError);
    (due q (fun f => f <= q_max_fee q), ValueError);
    (ins <= max_money, ValueError);
    (outs <= max_money, ValueError);
    (outs <= ins, OutputValueNotCovered);
    (due q (fun f => outs + f <= max_money), ValueError);
    (due q (fun f => outs + f <= ins), OutputAndFeeValueNotCovered);
    (selected q (fun sel surplus => exists outs' chg,
       surplus_paid (q_change_address q) (q_change_index q) (q_outputs q) surplus outs' chg),
     match q_change_index q with PFloat _ => TypeError | _ => ValueError end);
    (exists limit, spend_limit (q_max_spend q) ins limit /\ 0 <= limit <= max_money, ValueError);
    (0 < ins, ZeroDivisionError);
    (changed q (fun outs' spent => forall limit, spend_limit (q_max_spend q) ins limit -> spent <= limit), ValueError);
    ((forall limit, spend_limit (q_max_spend q) ins limit -> 0 < limit), ZeroDivisionError);
    (changed q (fun outs' spent => (length outs' <= 252)%nat), ValueError) ].

End WithEnv.
