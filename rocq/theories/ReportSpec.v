(** The report that create_transaction logs, in terms of what is asked for and of the answer (CreateSpec.v).  Nothing here refers to the
    model's functions, only to the record types of the argument and of the result of a call. *)
From Coq Require Import String Floats.SpecFloat Permutation Sorted Reals.
From Flocq Require Import Core BinarySingleNaN.
From Verif Require Import PyBase Env Spec EnvOk TxInput TxOutput Tx Create Report TxSpec FloatSpec NumSpec CreateSpec RefuseSpec.
Open Scope Z_scope.

(** ** How things are written *)

Definition number (n : nat) : pystr := int_str (Z.of_nat n).
(** n / 10^k with exactly k decimals; without a dot if k is 0. *)
Definition with_decimals (k : nat) (n : Z) : pystr :=
  int_str (n / 10 ^ Z.of_nat k) ++ match k with O => [] | _ => lit "." ++ skipn 1 (int_str (10 ^ Z.of_nat k + n mod 10 ^ Z.of_nat k)) end.
(** An amount of n satoshi, in bitcoin and in satoshi. *)
Definition btc (n : Z) : pystr := with_decimals 8 n.
Definition money (n : Z) : pystr := btc n ++ lit " bitcoin (" ++ int_str n ++ lit " satoshi)".
(** A finite float to_places to k decimals, ties to even. *)
Definition to_places (k : nat) (x : spec_float) : pystr :=
  (if sign_SF x then lit "-" else []) ++ with_decimals k (ZnearestE (Rabs (float_value x) * IZR (10 ^ Z.of_nat k))).
(** float(n), x / y and 100 * x as Python computes them. *)
Definition float_of (n : Z) : spec_float := SpecFloat.binary_normalize 53 1024 n 0 false.
Definition ratio (n m : Z) : spec_float := SFdiv 53 1024 (float_of n) (float_of m).
Definition percent (n m : Z) : spec_float := SFmul 53 1024 (ratio n m) (float_of 100).
(** Several lines of one message. *)
Definition lines (l : list pystr) : pystr := match l with [] => [] | x :: r => x ++ flat_map (fun s => 10 :: s) r end.
(** f 0 x0, f 1 x1, ... *)
Definition numbered {A : Type} (f : nat -> A -> pystr) (l : list A) : list pystr :=
  map (fun p => f (fst p) (snd p)) (combine (seq 0 (length l)) l).
(** The different texts of l, in the order in which they appear first. *)
Fixpoint distinct (l : list pystr) : list pystr :=
  match l with [] => [] | a :: r => a :: filter (fun b => negb (str_eqb b a)) (distinct r) end.

(** ** The parts of the report *)

(** An input or output with its amount as a text. *)
Definition input_entry (k : nat) (p : iarg * pystr) : pystr :=
  lines [ lit "Input " ++ number k ++ lit ":"; lit "- address: " ++ ia_address (fst p); lit "- txid: " ++ hex_of (ia_txid (fst p));
          lit "- previous_output_index: " ++ int_str (ia_index (fst p));
          lit "- bitcoin_amount: " ++ snd p ++ lit " (" ++ int_str (ia_value (fst p)) ++ lit " satoshi)" ].
Definition output_entry (k : nat) (p : oarg * pystr) : pystr :=
  lines [ lit "Output " ++ number k ++ lit ":"; lit "- address: " ++ oa_address (fst p);
          lit "- bitcoin_amount: " ++ snd p ++ lit " (" ++ int_str (oa_value (fst p)) ++ lit " satoshi)" ].
Definition plural (n : nat) : pystr := if Nat.leb n 1 then [] else lit "s".

Section WithEnv.
Context {E : Env}.
(** repr(), the Python built-in. *)
Context (repr : pyval -> pystr).

Definition approaches_text (ap : approach) : pystr := repr (PList [PStr (approach_name ap)]).

(** What was supplied (ta, tb: the texts of the amounts), and the same after sorting (s: the sorted inputs). *)
Definition inputs_part (q : order) (ta tb : list pystr) (s : list iarg) : list pystr :=
  [lit "Report supplied data for inputs and outputs."] ++
  numbered input_entry (combine (q_inputs q) ta) ++ numbered output_entry (combine (q_outputs q) tb) ++
  [ lit "Number of inputs: " ++ number (length (q_inputs q)); lit "Number of outputs: " ++ number (length (q_outputs q));
    number (length (q_inputs q)) ++ lit " inputs sorted according to the input selection approach: " ++ approaches_text (q_approach q);
    lit "Report inputs (now sorted) and outputs." ] ++
  numbered input_entry (map (fun i => (i, btc (ia_value i))) s) ++ numbered output_entry (map (fun o => (o, btc (oa_value o))) (q_outputs q)) ++
  [ lines (lit "Input addresses and the value that they each contain:" ::
      map (fun a => let l := filter (at_address a) s in
             lit "- " ++ a ++ lit ": " ++ money (in_value l) ++ lit ", " ++ number (length l) ++ lit " input" ++ plural (length l) ++ lit ".")
        (distinct (map ia_address s)));
    lines (lit "Output addresses, with total value to be sent to each:" ::
      map (fun a => lit "- " ++ a ++ lit ": " ++ money (out_value (filter (pays a) (q_outputs q)))) (distinct (map oa_address (q_outputs q)))) ].
(** The fee f; mf is the maximum fee as a text. *)
Definition fee_part (q : order) (f : Z) (mf : pystr) : list pystr :=
  let size := estimated_size (length (q_inputs q)) (length (q_outputs q)) in
  [lit "Estimated transaction size: " ++ int_str size ++ lit " bytes"] ++
  match q_fee q with
  | FixedFee n => [ lit "Fee type: fee"; lit "Fee: " ++ int_str n ++ lit " (satoshi)"; lit "Transaction fee: " ++ int_str f ++ lit " satoshi";
                    lit "Estimated fee rate: " ++ to_places 4 (ratio f size) ++ lit " satoshi/byte" ]
  | FeeRate r => [ lit "Fee type: fee_rate"; lit "Fee rate: " ++ repr (PFloat r) ++ lit " (satoshi/byte)";
                   lit "Transaction fee: " ++ int_str f ++ lit " satoshi" ]
  end ++
  [lit "Maximum fee: " ++ mf ++ lit " satoshi"].
Definition totals_part (q : order) : list pystr :=
  [ lit "Total available input value: " ++ money (in_value (q_inputs q)); lit "Total output value: " ++ money (out_value (q_outputs q)) ].
Definition target (q : order) (f : Z) : Z := out_value (q_outputs q) + f.
Definition target_part (q : order) (f : Z) : list pystr :=
  [ lit "Total available input value is less than or equal to total output value."; lit "Total output + fee value: " ++ money (target q f) ].
Definition selection_part (q : order) (f : Z) (sel : list iarg) : list pystr :=
  (if in_value (q_inputs q) =? target q f then
     [ lit "Total available input value exactly matches total output + fee value."; lit "Selected inputs: 0" ]
   else
     [ lines [ lit "Total available input value is greater than total output + fee value."; lit "- Surplus value: " ++ money (in_value (q_inputs q) - target q f) ];
       lit "Selecting inputs according to input selection approaches " ++ approaches_text (q_approach q) ++
         lit " until [total selected input value] exceeds [total output + fee value].";
       lit "Selected inputs: " ++ number (length sel) ]) ++
  [ lit "Total selected input value: " ++ money (in_value sel) ].
(** The surplus is announced ... *)
Definition surplus (q : order) (f : Z) (sel : list iarg) : Z := in_value sel - target q f.
Definition surplus_part (q : order) (f : Z) (sel : list iarg) : list pystr :=
  if in_value sel =? target q f then [lit "Total selected input value exactly matches total output + fee value."]
  else [ lines [ lit "Total selected input value is greater than total output + fee value."; lit "- Surplus value: " ++ money (surplus q f sel);
                 lit "- This extra value will be sent to the change address."; lit "- Change address: " ++ q_change_address q ] ].
(** ... and paid: outs are the outputs afterwards, chg the amount of the one that received it. *)
Definition change_part (q : order) (f : Z) (sel : list iarg) (outs : list oarg) (chg : Z) : list pystr :=
  (if in_value sel =? target q f then []
   else
     match length (filter (pays (q_change_address q)) (q_outputs q)) with
     | O => [ lit "New output created to send change to change address."; lit "New number of outputs: " ++ number (length outs) ]
     | S O => [ lines [ lit "Change address found within outputs."; lit "- Old change amount: " ++ money (chg - surplus q f sel) ] ]
     | n => [ lines [ number n ++ lit " outputs send to the same address. Out of this group, output " ++
                        match q_change_index q with PInt z => int_str z | v => repr v end ++ lit " has been selected to receive change.";
                      lit "- Old change amount: " ++ money (chg - surplus q f sel) ] ]
     end ++
     [ lit "New total output value: " ++ money (out_value outs); lit "New total output + fee value: " ++ money (out_value outs + f) ]) ++
  [lit "Change amount: " ++ money chg].
(** spent: what is not change. *)
Definition spend_part (q : order) (limit spent : Z) : list pystr :=
  [ lines [ lit "Maximum percentage of input value (prior to fee subtraction) that can be spent: " ++ to_places 2 (q_max_spend q) ++ lit "%";
            lit "- Note: ""spend"" == send bitcoin to any address that is not the change address." ];
    lit "Maximum spend amount: " ++ money limit; lit "Spend amount: " ++ money spent;
    lit "The spend amount is " ++ to_places 2 (percent spent (in_value (q_inputs q))) ++ lit "% of the available input value." ].
Definition closing_part (limit spent : Z) : list pystr :=
  [ lit "The spend amount is " ++ to_places 2 (percent spent limit) ++ lit "% of the maximum permitted spend amount."; lit "Transaction created." ].

(** ** What precedes *)

(** The texts of the amounts of the inputs, as supplied; those of the outputs, completed to exactly eight decimals; the maximum fee. *)
Definition amount_entry (v : pyval) (s : pystr) : Prop := exists d, v = PDict d /\ entry "bitcoin_amount" d = Some (PStr s).
Definition completed (s t : pystr) : Prop :=
  exists x y, (s = x ++ lit "." ++ y \/ (s = x /\ y = [])) /\ ~ In 46 x /\ ~ In 46 y /\ (length y <= 8)%nat /\
    t = x ++ lit "." ++ y ++ repeat 48 (8 - length y).
Definition texts (a : namespace) (q : order) (ta tb : list pystr) (mf : pystr) : Prop :=
  exists l d lo sb v, ns_inputs a = Some (PList l) /\ ns_design a = Some (PDict d) /\ entry "outputs" d = Some (PList lo) /\
    Forall2 amount_entry l ta /\ Forall2 amount_entry lo sb /\ Forall2 completed sb tb /\
    entry "max_fee" d = Some v /\ mf = match v with PInt _ | PStr _ => int_str (q_max_fee q) | _ => repr v end.
(** The approaches are logged if the design names any. *)
Definition validation_part (a : namespace) (q : order) : list pystr :=
  match ns_design a with
  | Some (PDict d) => match entry "input_selection_approaches" d with Some _ => [approaches_text (q_approach q)] | None => [] end
  | _ => []
  end ++ [lit "All arguments validated. No problems found."].

(** The report up to the point where each check is made. *)
Definition until_duplicates (a : namespace) (q : order) (ta tb : list pystr) (s : list iarg) : list pystr :=
  validation_part a q ++ inputs_part q ta tb s.
Definition until_max_fee a q ta tb s f mf : list pystr := until_duplicates a q ta tb s ++ fee_part q f mf.
Definition until_outputs_covered a q ta tb s f mf : list pystr := until_max_fee a q ta tb s f mf ++ totals_part q.
Definition until_fee_covered a q ta tb s f mf : list pystr := until_outputs_covered a q ta tb s f mf ++ target_part q f.
Definition until_change a q ta tb s f mf sel : list pystr :=
  until_fee_covered a q ta tb s f mf ++ selection_part q f sel ++ surplus_part q f sel.
Definition until_spent a q ta tb s f mf sel outs chg limit : list pystr :=
  until_change a q ta tb s f mf sel ++ change_part q f sel outs chg ++ spend_part q limit (in_value sel - chg).
Definition whole_report a q ta tb s f mf sel outs chg limit : list pystr :=
  until_spent a q ta tb s f mf sel outs chg limit ++ closing_part limit (in_value sel - chg).

(** ** The texts of the refusals *)
Definition duplicate_text (q : order) (a : pystr) : pystr :=
  lit "Multiple outputs (" ++ number (length (filter (pays a) (q_outputs q))) ++ lit ") send to this address: " ++ a.
Definition max_fee_text (f : Z) (mf : pystr) : pystr :=
  lit "The fee (" ++ int_str f ++ lit " satoshi) is greater than the specified maximum fee (" ++ mf ++ lit " satoshi).".
Definition shortfall_text (what : string) (missing : Z) : pystr :=
  lines [ lit "Total available input value is less than total " ++ lit what ++ lit " value."; lit "- Shortfall: " ++ money missing ].
Definition ambiguous_text (q : order) : pystr :=
  lit "Multiple outputs (" ++ number (length (filter (pays (q_change_address q)) (q_outputs q))) ++ lit ") send to the change address: " ++ q_change_address q.
Definition index_text (q : order) : pystr :=
  lit "change_output_index (" ++ match q_change_index q with PInt z => int_str z | v => repr v end ++ lit ") must be less than the number of change outputs (" ++
  number (length (filter (pays (q_change_address q)) (q_outputs q))) ++ lit ").".
Definition spend_text (q : order) (limit spent advice : Z) : pystr :=
  lit "Spend amount (" ++ btc spent ++ lit " bitcoin) is greater than the maximum permitted spend amount (" ++ btc limit ++
  lit " bitcoin). To spend this amount, you will need to increase the --max-spend-percentage value from " ++ to_places 0 (q_max_spend q) ++ lit " to " ++
  int_str advice ++ lit ".".
(** The advice: one more than the percentage that is spent, without its decimals. *)
Definition advised (q : order) (spent advice : Z) : Prop := truncates (percent spent (in_value (q_inputs q))) (advice - 1).

(** ** Refusals of the design: the checks that come first, and the texts *)
Definition checks_before_fees (l : list pyval) (d : dict) (lo : list pyval) : list check :=
  [ number_entry "fee" d; number_entry "max_fee" d ] ++ flat_map index_checks l ++ flat_map input_checks l ++ design_checks d ++ flat_map output_checks lo.
Definition fee_choice_text : pystr :=
  lines (map lit ["Design must contain exactly one of these keys:"; "- fee (integer)"; "- fee_rate (integer or decimal)"]%string).
(** The pairs of approaches that exclude each other. *)
Definition conflicting : list (string * string) :=
  [("largest_first", "smallest_first"); ("any_address", "one_address_at_a_time"); ("largest_address_first", "smallest_address_first")]%string.
Definition conflict_text (x y : string) : pystr :=
  lit "In the input selection approach list, cannot use both '" ++ lit x ++ lit "' and '" ++ lit y ++ lit "' together.".

End WithEnv.
