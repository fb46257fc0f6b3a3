(** What create_transaction says of a well-formed order that cannot be met (C102): the text that goes with each of the checks of RefuseSpec.order_checks.
    Nothing here refers to the model's functions. *)
From Coq Require Import String Floats.SpecFloat Permutation Sorted Reals.
From Flocq Require Import Core BinarySingleNaN.
From Verif Require Import PyBase Env Spec EnvOk TxInput TxOutput Tx Create TxSpec FloatSpec NumSpec CreateSpec RefuseSpec ReportSpec.
Open Scope Z_scope.

(** A check and what is said when it fails. *)
Definition told_check : Type := (check * (pystr -> Prop))%type.
(** e and t are the class and the text of the exception of the first check that fails. *)
Inductive first_said : list told_check -> exn -> pystr -> Prop :=
| said_here (P : Prop) e (T : pystr -> Prop) l t : ~ P -> T t -> first_said (((P, e), T) :: l) e t
| said_later (P : Prop) e (T : pystr -> Prop) l e' t : P -> first_said l e' t -> first_said (((P, e), T) :: l) e' t.

(** The first element of l with property P. *)
Definition first_where {A : Type} (P : A -> Prop) (l : list A) (x : A) : Prop :=
  exists pre post, l = pre ++ x :: post /\ P x /\ Forall (fun y => ~ P y) pre.

(** Numbers out of range; the texts begin and end with a new line. *)
Definition too_great (most n : Z) : pystr :=
  lines [ []; lit "Input is greater than the maximum value."; lit "- Maximum value: " ++ int_str most; lit "- Input: " ++ int_str n; [] ].
Definition too_small (n : Z) : pystr :=
  lines [ []; lit "Input is less than the minimum value."; lit "- Minimum value: 0"; lit "- Input: " ++ int_str n; [] ].
Definition too_much (n : Z) : pystr := too_great max_money n.
Definition too_many (n : nat) : pystr := too_great 252 (Z.of_nat n).

Section WithEnv.
Context {E : Env}.
Context (repr : pyval -> pystr).

(** The maximum fee as it is written. *)
Definition max_fee_written (a : namespace) (q : order) (mf : pystr) : Prop :=
  exists d v, ns_design a = Some (PDict d) /\ entry "max_fee" d = Some v /\ mf = match v with PInt _ | PStr _ => int_str (q_max_fee q) | _ => repr v end.

(** What there is after the inputs have been selected and the change has been paid: outputs, and the amount that is not change. *)
Definition after_change (q : order) (P : list oarg -> Z -> Prop) : Prop :=
  exists f s sel outs chg, fee_due q f /\ sorted_for (q_approach q) (q_inputs q) s /\ chosen (q_approach q) (target q f) s sel /\
    surplus_paid (q_change_address q) (q_change_index q) (q_outputs q) (surplus q f sel) outs chg /\ P outs (in_value sel - chg).

(** What is said when the checks of order_checks fail, in the same order. *)
Definition order_texts (q : order) (mf : pystr) : list (pystr -> Prop) :=
  let ins := in_value (q_inputs q) in
  let outs := out_value (q_outputs q) in
  let says s (t : pystr) := t = s in
  [ (fun t => exists s n, sorted_for (q_approach q) (q_inputs q) s /\
       first_where (fun n => max_money < n) (map (fun a => in_value (filter (at_address a) s)) (distinct (map ia_address s))) n /\ t = too_much n);
    (fun t => exists n,
       first_where (fun n => max_money < n) (map (fun a => out_value (filter (pays a) (q_outputs q))) (distinct (map oa_address (q_outputs q)))) n /\ t = too_much n);
    (fun t => exists a, first_where (fun a => 1 < length (filter (pays a) (q_outputs q)))%nat (distinct (map oa_address (q_outputs q))) a /\ t = duplicate_text q a);
    says (too_many (length (q_inputs q)));
    says (too_many (length (q_outputs q)));
    says (lit "cannot convert float infinity to integer");
    says (lit "int too large to convert to float");
    (fun t => exists f, fee_due q f /\ t = too_much f);
    (fun t => exists f, fee_due q f /\ t = max_fee_text f mf);
    says (too_much ins);
    says (too_much outs);
    says (shortfall_text "output" (outs - ins));
    (fun t => exists f, fee_due q f /\ t = too_much (outs + f));
    (fun t => exists f, fee_due q f /\ t = shortfall_text "output + fee" (outs + f - ins));
    says (match q_change_index q with
          | PNone => ambiguous_text q
          | PFloat _ => lit "list indices must be integers or slices, not float"
          | _ => index_text repr q
          end);
    (fun t => exists limit, spend_limit (q_max_spend q) ins limit /\ t = if limit <? 0 then too_small limit else too_much limit);
    says (lit "float division by zero");
    (fun t => exists limit, spend_limit (q_max_spend q) ins limit /\
       after_change q (fun _ spent => exists advice, advised q spent advice /\ t = spend_text q limit spent advice));
    says (lit "float division by zero");
    (fun t => after_change q (fun outs _ => t = too_many (length outs))) ].

(** The checks with the texts. *)
Definition order_says (q : order) (mf : pystr) : list told_check := combine (order_checks q) (order_texts q mf).



(** The fee is the value True, which counts as 1 in the checks of the arguments: a1 is the argument object with the number 1 in its place. *)
Definition fee_one (a a1 : namespace) : Prop :=
  exists d d1, ns_design a = Some (PDict d) /\ ns_design a1 = Some (PDict d1) /\ map fst d1 = map fst d /\
    (forall k, k <> lit "fee" -> dict_find k d1 = dict_find k d) /\ entry "fee" d = Some (PBool true) /\ entry "fee" d1 = Some (PInt 1) /\
    ns_inputs a1 = ns_inputs a /\ ns_allow_duplicate_output_address a1 = ns_allow_duplicate_output_address a /\ ns_change_output_index a1 = ns_change_output_index a.
(** Then, after the checks up to the numbers of inputs and outputs, the fee cannot be written as a bitcoin amount. *)
Definition true_fee_says (q : order) : list told_check :=
  firstn 5 (order_says q []) ++
  [ ((False, ValueError), fun t => t = lit "Apart from an optional period ('.'), amount can contain only digits. Amount: 0.0000True") ].

End WithEnv.
