(** Several calls of create_transaction with the same argument object, and what a call leaves in it. *)
From Coq Require Import String Floats.SpecFloat Permutation.
From Verif Require Import PyBase Env Spec EnvOk TxInput TxOutput Tx Create FloatSpec NumSpec CreateSpec RefuseSpec.
Open Scope Z_scope.

(** ** What an entry of a dictionary becomes *)

(** The entries of d and d' agree except possibly at the keys ks. *)
Definition only_changes (ks : list string) (d d' : dict) : Prop :=
  forall k, ~ In k (map lit ks) -> dict_find k d' = dict_find k d.

(** s is the decimal text of z: digits without a superfluous leading zero, after a minus sign if z is negative. *)
Definition decimal_int (z : Z) (s : pystr) : Prop :=
  exists ds, digits_in 10 ds /\ (ds = [0] \/ ds <> [] /\ no_lead0 ds) /\ Z.abs z = val 10 ds /\
    s = (if z <? 0 then lit "-" else []) ++ text10 ds.

Section WithEnv.
Context {E : Env}.

(** The checks made before any amount is converted: those of [argument_checks] without the last two groups. *)
Definition form_checks (a : namespace) : list check :=
  match ns_inputs a, ns_design a with
  | Some vin, Some (PDict d) =>
      [ number_entry "fee" d; number_entry "max_fee" d ] ++
      match vin with
      | PList l =>
          flat_map index_checks l ++ flat_map input_checks l ++ design_checks d ++
          match entry "outputs" d with Some (PList lo) => flat_map output_checks lo | _ => [] end ++
          fee_checks (entry "fee" d) (entry "fee_rate" d) ++
          approach_checks (entry "input_selection_approaches" d) ++
          option_checks a ++
          rate_checks (entry "fee" d) (entry "fee_rate" d)
      | _ => [(False, TypeError)]
      end
  | Some _, Some _ => [(False, AttributeError)]
  | _, _ => [(False, ValueError)]
  end.
(** The last two groups. *)
Definition late_checks (a : namespace) : list check :=
  match ns_inputs a, ns_design a with
  | Some (PList l), Some (PDict d) => map fits_4_bytes l ++ chosen_checks (entry "input_selection_approaches" d)
  | _, _ => []
  end.

(** The request names no input and no output. *)
Definition empty_request (a : namespace) : Prop :=
  ns_inputs a = Some (PList []) /\ exists d, ns_design a = Some (PDict d) /\ entry "outputs" d = Some (PList []).

(** A str is replaced by the int it denotes. *)
Definition number_left (o o' : option pyval) : Prop :=
  match o with
  | Some (PStr s) => exists n, int_text s n /\ o' = Some (PInt n)
  | _ => o' = o
  end.
(** An int is replaced by its text; so is a bool, which is an int. *)
Definition rate_left (o o' : option pyval) : Prop :=
  match o with
  | Some (PInt z) => exists s, decimal_int z s /\ o' = Some (PStr s)
  | Some (PBool b) => o' = Some (PStr (if b then lit "True" else lit "False"))
  | _ => o' = o
  end.

(** The index of an input is replaced by the int it denotes. *)
Definition index_left (d d' : dict) : Prop :=
  map fst d' = map fst d /\ only_changes ["previous_output_index"]%string d d' /\
  exists w n, entry "previous_output_index" d = Some w /\ int_value w n /\ entry "previous_output_index" d' = Some (PInt n).
(** The amount of an output is replaced by the text of the same amount with exactly eight decimals. *)
Definition amount_left (d d' : dict) : Prop :=
  map fst d' = map fst d /\ only_changes ["bitcoin_amount"]%string d d' /\
  exists s n t x y, entry "bitcoin_amount" d = Some (PStr s) /\ amount_arg s n /\
    entry "bitcoin_amount" d' = Some (PStr t) /\ amount_of t n /\ t = x ++ lit "." ++ y /\ length y = 8%nat /\ ~ In 46 y.
(** A new last entry: the amount in satoshi. *)
Definition satoshi_added (d d' : dict) : Prop :=
  exists s n, entry "bitcoin_amount" d = Some (PStr s) /\ amount_of s n /\ d' = d ++ [(lit "satoshi_amount", PInt n)].

(** After a call that got as far as converting the amounts. *)
Definition input_done (v v' : pyval) : Prop :=
  exists d d1 d', v = PDict d /\ v' = PDict d' /\ index_left d d1 /\ satoshi_added d1 d'.
Definition output_done (v v' : pyval) : Prop :=
  exists d d1 d', v = PDict d /\ v' = PDict d' /\ amount_left d d1 /\ satoshi_added d1 d'.
(** After a call that did not. *)
Definition input_tried (v v' : pyval) : Prop :=
  v' = v \/ exists d d', v = PDict d /\ v' = PDict d' /\ index_left d d'.
Definition output_tried (v v' : pyval) : Prop :=
  v' = v \/ exists d d', v = PDict d /\ v' = PDict d' /\ amount_left d d'.

(** The design d became d': the keys are the same in the same order, and only these entries may differ. *)
Definition design_keys (d d' : dict) : Prop :=
  map fst d' = map fst d /\ only_changes ["fee"; "fee_rate"; "max_fee"; "outputs"]%string d d'.
Definition design_done (d d' : dict) : Prop :=
  design_keys d d' /\
  number_left (entry "fee" d) (entry "fee" d') /\
  rate_left (entry "fee_rate" d) (entry "fee_rate" d') /\
  number_left (entry "max_fee" d) (entry "max_fee" d') /\
  exists l l', entry "outputs" d = Some (PList l) /\ entry "outputs" d' = Some (PList l') /\ Forall2 output_done l l'.
Definition same_or (R : option pyval -> option pyval -> Prop) (o o' : option pyval) : Prop := o' = o \/ R o o'.
Definition outputs_tried (o o' : option pyval) : Prop :=
  exists l l', o = Some (PList l) /\ o' = Some (PList l') /\ Forall2 output_tried l l'.
Definition design_tried (d d' : dict) : Prop :=
  design_keys d d' /\
  same_or number_left (entry "fee" d) (entry "fee" d') /\
  same_or rate_left (entry "fee_rate" d) (entry "fee_rate" d') /\
  same_or number_left (entry "max_fee" d) (entry "max_fee" d') /\
  same_or outputs_tried (entry "outputs" d) (entry "outputs" d').

Definition options_kept (a a' : namespace) : Prop :=
  ns_allow_duplicate_output_address a' = ns_allow_duplicate_output_address a /\
  ns_change_output_index a' = ns_change_output_index a.
Definition arguments_done (a a' : namespace) : Prop :=
  options_kept a a' /\
  exists l l' d d', ns_inputs a = Some (PList l) /\ ns_inputs a' = Some (PList l') /\ Forall2 input_done l l' /\
    ns_design a = Some (PDict d) /\ ns_design a' = Some (PDict d') /\ design_done d d'.
Definition arguments_tried (a a' : namespace) : Prop :=
  options_kept a a' /\
  (ns_inputs a' = ns_inputs a \/
   exists l l', ns_inputs a = Some (PList l) /\ ns_inputs a' = Some (PList l') /\ Forall2 input_tried l l') /\
  (ns_design a' = ns_design a \/
   exists d d', ns_design a = Some (PDict d) /\ ns_design a' = Some (PDict d') /\ design_tried d d').

End WithEnv.
