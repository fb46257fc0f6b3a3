(** The advice given when more would be spent than the design permits. *)
From Coq Require Import String Floats.SpecFloat.
From Verif Require Import PyBase Env Spec EnvOk TxInput TxOutput Tx Create Report TxSpec FloatSpec NumSpec CreateSpec ReportSpec.
Open Scope Z_scope.

Section WithEnv.
Context {E : Env}.

(** q would be answered by spending sel and making outs, with the fee f and the change chg, if the design permitted to spend more than limit. *)
Definition overspent (q : order) (sel : list iarg) (outs : list oarg) (f chg limit : Z) : Prop :=
  ready q /\ 0 < in_value (q_inputs q) /\ fee_due q f /\ 0 <= f <= q_max_fee q /\ out_value (q_outputs q) + f <= in_value (q_inputs q) /\
  (exists s, sorted_for (q_approach q) (q_inputs q) s /\ chosen (q_approach q) (out_value (q_outputs q) + f) s sel) /\
  surplus_paid (q_change_address q) (q_change_index q) (q_outputs q) (in_value sel - (out_value (q_outputs q) + f)) outs chg /\
  spend_limit (q_max_spend q) (in_value (q_inputs q)) limit /\ 0 <= limit < in_value sel - chg.
(** The argument object a with the max_spend_percentage of its design replaced by v. *)
Definition with_percentage (a : namespace) (v : pyval) : namespace :=
  match ns_design a with
  | Some (PDict d) =>
      mk_ns (ns_inputs a) (Some (PDict (dict_set (lit "max_spend_percentage") v d))) (ns_allow_duplicate_output_address a) (ns_change_output_index a)
  | _ => a
  end.
(** The text of the refusal, whatever is logged before it. *)
Definition refused_with (r : logged tx) (e : exn) (text : pystr) : Prop := snd r = Raised e (Some text).
End WithEnv.
