(** Relations between two calls: requests that differ in the order of the available inputs only; sets of keys. *)
From Coq Require Import Permutation.
From Verif Require Import PyBase Env Spec EnvOk TxInput TxOutput Tx Create TxSpec SignSpec CreateSpec.

(** q' is q with the available inputs listed in another order. *)
Definition relisted (q q' : order) : Prop :=
  exists l, Permutation (q_inputs q) l /\
    q' = mk_order l (q_outputs q) (q_fee q) (q_change_address q) (q_max_fee q) (q_max_spend q) (q_approach q)
           (q_allow_duplicates q) (q_change_index q).

(** The two transactions make the same outputs and spend the same amounts in the same order. *)
Definition same_amounts (t t' : tx) : Prop :=
  tx_outputs t' = tx_outputs t /\ map ti_satoshi_amount (tx_inputs t') = map ti_satoshi_amount (tx_inputs t) /\
  tx_change_address t' = tx_change_address t /\ fee t' = fee t /\ change t' = change t.

Section WithEnv.
Context {E : Env}.

(** Each of the keys is usable, and no two of them control the same address. *)
Definition usable (keys : list pystr) : Prop := Forall (fun k => exists a, controls k a) keys.
Definition one_key_each (keys : list pystr) : Prop :=
  forall k k' a, In k keys -> In k' keys -> controls k a -> controls k' a -> k = k'.
(** The keys of the two lists that control the address of an input of t are the same. *)
Definition same_keys_for (t : tx) (keys keys' : list pystr) : Prop :=
  forall x k, In x (tx_inputs t) -> controls k (ti_address x) -> (In k keys <-> In k keys').

End WithEnv.
