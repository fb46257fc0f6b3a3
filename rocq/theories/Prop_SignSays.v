(** Property theorems: generated by tools/genprops.py from C_SignSays.v, which holds the proofs. *)
From Coq Require Import String Floats.SpecFloat Lia.
From Verif Require Import PyBase Env PyNum Validate Basic Spec EnvOk ValidSpec TxInput TxOutput Tx TxSpec SignSpec JsonSpec Cli Messages MessagesSpec Complaints ComplaintsSpec Answer BasicSays BasicSaysSpec DocSays DocSaysSpec AsWrittenSpec CliSays SignSays SignSaysSpec Demo DemoTx.
Open Scope Z_scope.
From Verif Require C_SignSays.

(** C100.  Without the texts this is the function of C25: the same exceptions, the same object after the call. *)
Theorem C100_same : forall E : Env,
  forall repr t keys rv,
  sign t keys rv = (match fst (sign_says repr t keys rv) with Finished => Ok tt | Own e _ => Err e | Passed e => Err e end, snd (sign_says repr t keys rv)).
Proof. exact (fun E => C_SignSays.c100_same). Qed.
Print Assumptions C100_same.

(** C100.  However signing ends, it ends in one of the described ways. *)
Theorem C100_ends : forall E : Env,
  CryptoOk E -> forall repr t ins outs keys rv, written_tx t ins outs -> signing_ends repr keys rv ins outs (tx_inputs t) (fst (sign_says repr t keys rv)).
Proof. exact (fun E => C_SignSays.c100_ends). Qed.
Print Assumptions C100_ends.

(** C100.  Without nonces, and when ecdsa signs whatever it is given: which of the ways it is depends on the keys, the addresses and the scripts alone. *)
Theorem C100_plain : forall E : Env,
  CryptoOk E -> SignTotal E -> forall repr t ins outs keys w, written_tx t ins outs -> fst (sign_says repr t keys None) = w <-> plain_signing_ends repr keys (tx_inputs t) w.
Proof. exact (fun E => C_SignSays.c100_plain). Qed.
Print Assumptions C100_plain.

(** Examples. *)
Example ex100_no_keys : forall E : Env,
  exists ins outs, written_tx created ins outs /\ fst (@sign_says demo_env plain_repr created [] None) = Own ValueError [] /\
  @plain_signing_ends demo_env plain_repr [] (tx_inputs created) (Own ValueError []).
Proof. exact (fun E => C_SignSays.ex100_no_keys). Qed.

Example ex100_key : forall E : Env,
  exists text, fst (@sign_says demo_env plain_repr created [lit "11"] None) = Own ValueError text /\ text <> [].
Proof. exact (fun E => C_SignSays.ex100_key). Qed.

Example ex100_nonces : forall E : Env,
  fst (@sign_says demo_env plain_repr created [key1; key2] (Some [lit "11"; lit "11"])) = Own ValueError [].
Proof. exact (fun E => C_SignSays.ex100_nonces). Qed.

Example ex100_script : forall E : Env,
  fst (@sign_says demo_env plain_repr (set_inputs created (map no_script (tx_inputs created))) [key1; key2] None) = Own TypeError no_str.
Proof. exact (fun E => C_SignSays.ex100_script). Qed.

Example ex100_signed : forall E : Env,
  fst (@sign_says demo_env plain_repr created [key1; key2] None) = Finished.
Proof. exact (fun E => C_SignSays.ex100_signed). Qed.

