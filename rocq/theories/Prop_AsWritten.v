(** Property theorems: generated by tools/genprops.py from C_AsWritten.v, which holds the proofs. *)
From Coq Require Import String Floats.SpecFloat Lia.
From Verif Require Import PyBase Env PyNum Validate Basic Spec EnvOk TxInput TxOutput Tx Create Cli CliSpec TxSpec SignSpec CreateSpec JsonSpec VerifySpec AsWrittenSpec Demo DemoTx DemoCreate.
Open Scope Z_scope.
From Verif Require C_AsWritten.

(** C96.  What sign does with any transaction whose inputs name some script, or none: with unusable nonces or keys it fails and changes nothing; otherwise it signs the inputs in
    order, each with a key that controls its address, committing to the script that the input names, until the first input that has no nonce, no key, no script or a refused signature. *)
Theorem C96_outcome : forall E : Env,
  CryptoOk E -> forall t ins outs keys rv, written_tx t ins outs ->
  let nonces_fit := rv = None \/ rv = Some [] \/ exists l, rv = Some l /\ NoDup l /\ length l = length keys in
  let keys_fit := Forall (fun k => exists a, controls k a) keys in
  (~ nonces_fit -> sign t keys rv = (Err ValueError, t)) /\
  (~ keys_fit -> exists e, sign t keys rv = (Err e, t)) /\
  (nonces_fit -> keys_fit -> exists r xs', sign t keys rv = (r, set_inputs t xs') /\ signing_as_written keys rv ins outs 0 (tx_inputs t) r xs').
Proof. exact (fun E => C_AsWritten.c96_outcome). Qed.
Print Assumptions C96_outcome.

(** C96.  Every document that from_json accepts is such a transaction. *)
Theorem C96_documents : forall E : Env,
  HashOk E -> ZeroAddressOk E -> UniOk E -> forall s t, from_json s = Ok t -> exists ins outs, written_tx t ins outs.
Proof. exact (fun E => C_AsWritten.c96_documents). Qed.
Print Assumptions C96_documents.

(** C96.  Whenever signing succeeds, every signature in the result verifies: no document makes the program produce a signature that it then rejects. *)
Theorem C96_verifies : forall E : Env,
  CryptoOk E -> forall t ins outs keys rv t', written_tx t ins outs -> sign t keys rv = (Ok tt, t') ->
  verify t' = Ok 0 /\ exists xs', t' = set_inputs t xs' /\ signing_as_written keys rv ins outs 0 (tx_inputs t) (Ok tt) xs'.
Proof. exact (fun E => C_AsWritten.c96_verifies). Qed.
Print Assumptions C96_verifies.

(** C96.  With deterministic nonces and valid keys: signing succeeds if there is a key and a script for every input.  Otherwise the inputs before the first one that lacks either are
    signed and the later ones left as they were; if that one lacks a key the failure is a ValueError and it is left as it was, and if it has a key but no script the failure is a
    TypeError and it has been given the public key. *)
Theorem C96_first_obstacle : forall E : Env,
  CryptoOk E -> SignTotal E -> forall t ins outs keys, written_tx t ins outs -> Forall (fun k => exists a, controls k a) keys ->
  let known x := exists k, In k keys /\ controls k (ti_address x) in
  (Forall (fun x => known x /\ ti_script_pub_key x <> None) (tx_inputs t) ->
     exists xs', sign t keys None = (Ok tt, set_inputs t xs') /\ signing_as_written keys None ins outs 0 (tx_inputs t) (Ok tt) xs') /\
  (forall pre x post, tx_inputs t = pre ++ x :: post -> Forall (fun x => known x /\ ti_script_pub_key x <> None) pre ->
     (~ known x -> exists pre', sign t keys None = (Err ValueError, set_inputs t (pre' ++ x :: post)) /\ signing_as_written keys None ins outs 0 pre (Ok tt) pre') /\
     (known x -> ti_script_pub_key x = None -> exists pre' k pub, In k keys /\ key_pub k pub /\ is_address (hash160 pub) (ti_address x) /\
        sign t keys None = (Err TypeError, set_inputs t (pre' ++ with_public_key x pub :: post)) /\ signing_as_written keys None ins outs 0 pre (Ok tt) pre')).
Proof. exact (fun E => C_AsWritten.c96_first_obstacle). Qed.
Print Assumptions C96_first_obstacle.

(** C96.  create_signed_transaction_json, for any text and any keys: it prints one document and succeeds exactly if the text is a document that from_json accepts, all keys are valid,
    every input has a key and a script, and the inputs are worth at most 21 million bitcoin; what it prints then carries signatures that all verify.  In every other case it prints
    nothing and fails: there is no input for which it prints a document and then reports an invalid signature. *)
Theorem C96_task : forall E : Env,
  CryptoOk E -> SignTotal E -> UniOk E -> forall s keys,
  let signable t := Forall (fun k => exists a, controls k a) keys /\
    Forall (fun x => (exists k, In k keys /\ controls k (ti_address x)) /\ ti_script_pub_key x <> None) (tx_inputs t) /\ Zsum (map ti_sat (tx_inputs t)) <= 2100000000000000 in
  (forall t, from_json s = Ok t -> signable t -> exists ins outs xs' j, written_tx t ins outs /\ task_create_signed_transaction_json (Some s) keys = ([j], Ok tt) /\
     signing_as_written keys None ins outs 0 (tx_inputs t) (Ok tt) xs' /\ to_json (set_inputs t xs') = Ok j /\ verify (set_inputs t xs') = Ok 0) /\
  (forall t, from_json s = Ok t -> ~ signable t -> exists e, task_create_signed_transaction_json (Some s) keys = ([], Err e)) /\
  (forall e, from_json s = Err e -> task_create_signed_transaction_json (Some s) keys = ([], Err e)).
Proof. exact (fun E => C_AsWritten.c96_task). Qed.
Print Assumptions C96_task.

(** C96, refuted: that an input is only signed if the script it names pays its address.  If signing a transaction succeeds, it succeeds as well with any other script in place of
    all the scripts, and the signatures verify. *)
Theorem C96_script_of_address_refuted : forall E : Env,
  CryptoOk E -> SignTotal E -> forall t ins outs keys spk, written_tx t ins outs -> bytes spk -> len spk <= 252 ->
  fst (sign t keys None) = Ok tt ->
  let t2 := set_inputs t (map (with_script_pub_key spk) (tx_inputs t)) in
  exists xs', sign t2 keys None = (Ok tt, set_inputs t2 xs') /\ verify (set_inputs t2 xs') = Ok 0 /\
    signing_as_written keys None ins outs 0 (map (with_script_pub_key spk) (tx_inputs t)) (Ok tt) xs'.
Proof. exact (fun E => C_AsWritten.c96_script_of_address_refuted). Qed.
Print Assumptions C96_script_of_address_refuted.

(** The created demo transaction can be signed, also with one and the same foreign script in both inputs. *)
Example ex96_met : forall E : Env,
  exists ins outs, written_tx created ins outs /\ fst (@sign demo_env created [key1; key2] None) = Ok tt.
Proof. exact (fun E => C_AsWritten.ex96_met). Qed.

Example ex96_foreign : forall E : Env,
  exists ins outs xs', written_tx created ins outs /\
  @signing_as_written demo_env [key1; key2] None ins outs 0 (map (with_script_pub_key [81]) (tx_inputs created)) (Ok tt) xs' /\ length xs' = 2%nat.
Proof. exact (fun E => C_AsWritten.ex96_foreign). Qed.

(** Without scripts it cannot be signed. *)
Example ex96_no_script : forall E : Env,
  exists t, @sign demo_env (set_inputs created (map no_script (tx_inputs created))) [key1; key2] None = (Err TypeError, t).
Proof. exact (fun E => C_AsWritten.ex96_no_script). Qed.

