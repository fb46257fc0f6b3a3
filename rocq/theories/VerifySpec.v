(** What the verification tasks say. *)
From Coq Require Import String.
From Verif Require Import PyBase Env Spec EnvOk TxInput TxOutput Tx TxSpec SignSpec.

Section WithEnv.
Context {E : Env}.

(** The signature in input number n of the transaction (ins, outs), by the key in the same input, has been checked against the bytes to be
    signed (the spent output being taken to pay that key), with verdict b. *)
Definition wire_check (ins : list sinput) (outs : list soutput) (n : nat) (i : sinput) (b : bool) : Prop :=
  exists pub der sighex, script_sig_parts (i_script i) der pub /\ length pub = 64%nat /\ der_sig der sighex /\
    ec_verify_digest (hex_of pub) (hex_of (digest (sighash_bytes n (p2pkh (hash160 pub)) ins outs))) sighex = Ok b.

(** bs are the verdicts about all inputs. *)
Definition wire_verdicts (ins : list sinput) (outs : list soutput) (bs : list bool) : Prop :=
  length bs = length ins /\ forall n i b, nth_error ins n = Some i -> nth_error bs n = Some b -> wire_check ins outs n i b.

(** The text d is, up to white space around it and bytes after it, the serialised transaction (ins, outs). *)
Definition transaction_text (strip : pystr -> pystr -> Prop) (d : pystr) (ins : list sinput) (outs : list soutput) : Prop :=
  exists s rest, strip d s /\ bytes rest /\ s = hex_of (wire ins outs ++ rest) /\ tx_ok ins outs /\
    Forall (fun o => o_value o <= 2100000000000000) outs.

(** The verdict in words, for n inputs. *)
Definition verdict (word ending : string) (n : nat) : pystr :=
  lit word ++ (if Nat.leb n 1 then lit " signature" else lit " signatures") ++ lit ending.

End WithEnv.
