(** C51: how long a signed transaction is, compared with the estimate. *)
From Coq Require Import String Floats.SpecFloat Lia.
From Verif Require Import PyBase Env PyNum Validate Basic Spec EnvOk TxInput TxOutput Tx Create TxSpec SignSpec CreateSpec Demo DemoTx.
From Verif Require Import NumLemmas HexProofs Base58Proofs AddrProofs ScriptProofs WireProofs MakeProofs SignProofs BuildProofs DemoProofs DemoTxProofs C_Create C_Sign.
Open Scope Z_scope.

Section WithEnv.
Context {E : Env}.

Lemma wire_len : forall t ins outs, tx_wire t ins outs -> Forall (fun o => len (o_script o) = 25) outs ->
  len (wire ins outs) = estimated_size (length ins) (length outs) + Zsum (map (fun i => len (i_script i) - 138) ins).
Proof.
  intros t ins outs W P. destruct (tx_wire_ok _ _ _ W) as (OI & OO & _). unfold wire, len. rewrite !app_length. rewrite !le_bytes_length. cbn [length].
  assert (LI : Z.of_nat (length (flat_map input_bytes ins)) = 179 * Z.of_nat (length ins) + Zsum (map (fun i => len (i_script i) - 138) ins)).
  { clear - OI. induction OI as [|i l (_ & L & _) _ IH]; auto. cbn [flat_map map length]. rewrite app_length. unfold input_bytes at 1. rewrite !app_length, rev_length, L, le_bytes_length. cbn [length].
    unfold Zsum in *. cbn [fold_right]. unfold len in *. lia. }
  assert (LO : Z.of_nat (length (flat_map output_bytes outs)) = 34 * Z.of_nat (length outs)).
  { clear - P. induction P as [|o l L _ IH]; auto. cbn [flat_map length]. rewrite app_length. unfold output_bytes at 1. rewrite !app_length, le_bytes_length. unfold len in L. cbn [length]. lia. }
  unfold estimated_size. unfold len in *. lia.
Qed.

(** C51.  A signed transaction all of whose outputs are P2PKH (25-byte scripts) is as long as estimated, plus what its
    scriptSigs have more or less than 138 bytes. *)
Lemma c51_size : forall t ins outs, tx_wire t ins outs -> Forall (fun o => len (o_script o) = 25) outs ->
  exists s n e, to_hex_signed_form t = Ok s /\ hex_len (PStr s) = Ok n /\ estimate_transaction_size (length (tx_inputs t)) (length (tx_outputs t)) = Ok e /\
    Z.of_nat n = e + Zsum (map (fun i => len (i_script i) - 138) ins).
Proof.
  intros t ins outs W P. exists (hex_of (wire ins outs)), (length (wire ins outs)), (estimated_size (length ins) (length outs)).
  destruct (tx_wire_ok _ _ _ W) as (OI & OO & L1 & L2). pose proof (wire_bytes ins outs (conj OI (conj OO (conj L1 L2)))) as B.
  split; [apply tx_wire_hex; auto|]. split; [apply hex_len_ok; auto|]. pose proof W as (_ & FI & FO). rewrite (F2_len _ _ _ _ _ FI), (F2_len _ _ _ _ _ FO).
  split; [apply estimate_ok; auto|]. apply (wire_len t); auto.
Qed.

Lemma zsum_bound : forall A (f : A -> Z) b l, Forall (fun x => f x <= b) l -> Zsum (map f l) <= b * Z.of_nat (length l).
Proof. intros A f b l F. induction F as [|x l H _ IH]; [unfold Zsum; cbn; lia|]. unfold Zsum in *. cbn [map fold_right length]. lia. Qed.


(** C51.  After sign the transaction is as long as estimated, plus what its DER signatures have more or less than 70 bytes; so at
    most 2 bytes per input longer than estimated. *)
Lemma c51_signed : CryptoOk E -> forall t ins outs keys rv t', tx_body t ins outs -> Forall (fun o => len (o_script o) = 25) outs ->
  sign t keys rv = (Ok tt, t') ->
  exists s n e ders, to_hex_signed_form t' = Ok s /\ hex_len (PStr s) = Ok n /\ estimate_transaction_size (length (tx_inputs t')) (length (tx_outputs t')) = Ok e /\
    length ders = length (tx_inputs t) /\
    (forall k der, nth_error ders k = Some der -> exists key pub sig, In key keys /\ bytes sig /\ length sig = 64%nat /\ der = der_of sig /\
       signature key (digest (sighash_bytes k (p2pkh (hash160 pub)) ins outs)) (nonce rv k) = Ok (hex_of sig)) /\
    Z.of_nat n = e + Zsum (map (fun der => len der - 70) ders) /\ Z.of_nat n <= e + 2 * Z.of_nat (length (tx_inputs t)).
Proof.
  intros HC t ins outs keys rv t' TB P H. destruct (c25_signed_form HC _ _ _ _ _ _ TB H) as (ins' & W & HX & _ & M1 & M2 & R).
  destruct (c51_size t' ins' outs W P) as (s & n & e & S1 & S2 & S3 & S4). exists s, n, e.
  assert (LI : length ins' = length (tx_inputs t)).
  { destruct TB as (_ & FI & _). rewrite (F2_len _ _ _ _ _ FI). apply (f_equal (@length (list Z))) in M1. rewrite !map_length in M1. auto. }
  assert (D72 : forall sig, bytes sig -> length sig = 64%nat -> len (der_of sig) <= 72).
  { intros sig Bs Ls. destruct HC as (_ & _ & _ & _ & _ & HD). unfold der_of, len.
    assert (B1 : bytes (firstn 32 sig)) by (apply bytes_firstn; auto). assert (B2 : bytes (skipn 32 sig)).
    { clear - Bs. apply Forall_forall. intros b I. unfold bytes in Bs. rewrite Forall_forall in Bs. apply Bs. rewrite <- (firstn_skipn 32 sig). apply in_or_app. auto. }
    pose proof (val_bounds 256 (firstn 32 sig) ltac:(lia) B1) as V1. pose proof (val_bounds 256 (skipn 32 sig) ltac:(lia) B2) as V2. rewrite firstn_length, Ls in V1. rewrite skipn_length, Ls in V2.
    destruct (HD (be_val (firstn 32 sig)) (be_val (skipn 32 sig))) as (_ & L & _); auto; lia. }
  assert (G : forall l o, (forall k i, nth_error l k = Some i ->
      exists x key pub sig, nth_error (tx_inputs t) (o + k)%nat = Some x /\ In key keys /\ key_pub key pub /\ is_address (hash160 pub) (ti_address x) /\
        bytes sig /\ length sig = 64%nat /\
        signature key (digest (sighash_bytes (o + k) (p2pkh (hash160 pub)) ins outs)) (nonce rv (o + k)) = Ok (hex_of sig) /\
        i_script i = build_script_sig (der_of sig) pub) ->
    exists ders, Forall2 (fun i der => len (i_script i) - 138 = len der - 70 /\ len der <= 72) l ders /\
    forall k der, nth_error ders k = Some der -> exists key pub sig, In key keys /\ bytes sig /\ length sig = 64%nat /\ der = der_of sig /\
       signature key (digest (sighash_bytes (o + k) (p2pkh (hash160 pub)) ins outs)) (nonce rv (o + k)) = Ok (hex_of sig)).
  { clear - D72. induction l as [|i l IH]; intros o R.
    - exists []. split; [constructor|]. intros [|k] der N; discriminate.
    - destruct (IH (S o)) as (ders & F & Q).
      + intros k j N. replace (S o + k)%nat with (o + S k)%nat by lia. apply (R (S k)). auto.
      + destruct (R O i eq_refl) as (x & key & pub & sig & _ & IK & KP & _ & Bs & Ls & SG & SC). exists (der_of sig :: ders). split.
        * constructor; auto. split; auto. rewrite SC. unfold build_script_sig, len. destruct KP as (_ & _ & _ & _ & Lp). rewrite !app_length. cbn [length]. rewrite Lp. lia.
        * intros [|k] d N; cbn [nth_error] in N. { injection N as <-. exists key, pub, sig. auto. }
          replace (o + S k)%nat with (S o + k)%nat by lia. auto. }
  destruct (G ins' O R) as (ders & F & Q). clear G. cbn [Nat.add] in Q.
   exists ders. split; auto. split; auto. split; auto. split; [rewrite <- LI; symmetry; eapply F2_len; eauto|]. split; auto.
  assert (EQ : Zsum (map (fun i => len (i_script i) - 138) ins') = Zsum (map (fun der => len der - 70) ders)).
  { clear - F. induction F as [|i d l ds (A & _) _ IH]; auto. cbn [map]. unfold Zsum in *. cbn [fold_right]. lia. }
  rewrite EQ in S4. split; auto.
  assert (LD : length ders = length (tx_inputs t)) by (rewrite <- LI; symmetry; eapply F2_len; eauto). rewrite <- LD.
  assert (B : Zsum (map (fun der => len der - 70) ders) <= 2 * Z.of_nat (length ders)).
  { apply zsum_bound. clear - F. induction F as [|i d l ds (A & B) _ IH]; constructor; auto. lia. }
  lia.
Qed.

End WithEnv.

(** Hypotheses met: the demo transaction (two inputs, two P2PKH outputs), and its signed form. *)
Example ex51_demo : exists ins outs, @tx_body demo_env created ins outs /\ Forall (fun o => len (o_script o) = 25) outs /\ @CryptoOk demo_env /\
  @sign demo_env created [key1; key2] None = (Ok tt, signed_tx).
Proof.
  destruct demo_body as (ins & outs & B). exists ins, outs. split; auto. split; [|split; [exact demo_crypto|exact signed_ok]].
  destruct B as (_ & _ & FO & _). assert (K : forallb (fun y => Nat.eqb (length (to_script_pub_key y)) 50) (tx_outputs created) = true) by (vm_compute; reflexivity).
  revert K FO. generalize (tx_outputs created) as ys. induction ys as [|y ys IH] in outs |- *; intros K FO; inversion FO as [|? o ? os W F]; subst; constructor; auto.
  - apply andb_prop in K as [K _]. apply Nat.eqb_eq in K. destruct W as (_ & _ & _ & Q & _). rewrite Q, hex_of_length in K. unfold len. lia.
  - apply andb_prop in K as [_ K]. auto.
Qed.
