(** Lemmas about verify. *)
From Coq Require Import String Lia.
From Verif Require Import PyBase Env PyNum Validate Basic Spec EnvOk TxInput TxOutput Tx TxSpec SignSpec.
From Verif Require Import NumLemmas HexProofs Base58Proofs AddrProofs AmountProofs ScriptProofs WireProofs SignProofs.

Section WithEnv.
Context {E : Env}.
Hypothesis HH : HashOk E.

Lemma pad_rev_le : forall n, 0 <= n < 256 ^ 32 ->
  pad_hex (hex_of (be_bytes n)) 32 = Ok (hex_of (rev (le_bytes 32 n))).
Proof.
  intros n H. pose proof (be_bytes_length n 32 H ltac:(lia)) as LB.
  rewrite pad_hex_ok by (try assumption; apply be_bytes_bytes). do 2 f_equal.
  apply (val_inj_len 256); try lia.
  - apply bytes_app. split; [apply bytes_repeat0|apply be_bytes_bytes].
  - apply bytes_rev, le_bytes_bytes.
  - rewrite app_length, repeat_length, rev_length, le_bytes_length. lia.
  - rewrite val_repeat0_app. change (val 256 (be_bytes n)) with (be_val (be_bytes n)). rewrite be_bytes_val by lia.
    pose proof (le_bytes_val 32 n H) as X. revert X. generalize (le_bytes 32 n). intros l <-. apply le_val_rev.
Qed.

Lemma from_der_iff : forall der s, bytes der -> (signature_from_der (hex_of der) = Ok s <-> der_sig der s).
Proof.
  intros der s B. unfold signature_from_der. rewrite validate_hex_ok by auto. cbn [bind]. rewrite bytes_fromhex_ok by auto. cbn [bind].
  unfold der_sig. split.
  - intros H. inv_bind H rs Hd. destruct rs as [r q]. inv_bind H rh H1. inv_bind H sh H2. inv_bind H rp H3. inv_bind H sp H4. injection H as <-.
    apply int_to_hex_inv in H1 as (r' & X & R0 & ->). injection X as <-. apply int_to_hex_inv in H2 as (q' & X & Q0 & ->). injection X as <-.
    assert (P : forall n x, 0 <= n -> pad_hex (hex_of (be_bytes n)) 32 = Ok x -> 0 <= n < 256 ^ 32 /\ x = hex_of (rev (le_bytes 32 n))).
    { intros n x N P. destruct (Z_lt_dec n (256 ^ 32)) as [L|L].
      - rewrite pad_rev_le in P by lia. injection P as <-. split; auto.
      - rewrite pad_hex_long in P; [discriminate|apply be_bytes_bytes|]. apply be_bytes_long. change (Z.of_nat 32) with 32. lia. }
    destruct (P _ _ R0 H3) as [R1 ->]. destruct (P _ _ Q0 H4) as [Q1 ->]. exists r, q. rewrite hex_of_app. auto.
  - intros (r & q & D & R & Q & ->). rewrite D. cbn [bind]. rewrite !int_to_hex_ok by lia. cbn [bind]. rewrite !pad_rev_le by auto. cbn [bind].
    rewrite hex_of_app. reflexivity.
Qed.

(** A transaction whose bytes are meaningful. *)
Definition body (t : tx) (ins : list sinput) (outs : list soutput) : Prop :=
  tx_header t /\ Forall2 (fun x i => in_outpoint x (i_txid i) (i_index i)) (tx_inputs t) ins /\ Forall2 out_wire (tx_outputs t) outs.

Lemma verify_one : forall t ins outs i x spk pub sighex, body t ins outs -> nth_error (tx_inputs t) i = Some x -> in_spk x spk -> bytes pub ->
  verify_signature_for_one_input t i (hex_of pub) sighex =
  if Nat.eqb (length pub) 64 then ec_verify_digest (hex_of pub) (hex_of (digest (sighash_bytes i spk ins outs))) sighex else Err ValueError.
Proof.
  intros t ins outs i x spk pub sighex (T & HI & HO) N (S1 & S2 & S3 & S4) Bp. unfold verify_signature_for_one_input.
  rewrite (signable_ok t ins outs i spk) by (auto; exists x; auto). cbn [bind].
  rewrite get_double_sha256_ok by (auto; exact (sighash_bytes_ok t ins outs i spk T HI HO S1 S2)). cbn [bind].
  fold (digest (sighash_bytes i spk ins outs)). set (d := digest _). assert (Bd : bytes d /\ length d = 32%nat) by (apply bytes_digest; auto). destruct Bd as [Bd Ld]. clearbody d.
  rewrite validate_hex_length_ok by auto. cbn [bind]. unfold verify_signature_digest.
  destruct (Nat.eqb_spec (length pub) 64) as [L|L].
  - rewrite validate_hex_length_ok by auto. cbn [bind]. unfold validate_hex_bad_name. rewrite validate_hex_ok by auto. reflexivity.
  - rewrite validate_hex_length_bad by auto. reflexivity.
Qed.

Definition falses (bs : list bool) : Z := Z.of_nat (length (filter negb bs)).

Lemma verify_loop_iff : forall t ins outs, body t ins outs -> Forall (fun x => exists spk, in_spk x spk) (tx_inputs t) ->
  forall xs i c n, (forall j, nth_error (tx_inputs t) (i + j) = nth_error xs j) ->
  (verify_loop t i xs c = Ok n <-> exists bs, all_checked ins outs i xs bs /\ n = c + falses bs).
Proof.
  intros t ins outs HB HF. induction xs as [|x xs IH]; intros i c n HN; cbn [verify_loop].
  - split.
    + intros H. injection H as <-. exists []. split; [constructor|]. cbn. lia.
    + intros [bs [H ->]]. inversion H; subst. cbn. f_equal. lia.
  - pose proof (HN 0%nat) as N0. rewrite Nat.add_0_r in N0. cbn [nth_error] in N0.
    assert (HN' : forall j, nth_error (tx_inputs t) (S i + j) = nth_error xs j).
    { intros j. specialize (HN (S j)). cbn [nth_error] in HN. rewrite <- HN. f_equal. lia. }
    assert (SPK : exists spk, in_spk x spk) by (rewrite Forall_forall in HF; apply HF; eapply nth_error_In; eauto). destruct SPK as [spk SPK].
    split.
    + intros H. destruct (ti_script_sig x) as [ss|] eqn:SS; [|discriminate].
      destruct (script_sig_cases ss) as [(script & der & pub & B & -> & P & Bd & Bp & Q)|[_ Q]]; rewrite Q in H; [|discriminate]. cbn [bind] in H.
      inv_bind H sh H1. apply from_der_iff in H1; auto. inv_bind H b H2.
      rewrite (verify_one t ins outs i x spk pub sh HB N0 SPK Bp) in H2. destruct (Nat.eqb_spec (length pub) 64) as [L|L]; [|discriminate].
      apply IH in H; auto. destruct H as [bs [H ->]]. exists (b :: bs). split.
      * constructor; auto. exists spk, script, der, pub, sh. auto 10.
      * unfold falses. cbn [filter]. destruct b; cbn [negb length]; lia.
    + intros [bs [H ->]]. inversion H as [|q1 q2 q3 b bs' (spk' & script & der & pub & sh & SP' & SS & B & P & L & D & V) H']; subst.
      rewrite SS. destruct (script_sig_cases (hex_of script)) as [(script' & der' & pub' & B' & Q' & P' & Bd & Bp & Q)|[NO _]]; [|exfalso; exact (NO _ _ _ B eq_refl P)].
      apply hex_of_inj in Q'; auto. subst script'. destruct (script_parts_fun _ _ _ _ _ B P P') as [<- <-]. rewrite Q. cbn [bind].
      apply from_der_iff in D; auto. rewrite D. cbn [bind].
      rewrite (verify_one t ins outs i x spk' pub sh HB N0 SP' Bp), L. cbn [Nat.eqb]. change (Nat.eqb 64 64) with true. cbv iota. rewrite V. cbn [bind].
      apply IH; auto. exists bs'. split; auto. unfold falses. cbn [filter]. destruct b; cbn [negb length]; lia.
Qed.

Lemma verify_iff : forall t ins outs, body t ins outs -> Forall (fun x => exists spk, in_spk x spk) (tx_inputs t) ->
  forall n, verify t = Ok n <-> exists bs, all_checked ins outs 0 (tx_inputs t) bs /\ n = falses bs.
Proof.
  intros t ins outs HB HF n. unfold verify. rewrite (verify_loop_iff t ins outs HB HF) by reflexivity. reflexivity.
Qed.

(** Good inputs, then a bad one. *)
Lemma verify_loop_app : forall t ins outs, body t ins outs -> forall pre i bs xs c,
  (forall j, (j < length pre)%nat -> nth_error (tx_inputs t) (i + j) = nth_error pre j) -> all_checked ins outs i pre bs ->
  verify_loop t i (pre ++ xs) c = verify_loop t (i + length pre) xs (c + falses bs).
Proof.
  intros t ins outs HB. induction pre as [|x pre IH]; intros i bs xs c HN H; inversion H as [|q1 q2 q3 b bs' (spk' & script & der & pub & sh & SP' & SS & B & P & L & D & V) H']; subst.
  - cbn [app length]. rewrite Nat.add_0_r. f_equal. cbn. lia.
  - cbn [app verify_loop]. pose proof (HN 0%nat ltac:(cbn; lia)) as N0. rewrite Nat.add_0_r in N0. cbn [nth_error] in N0.
    rewrite SS. destruct (script_sig_cases (hex_of script)) as [(script' & der' & pub' & B' & Q' & P' & Bd & Bp & Q)|[NO _]]; [|exfalso; exact (NO _ _ _ B eq_refl P)].
    apply hex_of_inj in Q'; auto. subst script'. destruct (script_parts_fun _ _ _ _ _ B P P') as [<- <-]. rewrite Q. cbn [bind].
    apply from_der_iff in D; auto. rewrite D. cbn [bind].
    rewrite (verify_one t ins outs i x spk' pub sh HB N0 SP' Bp), L. change (Nat.eqb 64 64) with true. cbv iota. rewrite V. cbn [bind].
    rewrite (IH (S i) bs'); auto.
    + cbn [length]. replace (S i + length pre)%nat with (i + S (length pre))%nat by lia. f_equal. unfold falses. cbn [filter]. destruct b; cbn [negb length]; lia.
    + intros j J. specialize (HN (S j)). cbn [nth_error length] in HN. rewrite <- HN by lia. f_equal. lia.
Qed.

Lemma verify_bad_script : forall t ins outs pre x post bs, body t ins outs -> tx_inputs t = pre ++ x :: post -> all_checked ins outs 0 pre bs ->
  (ti_script_sig x = None \/ exists s, ti_script_sig x = Some s /\ forall bs sig pub, bytes bs -> s = hex_of bs -> ~ script_sig_parts bs sig pub) ->
  verify t = Err ValueError.
Proof.
  intros t ins outs pre x post bs HB HT HC HX. unfold verify. rewrite HT, (verify_loop_app t ins outs HB pre 0 bs); auto.
  - cbn [Nat.add verify_loop]. destruct HX as [->|[s [-> NO]]]; [reflexivity|].
    destruct (script_sig_cases s) as [(script & der & pub & B & Q & P & _)|[_ ->]]; [|reflexivity]. exfalso. exact (NO _ _ _ B Q P).
  - intros j J. rewrite HT. cbn [Nat.add]. rewrite nth_error_app1 by auto. reflexivity.
Qed.

(** An input without scriptSig is never passed over. *)
Lemma verify_none : forall t x n, In x (tx_inputs t) -> ti_script_sig x = None -> verify t <> Ok n.
Proof.
  intros t x n I S0. unfold verify. generalize 0 at 1. generalize 0%nat. revert I. generalize (tx_inputs t).
  induction l as [|y l IH]; intros I i c H; [contradiction|]. cbn [verify_loop] in H.
  destruct (ti_script_sig y) as [ss|] eqn:SS; [|discriminate].
  destruct I as [->|I]; [congruence|]. inv_bind H p H1. destruct p as [a b]. inv_bind H sh H2. inv_bind H v H3. exact (IH I _ _ H).
Qed.

End WithEnv.
