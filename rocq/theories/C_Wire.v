(** C20-C24: the wire format, decoding, what is signed. *)
From Coq Require Import String Lia.
From Verif Require Import PyBase Env PyNum Validate Basic Spec EnvOk TxInput TxOutput Tx TxSpec Demo DemoTx.
From Verif Require Import NumLemmas HexProofs Base58Proofs AddrProofs AmountProofs ScriptProofs WireProofs DemoProofs.

Section WithEnv.
Context {E : Env}.

(** C20.  A fully signed transaction serialises to the wire format of the abstract transaction its attributes
    describe, which is hex text; with an unsigned input serialising raises TypeError. *)
Lemma c20_serialisation :
  (forall t ins outs, tx_wire t ins outs -> to_hex_signed_form t = Ok (hex_of (wire ins outs)) /\ bytes (wire ins outs)) /\
  (forall t, tx_signed t = false -> to_hex_signed_form t = Err TypeError).
Proof.
  split.
  - intros t ins outs H. split; [apply tx_wire_hex; auto|]. apply wire_bytes. eapply tx_wire_ok; eauto.
  - intros t H. unfold to_hex_signed_form. unfold tx_signed in H.
    assert (M : mapM txin_hex_signed_form (tx_inputs t) = Err TypeError); [|rewrite M; reflexivity].
    induction (tx_inputs t) as [|x r IH]; [discriminate|]. cbn [forallb] in H. cbn [mapM].
    unfold txin_signed in H. unfold txin_hex_signed_form at 1.
    destruct (ti_script_length x) as [l|]; [|reflexivity]. destruct (ti_script_sig x) as [s|]; [|reflexivity].
    cbn [andb] in H. cbn [need bind]. rewrite IH by auto. reflexivity.
Qed.

(** C20, the format is unambiguous: a byte string starts with at most one transaction. *)
Lemma c20_unambiguous :
  forall ins outs r ins' outs' r', tx_ok ins outs -> tx_ok ins' outs' ->
    wire ins outs ++ r = wire ins' outs' ++ r' -> ins = ins' /\ outs = outs' /\ r = r'.
Proof. exact wire_cat. Qed.

(** C21.  Exactly what from_hex_signed accepts, and the object it returns: the data must start with the wire format of
    a transaction each of whose inputs carries a scriptSig with a 64-byte public key and each of whose outputs is worth at
    most 21000000 bitcoin; on everything else it raises ValueError or IndexError. *)
Lemma c21_decoder_exact : UniOk E -> HashOk E ->
  (forall s t, from_hex_signed s = Ok t <->
     exists ins outs rest, bytes rest /\ s = hex_of (wire ins outs ++ rest) /\ decoded_tx t ins outs) /\
  (forall ins outs rest, tx_ok ins outs -> bytes rest ->
     Forall (fun i => exists sig pub, script_sig_parts (i_script i) sig pub /\ length pub = 64%nat) ins ->
     Forall (fun o => o_value o <= 2100000000000000) outs ->
     exists t, from_hex_signed (hex_of (wire ins outs ++ rest)) = Ok t /\ decoded_tx t ins outs) /\
  (forall s e, from_hex_signed s = Err e -> e = ValueError \/ e = IndexError).
Proof.
  intros HU HH. split; [|split].
  - exact (from_hex_iff HH HU).
  - intros ins outs rest OK Br FI FO.
    assert (X : exists t, decoded_tx t ins outs).
    { destruct OK as (O1 & O2 & O3 & O4).
      assert (A : exists xs, Forall2 decoded_input xs ins).
      { clear O3. induction ins as [|i ins IH]; [exists []; constructor|].
        inversion O1; subst. inversion FI as [|q1 q2 [sig [pub [P L]]] FI']; subst. destruct IH as [xs IH]; auto.
        destruct (script_parts_bytes _ _ _ ltac:(apply H1) P) as [_ Bp].
        destruct (hash_to_address_ok HH (hash160 pub) (hash160_bytes HH pub) (hash160_length HH pub)) as (a & _ & Ha).
        eexists. constructor; [|exact IH]. split; auto. exists sig, pub, a. auto. }
      assert (B : exists ys, Forall2 decoded_output ys outs).
      { clear O4. induction outs as [|o outs IH]; [exists []; constructor|].
        inversion O2; subst. inversion FO; subst. destruct IH as [ys IH]; auto.
        destruct (script_address_ok HH (o_script o)) as [a Ha]; [apply H1|].
        apply (script_address_iff HH) in Ha; [|apply H1].
        destruct (satoshi_to_bitcoin_ok HU (o_value o)) as [s [_ Hs]]; [unfold output_ok in H1; lia|].
        eexists. constructor; [|exact IH]. split; auto. split; auto. exists a, s. auto. }
      destruct A as [xs A]. destruct B as [ys B]. pose proof (F2_len _ _ _ _ _ A). pose proof (F2_len _ _ _ _ _ B).
      pose proof (tx_create_ok xs ys ltac:(lia) ltac:(lia)) as T. apply tx_create_inv in T.
      destruct T as [_ [_ [T3 [T4 [T5 T6]]]]]. eexists. split; [exact T5|]. split; [exact T6|]. rewrite T3, T4. auto. }
    destruct X as [t Dt]. exists t. split; auto. apply (from_hex_iff HH HU). exists ins, outs, rest. auto.
  - exact (from_hex_err HH HU).
Qed.

(** C21.  Decoding what a signed transaction serialises to gives the same transaction back: only the input
    amounts and the change address, which are not serialised, are lost. *)
Lemma c21_decode_serialised : UniOk E -> HashOk E ->
  forall t ins, tx_header t -> Forall2 in_signed (tx_inputs t) ins ->
    Forall (fun y => exists v h, out_pays y v h) (tx_outputs t) ->
    exists s, to_hex_signed_form t = Ok s /\
      from_hex_signed s = Ok (set_change_address (set_inputs t (map forget_worth (tx_inputs t))) None).
Proof.
  intros HU HH t ins HD HI HO.
  assert (O : exists outs, Forall2 out_wire (tx_outputs t) outs /\ Forall2 decoded_output (tx_outputs t) outs).
  { clear HD HI. induction HO as [|y ys [v [h [W A]]] HO [outs [IH1 IH2]]]; [exists []; split; constructor|].
    exists (mk_soutput v (p2pkh h) :: outs). split; constructor; auto. 
    destruct W as (W1 & W2 & W3 & W4 & W5 & W6 & W7 & W8). cbn [o_value o_script] in *.
    split; auto. split; auto. cbn [o_value o_script]. exists (to_address y), (to_bitcoin_amount y).
    rewrite p2pkh_middle. split; [apply A|]. split; auto. destruct y; cbn in *. congruence. }
  destruct O as [outs [O1 O2]]. exists (hex_of (wire ins outs)).
  assert (I1 : Forall2 in_wire (tx_inputs t) ins) by (clear -HI; induction HI; constructor; auto; apply H).
  assert (I2 : Forall2 decoded_input (map forget_worth (tx_inputs t)) ins).
  { clear -HI. induction HI as [|x i xs is [[P S] [X [sig [pub [Bp [Lp [Parts [Pk O]]]]]]]] HI IH]; cbn [map]; constructor; auto.
    destruct P as (P1 & P2 & P3 & P4 & P5 & P6 & P7 & P8). destruct S as (S1 & S2 & S3 & S4 & S5).
    destruct O as (Q1 & Q2 & Q3 & Q4). split; [repeat split; auto; lia|]. exists sig, pub, (ti_address x).
    split; [auto|]. split; [auto|]. split; [auto|]. unfold forget_worth. rewrite P5, P6, X, P8, Pk, Q3, Q4, Q2, S4, S5, S3, P4. reflexivity. }
  split; [apply tx_wire_hex; split; auto|].
  apply (from_hex_iff HH HU). exists ins, outs, []. rewrite app_nil_r. split; [constructor|]. split; auto.
  split; [|split; [reflexivity|split; auto]].
  destruct HD as (A1 & A2 & A3 & A4 & A5 & A6 & A7 & A8). unfold tx_header. cbn. rewrite map_length. auto 10.
Qed.

(** A decoded transaction is one that serialises (used for the examples and for C22). *)
Lemma c22_decoded_serialises :
  forall t ins outs, decoded_tx t ins outs -> tx_wire t ins outs.
Proof.
  intros t ins outs [HD [_ [HI HO]]]. split; auto. split.
  - clear -HI. induction HI as [|x i xs is [(A1 & A2 & A3 & A4 & A5) [sig [pub [a [P [L [Ha ->]]]]]]] HI IH]; constructor; auto.
    split.
    + repeat split; auto; lia.
    + split; auto.
  - clear -HO. induction HO as [|y o ys os [A1 [A2 [a [s [Ha [B ->]]]]]] HO IH]; constructor; auto.
    split; auto. split; auto. cbn. auto 10.
Qed.

(** C22.  A decoded transaction re-serialises to a prefix of what was read; whatever follows is ignored. *)
Lemma c22_reserialise : UniOk E -> HashOk E ->
  (forall s t, from_hex_signed s = Ok t -> exists u rest, to_hex_signed_form t = Ok u /\ s = u ++ rest) /\
  (forall s t rest, from_hex_signed s = Ok t -> bytes rest -> from_hex_signed (s ++ hex_of rest) = Ok t).
Proof.
  intros HU HH. split.
  - intros s t H. apply (from_hex_iff HH HU) in H. destruct H as [ins [outs [rest [Br [-> D]]]]].
    apply c22_decoded_serialises in D; auto. exists (hex_of (wire ins outs)), (hex_of rest).
    split; [apply tx_wire_hex; auto|apply hex_of_app].
  - intros s t rest H Br. apply (from_hex_iff HH HU) in H. destruct H as [ins [outs [rest' [Br' [-> D]]]]].
    apply (from_hex_iff HH HU). exists ins, outs, (rest' ++ rest). split; [apply bytes_app; auto|]. split; auto.
    rewrite <- hex_of_app, <- app_assoc. reflexivity.
Qed.

(** C22, naive claim "what is decoded re-serialises to the text that was read" refuted. *)
Lemma c22_exact_refuted : UniOk E -> HashOk E ->
  exists s t, from_hex_signed s = Ok t /\ to_hex_signed_form t <> Ok s.
Proof.
  intros HU HH. destruct (proj1 (proj2 (c21_decoder_exact HU HH)) [] [] [255]) as [t [H D]];
    try (repeat constructor; unfold byte; cbn; lia).
  exists (hex_of (wire [] [] ++ [255])), t. split; auto. apply c22_decoded_serialises in D; auto.
  rewrite (tx_wire_hex _ _ _ D). vm_compute. intros C. discriminate.
Qed.

Lemma prefix_hex : forall bs p q, bytes bs -> hex_of bs = p ++ q -> is_hex p -> exists k, p = hex_of (firstn k bs) /\ q = hex_of (skipn k bs).
Proof.
  intros bs p q Hb H [pb [Bp ->]]. exists (length pb).
  assert (X : hex_of (firstn (length pb) bs) = hex_of pb /\ hex_of (skipn (length pb) bs) = q).
  { apply app_inj_len; [|rewrite <- hex_of_app, firstn_skipn; auto].
    rewrite !hex_of_length, firstn_length. assert (Y : length (hex_of bs) = length (hex_of pb ++ q)) by congruence.
    rewrite app_length, !hex_of_length in Y. lia. }
  destruct X as [X1 X2]. split; auto.
Qed.

(** C23.  No proper prefix of a serialised transaction is accepted, and whatever is accepted starts with version 1. *)
Lemma c23_truncation : UniOk E -> HashOk E ->
  (forall ins outs p q, tx_ok ins outs -> hex_of (wire ins outs) = p ++ q -> q <> [] ->
     from_hex_signed p = Err ValueError \/ from_hex_signed p = Err IndexError) /\
  (forall s t, from_hex_signed s = Ok t ->
     firstn 8 s = lit "01000000" /\ Forall (fun x => ti_sequence x = lit "ffffffff") (tx_inputs t) /\ tx_block_lock_time t = lit "00000000").
Proof.
  intros HU HH. split.
  - intros ins outs p q OK H NE. destruct (from_hex_signed p) as [t|e] eqn:D.
    + exfalso. apply (from_hex_iff HH HU) in D. destruct D as [ins' [outs' [rest [Br [-> D]]]]].
      pose proof (decoded_tx_ok _ _ _ D) as OK'. pose proof (wire_bytes _ _ OK) as Bw. pose proof (wire_bytes _ _ OK') as Bw'.
      destruct (prefix_hex _ _ _ Bw H) as [k [K1 K2]]; [exists (wire ins' outs' ++ rest); split; auto; apply bytes_app; auto|].
      apply hex_of_inj in K1; [|apply bytes_app; auto|apply bytes_firstn; auto].
      assert (X : wire ins outs ++ [] = wire ins' outs' ++ (rest ++ skipn k (wire ins outs))).
      { rewrite app_nil_r, app_assoc, K1, firstn_skipn. reflexivity. }
      apply wire_cat in X; auto. destruct X as [_ [_ X]]. symmetry in X. apply app_eq_nil in X. destruct X as [_ X].
      rewrite X in K2. apply NE. rewrite K2. reflexivity.
    + destruct (from_hex_err HH HU p e D) as [->| ->]; auto.
  - intros s t H. apply (from_hex_iff HH HU) in H. destruct H as [ins [outs [rest [Br [-> [HD [_ [HI _]]]]]]]]. split; [|split].
    + unfold wire. rewrite <- app_assoc. reflexivity.
    + clear -HI. induction HI as [|x i xs is [_ [sig [pub [a [_ [_ [_ ->]]]]]]] HI IH]; constructor; auto. 
    + apply HD.
Qed.

Example ex22_demo : UniOk demo_env /\ HashOk demo_env /\
  exists t, @from_hex_signed demo_env signed_hex = Ok t /\ length (tx_inputs t) = 2%nat /\ length (tx_outputs t) = 2%nat.
Proof.
  split; [exact DemoProofs.demo_uni|]. split; [exact DemoProofs.demo_hash|].
  eexists. split; [vm_compute; reflexivity|]. split; reflexivity.
Qed.

(** C24.  What is hashed when input k is signed: the wire format with the script of input k replaced by the scriptPubKey of
    what it spends and all other scripts empty, followed by 01000000.  It does not depend on the public keys
    and scriptSigs stored in the transaction. *)
Lemma c24_sighash :
  (forall t ins outs k spk, tx_header t ->
     Forall2 (fun x i => in_outpoint x (i_txid i) (i_index i)) (tx_inputs t) ins -> Forall2 out_wire (tx_outputs t) outs ->
     (exists x, nth_error (tx_inputs t) k = Some x /\
        ti_script_pub_key x = Some (hex_of spk) /\ ti_script_pub_key_length x = Some (hex_of [len spk])) ->
     to_hex_signable_form t k = Ok (hex_of (sighash_bytes k spk ins outs))) /\
  (forall t k x, nth_error (tx_inputs t) k = Some x -> ti_script_pub_key x = None \/ ti_script_pub_key_length x = None ->
     to_hex_signable_form t k = Err TypeError) /\
  (forall t xs k, map unsign xs = map unsign (tx_inputs t) ->
     to_hex_signable_form (set_inputs t xs) k = to_hex_signable_form t k).
Proof. exact (conj signable_ok (conj signable_none signable_unsign)). Qed.

(** C24.  Two inputs never sign the same bytes, nor do two transactions that differ in anything that is signed: the signed
    bytes determine the number of the input (unless its scriptPubKey is empty), all outpoints and outputs, and the scriptPubKey. *)
Lemma c24_sighash_binding :
  forall k spk ins outs k' spk' ins' outs', tx_ok (replace_scripts k spk ins) outs -> tx_ok (replace_scripts k' spk' ins') outs' ->
    (k < length ins)%nat -> (k' < length ins')%nat -> spk <> [] -> spk' <> [] ->
    sighash_bytes k spk ins outs = sighash_bytes k' spk' ins' outs' ->
    k = k' /\ spk = spk' /\ outs = outs' /\ map (fun i => (i_txid i, i_index i)) ins = map (fun i => (i_txid i, i_index i)) ins'.
Proof.
  intros k spk ins outs k' spk' ins' outs' O1 O2 K K' N N' H. unfold sighash_bytes in H. apply wire_cat in H; auto.
  destruct H as [H [-> _]].
  cut (k = k' /\ spk = spk' /\ map (fun i => (i_txid i, i_index i)) ins = map (fun i => (i_txid i, i_index i)) ins'); [tauto|].
  clear O1 O2. revert k' ins ins' K K' H. induction k as [|k IH]; intros [|k'] [|i ins] [|i' ins'] K K' H; cbn [length] in *; try lia; cbn [replace_scripts] in H.
  - injection H as H1 H2 H3 H4. split; auto. split; auto. cbn [map]. f_equal; [congruence|].
    assert (X := f_equal (map (fun i => (i_txid i, i_index i))) H4). rewrite !map_map in X. exact X.
  - injection H as H1 H2 H3 H4. contradiction.
  - injection H as H1 H2 H3 H4. exfalso. apply N'. auto.
  - injection H as H1 H2 H3. apply IH in H3; try lia. destruct H3 as [-> [-> H3]]. split; auto. split; auto. cbn [map]. f_equal; [congruence|auto].
Qed.

(** The second input of a concrete transaction. *)
Example ex24_demo : match @to_hex_signable_form created 1, tx_inputs created with
  | Ok s, [x; y] => exists a b, s = a ++ hex_of [25] ++ (match ti_script_pub_key y with Some k => k | None => [] end) ++ lit "ffffffff" ++ b /\
      length a = (2 * (4 + 1 + 41 + 36))%nat
  | _, _ => False
  end.
Proof.
  vm_compute. eexists (firstn 164 (match to_hex_signable_form created 1 with Ok s => s | Err _ => [] end)), (skipn 224 (match to_hex_signable_form created 1 with Ok s => s | Err _ => [] end)).
  vm_compute. split; reflexivity.
Qed.

End WithEnv.
