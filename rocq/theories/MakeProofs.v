(** Lemmas about the constructors of inputs and outputs. *)
From Coq Require Import String Lia.
From Verif Require Import PyBase Env PyNum Validate Basic Spec EnvOk TxInput TxOutput Tx TxSpec.
From Verif Require Import NumLemmas HexProofs Base58Proofs AddrProofs AmountProofs ScriptProofs WireProofs.

Section WithEnv.
Context {E : Env}.
Hypothesis HH : HashOk E.
Hypothesis HZ : ZeroAddressOk E.
Hypothesis HU : UniOk E.

Lemma le_field_def : forall v k A (f : pystr -> res A),
  (x <- int_to_hex_le v ;; y <- pad_hex_le x k ;; f y) = (y <- le_field v k ;; f y).
Proof. intros v k A f. unfold le_field. destruct (int_to_hex_le v); reflexivity. Qed.

Lemma txin_create_iff : forall av tv iv v x,
  txin_create av tv iv v = Ok x <-> exists a txid, av = PStr a /\ tv = PStr (hex_of txid) /\ made_input a txid iv v x.
Proof.
  intros av tv iv v x. split.
  - intros H. unfold txin_create in H. inv_bind H u1 H1. inv_bind H u2 H2. inv_bind H ph H3. inv_bind H u3 H4.
    rewrite le_field_def in H. inv_bind H pi H5. inv_bind H sp H6. destruct sp as [spk spl].
    inv_bind H n H7. inv_bind H ba H8. inv_bind H a' H9. inv_bind H t' H10. injection H as <-.
    apply (address_to_script_inv HH HZ) in H6 as (h & a & -> & IA & R). assert (R1 : spk = hex_of (p2pkh h)) by congruence; assert (R2 : spl = hex_of [25]) by congruence; clear R; subst spk spl. cbn [as_str] in H9. injection H9 as <-.
    destruct u2. apply validate_hex_length_inv in H2 as (txid & Bt & Lt & ->). cbn [as_str] in H10. injection H10 as <-.
    rewrite reverse_hex_order_ok in H3 by auto. injection H3 as <-.
    apply le_field_inv in H5 as (idx & I1 & I2 & ->); [|lia].
    rewrite var_int_to_int_ok in H7 by lia. injection H7 as <-.
    apply (satoshi_to_bitcoin_iff HU) in H8 as (n & N1 & N2 & N3). injection N1 as <-.
    exists a, txid. split; auto. split; auto. exists h, idx, ba. auto 10.
  - intros (a & txid & -> & -> & h & idx & s & IA & Bt & Lt & I1 & I2 & V & BT & ->).
    unfold txin_create. rewrite (validate_address_ok HH HZ h a IA). cbn [bind].
    rewrite validate_hex_length_ok by auto. cbn [bind]. rewrite reverse_hex_order_ok by auto. cbn [bind].
    unfold validate_integer. rewrite I1. cbn [bind]. rewrite le_field_def, (le_field_as_int iv idx 4 I1), le_field_ok by (auto; lia). cbn [bind].
    rewrite (address_to_script_ok HH HZ h a IA). cbn [bind]. rewrite var_int_to_int_ok by lia. cbn [bind].
    assert (SB : satoshi_to_bitcoin (PInt v) = Ok s) by (apply (satoshi_to_bitcoin_iff HU); exists v; auto).
    rewrite SB. reflexivity.
Qed.

Lemma txout_create_iff : forall av v y,
  txout_create av v = Ok y <-> exists a, av = PStr a /\ made_output a v y.
Proof.
  intros av v y. split.
  - intros H. unfold txout_create in H. rewrite le_field_def in H. inv_bind H vv H5. inv_bind H sp H6. destruct sp as [spk spl].
    inv_bind H n H7. inv_bind H ba H8. inv_bind H a' H9. injection H as <-.
    apply (address_to_script_inv HH HZ) in H6 as (h & a & -> & IA & R). assert (R1 : spk = hex_of (p2pkh h)) by congruence; assert (R2 : spl = hex_of [25]) by congruence; clear R; subst spk spl. cbn [as_str] in H9. injection H9 as <-.
    apply le_field_inv in H5 as (idx & I1 & I2 & ->); [|lia]. injection I1 as <-.
    rewrite var_int_to_int_ok in H7 by lia. injection H7 as <-.
    apply (satoshi_to_bitcoin_iff HU) in H8 as (n & N1 & N2 & N3). injection N1 as <-.
    exists a. split; auto. exists h, ba. auto 10.
  - intros (a & -> & h & s & IA & V & BT & ->). unfold txout_create. rewrite le_field_def, le_field_ok by (change (256 ^ Z.of_nat 8) with 18446744073709551616; lia). cbn [bind].
    rewrite (address_to_script_ok HH HZ h a IA). cbn [bind]. rewrite var_int_to_int_ok by lia. cbn [bind].
    assert (SB : satoshi_to_bitcoin (PInt v) = Ok s) by (apply (satoshi_to_bitcoin_iff HU); exists v; auto).
    rewrite SB. reflexivity.
Qed.

Lemma set_satoshi_iff : forall a v y n y', made_output a v y ->
  (set_satoshi_amount y n = Ok y' <-> 0 < n /\ made_output a n y').
Proof.
  intros a v y n y' (h & s & IA & V & BT & ->). unfold set_satoshi_amount. cbn [to_script_length to_script_length_int to_script_pub_key to_address].
  assert (P : validate_positive_integer (PInt n) = if 0 <? n then Ok tt else Err ValueError).
  { unfold validate_positive_integer, validate_whole_number. cbn. destruct (Z.ltb_spec n 1), (Z.ltb_spec 0 n); try lia; reflexivity. }
  rewrite P. destruct (Z.ltb_spec 0 n) as [N|N]; cbn [bind]; [|split; [discriminate|lia]].
  rewrite le_field_def. split.
  - intros H. inv_bind H vv H5. inv_bind H ba H8. injection H as <-.
    apply le_field_inv in H5 as (idx & I1 & I2 & ->); [|lia]. injection I1 as <-.
    apply (satoshi_to_bitcoin_iff HU) in H8 as (m & N1 & N2 & N3). injection N1 as <-. split; auto. exists h, ba. auto.
  - intros (_ & h' & s' & IA' & V' & BT' & ->). rewrite (is_address_inj HH HZ _ _ _ IA IA').
    rewrite le_field_ok by (change (256 ^ Z.of_nat 8) with 18446744073709551616; lia). cbn [bind].
    assert (SB : satoshi_to_bitcoin (PInt n) = Ok s') by (apply (satoshi_to_bitcoin_iff HU); exists n; auto).
    rewrite SB. reflexivity.
Qed.

Lemma made_input_facts : forall a txid iv v x, made_input a txid iv v x ->
  (exists idx h, as_int iv = Some idx /\ in_outpoint x txid idx /\ is_address h a /\ in_owner x h) /\ in_unsigned x /\ in_worth x v.
Proof.
  intros a txid iv v x (h & idx & s & IA & Bt & Lt & I1 & I2 & V & BT & ->). split; [|split].
  - exists idx, h. split; auto. split; [|split; auto; split; auto]. repeat split; auto; lia.
  - repeat split.
  - split; auto. split; auto. exists s. auto.
Qed.
Lemma made_output_facts : forall a v y, made_output a v y -> exists h, is_address h a /\ out_pays y v h.
Proof.
  intros a v y (h & s & IA & V & BT & ->). exists h. split; auto.
  assert (L : len (p2pkh h) = 25) by (unfold len; rewrite p2pkh_length; destruct IA as (_ & -> & _); reflexivity).
  split; auto. unfold out_wire, output_ok. cbn [o_value o_script to_value to_script_length to_script_length_int to_script_pub_key to_bitcoin_amount to_satoshi_amount].
  rewrite L. split; [|split; [lia|auto 10]]. split; [lia|]. split; [|lia]. apply bytes_p2pkh, IA.
Qed.

End WithEnv.
