From Coq Require Import String Lia.
From Verif Require Import PyBase Env PyNum Validate Basic Spec EnvOk NumLemmas HexProofs Base58Proofs.

Section WithEnv.
Context {E : Env}.

Lemma bytes_p2pkh : forall h, bytes h -> bytes (p2pkh h).
Proof.
  intros h H. unfold p2pkh. apply bytes_app. split; [repeat constructor; unfold byte; lia|].
  apply bytes_app. split; [assumption|]. repeat constructor; unfold byte; lia.
Qed.
Lemma p2pkh_length : forall h, length (p2pkh h) = (length h + 5)%nat.
Proof. intros h. unfold p2pkh. rewrite !app_length. cbn [length]. lia. Qed.

Lemma hash_to_script_ok : forall h, bytes h -> (length h <= 247)%nat ->
  public_key_hash_hex_to_script_pub_key (hex_of h) = Ok (hex_of (p2pkh h), hex_of [Z.of_nat (length h) + 5]).
Proof.
  intros h Hb Hl. unfold public_key_hash_hex_to_script_pub_key.
  assert (X : lit "76" ++ lit "a9" ++ lit "14" ++ hex_of h ++ lit "88" ++ lit "ac" = hex_of (p2pkh h)).
  { unfold p2pkh. rewrite !hex_of_app. reflexivity. }
  rewrite X. rewrite hex_len_ok by (apply bytes_p2pkh; assumption). cbn [bind].
  rewrite p2pkh_length. rewrite int_to_var_int_ok by lia. cbn [bind]. replace (Z.of_nat (length h + 5)) with (Z.of_nat (length h) + 5) by lia. reflexivity.
Qed.
Lemma hash_to_script20 : forall h, bytes h -> length h = 20%nat ->
  public_key_hash_hex_to_script_pub_key (hex_of h) = Ok (hex_of (p2pkh h), hex_of [25]).
Proof. intros h Hb Hl. rewrite hash_to_script_ok by (try assumption; lia). rewrite Hl. reflexivity. Qed.

Context (HH : HashOk E).

Lemma hash_to_address_iff : forall h s, bytes h -> length h = 20%nat ->
  public_key_hash_hex_to_address (hex_of h) = Ok s <-> is_address h s.
Proof.
  intros h s Hb Hl. unfold public_key_hash_hex_to_address. change (lit "00" ++ hex_of h) with (hex_of (0 :: h)).
  rewrite hex_to_base58check_iff; [|assumption|constructor; [unfold byte; lia|assumption]].
  unfold is_address. split; [intros H; auto|intros (_ & _ & H); exact H].
Qed.
Lemma hash_to_address_ok : forall h, bytes h -> length h = 20%nat ->
  exists s, public_key_hash_hex_to_address (hex_of h) = Ok s /\ is_address h s.
Proof.
  intros h Hb Hl. unfold public_key_hash_hex_to_address. change (lit "00" ++ hex_of h) with (hex_of (0 :: h)).
  destruct (hex_to_base58check_ok HH (0 :: h)) as (s & H & R); [constructor; [unfold byte; lia|assumption]|].
  exists s. split; [exact R|repeat split; assumption].
Qed.

Lemma script_to_address_slice : forall pre h suf, length pre = 3%nat -> length suf = 2%nat ->
  script_pub_key_to_address (hex_of (pre ++ h ++ suf)) = public_key_hash_hex_to_address (hex_of h).
Proof.
  intros pre h suf Hp Hs. unfold script_pub_key_to_address. cbv zeta.
  change 6%nat with (2 * 3)%nat. change 4%nat with (2 * 2)%nat at 1.
  rewrite drop_last_n_hex, skipn_hex. rewrite app_assoc, drop_last_n_app by assumption.
  rewrite <- Hp. rewrite skipn_app, skipn_all, Nat.sub_diag. reflexivity.
Qed.

Lemma hash160_bytes : forall p, bytes (hash160 p).
Proof. intros p. apply HH. Qed.
Lemma hash160_length : forall p, length (hash160 p) = 20%nat.
Proof. intros p. apply HH. Qed.

Lemma get_public_key_hash_ok : forall p, bytes p -> get_public_key_hash (hex_of p) = Ok (hex_of (hash160 p)).
Proof.
  intros p H. unfold get_public_key_hash. cbv zeta. change (lit "04" ++ hex_of p) with (hex_of (4 :: p)).
  rewrite bytes_fromhex_ok by (constructor; [unfold byte; lia|assumption]). cbn [bind].
  fold (hash160 p). rewrite bytes_hex_hex_of by apply hash160_bytes.
  rewrite validate_hex_length_ok; [reflexivity|apply hash160_bytes|apply hash160_length].
Qed.
Lemma public_key_to_address_iff : forall p s, bytes p ->
  public_key_hex_to_address (hex_of p) = Ok s <-> is_address (hash160 p) s.
Proof.
  intros p s H. unfold public_key_hex_to_address. rewrite get_public_key_hash_ok by assumption. cbn [bind].
  apply hash_to_address_iff; [apply hash160_bytes|apply hash160_length].
Qed.
Lemma public_key_to_script_ok : forall p, bytes p ->
  public_key_hex_to_script_pub_key (hex_of p) = Ok (hex_of (p2pkh (hash160 p)), hex_of [25]).
Proof.
  intros p H. unfold public_key_hex_to_script_pub_key. rewrite get_public_key_hash_ok by assumption. cbn [bind].
  apply hash_to_script20; [apply hash160_bytes|apply hash160_length].
Qed.

Context (HZ : ZeroAddressOk E).

Lemma address_hash_ok : forall h s, is_address h s -> bitcoin_address_to_public_key_hash_hex (PStr s) = Ok (hex_of h).
Proof. intros h s H. apply address_iff'; eauto. Qed.
Lemma validate_address_ok : forall h s, is_address h s -> validate_bitcoin_address (PStr s) = Ok tt.
Proof. intros h s H. unfold validate_bitcoin_address. rewrite (address_hash_ok h s H). reflexivity. Qed.
Lemma validate_address_inv : forall v, validate_bitcoin_address v = Ok tt -> exists h s, v = PStr s /\ is_address h s.
Proof.
  intros v H. unfold validate_bitcoin_address in H. inv_bind H x Hx.
  destruct v as [| | | |s| |]; try discriminate. apply address_iff' in Hx as (h & _ & Ha); eauto.
Qed.
Lemma address_to_script_ok : forall h s, is_address h s ->
  address_to_script_pub_key (PStr s) = Ok (hex_of (p2pkh h), hex_of [25]).
Proof.
  intros h s H. unfold address_to_script_pub_key. rewrite (address_hash_ok h s H). cbn [bind].
  apply hash_to_script20; apply H.
Qed.
Lemma address_to_script_inv : forall v x, address_to_script_pub_key v = Ok x ->
  exists h s, v = PStr s /\ is_address h s /\ x = (hex_of (p2pkh h), hex_of [25]).
Proof.
  intros v x H. pose proof H as H0. unfold address_to_script_pub_key in H. inv_bind H y Hy.
  destruct v as [| | | |s| |]; try discriminate. apply address_iff' in Hy as (h & _ & Ha); try assumption.
  exists h, s. rewrite (address_to_script_ok h s Ha) in H0. injection H0 as <-. auto.
Qed.
Lemma address_nonstr : forall v, (forall s, v <> PStr s) -> bitcoin_address_to_public_key_hash_hex v = Err TypeError.
Proof. intros v H. destruct v; try reflexivity. exfalso. eapply H. reflexivity. Qed.

End WithEnv.
