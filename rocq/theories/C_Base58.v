(** C07-C13: base 58, Base58Check, addresses, WIF. *)
From Coq Require Import String Lia.
From Verif Require Import PyBase Env PyNum Validate Basic Spec EnvOk.
From Verif Require Import NumLemmas HexProofs Base58Proofs AddrProofs.

Section WithEnv.
Context {E : Env}.

(** C07.  hex_to_base58 writes the base-58 numeral, without leading zero digit, of the bytes' value;
    base58_to_int reads exactly the numerals of positive numbers. *)
Lemma c07_base58 :
  (forall bs, bytes bs -> bs <> [] -> exists ds, digits_in 58 ds /\ no_lead0 ds /\ val 58 ds = be_val bs /\
     hex_to_base58 (hex_of bs) = Ok (text58 ds) /\
     (0 < be_val bs -> base58_to_int (text58 ds) = Ok (be_val bs))) /\
  (forall s, s = [] \/ ~ is_hex s -> hex_to_base58 s = Err ValueError) /\
  (forall s n, base58_to_int s = Ok n <-> exists ds, digits_in 58 ds /\ s = text58 ds /\ n = val 58 ds /\ 0 < n) /\
  (forall s, (exists n, base58_to_int s = Ok n) \/ base58_to_int s = Err ValueError).
Proof.
  split; [|split; [|split]].
  - intros bs Hb Hn. destruct (hex_to_base58_ok bs Hb Hn) as (ds & Hd & Hl & Hv & R).
    exists ds. repeat split; try assumption. intros Hp. rewrite <- Hv. apply base58_to_int_ok; [assumption|lia].
  - intros s [->|H]; [reflexivity|apply hex_to_base58_bad; assumption].
  - intros s n. split; [apply base58_to_int_inv|]. intros (ds & Hd & -> & -> & Hp). apply base58_to_int_ok; assumption.
  - intros s. destruct (base58_to_int s) as [n|e] eqn:R; [left; eauto|right; f_equal; eapply base58_to_int_err; eassumption].
Qed.

Example ex07_base58 : hex_to_base58 (lit "00010966") = Ok (lit "MCR") /\ base58_to_int (lit "MCR") = Ok 67942
  /\ base58_to_int (lit "10O") = Err ValueError /\ base58_to_int (lit "11") = Err ValueError.
Proof. vm_compute. repeat split. Qed.

(** C08.  Encoding then decoding gives the payload back, except exactly for an all-zero payload whose
    checksum starts with a zero byte; then decoding raises ValueError. *)
Lemma c08_base58check_roundtrip : HashOk E ->
  (forall p, bytes p -> exists s, hex_to_base58check (hex_of p) = Ok s /\ is_base58check p s /\
     ((Forall (fun b => b = 0) p /\ hd 0 (checksum p) = 0) -> base58check_to_hex (PStr s) = Err ValueError) /\
     (~ (Forall (fun b => b = 0) p /\ hd 0 (checksum p) = 0) -> base58check_to_hex (PStr s) = Ok (hex_of p))) /\
  (forall x, ~ is_hex x -> hex_to_base58check x = Err ValueError).
Proof.
  intros HH. split; [|apply hex_to_base58check_bad].
  intros p Hp. destruct (hex_to_base58check_ok HH p Hp) as (s & Hs & R). exists s. split; [assumption|]. split; [assumption|].
  destruct (decode_complete HH p s Hp Hs) as [[L D]|[L D]]; unfold lost in L; split; intros H; tauto.
Qed.

(** C09.  Whatever is decoded re-encodes to the same text; so two strings never decode to the same payload,
    and a decoded string carries the right checksum.  Other strings raise ValueError, non-strings TypeError. *)
Lemma c09_base58check_canonical : HashOk E ->
  (forall s x, base58check_to_hex (PStr s) = Ok x ->
     hex_to_base58check x = Ok s /\ exists p, bytes p /\ x = hex_of p /\ is_base58check p s) /\
  (forall s s' x, base58check_to_hex (PStr s) = Ok x -> base58check_to_hex (PStr s') = Ok x -> s = s') /\
  (forall s, (exists x, base58check_to_hex (PStr s) = Ok x) \/ base58check_to_hex (PStr s) = Err ValueError) /\
  (forall v, (forall s, v <> PStr s) -> base58check_to_hex v = Err TypeError).
Proof.
  intros HH.
  assert (A : forall s x, base58check_to_hex (PStr s) = Ok x ->
     hex_to_base58check x = Ok s /\ exists p, bytes p /\ x = hex_of p /\ is_base58check p s).
  { intros s x H. apply decode_sound in H as (p & Hp & -> & Hs); [|assumption]. split; [|eauto].
    apply hex_to_base58check_iff; assumption. }
  split; [exact A|]. split; [|split].
  - intros s s' x H H'. apply A in H as [H _]. apply A in H' as [H' _]. congruence.
  - intros s. destruct (base58check_to_hex (PStr s)) as [x|e] eqn:D; [left; eauto|right; f_equal; eapply decode_err; eassumption].
  - intros v H. destruct v; try reflexivity. exfalso. eapply H. reflexivity.
Qed.

(** C10.  Address validation accepts exactly the Base58Check texts of 00 followed by 20 bytes, and yields
    those bytes; other strings raise ValueError, non-strings TypeError. *)
Lemma c10_address_validation : HashOk E -> ZeroAddressOk E ->
  (forall s, validate_bitcoin_address (PStr s) = Ok tt <-> exists h, is_address h s) /\
  (forall s h, is_address h s -> bitcoin_address_to_public_key_hash_hex (PStr s) = Ok (hex_of h)) /\
  (forall s, (exists h, is_address h s) \/
     (validate_bitcoin_address (PStr s) = Err ValueError /\ bitcoin_address_to_public_key_hash_hex (PStr s) = Err ValueError)) /\
  (forall v, (forall s, v <> PStr s) ->
     validate_bitcoin_address v = Err TypeError /\ bitcoin_address_to_public_key_hash_hex v = Err TypeError).
Proof.
  intros HH HZ. split; [|split; [|split]].
  - intros s. split; [|intros (h & H); eapply validate_address_ok; eassumption].
    intros H. apply validate_address_inv in H as (h & s' & Es & Ha); try assumption. injection Es as <-. eauto.
  - intros s h H. apply address_hash_ok; assumption.
  - intros s. destruct (bitcoin_address_to_public_key_hash_hex (PStr s)) as [x|e] eqn:R.
    + left. apply address_iff' in R as (h & _ & H); eauto.
    + right. pose proof (address_err HH s e R). subst. unfold validate_bitcoin_address. rewrite R. auto.
  - intros v H. unfold validate_bitcoin_address. rewrite address_nonstr by assumption. auto.
Qed.

(** C10, without the assumption on the checksum of the zero hash. *)
Lemma c10_address_validation_general : HashOk E ->
  (forall s x, bitcoin_address_to_public_key_hash_hex (PStr s) = Ok x <->
     exists h, x = hex_of h /\ is_address h s /\ ~ (Forall (fun b => b = 0) h /\ hd 0 (checksum (0 :: h)) = 0)).
Proof.
  intros HH s x. rewrite address_iff by assumption. split; intros (h & H1 & H2 & H3); exists h; (split; [exact H1|split; [exact H2|]]).
  - intros [Z1 Z2]. apply H3. split; [constructor; auto|assumption].
  - intros [Z1 Z2]. apply H3. inversion Z1; subst. auto.
Qed.

(** C11.  hash -> address -> hash, address -> hash -> address, address -> script, script -> address. *)
Lemma c11_address_conversions : HashOk E -> ZeroAddressOk E ->
  (forall h, bytes h -> length h = 20%nat -> exists s, is_address h s /\
     public_key_hash_hex_to_address (hex_of h) = Ok s /\
     bitcoin_address_to_public_key_hash_hex (PStr s) = Ok (hex_of h) /\
     address_to_script_pub_key (PStr s) = Ok (hex_of (p2pkh h), lit "19") /\
     public_key_hash_hex_to_script_pub_key (hex_of h) = Ok (hex_of (p2pkh h), lit "19") /\
     script_pub_key_to_address (hex_of (p2pkh h)) = Ok s) /\
  (forall s x, bitcoin_address_to_public_key_hash_hex (PStr s) = Ok x -> public_key_hash_hex_to_address x = Ok s) /\
  (forall h h' s, is_address h s -> is_address h' s -> h = h') /\
  (forall p, bytes p -> length p = 64%nat -> exists s, is_address (hash160 p) s /\
     public_key_hex_to_address (hex_of p) = Ok s /\
     public_key_hex_to_script_pub_key (hex_of p) = Ok (hex_of (p2pkh (hash160 p)), lit "19")).
Proof.
  intros HH HZ. split; [|split; [|split]].
  - intros h Hb Hl. destruct (hash_to_address_ok HH h Hb Hl) as (s & R & Ha). exists s.
    split; [assumption|]. split; [assumption|]. split; [apply address_hash_ok; assumption|].
    split; [apply address_to_script_ok; assumption|]. split; [apply hash_to_script20; assumption|].
    unfold p2pkh. rewrite script_to_address_slice by reflexivity. assumption.
  - intros s x H. apply address_iff' in H as (h & -> & Ha); try assumption. apply hash_to_address_iff; try apply Ha; assumption.
  - intros h h' s. apply is_address_inj; assumption.
  - intros p Hp _. destruct (hash_to_address_ok HH (hash160 p) (hash160_bytes HH p) (hash160_length HH p)) as (s & R & Ha).
    exists s. split; [assumption|]. split; [apply public_key_to_address_iff; assumption|]. apply public_key_to_script_ok; assumption.
Qed.

(** C12.  script_pub_key_to_address never looks at the opcodes. *)
Lemma c12_script_opcodes_ignored : HashOk E ->
  forall pre h suf, length pre = 3%nat -> bytes h -> length h = 20%nat -> length suf = 2%nat ->
    exists s, is_address h s /\ script_pub_key_to_address (hex_of (pre ++ h ++ suf)) = Ok s.
Proof.
  intros HH pre h suf Hp Hb Hl Hs. rewrite script_to_address_slice by assumption.
  destruct (hash_to_address_ok HH h Hb Hl) as (s & R & Ha). eauto.
Qed.

(** C12, naive claim refuted: a script that is not P2PKH is displayed as a valid P2PKH address. *)
Lemma c12_address_implies_p2pkh_refuted : HashOk E ->
  exists bs s h, bytes bs /\ script_pub_key_to_address (hex_of bs) = Ok s /\ is_address h s /\
    forall h', bs <> p2pkh h'.
Proof.
  intros HH. destruct (c12_script_opcodes_ignored HH [106;0;0] (repeat 7 20) [0;0]) as (s & Ha & R); try reflexivity.
  - repeat constructor; unfold byte; lia.
  - exists ([106;0;0] ++ repeat 7 20 ++ [0;0]), s, (repeat 7 20). split; [repeat constructor; unfold byte; lia|].
    split; [exact R|]. split; [exact Ha|]. intros h' C. discriminate.
Qed.

(** C13.  WIF round trip for every key the ECDSA library formats and validates, and the exact set of texts
    private_key_wif_to_hex accepts. *)
Lemma c13_wif : HashOk E -> KeysOk E ->
  (forall k, (exists w, private_key_hex_to_wif k = Ok w) <->
     (exists k', ec_format_private_key_hex k = Ok k' /\ ec_validate_private_key_hex k' = Ok tt)) /\
  (forall k w, private_key_hex_to_wif k = Ok w -> exists bs, bytes bs /\ length bs = 32%nat /\
     ec_format_private_key_hex k = Ok (hex_of bs) /\ is_base58check (128 :: bs) w /\
     private_key_wif_to_hex (PStr w) = Ok (hex_of bs)) /\
  (forall w x, private_key_wif_to_hex (PStr w) = Ok x <->
     exists p, bytes p /\ base58check_to_hex (PStr w) = Ok (hex_of p) /\ x = hex_of (tl p) /\
       ec_validate_private_key_hex x = Ok tt).
Proof.
  intros HH [HK1 [HK2 _]].
  assert (T : forall p, skipn 2 (hex_of p) = hex_of (tl p)) by (intros [|b r]; reflexivity).
  split; [|split].
  - intros k. unfold private_key_hex_to_wif. split.
    + intros (w & H). inv_bind H k' Hk. inv_bind H u Hu. destruct u. eauto.
    + intros (k' & Hf & Hv). rewrite Hf. cbn [bind]. rewrite Hv. cbn [bind].
      destruct (HK1 k k' Hf Hv) as (bs & Hb & _ & ->). change (lit "80" ++ hex_of bs) with (hex_of (128 :: bs)).
      destruct (hex_to_base58check_ok HH (128 :: bs)) as (s & _ & R); [constructor; [unfold byte; lia|assumption]|]. eauto.
  - intros k w H. unfold private_key_hex_to_wif in H. inv_bind H k' Hk. inv_bind H u Hu. destruct u.
    destruct (HK1 k k' Hk Hu) as (bs & Hb & Hl & ->). exists bs. cbv zeta in H.
    change (lit "80" ++ hex_of bs) with (hex_of (128 :: bs)) in H.
    assert (Hp : bytes (128 :: bs)) by (constructor; [unfold byte; lia|assumption]).
    apply hex_to_base58check_iff in H; [|assumption|assumption]. repeat split; try assumption.
    unfold private_key_wif_to_hex. destruct (decode_complete HH _ _ Hp H) as [[[L _] _]|[_ D]].
    + inversion L. discriminate.
    + rewrite D. cbn [bind]. rewrite T. cbn [tl]. rewrite Hu. reflexivity.
  - intros w x. unfold private_key_wif_to_hex. split.
    + intros H. inv_bind H y Hy. pose proof Hy as Hy0. apply decode_sound in Hy as (p & Hp & -> & _); [|assumption].
      cbv zeta in H. rewrite T in H. inv_bind H u Hu. injection H as <-. destruct u. exists p. auto.
    + intros (p & Hp & -> & -> & Hv). cbn [bind]. rewrite T, Hv. reflexivity.
Qed.

(** C13, naive claim "only version byte 80 is accepted" refuted: any version byte works. *)
Lemma c13_wif_version_unchecked : HashOk E ->
  forall b bs, byte b -> b <> 0 -> bytes bs -> ec_validate_private_key_hex (hex_of bs) = Ok tt ->
    exists w, is_base58check (b :: bs) w /\ private_key_wif_to_hex (PStr w) = Ok (hex_of bs).
Proof.
  intros HH b bs Hb0 Hb Hbs Hv. assert (Hp : bytes (b :: bs)) by (constructor; assumption).
  destruct (hex_to_base58check_ok HH (b :: bs) Hp) as (w & Hw & _). exists w. split; [assumption|].
  unfold private_key_wif_to_hex. destruct (decode_complete HH _ _ Hp Hw) as [[[L _] _]|[_ D]].
  - inversion L. contradiction.
  - rewrite D. cbn [bind]. change (skipn 2 (hex_of (b :: bs))) with (hex_of bs). rewrite Hv. reflexivity.
Qed.

End WithEnv.
