(** C89-C93: the hash helpers, the type validators, the signing primitives, hexadecimal text, and the methods for one input. *)
From Coq Require Import String Floats.SpecFloat Lia.
From Verif Require Import PyBase Env PyNum Validate Basic Spec EnvOk NumSpec TxInput TxOutput Tx TxApi TxSpec SignSpec HelperSpec Demo DemoTx.
From Verif Require Import NumLemmas HexProofs Base58Proofs AddrProofs NumProofs WireProofs SignProofs HelperProofs DemoProofs DemoTxProofs.
From Verif Require C_Cli.
Open Scope Z_scope.

Section WithEnv.
Context {E : Env}.

(** C89.  Applied to the hex of a byte string, the four hash helpers return the hex of its SHA-256, RIPEMD-160, double SHA-256 and of the first
    four bytes of the latter; any other text is refused with ValueError. *)
Lemma c89_hashes : HashOk E -> forall x,
  (forall bs, bytes bs -> x = hex_of bs ->
     get_sha256 x = Ok (hex_of (sha256 bs)) /\ get_ripemd160 x = Ok (hex_of (ripemd160 bs)) /\
     get_double_sha256 x = Ok (hex_of (sha256 (sha256 bs))) /\ get_double_sha256_checksum x = Ok (hex_of (firstn 4 (sha256 (sha256 bs))))) /\
  (~ is_hex x ->
     get_sha256 x = Err ValueError /\ get_ripemd160 x = Err ValueError /\ get_double_sha256 x = Err ValueError /\ get_double_sha256_checksum x = Err ValueError).
Proof.
  intros HH x. split.
  - intros bs B ->. split; [apply get_sha256_ok; auto|]. split; [|split; [apply get_double_sha256_ok; auto|apply get_checksum_ok; auto]].
    unfold get_ripemd160. rewrite validate_hex_ok by auto. cbn [bind]. rewrite bytes_fromhex_ok by auto. cbn [bind]. rewrite bytes_hex_hex_of by apply HH. reflexivity.
  - intros N. assert (V : validate_hex (PStr x) = Err ValueError) by (destruct (validate_hex_cases x) as [[Y _]|[_ V]]; [tauto|auto]).
    unfold get_double_sha256_checksum, get_double_sha256, get_sha256, get_ripemd160. rewrite V. auto.
Qed.

(** C89.  get_public_key_hash reads its argument as bytes.fromhex does (upper case, and spaces between the bytes, are accepted) and hashes the byte 04
    followed by whatever was read, of any length; other text is refused with ValueError. *)
Lemma c89_public_key_hash : HashOk E -> forall x,
  (forall bs, spaced_hex x bs -> get_public_key_hash x = Ok (hex_of (ripemd160 (sha256 (4 :: bs))))) /\
  ((forall bs, ~ spaced_hex x bs) -> get_public_key_hash x = Err ValueError).
Proof.
  intros HH x. unfold get_public_key_hash. cbv zeta.
  assert (S4 : forall bs, spaced_hex (lit "04" ++ x) bs <-> exists r, bs = 4 :: r /\ spaced_hex x r).
  { intros bs. change (lit "04" ++ x) with (48 :: 52 :: x). split.
    - intros H. inversion H as [|? ? ? Q|c d h l s r C D R Q]; subst. exists r. split; auto. f_equal. unfold hex_digit in *. lia.
    - intros (r & -> & R). change 4 with (16 * 0 + 4). constructor; auto; left; lia. }
  split.
  - intros bs S. assert (F : bytes_fromhex (lit "04" ++ x) = Ok (4 :: bs)) by (apply fromhex_iff, S4; eauto). rewrite F. cbn [bind].
    rewrite bytes_hex_hex_of by apply HH. rewrite validate_hex_length_ok by apply HH. reflexivity.
  - intros N. destruct (bytes_fromhex (lit "04" ++ x)) as [bs|e] eqn:F.
    + exfalso. apply fromhex_iff, S4 in F as (r & _ & R). apply (N r R).
    + cbn [bind]. f_equal. eapply fromhex_class; eauto.
Qed.

(** C89, naive claim "get_public_key_hash refuses what is no 64-byte public key" refuted: the empty text is hashed, too, and so is every address made
    from it. *)
Lemma c89_any_length_refuted : HashOk E -> get_public_key_hash [] = Ok (hex_of (ripemd160 (sha256 [4]))) /\ exists a, public_key_hex_to_address [] = Ok a.
Proof.
  intros HH. assert (Q : get_public_key_hash [] = Ok (hex_of (ripemd160 (sha256 [4])))) by (apply (c89_public_key_hash HH []); constructor). split; auto.
  unfold public_key_hex_to_address. rewrite Q. cbn [bind]. destruct (hash_to_address_ok HH (ripemd160 (sha256 [4]))) as (a & A & _); [apply HH|apply HH|]. eauto.
Qed.

(** C90.  validate_string, validate_list, validate_dict and validate_boolean accept exactly the values of their type, whatever they contain, and raise
    TypeError for all others; in particular an int is no bool. *)
Lemma c90_types : forall v,
  (validate_string v = Ok tt <-> exists s, v = PStr s) /\ (validate_list v = Ok tt <-> exists l, v = PList l) /\
  (validate_dict v = Ok tt <-> exists d, v = PDict d) /\ (validate_boolean v = Ok tt <-> exists b, v = PBool b) /\
  Forall (fun r => r <> Ok tt -> r = Err TypeError) [validate_string v; validate_list v; validate_dict v; validate_boolean v].
Proof.
  intros v. repeat split; try (intros [x ->]; reflexivity); try (destruct v; intros H; try discriminate; eauto).
  destruct v; repeat constructor; intros H; reflexivity || contradiction.
Qed.

(** C91.  Whatever signature one of the three signing functions returns is 64 bytes of hex and is accepted by the matching verification function
    under the public key of the signing key. *)
Lemma c91_signatures : SignOk E -> forall key pub, key_pub key pub ->
  (forall d s, create_deterministic_signature key (hex_of d) = Ok s -> bytes d ->
     (exists sig, bytes sig /\ length sig = 64%nat /\ s = hex_of sig) /\ verify_signature (PStr (hex_of pub)) (PStr (hex_of d)) (PStr s) = Ok true) /\
  (forall d s, create_deterministic_signature_for_digest key (hex_of d) = Ok s -> bytes d ->
     (exists sig, bytes sig /\ length sig = 64%nat /\ s = hex_of sig) /\ verify_signature_digest (hex_of pub) (hex_of d) s = Ok true) /\
  (forall d k s, create_signature_for_digest key (hex_of d) k = Ok s -> bytes d ->
     (exists sig, bytes sig /\ length sig = 64%nat /\ s = hex_of sig) /\ verify_signature_digest (hex_of pub) (hex_of d) s = Ok true).
Proof.
  intros (S1 & S2 & S3) key pub (_ & _ & P & BP & LP). split; [|split].
  - intros d s H B. destruct (S3 _ _ _ H) as [X V]. split; auto. destruct X as (sig & Bs & Ls & ->). unfold verify_signature.
    rewrite !validate_hex_length_ok by auto. rewrite validate_hex_ok by auto. cbn [bind as_str]. apply V. auto.
  - intros d s H B. destruct (S1 _ _ _ H) as [X V]. split; auto. unfold verify_signature_digest, validate_hex_bad_name. rewrite validate_hex_length_ok by auto. rewrite validate_hex_ok by auto. cbn [bind]. apply V. auto.
  - intros d k s H B. destruct (S2 _ _ _ _ H) as [X V]. split; auto. unfold verify_signature_digest, validate_hex_bad_name. rewrite validate_hex_length_ok by auto. rewrite validate_hex_ok by auto. cbn [bind]. apply V. auto.
Qed.

(** C91.  private_key_hex_to_address and private_key_hex_to_public_key_hex agree: an address is returned exactly if the key, brought into form, is
    valid, and it is the address of the public key returned by the other; otherwise both raise the same exception. *)
Lemma c91_address : HashOk E -> KeysOk E -> forall k,
  (forall pub, private_key_hex_to_public_key_hex k = Ok (hex_of pub) -> bytes pub ->
     exists a, private_key_hex_to_address k = Ok a /\ is_address (hash160 pub) a) /\
  (forall a, private_key_hex_to_address k = Ok a -> exists key pub, ec_format_private_key_hex k = Ok key /\ key_pub key pub /\
     private_key_hex_to_public_key_hex k = Ok (hex_of pub) /\ is_address (hash160 pub) a) /\
  (forall e, private_key_hex_to_address k = Err e <-> private_key_hex_to_public_key_hex k = Err e).
Proof.
  intros HH HK k. pose proof HK as (K1 & K2 & K3).
  assert (R : private_key_hex_to_address k = (p <- private_key_hex_to_public_key_hex k ;; public_key_hex_to_address p)).
  { unfold private_key_hex_to_address, private_key_hex_to_public_key_hex. destruct (ec_format_private_key_hex k) as [k'|e]; cbn [bind]; auto. destruct (ec_validate_private_key_hex k') as [[]|e]; cbn [bind]; auto. }
  assert (P : forall p, private_key_hex_to_public_key_hex k = Ok p -> exists key pub, ec_format_private_key_hex k = Ok key /\ key_pub key pub /\ p = hex_of pub).
  { intros p H. unfold private_key_hex_to_public_key_hex in H. inv_bind H k' F. inv_bind H u V. destruct u. destruct (K2 _ V) as (_ & pub & B & L & Q). exists k', pub. split; auto. split; [|congruence].
    split; [eapply K1; eauto|]. auto. }
  assert (A : forall pub, bytes pub -> exists a, public_key_hex_to_address (hex_of pub) = Ok a /\ is_address (hash160 pub) a).
  { intros pub B. destruct (hash_to_address_ok HH (hash160 pub) (hash160_bytes HH pub) (hash160_length HH pub)) as (a & _ & I). exists a. split; auto. apply public_key_to_address_iff; auto. }
  split; [|split].
  - intros pub H B. destruct (A pub B) as (a & Q & I). exists a. split; auto. rewrite R, H. exact Q.
  - intros a H. rewrite R in H. inv_bind H p HP. destruct (P p HP) as (key & pub & F & KP & ->). pose proof KP as (_ & _ & _ & B & _). exists key, pub. split; auto. split; auto. split; auto.
    apply public_key_to_address_iff in H; auto.
  - intros e. rewrite R. destruct (private_key_hex_to_public_key_hex k) as [p|e'] eqn:HP; cbn [bind]; [|tauto]. split; [|discriminate].
    destruct (P p eq_refl) as (key & pub & F & KP & ->). pose proof KP as (_ & _ & _ & B & _). destruct (A pub B) as (a & Q & _). rewrite Q. discriminate.
Qed.

(** C91.  count_leading_zero_bytes counts the leading zero bytes of hex. *)
Lemma c91_zero_bytes : forall n bs, bytes bs -> no_lead0 bs -> count_leading_zero_bytes (hex_of (repeat 0 n ++ bs)) = n.
Proof. intros. apply count_zeros; auto. Qed.

(** C92.  hex_to_int reads exactly what int(x, 16) reads: hexadecimal digits of either case with single underscores between them, after an optional
    sign and an optional prefix 0x (with an optional underscore), within white space; everything else is a ValueError. *)
Lemma c92_hex_to_int : UniOk E -> forall x,
  (forall n, hex_to_int x = Ok n <-> hex_int_text x n) /\ ((forall n, ~ hex_int_text x n) -> hex_to_int x = Err ValueError).
Proof.
  intros HU x. split; [intros n; apply hex_int_iff; auto|]. intros N. destruct (hex_to_int x) as [n|e] eqn:H.
  - apply (hex_int_iff HU) in H. destruct (N _ H).
  - f_equal. eapply hex_int_class; eauto.
Qed.

(** C92, naive claim "hex_to_int accepts only hex" refuted: a negative number with a prefix and underscores. *)
Lemma c92_only_hex_refuted : UniOk E -> ~ is_hex (lit " -0x_F_f ") /\ hex_to_int (lit " -0x_F_f ") = Ok (-255).
Proof.
  intros HU. split; [|reflexivity]. intros H. destruct (validate_hex_cases (lit " -0x_F_f ")) as [[_ V]|[N _]]; [discriminate|tauto].
Qed.

Lemma no_script_form : forall t ins outs, tx_header t -> Forall2 (fun x i => in_outpoint x (i_txid i) (i_index i)) (tx_inputs t) ins -> Forall2 out_wire (tx_outputs t) outs ->
  to_hex_signable_form t (length (tx_inputs t)) = Ok (hex_of (no_script_bytes ins outs)) /\ bytes (no_script_bytes ins outs).
Proof.
  intros t ins outs (A1 & A2 & A3 & A4 & A5 & A6 & A7 & A8) HI HO. split.
  - assert (X : forall xs is pos k, Forall2 (fun x i => in_outpoint x (i_txid i) (i_index i)) xs is -> (pos + length xs <= k)%nat ->
      signable_inputs pos k xs = Ok (hex_of (flat_map input_bytes (map (fun i => mk_sinput (i_txid i) (i_index i) []) is)))).
    { clear. intros xs is pos k H. revert pos. induction H as [|x i xs is Hx H IH]; intros pos L; [reflexivity|].
      cbn [signable_inputs map flat_map length] in *. destruct (Nat.eqb_spec pos k) as [C|C]; [lia|].
      rewrite (signable_empty_hex x i Hx). cbn [bind]. rewrite IH by lia. cbn [bind]. rewrite hex_of_app. reflexivity. }
    unfold to_hex_signable_form. rewrite (X _ _ 0%nat _ HI) by lia. cbn [bind].
    rewrite (outs_wire_hex _ _ HO), A1, A2, A3, A5, A7, (F2_len _ _ _ _ _ HI), (F2_len _ _ _ _ _ HO).
    unfold no_script_bytes, wire. rewrite map_length, !hex_of_app, <- !app_assoc. reflexivity.
  - unfold no_script_bytes. apply bytes_app. split; [|apply le_bytes_bytes]. apply wire_bytes. split; [|split; [eapply outs_ok; eauto|split]].
    + pose proof (ins_ok _ _ HI) as FI. clear - FI. induction FI as [|i r (B1 & B2 & B3) FI IH]; constructor; auto. repeat split; auto; try apply B3. constructor. cbn. lia.
    + rewrite map_length, <- (F2_len _ _ _ _ _ HI). auto.
    + rewrite <- (F2_len _ _ _ _ _ HO). auto.
Qed.
Lemma one_input : HashOk E -> forall t i form, - Z.of_nat (length (tx_inputs t)) <= i < Z.of_nat (length (tx_inputs t)) -> to_hex_signable_form_at t i = Ok (hex_of form) -> bytes form ->
  (forall key, create_signature_for_one_input_at t i key None = ec_sign_digest key (hex_of (digest form)) /\ create_signature_for_one_input_at t i key (Some []) = ec_sign_digest key (hex_of (digest form))) /\
  (forall key k, k <> [] -> create_signature_for_one_input_at t i key (Some k) = ec_sign_digest_k key (hex_of (digest form)) k) /\
  (forall pub s, bytes pub -> length pub = 64%nat -> verify_signature_for_one_input_at t i (hex_of pub) s = ec_verify_digest (hex_of pub) (hex_of (digest form)) s).
Proof.
  intros HH t i form R F B. assert (C : check_index t i = Ok tt).
  { unfold check_index. cbv zeta. destruct (Z.leb_spec (- Z.of_nat (length (tx_inputs t))) i); [|lia]. destruct (Z.ltb_spec i (Z.of_nat (length (tx_inputs t)))); [reflexivity|lia]. }
  unfold create_signature_for_one_input_at, verify_signature_for_one_input_at. rewrite C, F. cbn [bind]. rewrite get_double_sha256_ok by auto. cbn [bind]. fold (digest form).
  destruct (bytes_digest HH form) as [BD LD]. rewrite validate_hex_length_ok by auto. cbn [bind]. split; [|split].
  - auto.
  - intros key [|c k] N; [congruence|reflexivity].
  - intros pub s BP LP. unfold verify_signature_digest, validate_hex_bad_name. rewrite validate_hex_length_ok, validate_hex_ok by auto. reflexivity.
Qed.

(** C93.  create_signature_for_one_input and verify_signature_for_one_input, called with the number of an input that spends an output of address hash h,
    sign and check exactly the digest that sign and verify use for this input: an absent or empty nonce means a deterministic signature, any other
    nonce is handed to the library. *)
Lemma c93_position : HashOk E -> forall t ins outs n x h, tx_body t ins outs -> nth_error (tx_inputs t) n = Some x -> in_owner x h ->
  let d := hex_of (digest (sighash_bytes n (p2pkh h) ins outs)) in
  (forall key, create_signature_for_one_input_at t (Z.of_nat n) key None = ec_sign_digest key d /\ create_signature_for_one_input_at t (Z.of_nat n) key (Some []) = ec_sign_digest key d) /\
  (forall key k, k <> [] -> create_signature_for_one_input_at t (Z.of_nat n) key (Some k) = ec_sign_digest_k key d k) /\
  (forall pub s, bytes pub -> length pub = 64%nat -> verify_signature_for_one_input_at t (Z.of_nat n) (hex_of pub) s = ec_verify_digest (hex_of pub) d s).
Proof.
  intros HH t ins outs n x h (T & HI & HO & _) N (O1 & O2 & O3 & O4). cbv zeta. apply one_input; auto.
  - assert (L : (n < length (tx_inputs t))%nat) by (apply nth_error_Some; congruence). lia.
  - unfold to_hex_signable_form_at. destruct (Z.ltb_spec (Z.of_nat n) 0); [lia|]. rewrite Nat2Z.id. apply signable_ok; auto. exists x. destruct O1 as (_ & Lh & _).
    split; auto. split; auto. unfold len. rewrite p2pkh_length, Lh. auto.
  - destruct O1 as (Bh & Lh & _). eapply sighash_bytes_ok; eauto; [apply bytes_p2pkh; auto|unfold len; rewrite p2pkh_length, Lh; cbn; lia].
Qed.

(** C93.  A signature made for an input is accepted for this input, under the public key of the signing key. *)
Lemma c93_accepted : HashOk E -> SignOk E -> forall t ins outs n x h key pub k s, tx_body t ins outs -> nth_error (tx_inputs t) n = Some x -> in_owner x h -> key_pub key pub ->
  create_signature_for_one_input_at t (Z.of_nat n) key k = Ok s -> verify_signature_for_one_input_at t (Z.of_nat n) (hex_of pub) s = Ok true.
Proof.
  intros HH (S1 & S2 & _) t ins outs n x h key pub k s B N O (_ & _ & P & BP & LP) H. destruct (c93_position HH t ins outs n x h B N O) as (C1 & C2 & C3). rewrite C3 by auto.
  destruct (C1 key) as [D1 D2]. destruct k as [[|c k]|].
  - apply (S1 key _ s); [exact (eq_trans (eq_sym D2) H)|auto].
  - apply (S2 key _ (c :: k) s); [exact (eq_trans (eq_sym (C2 key (c :: k) ltac:(discriminate))) H)|auto].
  - apply (S1 key _ s); [exact (eq_trans (eq_sym D1) H)|auto].
Qed.

(** C93.  A number beyond the inputs, from either end, is an IndexError. *)
Lemma c93_index : forall t i, i < - Z.of_nat (length (tx_inputs t)) \/ Z.of_nat (length (tx_inputs t)) <= i ->
  (forall key k, create_signature_for_one_input_at t i key k = Err IndexError) /\ (forall pub s, verify_signature_for_one_input_at t i pub s = Err IndexError).
Proof.
  intros t i H. assert (C : check_index t i = Err IndexError).
  { unfold check_index. cbv zeta. destruct (Z.leb_spec (- Z.of_nat (length (tx_inputs t))) i); [|reflexivity]. destruct (Z.ltb_spec i (Z.of_nat (length (tx_inputs t)))); [lia|reflexivity]. }
  unfold create_signature_for_one_input_at, verify_signature_for_one_input_at. rewrite C. auto.
Qed.

(** C93, naive claim "a negative number counts from the end, as it does everywhere in Python" refuted: the number passes the check of the index, but
    then selects no input; every negative number signs and checks the same bytes, those of the transaction without any script. *)
Lemma c93_negative_refuted : HashOk E -> forall t ins outs i, tx_body t ins outs -> - Z.of_nat (length (tx_inputs t)) <= i < 0 ->
  let d := hex_of (digest (no_script_bytes ins outs)) in
  (forall key, create_signature_for_one_input_at t i key None = ec_sign_digest key d /\ create_signature_for_one_input_at t i key (Some []) = ec_sign_digest key d) /\
  (forall key k, k <> [] -> create_signature_for_one_input_at t i key (Some k) = ec_sign_digest_k key d k) /\
  (forall pub s, bytes pub -> length pub = 64%nat -> verify_signature_for_one_input_at t i (hex_of pub) s = ec_verify_digest (hex_of pub) d s).
Proof.
  intros HH t ins outs i (T & HI & HO & _) R. cbv zeta. destruct (no_script_form t ins outs T HI HO) as [F B]. apply one_input; auto; [lia|].
  unfold to_hex_signable_form_at. destruct (Z.ltb_spec i 0); [exact F|lia].
Qed.

End WithEnv.

(** Beside C89: spaces and upper case. *)
Example ex89_demo : spaced_hex (lit " 0a F0") [10; 240] /\ HashOk demo_env /\ ~ is_hex (lit "0A").
Proof.
  split; [|split; [exact demo_hash|]].
  - repeat first [apply a_space | apply (a_byte 48 97 0 10); [left; lia|right; lia|] | apply (a_byte 70 48 15 0); [right; lia|left; lia|] | apply no_bytes].
  - intros H. destruct (validate_hex_cases (lit "0A")) as [[_ V]|[N _]]; [discriminate|tauto].
Qed.

(** Beside C91: a key that is brought into form by zeros. *)
Example ex91_demo : (exists pub, @key_pub demo_env key1 pub) /\ SignOk demo_env /\ KeysOk demo_env /\
  (exists s, @create_signature_for_digest demo_env key1 (hex_of [1; 2]) key2 = Ok s) /\
  (exists a, @private_key_hex_to_address demo_env (lit "01") = Ok a).
Proof.
  split; [apply C_Cli.ex64_demo|]. split; [apply demo_crypto|]. split; [exact demo_keys|]. split; eexists; vm_compute; reflexivity.
Qed.

(** Beside C92. *)
Example ex92_demo : UniOk demo_env /\ @hex_int_text demo_env (lit "0XfF") 255 /\ @hex_to_int demo_env (lit "0x") = Err ValueError /\ @hex_to_int demo_env (lit "f__f") = Err ValueError.
Proof. split; [exact demo_uni|]. split; [apply (hex_int_iff demo_uni); reflexivity|]. split; reflexivity. Qed.

(** Beside C93: a signature made for input -1 is accepted for input -2, but not for the last input, nor for any other. *)
Example ex93_demo : (exists ins outs, @tx_body demo_env created ins outs) /\
  exists pub s, @private_key_hex_to_public_key_hex demo_env key2 = Ok pub /\ @create_signature_for_one_input_at demo_env created (-1) key2 None = Ok s /\
    map (fun i => @verify_signature_for_one_input_at demo_env created i pub s) [-3; -2; -1; 0; 1; 2] = [Err IndexError; Ok true; Ok true; Ok false; Ok false; Err IndexError].
Proof.
  split; [exact demo_body|]. eexists _, _. split; [vm_compute; reflexivity|]. split; [vm_compute; reflexivity|]. vm_compute. reflexivity.
Qed.
