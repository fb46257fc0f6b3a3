(** C100: what is said when signing is refused. *)
From Coq Require Import String Floats.SpecFloat Lia.
From Verif Require Import PyBase Env PyNum Validate Basic Spec EnvOk ValidSpec TxInput TxOutput Tx TxSpec SignSpec JsonSpec Cli Messages MessagesSpec Complaints ComplaintsSpec Answer BasicSays BasicSaysSpec DocSays DocSaysSpec AsWrittenSpec CliSays SignSays SignSaysSpec Demo DemoTx.
From Verif Require Import NumLemmas HexProofs Base58Proofs AddrProofs PrepProofs AmountProofs DesignProofs ScriptProofs WireProofs MakeProofs SignProofs JsonProofs DemoProofs C_Valid C_Messages C_Complaints C_Amount C_BasicSays C_DocSays C_Sign C_AsWritten DemoTxProofs.
Open Scope Z_scope.

Section WithEnv.
Context {E : Env}.

(** *** The same as without texts. *)
Definition undo {A} (m : attempt A) : res A := match m with Good x => Ok x | Bad e _ => Err e end.
Definition undone (w : ending) : res unit := match w with Finished => Ok tt | Own e _ => Err e | Passed e => Err e end.
Lemma undone_stop : forall e text, undone (stop e text) = Err e.
Proof. intros e [s|]; reflexivity. Qed.
Lemma same_next : forall {A B} (m : res A) (a : attempt A) (k : A -> res B) (k' : A -> attempt B), m = undo a -> (forall x, a = Good x -> k x = undo (k' x)) -> bind m k = undo (next a k').
Proof. intros A B m [x|e t] k k' -> H; cbn [undo bind next]; [now apply H|reflexivity]. Qed.
Lemma same_theirs : forall {A} (m : res A), m = undo (theirs m).
Proof. intros A [x|e]; reflexivity. Qed.
Lemma same_surely : forall {A} (m : res A), m = undo (surely m).
Proof. intros A [x|e]; reflexivity. Qed.
Lemma same_ours : forall {A} (m : res A) (a : answer A), m = unsaid a -> m = undo (ours a).
Proof. intros A m [x|e t] ->; reflexivity. Qed.
Lemma same_checked : forall repr v n, validate_hex_length v n = undo (ours (check (hex_length_check repr v (Z.of_nat n)) (Gives tt))).
Proof. intros repr v n. rewrite (same_length repr v n). destruct (hex_length_check repr v (Z.of_nat n)) as [[e t]|]; reflexivity. Qed.
Lemma same_key_map : forall repr keys m, build_key_map keys m = undo (key_map_says repr keys m).
Proof.
  intros repr. induction keys as [|k keys IH]; intros m; cbn [build_key_map key_map_says]; [reflexivity|]. apply same_next; [apply (same_checked repr _ 32)|]. intros [] _. unfold private_key_hex_to_address.
  destruct (ec_format_private_key_hex k) as [k'|]; cbn [bind theirs next undo]; [|reflexivity]. destruct (ec_validate_private_key_hex k') as [[]|]; cbn [bind theirs next undo]; [|reflexivity].
  destruct (ec_public_key k') as [p|]; cbn [bind theirs next undo]; [|reflexivity]. apply same_next; [apply same_surely|]. intros a _. apply IH.
Qed.
Lemma same_signature : forall repr t i k rv, create_signature_for_one_input t i k rv = undo (signature_says repr t i k rv).
Proof.
  intros repr t i k rv. unfold create_signature_for_one_input, signature_says, signable_says. destruct (to_hex_signable_form t i) as [f|e]; cbn [bind next]; [|reflexivity].
  apply same_next; [apply same_surely|]. intros d _. apply same_next; [apply (same_checked repr _ 32)|]. intros [] _. apply same_theirs.
Qed.
Lemma same_make : forall repr t i k p rv, make_script_sig t i k p rv = undo (make_script_says repr t i k p rv).
Proof.
  intros repr t i k p rv. unfold make_script_sig, make_script_says. apply same_next; [apply same_ours, same_hex_len|]. intros _ _. apply same_next; [apply same_signature|]. intros s _. apply same_surely.
Qed.
Lemma same_random : forall rv i, random_value_at rv i = undo (random_value_says rv i).
Proof. intros [[|a l]|] i; cbn [random_value_at random_value_says]; try reflexivity. destruct (nth_error _ i); reflexivity. Qed.
Lemma same_public : forall k, private_key_hex_to_public_key_hex k = undo (public_key_says k).
Proof.
  intros k. unfold private_key_hex_to_public_key_hex, public_key_says. apply same_next; [apply same_theirs|]. intros k' _. apply same_next; [apply same_theirs|]. intros [] _. apply same_theirs.
Qed.
Lemma same_sign_loop : forall repr t m rv todo dn, sign_loop t m rv dn todo = (undone (fst (sign_loop_says repr t m rv dn todo)), snd (sign_loop_says repr t m rv dn todo)).
Proof.
  intros repr t m rv. induction todo as [|x todo IH]; intros dn; cbn [sign_loop sign_loop_says]; [reflexivity|]. cbv zeta. rewrite same_random. destruct (random_value_says rv (length dn)) as [k|e text]; cbn [undo]; [|cbn [fst snd]; now rewrite undone_stop].
  destruct (map_find (ti_address x) m) as [key|]; [|reflexivity]. rewrite same_public. destruct (public_key_says key) as [p|e text]; cbn [undo]; [|cbn [fst snd]; now rewrite undone_stop].
  rewrite (same_make repr). destruct (make_script_says repr _ _ key p k) as [[[l n] s]|e text]; cbn [undo]; [apply IH|cbn [fst snd]; now rewrite undone_stop].
Qed.
Lemma same_check_random : forall keys rv, check_random_values keys rv = undo (check_random_says keys rv).
Proof. intros keys [[|a l]|]; cbn [check_random_values check_random_says]; try reflexivity. destruct (negb _); [reflexivity|]. destruct (negb _); reflexivity. Qed.

(** C100.  Without the texts this is the function of C25: the same exceptions, the same object after the call. *)
Lemma c100_same : forall repr t keys rv,
  sign t keys rv = (match fst (sign_says repr t keys rv) with Finished => Ok tt | Own e _ => Err e | Passed e => Err e end, snd (sign_says repr t keys rv)).
Proof.
  intros repr t keys rv. unfold sign, sign_says. rewrite same_check_random. destruct (check_random_says keys rv) as [[]|e text]; cbn [undo]; [|destruct text; reflexivity].
  rewrite (same_key_map repr). destruct (key_map_says repr keys []) as [m|e text]; cbn [undo]; [|destruct text; reflexivity]. rewrite (same_sign_loop repr). destruct (sign_loop_says repr t m rv [] (tx_inputs t)) as [w ins]. reflexivity.
Qed.

(** *** The keys. *)
Lemma key_tried : HashOk E -> KeysOk E -> forall repr k, (exists a, controls k a /\ forall r m, key_map_says repr (k :: r) m = key_map_says repr r (map_set a k m)) \/
  (~ usable k /\ exists e text, (forall r m, key_map_says repr (k :: r) m = Bad e text) /\
     ((exists s, text = Some s /\ a_hex_of repr 32 (PStr k) (Some (e, s))) \/ (text = None /\ exists bs, k = hex_of bs /\ bytes bs /\ length bs = 32%nat /\ ec_validate_private_key_hex (hex_of bs) = Err e))).
Proof.
  intros HH HK repr k. destruct (hex_length_check repr (PStr k) 32) as [[e s]|] eqn:C.
  - right. split.
    + intros (a & pub & ((bs & B & L & ->) & _) & _). enough (hex_length_check repr (PStr (hex_of bs)) 32 = None) by congruence. exact (outcome_ok _ _ (same_length repr (PStr (hex_of bs)) 32) (validate_hex_length_ok bs 32 B L)).
    + exists e, (Some s). split; [intros r m; cbn [key_map_says]; rewrite C; reflexivity|]. left. exists s. split; [reflexivity|]. now apply hex_of_test.
  - destruct (hex_length_checked repr (PStr k) 32 C) as (bs & B & L & D). injection D as ->. pose proof HK as (_ & K2 & K3). destruct (ec_validate_private_key_hex (hex_of bs)) as [[]|e] eqn:V.
    + left. destruct (K2 _ V) as (F & p & Bp & Lp & P). destruct (hash_to_address_ok HH (hash160 p)) as [a [Ha _]]; [now apply hash160_bytes|now apply hash160_length|].
      assert (Pa : public_key_hex_to_address (hex_of p) = Ok a) by (unfold public_key_hex_to_address; rewrite (get_public_key_hash_ok HH p Bp); exact Ha).
      exists a. split; [exists p; split; [repeat split; auto; exists bs; auto|]; now apply (public_key_to_address_iff HH)|].
      intros r m. cbn [key_map_says]. rewrite C. cbn [check ours next]. rewrite F. cbn [theirs next]. rewrite V. cbn [theirs next]. rewrite P. cbn [theirs next]. rewrite Pa. reflexivity.
    + right. split; [intros (a & pub & (_ & V' & _) & _); congruence|]. exists e, None. split; [|right; eauto 8]. intros r m. cbn [key_map_says]. rewrite C. cbn [check ours next]. rewrite (K3 bs B L). cbn [theirs next]. rewrite V. reflexivity.
Qed.
Lemma keys_tried : HashOk E -> KeysOk E -> forall repr keys m, (Forall usable keys /\ exists m', key_map_says repr keys m = Good m') \/
  (exists pre k post e text, keys = pre ++ k :: post /\ Forall usable pre /\ key_map_says repr keys m = Bad e text /\ 
     ((exists s, text = Some s /\ a_hex_of repr 32 (PStr k) (Some (e, s))) \/ (text = None /\ exists bs, k = hex_of bs /\ bytes bs /\ length bs = 32%nat /\ ec_validate_private_key_hex (hex_of bs) = Err e))).
Proof.
  intros HH HK repr. induction keys as [|k keys IH]; intros m; [left; split; [constructor|eexists; reflexivity]|]. destruct (key_tried HH HK repr k) as [(a & C & Q)|(_ & e & text & Q & W)].
  - rewrite Q. destruct (IH (map_set a k m)) as [(F & m' & G)|(pre & k' & post & e & text & -> & F & G & W)]; [left|right].
    + split; [constructor; [exists a; exact C|exact F]|eauto].
    + exists (k :: pre), k', post, e, text. split; [reflexivity|]. split; [constructor; [exists a; exact C|exact F]|auto].
  - right. exists [], k, keys, e, text. split; [reflexivity|]. split; [constructor|]. split; [apply Q|exact W].
Qed.

(** *** The inputs. *)
Lemma written_snoc : forall keys rv ins outs x x' key pre n dn, signing_as_written keys rv ins outs n pre (Ok tt) dn -> ~ no_nonce rv (n + length pre) -> In key keys -> signed_as_written key rv ins outs (n + length pre) x x' ->
  signing_as_written keys rv ins outs n (pre ++ [x]) (Ok tt) (dn ++ [x']).
Proof.
  intros keys rv ins outs x x' key. induction pre as [|y pre IH]; intros n dn S0 NN IK SX.
  - inversion S0; subst. cbn [length] in *. rewrite Nat.add_0_r in *. cbn [app]. eapply sw_signed; eauto. constructor.
  - inversion S0; subst. cbn [app]. eapply sw_signed; eauto. cbn [length] in *. apply IH; auto; now replace (S n + length pre)%nat with (n + S (length pre))%nat by lia.
Qed.
Lemma make_said : CryptoOk E -> forall repr t i form key pub k, to_hex_signable_form t i = Ok (hex_of form) -> bytes form -> bytes pub ->
  forall e, signature key (digest form) (opt_nonce k) = Err e -> make_script_says repr t i key (hex_of pub) k = Bad e None.
Proof.
  intros (HH & HZ & HK & HS & HP & HD) repr t i form key pub k F Bf Bp e SG. unfold make_script_says. rewrite hex_length_says by auto. cbn [ours next]. unfold signature_says, signable_says. rewrite F. cbn [next].
  rewrite (get_double_sha256_ok HH form Bf). cbn [surely next].
  assert (BD : bytes (digest form)) by apply HH. assert (LD : length (digest form) = 32%nat) by apply HH. fold (digest form).
  rewrite (outcome_ok _ _ (same_length repr (PStr (hex_of (digest form))) 32) (validate_hex_length_ok _ 32 BD LD) : hex_length_check repr (PStr (hex_of (digest form))) 32 = None). cbn [check ours next].
  unfold signature in SG. destruct k as [[|c k]|]; cbn [opt_nonce] in SG; unfold create_deterministic_signature_for_digest, create_signature_for_digest; rewrite SG; reflexivity.
Qed.
Lemma loop_ends : CryptoOk E -> forall repr t ins outs keys rv m todo dn pre, written_tx t ins outs ->
  (forall a, (exists k, map_find a m = Some k /\ In k keys /\ controls k a) \/ (map_find a m = None /\ forall k, In k keys -> ~ controls k a)) ->
  tx_inputs t = pre ++ todo -> signing_as_written keys rv ins outs 0 pre (Ok tt) dn ->
  match fst (sign_loop_says repr t m rv dn todo) with
  | Finished => exists xs', signing_as_written keys rv ins outs 0 (tx_inputs t) (Ok tt) xs'
  | w => input_refused keys rv ins outs (tx_inputs t) w
  end.
Proof.
  intros HC repr t ins outs keys rv m. pose proof HC as (HH & HZ & HK & HS & HP & HD). induction todo as [|x todo IH]; intros dn pre HB HM HT SW; cbn [sign_loop_says].
  - cbn [fst]. rewrite HT, app_nil_r. eauto.
  - pose proof (written_unsign _ _ _ _ _ _ _ _ SW) as HU. assert (LP : length dn = length pre) by (rewrite <- (map_length unsign dn), HU, map_length; auto). cbv zeta.
    destruct (no_nonce_random rv (length dn)) as [[NN Q]|[NN [k [Q NK]]]]; rewrite same_random in Q; destruct (random_value_says rv (length dn)) as [k0|e0 t0] eqn:RV; try discriminate Q.
    { rewrite LP in *. unfold random_value_says in RV. assert (X : e0 = IndexError /\ t0 = Some (lit "list index out of range")). { destruct rv as [[|a l]|]; try discriminate RV. destruct (nth_error (a :: l) (length pre)); [discriminate RV|]. now injection RV as <- <-. }
      destruct X as [-> ->]. cbn [fst stop]. eapply input_no_nonce; eauto. }
    injection Q as ->. destruct (HM (ti_address x)) as [[key [MF [IK [pub [KP IA]]]]]|[MF NC]]; rewrite MF; [|cbn [fst]; eapply input_no_key; eauto; now rewrite <- LP].
    pose proof (key_public HK key pub KP) as PK. rewrite same_public in PK. destruct (public_key_says key) as [p0|]; [|discriminate PK]. injection PK as ->.
    assert (MU : map unsign (dn ++ set_public_key x (hex_of pub) :: todo) = map unsign (tx_inputs t)) by (rewrite HT, !map_app, HU; reflexivity).
    assert (NT : nth_error (tx_inputs t) (length dn) = Some x) by (rewrite HT, LP; apply nth_mid).
    destruct (written_form HH t ins outs _ _ x HB MU NT) as [FO FN]. pose proof KP as (_ & _ & _ & Bp & Lp).
    assert (SC : (exists spk, in_spk x spk) \/ ti_script_pub_key x = None). { destruct HB as (_ & _ & _ & F). rewrite Forall_forall in F. apply F. eapply nth_error_In; eauto. }
    destruct SC as [(spk & SP)|S0].
    + destruct (FO spk SP) as [F0 FB].
      destruct (make_script_spec HH HS HP HD _ _ _ key pub k F0 FB) as [(sig & Bs & Ls & SG & D1 & D2 & MK)|(e & SG & MK)]; auto.
      { destruct HB as [(_ & _ & _ & T & _) _]. exact T. }
      * rewrite (same_make repr) in MK. destruct (make_script_says repr _ _ key (hex_of pub) k) as [[[l n] s]|]; [|discriminate MK]. cbn [undo] in MK. assert (MK' : (l, n, s) = (hex_of [len (build_script_sig (der_of sig) pub)], len (build_script_sig (der_of sig) pub), hex_of (build_script_sig (der_of sig) pub))) by congruence.
        apply pair_equal_spec in MK'. destruct MK' as [MK' ->]. apply pair_equal_spec in MK'. destruct MK' as [-> ->]. set (x' := set_script _ _ _ _). apply (IH (dn ++ [x']) (pre ++ [x])); auto; [rewrite HT, <- app_assoc; reflexivity|].
        eapply written_snoc; eauto; cbn [Nat.add]; rewrite <- LP; [exact NN|]. exists pub, sig, spk. rewrite NK. auto 12.
      * rewrite (make_said HC repr _ _ _ key pub k F0 FB Bp e SG). cbn [fst stop]. eapply (input_not_signed _ _ _ _ _ pre x todo dn key spk); eauto; rewrite <- ?LP; [exact NN|exists pub; auto|]. rewrite NK. exact SG.
    + unfold make_script_says. rewrite hex_length_says by auto. cbn [ours next]. unfold signature_says, signable_says. rewrite (FN S0). cbn [next fst stop].
      eapply (input_no_script _ _ _ _ _ pre x todo dn key); eauto; [now rewrite <- LP|exists pub; auto].
Qed.

(** C100.  However signing ends, it ends in one of the described ways. *)
Lemma c100_ends : CryptoOk E -> forall repr t ins outs keys rv, written_tx t ins outs -> signing_ends repr keys rv ins outs (tx_inputs t) (fst (sign_says repr t keys rv)).
Proof.
  intros HC repr t ins outs keys rv W. pose proof HC as (HH & HZ & HK & _). unfold sign_says.
  assert (NF : (nonces_fit keys rv /\ check_random_says keys rv = Good tt) \/ (~ nonces_fit keys rv /\ check_random_says keys rv = Bad ValueError (Some []))).
  { pose proof (check_random_ok keys rv) as X. fold (nonces_fit keys rv) in X. rewrite same_check_random in X. destruct (check_random_says keys rv) as [[]|e text] eqn:Q; cbn [undo] in X; [left; split; [now apply X|reflexivity]|right].
    split; [intros F; apply X in F; discriminate|]. unfold check_random_says in Q. destruct rv as [[|a l]|]; try discriminate Q. destruct (negb _); [congruence|]. destruct (negb _); congruence. }
  destruct NF as [(NF & ->)|(NF & ->)]; [|now apply ends_nonces]. destruct (keys_tried HH HK repr keys []) as [(F & m & Q)|(pre & k & post & e & text & D & F & Q & W0)]; rewrite Q.
  - destruct (build_map_ok HH HK keys [] F) as (m' & B & HM). rewrite (same_key_map repr), Q in B. injection B as <-.
    assert (HM' : forall a, (exists k, map_find a m = Some k /\ In k keys /\ controls k a) \/ (map_find a m = None /\ forall k, In k keys -> ~ controls k a)).
    { intros a. destruct (HM a) as [[k [MF [[I C]|X]]]|[MF [_ NC]]]; [left; exists k; auto|discriminate|right; auto]. }
    pose proof (loop_ends HC repr t ins outs keys rv m (tx_inputs t) [] [] W HM' eq_refl (sw_done _ _ _ _ 0)) as L. destruct (sign_loop_says repr t m rv [] (tx_inputs t)) as [w xs]. cbn [fst] in *.
    destruct w as [|e text|e]; [destruct L as (xs' & L); eapply ends_signed; eauto|now apply ends_inputs|now apply ends_inputs].
  - cbn [fst]. apply ends_keys; [exact NF|]. destruct W0 as [(s & -> & A)|(-> & bs & -> & B & L & V)]; [eapply key_no_hex; eauto|eapply key_invalid; eauto].
Qed.

Lemma first_unique : forall {A} (P : A -> Prop) pre x post pre2 x2 post2, pre ++ x :: post = pre2 ++ x2 :: post2 -> Forall P pre -> ~ P x -> Forall P pre2 -> ~ P x2 -> pre = pre2 /\ x = x2.
Proof.
  intros A P. induction pre as [|a pre IH]; intros x post [|b pre2] x2 post2 Q F1 N1 F2 N2; cbn [app] in Q; injection Q as Q1 Q2.
  - auto.
  - subst. inversion F2; contradiction.
  - subst. inversion F1; contradiction.
  - subst b. inversion F1; inversion F2; subst. destruct (IH _ _ _ _ _ Q2) as [-> ->]; auto.
Qed.
Lemma key_refused_last : KeysOk E -> forall repr keys w, key_refused repr keys w -> exists pre k post, keys = pre ++ k :: post /\ Forall usable pre /\ ~ usable k.
Proof.
  intros HK repr keys w [pre k post e text D F A|pre bs post e D F B L V].
  - exists pre, k, post. split; auto. split; auto. intros (a & pub & ((bs & B & L & ->) & _) & _). apply hex_of_test in A.
    pose proof (outcome_ok _ _ (same_length repr (PStr (hex_of bs)) 32) (validate_hex_length_ok bs 32 B L) : hex_length_check repr (PStr (hex_of bs)) 32 = None). congruence.
  - exists pre, (hex_of bs), post. split; auto. split; auto. intros (a & pub & (_ & V' & _) & _). congruence.
Qed.
Lemma key_refused_fun : KeysOk E -> forall repr keys w w', key_refused repr keys w -> key_refused repr keys w' -> w = w'.
Proof.
  assert (N1 : forall repr k e text, a_hex_of repr 32 (PStr k) (Some (e, text)) -> ~ usable k).
  { intros repr k e text A (a & pub & ((bs & B & L & ->) & _) & _). apply hex_of_test in A. pose proof (outcome_ok _ _ (same_length repr (PStr (hex_of bs)) 32) (validate_hex_length_ok bs 32 B L) : hex_length_check repr (PStr (hex_of bs)) 32 = None). congruence. }
  assert (N2 : forall bs e, ec_validate_private_key_hex (hex_of bs) = Err e -> ~ usable (hex_of bs)) by (intros bs e V (a & pub & (_ & V' & _) & _); congruence).
  assert (N3 : forall repr bs e text, bytes bs -> length bs = 32%nat -> ~ a_hex_of repr 32 (PStr (hex_of bs)) (Some (e, text))).
  { intros repr bs e text B L A. apply hex_of_test in A. pose proof (outcome_ok _ _ (same_length repr (PStr (hex_of bs)) 32) (validate_hex_length_ok bs 32 B L) : hex_length_check repr (PStr (hex_of bs)) 32 = None). congruence. }
  intros HK repr keys w w' [pre k post e text D F A|pre bs post e D F B L V] [pre2 k2 post2 e2 text2 D2 F2 A2|pre2 bs2 post2 e2 D2 F2 B2 L2 V2]; rewrite D in D2; apply (first_unique usable) in D2; eauto; destruct D2 as [_ D2].
  - subst k2. apply hex_of_test in A, A2. congruence.
  - exfalso. subst k. eapply N3; eauto.
  - exfalso. subst k2. eapply N3; eauto.
  - rewrite D2 in V. congruence.
Qed.
Lemma plain_fun : KeysOk E -> forall repr keys xs w w', plain_signing_ends repr keys xs w -> plain_signing_ends repr keys xs w' -> w = w'.
Proof.
  assert (KF : KeysOk E -> forall repr keys w, key_refused repr keys w -> ~ Forall usable keys).
  { intros HK repr keys w H F. destruct (key_refused_last HK _ _ _ H) as (pre & k & post & -> & _ & N). apply Forall_app in F. destruct F as [_ F]. inversion F; contradiction. }
  assert (R1 : forall keys x, (forall k, In k keys -> ~ controls k (ti_address x)) -> ~ ready keys x) by (intros keys x N [(k & I & C) _]; now apply (N k)).
  assert (R2 : forall keys x, ti_script_pub_key x = None -> ~ ready keys x) by (intros keys x N [_ C]; contradiction).
  assert (R3 : forall keys pre x post, ~ ready keys x -> ~ Forall (ready keys) (pre ++ x :: post)) by (intros keys pre x post N F; apply Forall_app in F; destruct F as [_ F]; inversion F; contradiction).
  intros HK repr keys xs w w' [w1 H|pre x post U D F N|pre x post k U D F I C N|U F] [w2 H2|pre2 x2 post2 U2 D2 F2 N2|pre2 x2 post2 k2 U2 D2 F2 I2 C2 N2|U2 F2]; try reflexivity;
    try (now apply (key_refused_fun HK repr keys)); try (exfalso; eapply (KF HK); eauto; fail); try (exfalso; subst; eapply R3; eauto; fail).
  - exfalso. rewrite D in D2. apply (first_unique (ready keys)) in D2; auto. destruct D2 as [_ ->]. now apply (N k2).
  - exfalso. rewrite D in D2. apply (first_unique (ready keys)) in D2; auto. destruct D2 as [_ ->]. now apply (N2 k).
Qed.
(** C100.  Without nonces, and when ecdsa signs whatever it is given: which of the ways it is depends on the keys, the addresses and the scripts alone. *)
Lemma c100_plain : CryptoOk E -> SignTotal E -> forall repr t ins outs keys w, written_tx t ins outs -> fst (sign_says repr t keys None) = w <-> plain_signing_ends repr keys (tx_inputs t) w.
Proof.
  intros HC HT repr t ins outs keys w W. pose proof HC as (HH & HZ & HK & _). assert (P : plain_signing_ends repr keys (tx_inputs t) (fst (sign_says repr t keys None))).
  { assert (NN : forall n, ~ no_nonce None n) by (intros n [l [C _]]; discriminate).
    assert (RD : forall n xs xs', signing_as_written keys None ins outs n xs (Ok tt) xs' -> Forall (ready keys) xs).
    { intros n xs xs' S0. remember (Ok tt : res unit) as r eqn:R. induction S0 as [n|n x x' xs r xs' key _ I (pub & sig & spk & KP & IA & SP & _) S0 IH| | | |]; try discriminate R; constructor; auto.
      split; [exists key; split; [exact I|exists pub; auto]|]. destruct SP as (_ & _ & SP & _). congruence. }
    destruct (c100_ends HC repr t ins outs keys None W) as [NF|w0 _ K|w0 _ U H|xs' _ U S0]; [exfalso; apply NF; now left|now apply plain_keys| |apply plain_signed; eauto].
    destruct H as [pre x post pre' D S0 N|pre x post pre' D S0 _ N|pre x post pre' k D S0 _ I C N|pre x post pre' k spk e D S0 _ I (pub & (B & V & _) & _) SP SG].
    - exfalso. now apply (NN (length pre)).
    - eapply plain_no_key; eauto.
    - eapply plain_no_script; eauto.
    - exfalso. destruct (HT k (digest (sighash_bytes (length pre) spk ins outs)) V) as [s Hs]; [apply HH|apply HH|]. unfold signature, nonce in SG. rewrite Hs in SG. discriminate. }
  split; [intros <-; exact P|]. intros Q. exact (plain_fun HK repr keys (tx_inputs t) _ _ P Q).
Qed.

End WithEnv.

(** Examples. *)
Example ex100_no_keys : exists ins outs, written_tx created ins outs /\ fst (@sign_says demo_env plain_repr created [] None) = Own ValueError [] /\
  @plain_signing_ends demo_env plain_repr [] (tx_inputs created) (Own ValueError []).
Proof.
  destruct demo_written as (ins & outs & W). exists ins, outs. split; [exact W|]. assert (Q : fst (@sign_says demo_env plain_repr created [] None) = Own ValueError []) by (vm_compute; reflexivity).
  split; [exact Q|]. exact (proj1 (@c100_plain demo_env demo_crypto demo_sign_total plain_repr created ins outs [] _ W) Q).
Qed.
Example ex100_key : exists text, fst (@sign_says demo_env plain_repr created [lit "11"] None) = Own ValueError text /\ text <> [].
Proof. eexists. split; [vm_compute; reflexivity|discriminate]. Qed.
Example ex100_nonces : fst (@sign_says demo_env plain_repr created [key1; key2] (Some [lit "11"; lit "11"])) = Own ValueError [].
Proof. vm_compute. reflexivity. Qed.
Example ex100_script : fst (@sign_says demo_env plain_repr (set_inputs created (map no_script (tx_inputs created))) [key1; key2] None) = Own TypeError no_str.
Proof. vm_compute. reflexivity. Qed.
Example ex100_signed : fst (@sign_says demo_env plain_repr created [key1; key2] None) = Finished.
Proof.
  pose proof (@c100_same demo_env plain_repr created [key1; key2] None) as S. rewrite signed_ok in S. apply pair_equal_spec in S. destruct S as [S _].
  destruct (fst (sign_says plain_repr created [key1; key2] None)); [reflexivity|discriminate|discriminate].
Qed.
