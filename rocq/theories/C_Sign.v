(** C25-C31: signing, verifying, transaction id. *)
From Coq Require Import String Lia.
From Verif Require Import PyBase Env PyNum Validate Basic Spec EnvOk TxInput TxOutput Tx Create TxSpec SignSpec Demo DemoTx.
From Verif Require Import NumLemmas HexProofs Base58Proofs AddrProofs AmountProofs ScriptProofs WireProofs SignProofs VerifyProofs MakeProofs DemoProofs DemoTxProofs.

Section WithEnv.
Context {E : Env}.

Lemma sign_ok_inv : CryptoOk E -> forall t ins outs keys rv t', tx_body t ins outs -> sign t keys rv = (Ok tt, t') ->
  check_random_values keys rv = Ok tt /\ Forall (fun k => exists a, controls k a) keys /\
  exists xs', t' = set_inputs t xs' /\ all_signed keys rv ins outs 0 (tx_inputs t) xs' /\ signing keys rv ins outs 0 (tx_inputs t) (Ok tt) xs'.
Proof.
  intros (HH & HZ & HK & HS & HP & HD) t ins outs keys rv t' HB H. pose proof H as H0. unfold sign in H.
  destruct (check_random_values keys rv) as [[]|e] eqn:CR; [|discriminate]. split; auto.
  assert (FK : Forall (fun k => exists a, controls k a) keys).
  { apply Forall_forall. intros k Ik. destruct (key_step HH HK k) as [[a [C _]]|[N _]]; [eauto|]. exfalso.
    destruct (build_map_bad HH HK keys []) as [e Q].
    - intros F. rewrite Forall_forall in F. destruct (F k Ik) as [a C]. exact (N a C).
    - rewrite Q in H. discriminate. }
  split; auto. destruct (sign_spec HH HK HS HP HD HZ t ins outs keys rv HB CR FK) as (r & xs' & Q & SI).
  rewrite H0 in Q. injection Q as <- ->. exists xs'. split; auto. split; auto. apply signing_all; auto.
Qed.

Lemma all_signed_unsign : forall keys rv ins outs n xs xs', all_signed keys rv ins outs n xs xs' -> map unsign xs' = map unsign xs.
Proof.
  intros keys rv ins outs n xs xs' H. induction H as [|n x x' xs xs' key I (pub & sig & _ & _ & _ & _ & _ & _ & _ & ->) H IH]; [reflexivity|].
  cbn [map]. rewrite IH. reflexivity.
Qed.

Lemma rev_le_be : forall r, bytes r -> length r = 32%nat -> rev (le_bytes 32 (be_val r)) = r.
Proof.
  intros r B L. rewrite <- (rev_involutive r) at 1. rewrite <- le_val_rev. rewrite <- L, <- (rev_length r).
  rewrite (le_bytes_unique (rev r)) by (apply bytes_rev; auto). apply rev_involutive.
Qed.

Lemma der_of_sig : DerOk E -> forall sig, bytes sig -> length sig = 64%nat -> der_sig (der_of sig) (hex_of sig).
Proof.
  intros HD sig Hs Ls. unfold der_of. set (r := firstn 32 sig). set (s := skipn 32 sig).
  assert (RS : sig = r ++ s) by (symmetry; apply firstn_skipn).
  assert (Br : bytes r) by (apply bytes_firstn; auto). assert (Bs : bytes s) by (apply bytes_skipn; auto).
  assert (Lr : length r = 32%nat) by (unfold r; rewrite firstn_length; lia).
  assert (Ll : length s = 32%nat) by (unfold s; rewrite skipn_length; lia).
  pose proof (half_values r Br Lr) as Vr. pose proof (half_values s Bs Ll) as Vs.
  destruct (HD (be_val r) (be_val s) Vr Vs) as [D1 [D2 D3]].
  exists (be_val r), (be_val s). split; auto. split; auto. split; auto. rewrite !rev_le_be by auto. rewrite RS. reflexivity.
Qed.

Lemma owner_spk : HashOk E -> forall x pub, in_owner x (hash160 pub) -> in_spk x (p2pkh (hash160 pub)).
Proof.
  intros HH x pub (_ & O2 & O3 & _). split; [apply bytes_p2pkh'; auto|]. rewrite len_p2pkh' by auto. split; [lia|]. auto.
Qed.

Lemma all_signed_checked : CryptoOk E -> forall keys rv ins outs n xs xs', all_signed keys rv ins outs n xs xs' ->
  all_checked ins outs n xs' (repeat true (length xs')).
Proof.
  intros (HH & HZ & HK & HS & HP & HD) keys rv ins outs n xs xs' H.
  induction H as [|n x x' xs xs' key I (pub & sig & KP & OW & Bs & Ls & SG & D1 & D2 & ->) H IH]; cbn [length repeat]; constructor; auto.
  pose proof KP as (_ & _ & PK & Bp & Lp). unfold len in D2.
  destruct (build_script_ok (der_of sig) pub) as [_ [_ B3]]; auto; [lia|].
  exists (p2pkh (hash160 pub)), (build_script_sig (der_of sig) pub), (der_of sig), pub, (hex_of sig).
  split; [|split; [reflexivity|split; [exact B3|split; [apply built_parts; auto; lia|split; [exact Lp|split; [apply der_of_sig; auto|]]]]]].
  - destruct (owner_spk HH x pub OW) as (S1 & S2 & S3 & S4). repeat split; auto.
  - destruct (sig_bytes HS _ _ _ _ SG) as [_ [_ [_ [_ V]]]]. auto.
Qed.

Lemma body_after : forall t ins outs xs', tx_body t ins outs -> map unsign xs' = map unsign (tx_inputs t) -> tx_body (set_inputs t xs') ins outs.
Proof.
  intros t ins outs xs' (T & HI & HO & HW) M.
  assert (L : length xs' = length (tx_inputs t)) by (rewrite <- (map_length unsign xs'), M, map_length; auto).
  split; [apply header_inputs; auto|]. cbn [set_inputs tx_inputs tx_outputs].
  split; [|split; [exact HO|]].
  - clear - HI M. revert xs' M. induction HI as [|x i xs is Hx HI IH]; intros [|y ys] M; try discriminate; constructor.
    + eapply outpoint_unsign; [|exact Hx]. exact (eq_sym (f_equal (hd (unsign y)) M)).
    + apply IH. injection M as M1 M2. congruence.
  - clear - HW M. revert xs' M. induction HW as [|x xs [h Hx] HW IH]; intros [|y ys] M; try discriminate; constructor.
    + exists h. destruct Hx as (A & B & C & D). injection M as E1 E2 E3 E4 E5 E6 E7 E8 E9 E10 E11 _. unfold in_owner. rewrite E8, E7, E5, E6. auto.
    + apply IH. injection M as M1 M2. congruence.
Qed.

Lemma body_spk : HashOk E -> forall t ins outs, tx_body t ins outs -> body t ins outs /\ Forall (fun x => exists spk, in_spk x spk) (tx_inputs t).
Proof.
  intros HH t ins outs (T & HI & HO & HW). split; [exact (conj T (conj HI HO))|]. apply Forall_forall. intros x Ix. rewrite Forall_forall in HW.
  destruct (HW x Ix) as [h ((Bh & Lh & _) & O2 & O3 & _)]. exists (p2pkh h). split; [apply bytes_p2pkh; auto|].
  assert (L : len (p2pkh h) = 25) by (unfold len; rewrite p2pkh_length, Lh; reflexivity). rewrite L. split; [lia|]. auto.
Qed.

Lemma falses_true : forall n, falses (repeat true n) = 0.
Proof. intros n. unfold falses. induction n; auto. Qed.

(** C25.  If signing succeeds, every signature in the result verifies, whatever had been signed before. *)
Lemma c25_sign_then_verify : CryptoOk E -> forall t ins outs keys rv t',
  tx_body t ins outs -> sign t keys rv = (Ok tt, t') -> verify t' = Ok 0.
Proof.
  intros HC t ins outs keys rv t' HB H. destruct (sign_ok_inv HC _ _ _ _ _ _ HB H) as (_ & _ & xs' & -> & AS & _).
  pose proof (all_signed_unsign _ _ _ _ _ _ _ AS) as M. pose proof (body_after _ _ _ _ HB M) as HB'.
  destruct HC as (HH & HC'). destruct (body_spk HH _ _ _ HB') as [BD SP].
  apply (verify_iff HH _ ins outs BD SP). exists (repeat true (length xs')). split; [|symmetry; apply falses_true].
  apply (all_signed_checked (conj HH HC') _ _ _ _ _ _ _ AS).
Qed.

(** C25.  The signed transaction serialises to the wire format: same outpoints and outputs, and the scriptSig of each input
    is a DER signature of the input's sighash by a supplied key that controls the input's address, and that key's public key. *)
Lemma c25_signed_form : CryptoOk E -> forall t ins outs keys rv t',
  tx_body t ins outs -> sign t keys rv = (Ok tt, t') ->
  exists ins', tx_wire t' ins' outs /\ to_hex_signed_form t' = Ok (hex_of (wire ins' outs)) /\ tx_signed t' = true /\
    map i_txid ins' = map i_txid ins /\ map i_index ins' = map i_index ins /\
    forall n i, nth_error ins' n = Some i ->
      exists x key pub sig, nth_error (tx_inputs t) n = Some x /\ In key keys /\ key_pub key pub /\ is_address (hash160 pub) (ti_address x) /\
        bytes sig /\ length sig = 64%nat /\
        signature key (digest (sighash_bytes n (p2pkh (hash160 pub)) ins outs)) (nonce rv n) = Ok (hex_of sig) /\
        i_script i = build_script_sig (der_of sig) pub.
Proof.
  intros HC t ins outs keys rv t' HB H. destruct (sign_ok_inv HC _ _ _ _ _ _ HB H) as (_ & _ & xs' & -> & AS & _).
  pose proof (all_signed_unsign _ _ _ _ _ _ _ AS) as M. pose proof (body_after _ _ _ _ HB M) as HB'.
  destruct HB' as (T & HI & HO & _). cbn [set_inputs tx_inputs tx_outputs] in HI, HO.
  assert (G : forall is0 n xs xs', all_signed keys rv ins outs n xs xs' ->
     Forall2 (fun x i => in_outpoint x (i_txid i) (i_index i)) xs' is0 ->
     exists ins', Forall2 in_wire xs' ins' /\ forallb txin_signed xs' = true /\ map i_txid ins' = map i_txid is0 /\ map i_index ins' = map i_index is0 /\
       forall k i, nth_error ins' k = Some i ->
         exists x key pub sig, nth_error xs k = Some x /\ In key keys /\ key_pub key pub /\ is_address (hash160 pub) (ti_address x) /\
           bytes sig /\ length sig = 64%nat /\
           signature key (digest (sighash_bytes (n + k) (p2pkh (hash160 pub)) ins outs)) (nonce rv (n + k)) = Ok (hex_of sig) /\
           i_script i = build_script_sig (der_of sig) pub).
  { clear. intros is0 n xs xs' AS. revert is0. induction AS as [|n x x' xs xs' key I IS AS IH]; intros is0 F; inversion F as [|q1 i q2 is1 Fx F']; subst.
    - exists []. split; [constructor|]. split; auto. split; auto. split; auto. intros [|k] i N; discriminate.
    - destruct (IH _ F') as (ins' & W & FS & T1 & T2 & R). destruct IS as (pub & sig & KP & OW & Bs & Ls & SG & D1 & D2 & ->).
      pose proof KP as (_ & _ & PK & Bp & Lp). unfold len in D2. destruct (build_script_ok (der_of sig) pub) as [_ [B2 B3]]; auto; [lia|].
      exists (mk_sinput (i_txid i) (i_index i) (build_script_sig (der_of sig) pub) :: ins').
      split; [|split; [|split; [|split]]].
      + constructor; auto. split; [exact Fx|]. cbn [i_script]. split; [exact B3|]. split; [unfold len in B2 at 2; lia|]. repeat split.
      + cbn [forallb]. rewrite FS. reflexivity.
      + cbn [map i_txid]. congruence.
      + cbn [map i_index]. congruence.
      + intros [|k] j N; cbn [nth_error] in *.
        * injection N as <-. exists x, key, pub, sig. rewrite Nat.add_0_r. split; auto. split; auto. split; auto. split; [apply OW|]. auto.
        * replace (n + S k)%nat with (S n + k)%nat by lia. exact (R k j N). }
  destruct (G ins 0%nat _ _ AS HI) as (ins' & W & FS & T1 & T2 & R). exists ins'.
  assert (TW : tx_wire (set_inputs t xs') ins' outs) by (split; auto). split; auto. split; [apply tx_wire_hex; auto|]. auto.
Qed.

(** C26.  Whatever the transaction, the keys and the outcome: sign changes nothing but the public keys and scriptSigs of inputs. *)
Lemma c26_frame : forall t keys rv r t', sign t keys rv = (r, t') ->
  exists xs', t' = set_inputs t xs' /\ map unsign xs' = map unsign (tx_inputs t).
Proof.
  intros t keys rv r t' H. unfold sign in H.
  destruct (check_random_values keys rv) as [[]|e]; [|injection H as <- <-; exists (tx_inputs t); rewrite set_inputs_self; auto].
  destruct (build_key_map keys []) as [m|e]; [|injection H as <- <-; exists (tx_inputs t); rewrite set_inputs_self; auto].
  destruct (sign_loop t m rv [] (tx_inputs t)) as [r0 xs] eqn:L. injection H as <- <-. exists xs. split; auto.
  apply sign_loop_unsign in L. exact L.
Qed.

(** C26, what is meant by nothing but: two inputs that agree after [unsign] agree on every attribute but four. *)
Lemma c26_unsign : forall x y, unsign x = unsign y <->
  ti_previous_output_hash x = ti_previous_output_hash y /\ ti_previous_output_index x = ti_previous_output_index y /\
  ti_previous_output_index_int x = ti_previous_output_index_int y /\ ti_sequence x = ti_sequence y /\
  ti_script_pub_key_length x = ti_script_pub_key_length y /\ ti_script_pub_key_length_int x = ti_script_pub_key_length_int y /\
  ti_script_pub_key x = ti_script_pub_key y /\ ti_address x = ti_address y /\ ti_txid x = ti_txid y /\
  ti_satoshi_amount x = ti_satoshi_amount y /\ ti_bitcoin_amount x = ti_bitcoin_amount y.
Proof.
  intros x y. split.
  - intros H. injection H as E1 E2 E3 E4 E5 E6 E7 E8 E9 E10 E11. auto 15.
  - intros (E1 & E2 & E3 & E4 & E5 & E6 & E7 & E8 & E9 & E10 & E11). unfold unsign. rewrite E1, E2, E3, E4, E5, E6, E7, E8, E9, E10, E11. reflexivity.
Qed.

(** C27.  The complete behaviour of sign on a well-formed transaction.  Nonce lists with a repetition or of the wrong length
    raise ValueError; an unusable key raises; neither changes anything.  Otherwise inputs are signed in order up to the
    first one for which there is no nonce (IndexError), no key (ValueError), or whose signature the library refuses. *)
Lemma c27_sign_outcome : CryptoOk E -> forall t ins outs keys rv, tx_body t ins outs ->
  let nonces_fit := rv = None \/ rv = Some [] \/ exists l, rv = Some l /\ NoDup l /\ length l = length keys in
  let keys_fit := Forall (fun k => exists a, controls k a) keys in
  (~ nonces_fit -> sign t keys rv = (Err ValueError, t)) /\
  (~ keys_fit -> exists e, sign t keys rv = (Err e, t)) /\
  (nonces_fit -> keys_fit ->
     exists r xs', sign t keys rv = (r, set_inputs t xs') /\ signing keys rv ins outs 0 (tx_inputs t) r xs').
Proof.
  intros (HH & HZ & HK & HS & HP & HD) t ins outs keys rv HB NF KF. split; [|split].
  - intros N. unfold sign. destruct (check_random_values keys rv) as [[]|e] eqn:CR.
    + exfalso. apply N. apply check_random_ok. exact CR.
    + rewrite (check_random_err _ _ _ CR). reflexivity.
  - intros N. unfold sign. destruct (check_random_values keys rv) as [[]|e]; [|eauto].
    destruct (build_map_bad HH HK keys [] N) as [e ->]. eauto.
  - intros N K. apply (sign_spec HH HK HS HP HD HZ); auto. apply check_random_ok. exact N.
Qed.

(** C27 with deterministic nonces: sign succeeds if there is a key for every input; otherwise it stops with ValueError at the
    first input without a key, leaving that one and all later ones as they were and the earlier ones signed. *)
Lemma c27_first_unknown : CryptoOk E -> SignTotal E -> forall t ins outs keys, tx_body t ins outs ->
  Forall (fun k => exists a, controls k a) keys ->
  let known x := exists k, In k keys /\ controls k (ti_address x) in
  (Forall known (tx_inputs t) ->
     exists xs', sign t keys None = (Ok tt, set_inputs t xs') /\ all_signed keys None ins outs 0 (tx_inputs t) xs') /\
  (forall pre x post, tx_inputs t = pre ++ x :: post -> Forall known pre -> ~ known x ->
     exists pre', sign t keys None = (Err ValueError, set_inputs t (pre' ++ x :: post)) /\ all_signed keys None ins outs 0 pre pre').
Proof.
  intros (HH & HZ & HK & HS & HP & HD) HT t ins outs keys HB KF known.
  destruct (sign_spec HH HK HS HP HD HZ t ins outs keys None HB) as (r & xs' & Q & SI); auto.
  assert (NN : forall n, ~ no_nonce None n) by (intros n [l [C _]]; discriminate).
  assert (G : forall pre n xs r xs', signing keys None ins outs n (pre ++ xs) r xs' -> Forall known pre ->
    exists pre' ys', xs' = pre' ++ ys' /\ all_signed keys None ins outs n pre pre' /\ signing keys None ins outs (n + length pre) xs r ys').
  { clear - HT NN HH. induction pre as [|x pre IH]; intros n xs r xs' SI F.
    - exists [], xs'. cbn [app length] in *. rewrite Nat.add_0_r. split; auto. split; auto. constructor.
    - inversion F as [|q1 q2 [k [Ik Ck]] F']; subst. cbn [app] in SI. inversion SI; subst.
      + match goal with H : signing _ _ _ _ (S n) _ _ _ |- _ => rename H into H9 end. destruct (IH _ _ _ _ H9 F') as (pre' & ys' & -> & AS & SG). exists (x' :: pre'), ys'. split; auto. split; [econstructor; eauto|].
        cbn [length]. replace (n + S (length pre))%nat with (S n + length pre)%nat by lia. exact SG.
      + exfalso. eapply NN; eauto.
      + exfalso. match goal with H : forall key, In key keys -> ~ _ |- _ => exact (H k Ik Ck) end.
      + exfalso. match goal with H : signature ?key (digest ?f) _ = Err _, K : key_pub _ _ |- _ =>
          destruct K as (_ & V & _); destruct (HT key (digest f) V) as [s Hs]; [apply HH|apply HH|];
          unfold signature, nonce in H; rewrite Hs in H; discriminate end. }
  split.
  - intros F. rewrite <- (app_nil_r (tx_inputs t)) in SI. destruct (G _ _ _ _ _ SI F) as (pre' & ys' & -> & AS & SG).
    inversion SG; subst. exists pre'. rewrite Q, app_nil_r. auto.
  - intros pre x post T F N. rewrite T in SI. destruct (G _ _ _ _ _ SI F) as (pre' & ys' & -> & AS & SG). exists pre'. rewrite Q. split; auto.
    inversion SG; subst; auto.
    + exfalso. apply N. match goal with H : input_signed ?k _ _ _ _ _ _ |- _ => exists k; split; auto; destruct H as (p & s & KP & (IA & _) & _); exists p; auto end.
    + exfalso. eapply NN; eauto.
    + exfalso. apply N. match goal with K : key_pub ?k ?p, O : in_owner _ _ |- _ => exists k; split; auto; exists p; split; auto; apply O end.
Qed.

(** C28.  Supplied nonces: when sign succeeds with a nonempty list l, l has no repetition, as many entries as there are keys
    and at least as many as there are inputs, and input number n was signed with entry number n. *)
Lemma c28_nonces : CryptoOk E -> forall t ins outs keys l t', tx_body t ins outs -> l <> [] -> sign t keys (Some l) = (Ok tt, t') ->
  NoDup l /\ length l = length keys /\ (length (tx_inputs t) <= length l)%nat /\
  exists xs', t' = set_inputs t xs' /\ all_signed keys (Some l) ins outs 0 (tx_inputs t) xs'.
Proof.
  intros HC t ins outs keys l t' HB NE H. destruct (sign_ok_inv HC _ _ _ _ _ _ HB H) as (CR & _ & xs' & -> & AS & SI).
  apply check_random_ok in CR. destruct CR as [CR|[CR|[l' [CR [ND LK]]]]]; try congruence. injection CR as <-.
  split; auto. split; auto. split; [|eauto].
  destruct (le_lt_dec (length (tx_inputs t)) (length l)) as [L|L]; auto. exfalso.
  apply (signing_nonces _ _ _ _ _ _ _ SI (length l)); [lia|]. exists l. auto.
Qed.

(** C28.  A repeated nonce, or another number of nonces than keys, is refused before anything happens. *)
Lemma c28_nonces_refused : forall t keys l, l <> [] -> ~ NoDup l \/ length l <> length keys -> sign t keys (Some l) = (Err ValueError, t).
Proof.
  intros t keys l NE H. unfold sign. destruct (check_random_values keys (Some l)) as [[]|e] eqn:CR.
  - exfalso. apply check_random_ok in CR. destruct CR as [CR|[CR|[l' [CR [ND LK]]]]]; try congruence. injection CR as <-. tauto.
  - rewrite (check_random_err _ _ _ CR). reflexivity.
Qed.

(** C28, refuted: that nonces can be supplied whenever there is a key for every input.  There must be one nonce per key, but
    they are consumed one per input, so with more inputs than keys sign raises IndexError. *)
Lemma c28_more_inputs_than_keys_refuted : CryptoOk E -> forall t ins outs keys l t', tx_body t ins outs ->
  (length keys < length (tx_inputs t))%nat -> l <> [] -> sign t keys (Some l) <> (Ok tt, t').
Proof.
  intros HC t ins outs keys l t' HB L NE H. destruct (c28_nonces HC _ _ _ _ _ _ HB NE H) as (_ & L1 & L2 & _). lia.
Qed.

(** C29.  verify returns n exactly if every input's scriptSig can be parsed and checked and n of the checks against the
    input's own sighash fail. *)
Lemma c29_verify : HashOk E -> forall t ins outs n, tx_header t ->
  Forall2 (fun x i => in_outpoint x (i_txid i) (i_index i)) (tx_inputs t) ins -> Forall2 out_wire (tx_outputs t) outs ->
  Forall (fun x => exists spk, in_spk x spk) (tx_inputs t) ->
  (verify t = Ok n <-> exists bs, all_checked ins outs 0 (tx_inputs t) bs /\ n = Z.of_nat (length (filter negb bs))).
Proof. intros HH t ins outs n T HI HO SP. apply (verify_iff HH t ins outs); auto. exact (conj T (conj HI HO)). Qed.

(** C29.  verify returns 0 exactly if every signature is valid. *)
Lemma c29_verify_zero : HashOk E -> forall t ins outs, tx_header t ->
  Forall2 (fun x i => in_outpoint x (i_txid i) (i_index i)) (tx_inputs t) ins -> Forall2 out_wire (tx_outputs t) outs ->
  Forall (fun x => exists spk, in_spk x spk) (tx_inputs t) ->
  (verify t = Ok 0 <-> forall n x, nth_error (tx_inputs t) n = Some x -> input_check ins outs n x true).
Proof.
  intros HH t ins outs T HI HO SP. rewrite (verify_iff HH t ins outs (conj T (conj HI HO)) SP). split.
  - intros [bs [AC F]] n x N. change n with (0 + n)%nat. revert AC F N. generalize 0%nat. generalize (tx_inputs t). intros xs m AC. revert n.
    induction AC as [m0|m y xs b bs IC AC IH]; intros n F N; [destruct n; discriminate|]. unfold falses in F. cbn [filter] in F.
    destruct b; cbn [negb length] in F; [|lia]. destruct n as [|n]; cbn [nth_error] in N.
    + injection N as <-. rewrite Nat.add_0_r. exact IC.
    + replace (m + S n)%nat with (S m + n)%nat by lia. apply IH; auto.
  - intros H. exists (repeat true (length (tx_inputs t))). split; [|symmetry; apply falses_true].
    assert (G : forall xs m, (forall n x, nth_error xs n = Some x -> input_check ins outs (m + n) x true) -> all_checked ins outs m xs (repeat true (length xs))).
    { induction xs as [|x xs IH]; intros m G; cbn [length repeat]; constructor.
      - specialize (G 0%nat x eq_refl). rewrite Nat.add_0_r in G. exact G.
      - apply IH. intros n y N. specialize (G (S n) y N). replace (S m + n)%nat with (m + S n)%nat by lia. exact G. }
    apply G. exact H.
Qed.

(** C29.  With an input without scriptSig verify returns nothing; if that is the first problem it raises ValueError, and so
    it does for a scriptSig it cannot parse. *)
Lemma c29_verify_unsigned : HashOk E ->
  (forall t x n, In x (tx_inputs t) -> ti_script_sig x = None -> verify t <> Ok n) /\
  (forall t ins outs pre x post bs, tx_header t ->
     Forall2 (fun x i => in_outpoint x (i_txid i) (i_index i)) (tx_inputs t) ins -> Forall2 out_wire (tx_outputs t) outs ->
     tx_inputs t = pre ++ x :: post -> all_checked ins outs 0 pre bs ->
     (ti_script_sig x = None \/ exists s, ti_script_sig x = Some s /\ forall bs sig pub, bytes bs -> s = hex_of bs -> ~ script_sig_parts bs sig pub) ->
     verify t = Err ValueError).
Proof.
  intros HH. split; [exact verify_none|]. intros t ins outs pre x post bs T HI HO. apply (verify_bad_script HH t ins outs pre x post bs (conj T (conj HI HO))).
Qed.

(** C30.  For a transaction decoded from hex, verify() = 0 means that each input carries a valid signature over its sighash,
    with the scriptPubKey and the reported address those of the very key in the scriptSig. *)
Lemma c30_decoded_verify : UniOk E -> HashOk E -> forall s t, from_hex_signed s = Ok t -> verify t = Ok 0 ->
  exists ins outs rest, s = hex_of (wire ins outs ++ rest) /\
    forall n x, nth_error (tx_inputs t) n = Some x ->
      exists i pub der sighex, nth_error ins n = Some i /\ script_sig_parts (i_script i) der pub /\ length pub = 64%nat /\
        der_sig der sighex /\ is_address (hash160 pub) (ti_address x) /\
        ec_verify_digest (hex_of pub) (hex_of (digest (sighash_bytes n (p2pkh (hash160 pub)) ins outs))) sighex = Ok true.
Proof.
  intros HU HH s t D V. apply (from_hex_iff HH HU) in D. destruct D as (ins & outs & rest & Br & -> & T & CA & FI & FO).
  exists ins, outs, rest. split; auto.
  assert (HI : Forall2 (fun x i => in_outpoint x (i_txid i) (i_index i)) (tx_inputs t) ins).
  { clear - FI. induction FI as [|x i xs is D FI IH]; constructor; auto. destruct D as [(A1 & A2 & A3 & A4 & A5) (sig & pub & a & _ & _ & _ & ->)].
    repeat split; auto; lia. }
  assert (HO : Forall2 out_wire (tx_outputs t) outs).
  { clear - FO. induction FO as [|y o ys os D FO IH]; constructor; auto. destruct D as [OK [V (a & s & _ & BT & ->)]].
    unfold out_wire. auto 10. }
  assert (SP : Forall (fun x => exists spk, in_spk x spk) (tx_inputs t)).
  { clear - FI HH. induction FI as [|x i xs is D FI IH]; constructor; auto. destruct D as [_ (sig & pub & a & _ & _ & _ & ->)].
    exists (p2pkh (hash160 pub)). split; [apply bytes_p2pkh'; auto|]. rewrite len_p2pkh' by auto. split; [lia|]. auto. }
  intros n x N. apply (c29_verify_zero HH t ins outs T HI HO SP) with (n := n) (x := x) in V; auto.
  destruct V as (spk & script & der & pub & sh & (S1 & S2 & S3 & S4) & SS & B & P & L & DS & VV).
  assert (X : exists i, nth_error ins n = Some i /\ decoded_input x i).
  { clear - FI N. revert n N. induction FI as [|y i ys is D FI IH]; intros [|n] N; try discriminate; cbn [nth_error] in *; eauto. injection N as <-. eauto. }
  destruct X as [i [Ni [IOK (sig & pub' & a & P' & L' & IA & ->)]]]. cbn [ti_script_sig ti_script_pub_key ti_address] in *.
  apply (f_equal (fun o => match o with Some z => z | None => [] end)) in SS. cbv beta iota in SS.
  apply hex_of_inj in SS; [|apply IOK|exact B]. subst script. destruct (script_parts_fun _ _ _ _ _ B P P') as [<- <-].
  apply (f_equal (fun o => match o with Some z => z | None => [] end)) in S3. cbv beta iota in S3.
  apply hex_of_inj in S3; [|apply bytes_p2pkh'; auto|exact S1]. subst spk.
  exists i, pub, der, sh. auto 10.
Qed.

(** C31.  The transaction id: ValueError unless every input is signed; otherwise the reversed double SHA-256 of the signed
    serialisation, as 32 bytes of hex. *)
Lemma c31_txid : HashOk E ->
  (forall t, tx_signed t = false -> calculate_txid t = Err ValueError) /\
  (forall t ins outs, tx_wire t ins outs ->
     calculate_txid t = Ok (hex_of (rev (sha256 (sha256 (wire ins outs))))) /\ length (rev (sha256 (sha256 (wire ins outs)))) = 32%nat).
Proof.
  intros HH. split.
  - intros t H. unfold calculate_txid. rewrite H. reflexivity.
  - intros t ins outs H. assert (TS : tx_signed t = true).
    { destruct H as [_ [HI _]]. unfold tx_signed. induction HI as [|x i xs is [_ (B1 & B2 & B3 & B4 & B5)] HI IH]; auto. cbn [forallb].
      unfold txin_signed at 1. rewrite B3, B4. exact IH. }
    unfold calculate_txid. rewrite TS. cbn [negb]. rewrite (tx_wire_hex _ _ _ H). cbn [bind].
    rewrite get_double_sha256_ok by (auto; apply wire_bytes; eapply tx_wire_ok; eauto). cbn [bind].
    rewrite reverse_hex_order_ok by apply HH. split; auto. rewrite rev_length. apply HH.
Qed.

(** C31.  The id of a decoded transaction is the hash of what was decoded. *)
Lemma c31_txid_decoded : UniOk E -> HashOk E -> forall s t, from_hex_signed s = Ok t ->
  exists bs rest, s = hex_of (bs ++ rest) /\ bytes bs /\ to_hex_signed_form t = Ok (hex_of bs) /\
    calculate_txid t = Ok (hex_of (rev (sha256 (sha256 bs)))).
Proof.
  intros HU HH s t D. apply (from_hex_iff HH HU) in D. destruct D as (ins & outs & rest & Br & -> & T & CA & FI & FO).
  assert (W : tx_wire t ins outs).
  { split; auto. split.
    - clear - FI. induction FI as [|x i xs is D FI IH]; constructor; auto. destruct D as [(A1 & A2 & A3 & A4 & A5) (sig & pub & a & _ & _ & _ & ->)].
      repeat split; auto; lia.
    - clear - FO. induction FO as [|y o ys os D FO IH]; constructor; auto. destruct D as [OK [V (a & s & _ & BT & ->)]].
      unfold out_wire. auto 10. }
  exists (wire ins outs), rest. split; auto. split; [apply wire_bytes; eapply tx_wire_ok; eauto|]. split; [apply tx_wire_hex; auto|].
  apply (proj2 (c31_txid HH)) in W. apply W.
Qed.

Lemma hd_error_In : forall A (l : list A) x, hd_error l = Some x -> In x l.
Proof. intros A [|y l] x H; [discriminate|]. injection H as ->. left. reflexivity. Qed.

(** C30, refuted: that verify() = 0 on a transaction loaded from JSON means that each input carries the public key of its own
    address.  Nothing compares the key in the scriptSig with the address or the scriptPubKey. *)
Lemma c30_json_owner_refuted :
  ~ (forall E' : Env, EnvAll E' -> forall s t, @from_json E' s = Ok t -> @verify E' t = Ok 0 ->
       forall x, In x (tx_inputs t) -> exists script der pub, ti_script_sig x = Some (hex_of script) /\ bytes script /\
         script_sig_parts script der pub /\ @is_address E' (@hash160 E' pub) (ti_address x)).
Proof.
  intros H. specialize (H demo_env assumptions_satisfiable forged_json forged_loaded).
  assert (H1 : @from_json demo_env forged_json = Ok forged_loaded) by (vm_compute; reflexivity).
  assert (H2 : @verify demo_env forged_loaded = Ok 0) by (vm_compute; reflexivity).
  specialize (H H1 H2). 
  assert (X : exists x, hd_error (tx_inputs forged_loaded) = Some x) by (eexists; lazy; reflexivity).
  destruct X as [x Y]. pose proof (hd_error_In _ _ _ Y) as I0. specialize (H x I0).
  destruct H as (script & der & pub & SS & B & P & IA).
  destruct (script_parts_bytes _ _ _ B P) as [_ Bp]. apply (@public_key_to_address_iff demo_env demo_hash) in IA; auto.
  assert (Q : @script_sig_to_signature_hex_and_public_key_hex demo_env (hex_of script) = Ok (hex_of der, hex_of pub)).
  { rewrite parse_script_hex by auto. apply parse_script_iff in P; auto. rewrite P. reflexivity. }
  clear I0 H1 H2.
  assert (Y2 : match hd_error (tx_inputs forged_loaded) with Some z => match ti_script_sig z with Some w =>
     match @script_sig_to_signature_hex_and_public_key_hex demo_env w with Ok (_, p) => @public_key_hex_to_address demo_env p = Ok (ti_address z) | Err _ => False end
     | None => False end | None => False end) by (rewrite Y, SS, Q; exact IA).
  vm_compute in Y2. discriminate.
Qed.

(** The premises hold and the conclusions are reached on a concrete transaction with two inputs. *)
Example ex25_demo : exists ins outs, @tx_body demo_env created ins outs /\ CryptoOk demo_env /\ SignTotal demo_env /\
  @sign demo_env created [key1; key2] None = (Ok tt, signed_tx) /\ @verify demo_env signed_tx = Ok 0.
Proof.
  destruct DemoTxProofs.demo_body as (ins & outs & B). exists ins, outs. split; [exact B|]. split; [exact DemoTxProofs.demo_crypto|].
  split; [exact DemoProofs.demo_sign_total|]. split; [exact signed_ok|vm_compute; reflexivity].
Qed.

(** With key1 alone the second input stops it; with no fitting key nothing changes. *)
Example ex27_demo : (exists xs, @sign demo_env created [key1] None = (Err ValueError, set_inputs created xs) /\ xs <> tx_inputs created) /\
  @sign demo_env created [key3] None = (Err ValueError, created).
Proof.
  split; [|vm_compute; reflexivity]. exists (tx_inputs (snd (@sign demo_env created [key1] None))).
  split; [vm_compute; reflexivity|]. vm_compute. discriminate.
Qed.

(** Nonces: two fitting ones; a repetition; one key with two inputs. *)
Example ex28_demo : (exists t, @sign demo_env created [key1; key2] (Some [key1; key3]) = (Ok tt, t)) /\
  @sign demo_env created [key1; key2] (Some [key1; key1]) = (Err ValueError, created) /\
  @sign demo_env created [key1; key2] (Some [key1]) = (Err ValueError, created) /\
  (exists ins outs, @tx_body demo_env twice ins outs) /\
  fst (@sign demo_env twice [key1] None) = Ok tt /\ fst (@sign demo_env twice [key1] (Some [key3])) = Err IndexError.
Proof.
  split; [eexists; vm_compute; reflexivity|]. split; [vm_compute; reflexivity|]. split; [vm_compute; reflexivity|].
  split; [exact DemoTxProofs.twice_body|]. split; vm_compute; reflexivity.
Qed.

(** An unsigned transaction does not verify; a signature made for another input counts as invalid. *)
Example ex29_demo : @verify demo_env created = Err ValueError /\
  match tx_inputs signed_tx with
  | [x; y] => @verify demo_env (set_inputs signed_tx [set_script x (hex_of [len []]) 0 (match ti_script_sig y with Some s => s | None => [] end); y]) = Ok 1
  | _ => False
  end.
Proof. split; vm_compute; reflexivity. Qed.

(** Ids of a signed and an unsigned transaction. *)
Example ex31_demo : @calculate_txid demo_env created = Err ValueError /\ exists s, @calculate_txid demo_env signed_tx = Ok s /\ length s = 64%nat.
Proof. split; [vm_compute; reflexivity|]. eexists. split; vm_compute; reflexivity. Qed.

End WithEnv.
