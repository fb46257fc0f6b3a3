(** C96: signing a document whose scripts are whatever the document says. *)
From Coq Require Import String Floats.SpecFloat Lia.
From Verif Require Import PyBase Env PyNum Validate Basic Spec EnvOk TxInput TxOutput Tx Create Cli CliSpec TxSpec SignSpec CreateSpec JsonSpec VerifySpec AsWrittenSpec Demo DemoTx DemoCreate.
From Verif Require Import BuildProofs NumLemmas HexProofs Base58Proofs AddrProofs AmountProofs ScriptProofs WireProofs MakeProofs SignProofs JsonProofs VerifyProofs C_Sign C_Wire C_Json CliProofs StripProofs C_Verify DemoProofs DemoTxProofs.
Open Scope Z_scope.

Section WithEnv.
Context {E : Env}.

Lemma unscripted : forall xs k pos x, nth_error xs k = Some x -> ti_script_pub_key x = None -> signable_inputs pos (pos + k) xs = Err TypeError.
Proof.
  induction xs as [|y xs IH]; intros k pos x N S0; [destruct k; discriminate|]. cbn [signable_inputs]. destruct k as [|k].
  - injection N as ->. rewrite Nat.add_0_r, Nat.eqb_refl. unfold txin_hex_signable_form. rewrite S0. destruct (ti_script_pub_key_length x); reflexivity.
  - destruct (Nat.eqb_spec pos (pos + S k)); [lia|]. unfold txin_hex_signable_form_empty. cbn [bind]. replace (pos + S k)%nat with (S pos + k)%nat by lia. rewrite (IH k (S pos) x); auto.
Qed.

Lemma written_form : HashOk E -> forall t ins outs xs n x, written_tx t ins outs -> map unsign xs = map unsign (tx_inputs t) -> nth_error (tx_inputs t) n = Some x ->
  (forall spk, in_spk x spk -> to_hex_signable_form (set_inputs t xs) n = Ok (hex_of (sighash_bytes n spk ins outs)) /\ bytes (sighash_bytes n spk ins outs)) /\
  (ti_script_pub_key x = None -> to_hex_signable_form (set_inputs t xs) n = Err TypeError).
Proof.
  intros HH t ins outs xs n x (T & HI & HO & _) M N. rewrite signable_unsign by auto. split.
  - intros spk (S1 & S2 & S3 & S4). split; [apply signable_ok; auto; exists x; auto|]. eapply sighash_bytes_ok; eauto.
  - intros S0. unfold to_hex_signable_form. pose proof (unscripted (tx_inputs t) n 0 x N S0) as U. cbn [Nat.add] in U. rewrite U. reflexivity.
Qed.

Lemma loop_as_written : CryptoOk E -> forall t ins outs keys rv m todo dn pre, written_tx t ins outs ->
  (forall a, (exists k, map_find a m = Some k /\ In k keys /\ controls k a) \/ (map_find a m = None /\ forall k, In k keys -> ~ controls k a)) ->
  tx_inputs t = pre ++ todo -> map unsign dn = map unsign pre ->
  exists r xs', sign_loop t m rv dn todo = (r, dn ++ xs') /\ signing_as_written keys rv ins outs (length dn) todo r xs'.
Proof.
  intros (HH & HZ & HK & HS & HP & HD) t ins outs keys rv m. induction todo as [|x todo IH]; intros dn pre HB HM HT HU.
  - exists (Ok tt), []. cbn [sign_loop]. rewrite app_nil_r. split; auto. constructor.
  - cbn [sign_loop]. assert (LP : length dn = length pre) by (rewrite <- (map_length unsign dn), HU, map_length; auto).
    destruct (no_nonce_random rv (length dn)) as [[NN ->]|[NN [k [-> NK]]]]; [exists (Err IndexError), (x :: todo); split; auto; constructor; auto|].
    destruct (HM (ti_address x)) as [[key [MF [IK [pub [KP IA]]]]]|[MF NC]]; rewrite MF; [|exists (Err ValueError), (x :: todo); split; auto; apply sw_no_key; auto].
    rewrite (key_public HK key pub KP). cbv zeta.
    assert (MU : map unsign (dn ++ set_public_key x (hex_of pub) :: todo) = map unsign (tx_inputs t)) by (rewrite HT, !map_app, HU; reflexivity).
    assert (NT : nth_error (tx_inputs t) (length dn) = Some x) by (rewrite HT, LP; apply nth_mid).
    destruct (written_form HH t ins outs _ _ x HB MU NT) as [FO FN]. pose proof KP as (_ & _ & _ & Bp & Lp).
    assert (SC : (exists spk, in_spk x spk) \/ ti_script_pub_key x = None).
    { destruct HB as (_ & _ & _ & F). rewrite Forall_forall in F. apply F. eapply nth_error_In; eauto. }
    destruct SC as [(spk & SP)|S0].
    + destruct (FO spk SP) as [F0 FB].
      destruct (make_script_spec HH HS HP HD _ _ _ key pub k F0 FB) as [(sig & Bs & Ls & SG & D1 & D2 & ->)|(e & SG & ->)]; auto.
      { destruct HB as [(_ & _ & _ & T & _) _]. exact T. }
      * set (x' := set_script _ _ _ _).
        destruct (IH (dn ++ [x']) (pre ++ [x])) as (r & xs' & SL & SI); auto.
        { rewrite HT, <- app_assoc. reflexivity. }
        { rewrite !map_app, HU. reflexivity. }
        exists r, (x' :: xs'). rewrite SL, <- app_assoc. split; auto. rewrite app_length in SI. cbn [length] in SI. rewrite Nat.add_1_r in SI.
        eapply sw_signed; eauto. exists pub, sig, spk. rewrite NK. auto 12.
      * exists (Err e), (with_public_key x pub :: todo). split; auto. eapply sw_refused; eauto. rewrite NK. exact SG.
    + unfold make_script_sig. rewrite hex_len_ok by auto. cbn [bind]. unfold create_signature_for_one_input. rewrite (FN S0). cbn [bind].
      exists (Err TypeError), (with_public_key x pub :: todo). split; auto. eapply sw_no_script; eauto.
Qed.

(** C96.  What sign does with any transaction whose inputs name some script, or none: with unusable nonces or keys it fails and changes nothing; otherwise it signs the inputs in
    order, each with a key that controls its address, committing to the script that the input names, until the first input that has no nonce, no key, no script or a refused signature. *)
Lemma c96_outcome : CryptoOk E -> forall t ins outs keys rv, written_tx t ins outs ->
  let nonces_fit := rv = None \/ rv = Some [] \/ exists l, rv = Some l /\ NoDup l /\ length l = length keys in
  let keys_fit := Forall (fun k => exists a, controls k a) keys in
  (~ nonces_fit -> sign t keys rv = (Err ValueError, t)) /\
  (~ keys_fit -> exists e, sign t keys rv = (Err e, t)) /\
  (nonces_fit -> keys_fit -> exists r xs', sign t keys rv = (r, set_inputs t xs') /\ signing_as_written keys rv ins outs 0 (tx_inputs t) r xs').
Proof.
  intros HC t ins outs keys rv HB NF KF. pose proof HC as (HH & HZ & HK & HS & HP & HD). split; [|split].
  - intros N. unfold sign. destruct (check_random_values keys rv) as [[]|e] eqn:CR.
    + exfalso. apply N. apply check_random_ok. exact CR.
    + rewrite (check_random_err _ _ _ CR). reflexivity.
  - intros N. unfold sign. destruct (check_random_values keys rv) as [[]|e]; [|eauto]. destruct (build_map_bad HH HK keys [] N) as [e ->]. eauto.
  - intros N K. apply check_random_ok in N. unfold sign. rewrite N. destruct (build_map_ok HH HK keys [] K) as [m [-> HM]].
    destruct (loop_as_written HC t ins outs keys rv m (tx_inputs t) [] []) as (r & xs' & SL & SI); auto.
    + intros a. destruct (HM a) as [[k [MF [[I C]|X]]]|[MF [_ NC]]]; [left; exists k; auto|discriminate|right; auto].
    + rewrite SL. exists r, xs'. auto.
Qed.

(** C96.  Every document that from_json accepts is such a transaction. *)
Lemma c96_documents : HashOk E -> ZeroAddressOk E -> UniOk E -> forall s t, from_json s = Ok t -> exists ins outs, written_tx t ins outs.
Proof.
  intros HH HZ HU s t F. destruct (json_body HH HZ HU s t F) as (ins & outs & T & HI & HO). exists ins, outs. split; auto. split; auto. split; auto.
  apply (c33_accepted_iff HH HZ HU) in F as (v & _ & d & vi & vo & xs & ys & sg & -> & _ & _ & FJ & _ & _ & _ & _ & _ & _ & _ & _ & _ & _ & _ & _ & ->). cbn [tx_inputs] in *.
  clear - FJ. induction FJ as [|jv x l l' J FJ IH]; constructor; auto.
  destruct J as (d' & txid & iv & idx & m & bt & pk & lv1 & iv1 & sv1 & l1 & s1 & lv2 & iv2 & sv2 & l2 & s2 & a & h & _ & _ & _ & _ & _ & _ & _ & _ & _ & _ & _ & _
          & _ & _ & _ & _ & _ & _ & _ & _ & _ & _ & _ & _ & _ & JS & ->). cbn [ti_script_pub_key].
  destruct JS as [(_ & _ & _ & ->)|(q & R & _ & -> & _ & [(_ & ->)|(bs & Bb & LB & _ & ->)])]; auto. left. exists bs. split; auto. split; [lia|]. split; [reflexivity|]. rewrite LB. reflexivity.
Qed.

Lemma written_unsign : forall keys rv ins outs n xs r xs', signing_as_written keys rv ins outs n xs r xs' -> map unsign xs' = map unsign xs.
Proof.
  intros keys rv ins outs n xs r xs' H. induction H as [n|n x x' xs r xs' key NN I (pub & sig & spk & _ & _ & _ & _ & _ & _ & _ & _ & ->) H IH| | | |]; try reflexivity.
  cbn [map]. rewrite IH. reflexivity.
Qed.

Lemma written_checked : CryptoOk E -> forall keys rv ins outs n xs xs', signing_as_written keys rv ins outs n xs (Ok tt) xs' ->
  all_checked ins outs n xs' (repeat true (length xs')).
Proof.
  intros (HH & HZ & HK & HS & HP & HD) keys rv ins outs n xs xs' H. remember (Ok tt : res unit) as r eqn:R.
  induction H as [n|n x x' xs r xs' key NN I (pub & sig & spk & KP & IA & SP & Bs & Ls & SG & D1 & D2 & ->) H IH| | | |]; try discriminate R; cbn [length repeat]; constructor; auto.
  pose proof KP as (_ & _ & PK & Bp & Lp). unfold len in D2.
  destruct (build_script_ok (der_of sig) pub) as [_ [_ B3]]; auto; [lia|].
  exists spk, (build_script_sig (der_of sig) pub), (der_of sig), pub, (hex_of sig).
  split; [exact SP|split; [reflexivity|split; [exact B3|split; [apply built_parts; auto; lia|split; [exact Lp|split; [apply der_of_sig; auto|]]]]]].
  destruct (sig_bytes HS _ _ _ _ SG) as [_ [_ [_ [_ V]]]]. auto.
Qed.

Lemma written_after : forall t ins outs xs', written_tx t ins outs -> map unsign xs' = map unsign (tx_inputs t) -> written_tx (set_inputs t xs') ins outs.
Proof.
  intros t ins outs xs' (T & HI & HO & HW) M.
  assert (L : length xs' = length (tx_inputs t)) by (rewrite <- (map_length unsign xs'), M, map_length; auto).
  split; [apply header_inputs; auto|]. cbn [set_inputs tx_inputs tx_outputs]. split; [|split; [exact HO|]].
  - clear - HI M. revert xs' M. induction HI as [|x i xs is Hx HI IH]; intros [|y ys] M; try discriminate; constructor.
    + eapply outpoint_unsign; [|exact Hx]. exact (eq_sym (f_equal (hd (unsign y)) M)).
    + apply IH. injection M as M1 M2. congruence.
  - clear - HW M. revert xs' M. induction HW as [|x xs Hx HW IH]; intros [|y ys] M; try discriminate; constructor.
    + injection M as E1 E2 E3 E4 E5 E6 E7 E8 E9 E10 E11 _. unfold in_spk. rewrite E5, E7. exact Hx.
    + apply IH. injection M as M1 M2. congruence.
Qed.

Lemma signed_scripts : forall keys rv ins outs n xs xs', signing_as_written keys rv ins outs n xs (Ok tt) xs' -> Forall (fun x => exists spk, in_spk x spk) xs'.
Proof.
  intros keys rv ins outs n xs xs' H. remember (Ok tt : res unit) as r eqn:R.
  induction H as [n|n x x' xs r xs' key NN I (pub & sig & spk & _ & _ & SP & _ & _ & _ & _ & _ & ->) H IH| | | |]; try discriminate R; constructor; auto. exists spk. exact SP.
Qed.

Lemma keys_of_signed : CryptoOk E -> forall t keys rv t', sign t keys rv = (Ok tt, t') ->
  (rv = None \/ rv = Some [] \/ exists l, rv = Some l /\ NoDup l /\ length l = length keys) /\ Forall (fun k => exists a, controls k a) keys.
Proof.
  intros (HH & HZ & HK & HS & HP & HD) t keys rv t' H. unfold sign in H.
  destruct (check_random_values keys rv) as [[]|e] eqn:CR; [|discriminate]. split; [apply check_random_ok; exact CR|].
  apply Forall_forall. intros k Ik. destruct (key_step HH HK k) as [[a [C _]]|[N _]]; [eauto|]. exfalso.
  destruct (build_map_bad HH HK keys []) as [e Q].
  - intros F. rewrite Forall_forall in F. destruct (F k Ik) as [a C]. exact (N a C).
  - rewrite Q in H. discriminate.
Qed.

(** C96.  Whenever signing succeeds, every signature in the result verifies: no document makes the program produce a signature that it then rejects. *)
Lemma c96_verifies : CryptoOk E -> forall t ins outs keys rv t', written_tx t ins outs -> sign t keys rv = (Ok tt, t') ->
  verify t' = Ok 0 /\ exists xs', t' = set_inputs t xs' /\ signing_as_written keys rv ins outs 0 (tx_inputs t) (Ok tt) xs'.
Proof.
  intros HC t ins outs keys rv t' HB H. destruct (keys_of_signed HC _ _ _ _ H) as [NF KF].
  destruct (proj2 (proj2 (c96_outcome HC t ins outs keys rv HB)) NF KF) as (r & xs' & Q & SW). rewrite H in Q. injection Q as <- ->. split; [|exists xs'; auto].
  pose proof (written_after _ _ _ _ HB (written_unsign _ _ _ _ _ _ _ _ SW)) as (T & HI & HO & _). pose proof HC as (HH & _).
  apply (verify_iff HH _ ins outs); [split; auto| |].
  - cbn [set_inputs tx_inputs]. eapply signed_scripts; eauto.
  - exists (repeat true (length xs')). split; [|symmetry; apply falses_true]. eapply written_checked; eauto.
Qed.

(** The first input that stops the signing, with deterministic nonces. *)
Lemma written_prefix : HashOk E -> SignTotal E -> forall keys ins outs pre n xs r xs', signing_as_written keys None ins outs n (pre ++ xs) r xs' ->
  Forall (fun x => (exists k, In k keys /\ controls k (ti_address x)) /\ ti_script_pub_key x <> None) pre ->
  exists pre' ys', xs' = pre' ++ ys' /\ signing_as_written keys None ins outs n pre (Ok tt) pre' /\ signing_as_written keys None ins outs (n + length pre) xs r ys'.
Proof.
  intros HH HT keys ins outs. assert (NN : forall n, ~ no_nonce None n) by (intros n [l [C _]]; discriminate).
  induction pre as [|x pre IH]; intros n xs r xs' SI F.
  - exists [], xs'. cbn [app length] in *. rewrite Nat.add_0_r. split; auto. split; auto. constructor.
  - inversion F as [|q1 q2 [[k [Ik Ck]] SN] F']; subst. cbn [app] in SI. inversion SI; subst.
    + match goal with H : signing_as_written _ _ _ _ (S n) _ _ _ |- _ => rename H into H9 end. destruct (IH _ _ _ _ H9 F') as (pre' & ys' & -> & AS & SG). exists (x' :: pre'), ys'. split; auto. split; [econstructor; eauto|].
      cbn [length]. replace (n + S (length pre))%nat with (S n + length pre)%nat by lia. exact SG.
    + exfalso. eapply NN; eauto.
    + exfalso. match goal with H : forall key, In key keys -> ~ _ |- _ => exact (H k Ik Ck) end.
    + contradiction.
    + exfalso. match goal with H : signature ?key (digest ?f) _ = Err _, K : key_pub _ _ |- _ =>
        destruct K as (_ & V & _); destruct (HT key (digest f) V) as [s Hs]; [apply HH|apply HH|];
        unfold signature, nonce in H; rewrite Hs in H; discriminate end.
Qed.

(** C96.  With deterministic nonces and valid keys: signing succeeds if there is a key and a script for every input.  Otherwise the inputs before the first one that lacks either are
    signed and the later ones left as they were; if that one lacks a key the failure is a ValueError and it is left as it was, and if it has a key but no script the failure is a
    TypeError and it has been given the public key. *)
Lemma c96_first_obstacle : CryptoOk E -> SignTotal E -> forall t ins outs keys, written_tx t ins outs -> Forall (fun k => exists a, controls k a) keys ->
  let known x := exists k, In k keys /\ controls k (ti_address x) in
  (Forall (fun x => known x /\ ti_script_pub_key x <> None) (tx_inputs t) ->
     exists xs', sign t keys None = (Ok tt, set_inputs t xs') /\ signing_as_written keys None ins outs 0 (tx_inputs t) (Ok tt) xs') /\
  (forall pre x post, tx_inputs t = pre ++ x :: post -> Forall (fun x => known x /\ ti_script_pub_key x <> None) pre ->
     (~ known x -> exists pre', sign t keys None = (Err ValueError, set_inputs t (pre' ++ x :: post)) /\ signing_as_written keys None ins outs 0 pre (Ok tt) pre') /\
     (known x -> ti_script_pub_key x = None -> exists pre' k pub, In k keys /\ key_pub k pub /\ is_address (hash160 pub) (ti_address x) /\
        sign t keys None = (Err TypeError, set_inputs t (pre' ++ with_public_key x pub :: post)) /\ signing_as_written keys None ins outs 0 pre (Ok tt) pre')).
Proof.
  intros HC HT t ins outs keys HB KF known. pose proof HC as (HH & _).
  destruct (proj2 (proj2 (c96_outcome HC t ins outs keys None HB)) (or_introl eq_refl) KF) as (r & xs' & Q & SW).
  assert (NN : forall n, ~ no_nonce None n) by (intros n [l [C _]]; discriminate). split.
  - intros F. rewrite <- (app_nil_r (tx_inputs t)) in SW. destruct (written_prefix HH HT _ _ _ _ _ _ _ _ SW F) as (pre' & ys' & -> & AS & SG). inversion SG; subst. exists pre'. rewrite Q, app_nil_r. auto.
  - intros pre x post T F. rewrite T in SW. destruct (written_prefix HH HT _ _ _ _ _ _ _ _ SW F) as (pre' & ys' & -> & AS & SG). rewrite Q. split.
    + intros N. exists pre'. split; auto. inversion SG; subst; auto.
      * exfalso. apply N. match goal with H : signed_as_written ?k _ _ _ _ _ _ |- _ => exists k; split; auto; destruct H as (p & s & spk & KP & IA & _); exists p; auto end.
      * exfalso. eapply NN; eauto.
      * exfalso. apply N. match goal with K : key_pub ?k ?p |- _ => exists k; split; auto; exists p; split; auto end.
      * exfalso. apply N. match goal with K : key_pub ?k ?p |- _ => exists k; split; auto; exists p; split; auto end.
    + intros (k & Ik & Ck) S0. inversion SG; subst.
      * exfalso. match goal with H : signed_as_written ?k _ _ _ _ _ _ |- _ => destruct H as (p & s & spk & KP & IA & (_ & _ & SP & _) & _); congruence end.
      * exfalso. eapply NN; eauto.
      * exfalso. match goal with H : forall key, In key keys -> ~ _ |- _ => exact (H k Ik Ck) end.
      * exists pre'. match goal with K : key_pub ?k ?p |- _ => exists k, p end. auto.
      * exfalso. match goal with H : in_spk _ _ |- _ => destruct H as (_ & _ & SP & _); congruence end.
Qed.

Lemma written_wire : forall t ins outs keys rv xs', written_tx t ins outs -> signing_as_written keys rv ins outs 0 (tx_inputs t) (Ok tt) xs' ->
  exists ins', tx_wire (set_inputs t xs') ins' outs /\ tx_signed (set_inputs t xs') = true.
Proof.
  intros t ins outs keys rv xs' HB SW. pose proof (written_after _ _ _ _ HB (written_unsign _ _ _ _ _ _ _ _ SW)) as (T & HI & HO & _). cbn [set_inputs tx_inputs tx_outputs] in HI, HO.
  assert (G : forall is0 n xs xs', signing_as_written keys rv ins outs n xs (Ok tt) xs' -> Forall2 (fun x i => in_outpoint x (i_txid i) (i_index i)) xs' is0 ->
     exists ins', Forall2 in_wire xs' ins' /\ forallb txin_signed xs' = true).
  { clear. intros is0 n xs xs' AS. remember (Ok tt : res unit) as r eqn:R. revert is0.
    induction AS as [n|n x x' xs r xs' key NN I (pub & sig & spk & KP & IA & SP & Bs & Ls & SG & D1 & D2 & ->) AS IH| | | |]; try discriminate R; intros is0 F; inversion F as [|q1 i q2 is1 Fx F']; subst.
    - exists []. split; [constructor|]. auto.
    - destruct (IH eq_refl _ F') as (ins' & W & FS).
      pose proof KP as (_ & _ & PK & Bp & Lp). unfold len in D2. destruct (build_script_ok (der_of sig) pub) as [_ [B2 B3]]; auto; [lia|].
      exists (mk_sinput (i_txid i) (i_index i) (build_script_sig (der_of sig) pub) :: ins'). split.
      + constructor; auto. split; [exact Fx|]. cbn [i_script]. split; [exact B3|]. split; [unfold len in B2 at 2; lia|]. repeat split.
      + cbn [forallb]. rewrite FS. reflexivity. }
  destruct (G ins 0%nat _ _ SW HI) as (ins' & W & FS). exists ins'. split; auto. split; auto.
Qed.

Lemma worth_unsign : forall xs xs', map unsign xs' = map unsign xs -> map ti_satoshi_amount xs' = map ti_satoshi_amount xs.
Proof.
  induction xs as [|x xs IH]; intros [|x' xs'] M; try discriminate; auto. cbn [map] in *. injection M as _ _ _ _ _ _ _ _ _ E10 _ M. rewrite E10, (IH _ M). reflexivity.
Qed.

(** Writing what was signed. *)
Lemma signed_to_json : CryptoOk E -> UniOk E -> forall s t ins outs keys rv xs', from_json s = Ok t -> written_tx t ins outs ->
  signing_as_written keys rv ins outs 0 (tx_inputs t) (Ok tt) xs' ->
  (Zsum (map ti_sat (tx_inputs t)) <= 2100000000000000 -> exists j, to_json (set_inputs t xs') = Ok j) /\
  (2100000000000000 < Zsum (map ti_sat (tx_inputs t)) -> to_json (set_inputs t xs') = Err ValueError).
Proof.
  intros HC HU s t ins outs keys rv xs' FJ HB SW. pose proof HC as (HH & HZ & _). destruct (c33_consistent HH HZ HU s t FJ) as (TH & FO & FI & (f & FE & F0) & CN).
  destruct (written_wire _ _ _ _ _ _ HB SW) as (ins' & TW & SG). pose proof TW as (TH' & _). pose proof (written_unsign _ _ _ _ _ _ _ _ SW) as M. pose proof (worth_unsign _ _ M) as WU.
  set (t' := set_inputs t xs') in *.
  assert (TI : total_input t = Some (Zsum (map ti_sat (tx_inputs t)))).
  { unfold total_input. replace (input_values_known t) with true; auto. symmetry. unfold input_values_known. apply forallb_forall. intros x I.
    rewrite Forall_forall in FI. destruct (FI x I) as (txid & idx & n & h & _ & (-> & _) & _). auto. }
  assert (TI' : total_input t' = total_input t).
  { unfold total_input, input_values_known. change (tx_inputs t') with xs'. assert (MS : map ti_sat xs' = map ti_sat (tx_inputs t)).
    { clear - WU. revert WU. generalize (tx_inputs t). induction xs' as [|x xs IH]; intros [|y ys] W; try discriminate; auto. cbn [map] in *. injection W as W1 W2. rewrite (IH _ W2). unfold ti_sat. rewrite W1. reflexivity. }
    rewrite MS. assert (KN : forallb (fun x => match ti_satoshi_amount x with Some _ => true | None => false end) xs' = forallb (fun x => match ti_satoshi_amount x with Some _ => true | None => false end) (tx_inputs t)).
    { clear - WU. revert WU. generalize (tx_inputs t). induction xs' as [|x xs IH]; intros [|y ys] W; try discriminate; auto. cbn [map forallb] in *. injection W as W1 W2. rewrite (IH _ W2), W1. reflexivity. }
    rewrite KN. reflexivity. }
  set (ti := Zsum (map ti_sat (tx_inputs t))) in *.
  assert (TO : total_output t' = total_output t) by reflexivity.
  assert (FE' : fee t' = Some (ti - total_output t)) by (unfold fee; rewrite TI', TI, TO; reflexivity).
  assert (F1 : f = ti - total_output t) by (unfold fee in FE; rewrite TI in FE; injection FE as <-; reflexivity).
  assert (T0 : 0 <= total_output t).
  { unfold total_output. clear - FO. induction FO as [|y l (v & h & (W & _) & P) _ IH]; cbn [map]; [unfold Zsum; cbn; lia|]. destruct W as (_ & _ & _ & _ & _ & _ & -> & _). unfold Zsum in *. cbn [fold_right o_value]. lia. }
  destruct TH' as (H1 & H2 & H3 & H4 & H5 & H6 & H7 & H8).
  destruct (wire_ok _ _ _ TW) as [BW LW]. unfold to_json, to_dict. rewrite (estimate_ok _ _ H6 H8). cbn [bind]. rewrite TI', TI, FE', TO. split.
  - intros LM. destruct (sat_text HU ti ltac:(lia)) as (s1 & E1 & _). destruct (sat_text HU (ti - total_output t) ltac:(lia)) as (s2 & E2 & _). destruct (sat_text HU (total_output t) ltac:(lia)) as (s3 & E3 & _).
    rewrite E1. cbn [bind]. rewrite E2. cbn [bind]. cbv zeta. rewrite E3. cbn [bind]. unfold change. change (tx_change_address t') with (tx_change_address t). rewrite CN. cbn [bind]. rewrite SG, (tx_wire_hex _ _ _ TW). cbn [bind]. rewrite hex_len_ok by auto. cbn [bind]. eauto.
  - intros LM. rewrite (satoshi_to_bitcoin_bad) by lia. reflexivity.
Qed.

(** C96.  create_signed_transaction_json, for any text and any keys: it prints one document and succeeds exactly if the text is a document that from_json accepts, all keys are valid,
    every input has a key and a script, and the inputs are worth at most 21 million bitcoin; what it prints then carries signatures that all verify.  In every other case it prints
    nothing and fails: there is no input for which it prints a document and then reports an invalid signature. *)
Lemma c96_task : CryptoOk E -> SignTotal E -> UniOk E -> forall s keys,
  let signable t := Forall (fun k => exists a, controls k a) keys /\
    Forall (fun x => (exists k, In k keys /\ controls k (ti_address x)) /\ ti_script_pub_key x <> None) (tx_inputs t) /\ Zsum (map ti_sat (tx_inputs t)) <= 2100000000000000 in
  (forall t, from_json s = Ok t -> signable t -> exists ins outs xs' j, written_tx t ins outs /\ task_create_signed_transaction_json (Some s) keys = ([j], Ok tt) /\
     signing_as_written keys None ins outs 0 (tx_inputs t) (Ok tt) xs' /\ to_json (set_inputs t xs') = Ok j /\ verify (set_inputs t xs') = Ok 0) /\
  (forall t, from_json s = Ok t -> ~ signable t -> exists e, task_create_signed_transaction_json (Some s) keys = ([], Err e)) /\
  (forall e, from_json s = Err e -> task_create_signed_transaction_json (Some s) keys = ([], Err e)).
Proof.
  intros HC HT HU s keys. cbv zeta. pose proof HC as (HH & HZ & _). unfold task_create_signed_transaction_json, data_for_json. cbn [after]. split; [|split].
  - intros t FJ (KF & KS & LM). destruct (c96_documents HH HZ HU s t FJ) as (ins & outs & W). destruct (proj1 (c96_first_obstacle HC HT t ins outs keys W KF) KS) as (xs' & SG & SW).
    destruct (proj1 (signed_to_json HC HU s t ins outs keys None xs' FJ W SW) LM) as (j & TJ). destruct (c96_verifies HC t ins outs keys None _ W SG) as (V & _).
    exists ins, outs, xs', j. split; auto. split; [|auto]. rewrite FJ. cbn [after]. rewrite SG. cbn [after]. rewrite TJ. cbn [after]. rewrite V. reflexivity.
  - intros t FJ N. rewrite FJ. cbn [after]. destruct (sign t keys None) as [[[]|e] t'] eqn:SG; [|cbn [after]; unfold fail; eauto].
    destruct (c96_documents HH HZ HU s t FJ) as (ins & outs & W). destruct (c96_verifies HC t ins outs keys None _ W SG) as (V & xs' & -> & SW). destruct (keys_of_signed HC _ _ _ _ SG) as [_ KF]. cbn [after].
    destruct (Z_le_gt_dec (Zsum (map ti_sat (tx_inputs t))) 2100000000000000) as [LM|LM].
    + exfalso. apply N. split; auto. split; auto. clear - SW. remember (Ok tt : res unit) as r eqn:R.
      induction SW as [n|n x x' xs r xs' key NN I (pub & sig & spk & KP & IA & (_ & _ & SP & _) & _) AS IH| | | |]; try discriminate R; constructor; auto. split; [exists key; split; auto; exists pub; auto|congruence].
    + rewrite (proj2 (signed_to_json HC HU s t ins outs keys None xs' FJ W SW)) by lia. cbn [after]. unfold fail. eauto.
  - intros e FJ. rewrite FJ. reflexivity.
Qed.

(** C96, refuted: that an input is only signed if the script it names pays its address.  If signing a transaction succeeds, it succeeds as well with any other script in place of
    all the scripts, and the signatures verify. *)
Lemma c96_script_of_address_refuted : CryptoOk E -> SignTotal E -> forall t ins outs keys spk, written_tx t ins outs -> bytes spk -> len spk <= 252 ->
  fst (sign t keys None) = Ok tt ->
  let t2 := set_inputs t (map (with_script_pub_key spk) (tx_inputs t)) in
  exists xs', sign t2 keys None = (Ok tt, set_inputs t2 xs') /\ verify (set_inputs t2 xs') = Ok 0 /\
    signing_as_written keys None ins outs 0 (map (with_script_pub_key spk) (tx_inputs t)) (Ok tt) xs'.
Proof.
  intros HC HT t ins outs keys spk W B L H t2. destruct (sign t keys None) as [r t'] eqn:SG. cbn [fst] in H. subst r.
  destruct (c96_verifies HC t ins outs keys None _ W SG) as (_ & xs & _ & SW). destruct (keys_of_signed HC _ _ _ _ SG) as [_ KF]. pose proof W as (TH & HI & HO & HF).
  assert (W2 : written_tx t2 ins outs).
  { split; [apply header_inputs; [auto|apply map_length]|]. cbn [t2 set_inputs tx_inputs tx_outputs]. split; [|split; [exact HO|]].
    - clear - HI. induction HI; constructor; auto.
    - apply Forall_map. clear - HF B L. induction HF; constructor; auto. left. exists spk. repeat split; auto. }
  destruct (proj1 (c96_first_obstacle HC HT t2 ins outs keys W2 KF)) as (xs' & S2 & SW2).
  - cbn [t2 set_inputs tx_inputs]. clear - SW. remember (Ok tt : res unit) as r eqn:R.
    induction SW as [n|n x x' xs r xs' key NN I (pub & sig & sp & KP & IA & _) AS IH| | | |]; try discriminate R; cbn [map]; constructor; auto. split; [exists key; split; auto; exists pub; auto|discriminate].
  - exists xs'. split; auto. destruct (c96_verifies HC t2 ins outs keys None _ W2 S2) as (V & _). auto.
Qed.

End WithEnv.

(** Beside C96. *)
Lemma demo_written : exists ins outs, written_tx created ins outs.
Proof.
  destruct demo_body as (ins & outs & TB). destruct (@body_spk demo_env (proj1 demo_crypto) _ _ _ TB) as [(T & HI & HO) SP]. exists ins, outs. split; auto. split; auto. split; auto.
  eapply Forall_impl; [|exact SP]. intros x H. left. exact H.
Qed.
(** The created demo transaction can be signed, also with one and the same foreign script in both inputs. *)
Example ex96_met : exists ins outs, written_tx created ins outs /\ fst (@sign demo_env created [key1; key2] None) = Ok tt.
Proof. destruct demo_written as (ins & outs & W). exists ins, outs. split; [exact W|]. rewrite signed_ok. reflexivity. Qed.
Example ex96_foreign : exists ins outs xs', written_tx created ins outs /\
  @signing_as_written demo_env [key1; key2] None ins outs 0 (map (with_script_pub_key [81]) (tx_inputs created)) (Ok tt) xs' /\ length xs' = 2%nat.
Proof.
  destruct ex96_met as (ins & outs & W & H). destruct (c96_script_of_address_refuted demo_crypto demo_sign_total created ins outs [key1; key2] [81] W) as (xs' & _ & _ & SW); auto.
  - repeat constructor; unfold byte; lia.
  - cbn. lia.
  - exists ins, outs, xs'. split; auto. split; auto. apply written_unsign in SW. apply (f_equal (@length txin)) in SW. rewrite !map_length in SW. rewrite SW. vm_compute. reflexivity.
Qed.
(** Without scripts it cannot be signed. *)
Example ex96_no_script : exists t, @sign demo_env (set_inputs created (map no_script (tx_inputs created))) [key1; key2] None = (Err TypeError, t).
Proof. eexists. vm_compute. reflexivity. Qed.
