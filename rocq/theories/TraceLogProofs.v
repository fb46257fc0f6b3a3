(** The log records of sign, verify and from_hex_signed. *)
From Coq Require Import String Lia.
From Verif Require Import PyBase Env PyNum Validate Basic Spec EnvOk TxInput TxOutput Tx Trace TxSpec SignSpec TraceSpec.
From Verif Require Import NumLemmas HexProofs Base58Proofs AddrProofs AmountProofs ScriptProofs WireProofs SignProofs VerifyProofs TraceProofs TraceEraseProofs.
Open Scope Z_scope.

Lemma pair_inj : forall A B (a a' : A) (b b' : B), (a, b) = (a', b') -> a = a' /\ b = b'.
Proof. intros. injection H as -> ->. auto. Qed.

Section WithEnv.
Context {E : Env}.

(** ** verify *)
Section Hash.
Hypothesis HH : HashOk E.
Lemma verify_loop_log : forall t ins outs N, body t ins outs -> forall xs i c bs,
  (forall j, nth_error (tx_inputs t) (i + j) = nth_error xs j) -> all_checked ins outs i xs bs ->
  exists l, checks_log N i xs bs l /\ verify_loop_says t N i xs c = (l, Ok (c + falses bs)).
Proof.
  intros t ins outs N HB. induction xs as [|x xs IH]; intros i c bs HN H; inversion H as [|q1 q2 q3 b bs' (spk & script & der & pub & sh & SP & SS & B & P & L & D & V) H']; subst.
  - exists []. split; [constructor|]. change (falses []) with 0. rewrite Z.add_0_r. reflexivity.
  - pose proof (HN 0%nat) as N0. rewrite Nat.add_0_r in N0. cbn [nth_error] in N0.
    assert (HN' : forall j, nth_error (tx_inputs t) (S i + j) = nth_error xs j).
    { intros j. specialize (HN (S j)). cbn [nth_error] in HN. rewrite <- HN. f_equal. lia. }
    destruct (script_parts_bytes _ _ _ B P) as [Bd Bp]. destruct D as (r & s & DD & R & S0 & ->).
    destruct (IH (S i) (if b then c else c + 1) bs' HN' H') as (l & CL & VL).
    eexists. split; [constructor; [|exact CL]; exists script, der, pub, r, s; repeat split; eauto; lia|].
    cbn [verify_loop_says]. rewrite tbind_deb, SS, (parts_says_ok script der pub B P), tbind_ok. cbv beta iota.
    rewrite (from_der_says_ok der r s) by auto. rewrite tbind_ok, (verify_one HH t ins outs i x spk pub _ HB N0 SP Bp), L.
    change (Nat.eqb 64 64) with true. cbv iota. rewrite V, tbind_silent.
    replace (c + falses (b :: bs')) with ((if b then c else c + 1) + falses bs') by (unfold falses; cbn [filter]; destruct b; cbn [negb length]; lia).
    destruct b; [rewrite tbind_deb|rewrite tbind_error]; rewrite VL; unfold tpre; cbn [fst snd]; f_equal;
      unfold verdict_record, at_debug, at_error, which, num, numeral; cbn [app]; rewrite <- ?app_assoc; reflexivity.
Qed.

Lemma check_log_fun : forall n k x b l l', check_log n k x b l -> check_log n k x b l' -> l = l'.
Proof.
  intros n k x b l l' (s1 & d1 & p1 & r1 & q1 & A1 & A2 & A3 & A4 & _ & _ & ->) (s2 & d2 & p2 & r2 & q2 & B1 & B2 & B3 & B4 & _ & _ & ->).
  rewrite A1 in B1. injection B1 as B1. apply hex_of_inj in B1; auto. subst s2. destruct (script_parts_fun _ _ _ _ _ A2 A3 B3) as [<- <-].
  rewrite A4 in B4. injection B4 as <- <-. reflexivity.
Qed.
Lemma checks_log_fun : forall n k xs bs l, checks_log n k xs bs l -> forall l', checks_log n k xs bs l' -> l = l'.
Proof.
  intros n k xs bs l H. induction H as [k|k x xs b bs l l1 C _ IH]; intros l' H'; inversion H'; subst; auto. f_equal; [eapply check_log_fun; eauto|auto].
Qed.

Lemma check_log_split : forall n k x b l, check_log n k x b l ->
  filter (level_is 40) l = (if b then [] else [at_error (lit "Signature " ++ which k n ++ lit " is invalid!")]) /\ filter (level_is 20) l = [].
Proof.
  intros n k x b l (s1 & d1 & p1 & r1 & q1 & _ & _ & _ & _ & _ & _ & ->). rewrite !filter_app.
  unfold parts_log, der_log, verdict_record. destruct b; split; reflexivity.
Qed.
Lemma checks_log_split : forall n k xs bs l, checks_log n k xs bs l -> filter (level_is 40) l = complaints n k bs /\ filter (level_is 20) l = [].
Proof.
  intros n k xs bs l H. induction H as [k|k x xs b bs l l1 C _ [I1 I2]]; [split; reflexivity|].
  destruct (check_log_split _ _ _ _ _ C) as [C1 C2]. rewrite !filter_app, C1, C2, I1, I2. split; reflexivity.
Qed.
Lemma complaints_length : forall n bs k, Z.of_nat (length (complaints n k bs)) = falses bs.
Proof.
  intros n. induction bs as [|b bs IH]; intros k; [reflexivity|]. cbn [complaints]. rewrite app_length, Nat2Z.inj_add, IH. unfold falses. cbn [filter].
  destruct b; cbn [negb length]; lia.
Qed.

Lemma verify_log_iff : forall t ins outs, body t ins outs -> Forall (fun x => exists spk, in_spk x spk) (tx_inputs t) ->
  forall L n, verify_says t = (L, Ok n) <->
    exists bs l, all_checked ins outs 0 (tx_inputs t) bs /\ n = falses bs /\ checks_log (length (tx_inputs t)) 0 (tx_inputs t) bs l /\
      L = l ++ [at_info (verified_text (length (tx_inputs t)))].
Proof.
  intros t ins outs HB HF L n.
  assert (K : forall bs, all_checked ins outs 0 (tx_inputs t) bs -> exists l, checks_log (length (tx_inputs t)) 0 (tx_inputs t) bs l /\
     verify_says t = (l ++ [at_info (verified_text (length (tx_inputs t)))], Ok (falses bs))).
  { intros bs H. destruct (verify_loop_log t ins outs (length (tx_inputs t)) HB (tx_inputs t) 0 0 bs) as (l & C & V); auto.
    exists l. split; auto. unfold verify_says. rewrite V, tbind_ok. cbv zeta. rewrite tbind_info. unfold tpre, silent. cbn [fst snd]. rewrite app_nil_r. do 4 f_equal.
    unfold verified_text. do 4 f_equal. destruct (tx_inputs t) as [|a [|b r]]; reflexivity. }
  split.
  - intros H. assert (V : verify t = Ok n) by (rewrite <- verify_erase, H; reflexivity).
    apply (verify_iff HH t ins outs HB HF) in V as [bs [A ->]]. destruct (K bs A) as (l & C & V). rewrite H in V. injection V as ->. exists bs, l. auto.
  - intros (bs & l & A & -> & C & ->). destruct (K bs A) as (l' & C' & ->). rewrite (checks_log_fun _ _ _ _ _ C' _ C). reflexivity.
Qed.

(** *** When verify fails *)
Definition debug_only {A} (m : trace A) : Prop := Forall (fun r : record => fst r = 10) (fst m).
Lemma dbg_bind : forall A B (m : trace A) (k : A -> trace B), debug_only m -> (forall x, debug_only (k x)) -> debug_only (tbind m k).
Proof. intros A B [l [x|e]] k H K; unfold debug_only, tbind in *; [|exact H]. specialize (K x). destruct (k x). cbn in *. apply Forall_app. auto. Qed.
Lemma dbg_silent : forall A (r : res A), debug_only (silent r).
Proof. intros. constructor. Qed.
Lemma dbg_deb : forall s, debug_only (deb s).
Proof. intros. repeat constructor. Qed.
Lemma dbg_deb_hex : forall n p s, debug_only (deb_hex n p s).
Proof. intros. apply dbg_bind; [apply dbg_silent|intros; apply dbg_deb]. Qed.
Lemma dbg_parts : forall s, debug_only (script_parts_says s).
Proof.
  intros s. unfold script_parts_says. cbv zeta.
  repeat (apply dbg_bind; [first [apply dbg_silent|apply dbg_deb|apply dbg_deb_hex]|intros ?]).
  destruct (negb _); [apply dbg_silent|].
  repeat (apply dbg_bind; [first [apply dbg_silent|apply dbg_deb|apply dbg_deb_hex]|intros ?]).
  destruct (negb _); [apply dbg_silent|].
  repeat (apply dbg_bind; [first [apply dbg_silent|apply dbg_deb|apply dbg_deb_hex]|intros ?]). apply dbg_silent.
Qed.
Lemma dbg_der : forall s, debug_only (from_der_says s).
Proof.
  intros s. unfold from_der_says. cbv zeta.
  repeat (apply dbg_bind; [first [apply dbg_silent|apply dbg_deb|apply dbg_deb_hex]|intros ?; try match goal with |- context [match ?x with (_, _) => _ end] => destruct x end]). apply dbg_silent.
Qed.
Lemma dbg_filter : forall (l : list record), Forall (fun r => fst r = 10) l -> filter (level_is 40) l = [] /\ filter (level_is 20) l = [].
Proof.
  induction l as [|[a s] l IH]; intros H; [split; reflexivity|]. inversion H; subst. destruct (IH H3) as [I1 I2]. cbn in H2. subst a. cbn. auto.
Qed.

Lemma verify_loop_fail : forall t ins outs N, body t ins outs -> Forall (fun x => exists spk, in_spk x spk) (tx_inputs t) -> forall xs i c L e,
  (forall j, nth_error (tx_inputs t) (i + j) = nth_error xs j) -> verify_loop_says t N i xs c = (L, Err e) ->
  exists pre x post bs, xs = pre ++ x :: post /\ all_checked ins outs i pre bs /\ (forall b, ~ input_check ins outs (i + length pre) x b) /\
    filter (level_is 40) L = complaints N i bs /\ filter (level_is 20) L = [].
Proof.
  intros t ins outs N HB HF. induction xs as [|x xs IH]; intros i c L e HN H; [discriminate|].
  pose proof (HN 0%nat) as N0. rewrite Nat.add_0_r in N0. cbn [nth_error] in N0.
  assert (HN' : forall j, nth_error (tx_inputs t) (S i + j) = nth_error xs j).
  { intros j. specialize (HN (S j)). cbn [nth_error] in HN. rewrite <- HN. f_equal. lia. }
  cbn [verify_loop_says] in H. rewrite tbind_deb in H.
  assert (STOP : forall l, L = l -> Forall (fun r : record => fst r = 10) l -> (forall b, ~ input_check ins outs i x b) ->
     exists pre x' post bs, x :: xs = pre ++ x' :: post /\ all_checked ins outs i pre bs /\ (forall b, ~ input_check ins outs (i + length pre) x' b) /\
       filter (level_is 40) L = complaints N i bs /\ filter (level_is 20) L = []).
  { intros l -> D NC. destruct (dbg_filter l D) as [F1 F2]. exists [], x, xs, []. cbn [length]. rewrite Nat.add_0_r. repeat split; auto. constructor. }
  destruct (ti_script_sig x) as [ss|] eqn:SS.
  2:{ rewrite tpre_silent in H. apply pair_inj in H as [HL _]. apply (STOP _ (eq_sym HL)); [repeat constructor|]. intros b (spk & script & der & pub & sh & _ & Q & _). congruence. }
  destruct (script_sig_cases ss) as [(script & der & pub & B & -> & P & Bd & Bp & Q)|[NO Q]].
  2:{ pose proof (dbg_parts ss) as DP. rewrite <- script_parts_erase in Q. destruct (script_parts_says ss) as [l1 r1]. cbn in Q. subst r1. unfold debug_only in DP. cbn [fst] in DP.
      cbn [tbind] in H. unfold tpre in H. cbn [fst snd app] in H. apply pair_inj in H as [HL _]. apply (STOP _ (eq_sym HL)); [constructor; auto|].
      intros b (spk & script & der & pub & sh & _ & Q2 & B & P & _). rewrite SS in Q2. injection Q2 as Q2. exact (NO _ _ _ B Q2 P). }
  rewrite (parts_says_ok script der pub B P), tbind_ok in H. cbv beta iota in H.
  destruct (signature_from_der (hex_of der)) as [sh|e1] eqn:FD.
  2:{ pose proof (dbg_der (hex_of der)) as DP. rewrite <- from_der_erase in FD. destruct (from_der_says (hex_of der)) as [l1 r1] eqn:FS. cbn in FD. subst r1. unfold debug_only in DP. cbn [fst] in DP.
      cbn [tbind] in H. rewrite tpre_tpre in H. unfold tpre in H. cbn [fst snd] in H. apply pair_inj in H as [HL _]. apply (STOP _ (eq_sym HL)).
      - constructor; [reflexivity|]. apply Forall_app. split; auto. unfold parts_log. repeat constructor.
      - intros b (spk & script' & der' & pub' & sh & _ & Q2 & B' & P' & _ & D & _). rewrite SS in Q2. injection Q2 as Q2. apply hex_of_inj in Q2; auto. subst script'.
        destruct (script_parts_fun _ _ _ _ _ B P P') as [<- <-]. apply from_der_iff in D; auto. rewrite <- from_der_erase, FS in D. discriminate. }
  apply from_der_iff in FD; auto. destruct FD as (r & s & DD & R & S0 & ->).
  rewrite (from_der_says_ok der r s), tbind_ok in H by auto.
  assert (SPK : exists spk, in_spk x spk) by (rewrite Forall_forall in HF; apply HF; eapply nth_error_In; eauto). destruct SPK as [spk SPK].
  rewrite (verify_one HH t ins outs i x spk pub _ HB N0 SPK Bp) in H.
  assert (BAD : forall e1, (if Nat.eqb (length pub) 64 then ec_verify_digest (hex_of pub) (hex_of (digest (sighash_bytes i spk ins outs))) (hex_of (rev (le_bytes 32 r) ++ rev (le_bytes 32 s))) else Err ValueError) = Err e1 ->
     forall b, ~ input_check ins outs i x b).
  { intros e1 V b (spk' & script' & der' & pub' & sh & SP' & Q2 & B' & P' & L' & D & V'). rewrite SS in Q2. injection Q2 as Q2. apply hex_of_inj in Q2; auto. subst script'.
    destruct (script_parts_fun _ _ _ _ _ B P P') as [<- <-]. rewrite L' in V. change (Nat.eqb 64 64) with true in V. cbv iota in V.
    assert (spk' = spk). { destruct SPK as (K1 & _ & K3 & _), SP' as (J1 & _ & J3 & _). rewrite K3 in J3. injection J3 as J3. symmetry. apply hex_of_inj; auto. } subst spk'.
    destruct D as (r' & s' & DD' & _ & _ & ->). rewrite DD in DD'. injection DD' as <- <-. congruence. }
  destruct (if Nat.eqb (length pub) 64 then _ else _) as [b|e1] eqn:V.
  2:{ rewrite tbind_err, !tpre_tpre, tpre_silent in H. apply pair_inj in H as [HL _]. apply (STOP _ (eq_sym HL)); [|eapply BAD; reflexivity].
      unfold parts_log, der_log. repeat constructor. }
  clear BAD STOP. destruct (Nat.eqb_spec (length pub) 64) as [L1|L1]; [|discriminate]. rewrite tbind_silent in H.
  assert (IC : input_check ins outs i x b). { exists spk, script, der, pub, (hex_of (rev (le_bytes 32 r) ++ rev (le_bytes 32 s))). repeat split; eauto; try apply SPK. exists r, s. auto. }
  destruct (verify_loop_says t N (S i) xs (if b then c else c + 1)) as [L' res'] eqn:VL.
  assert (H' : exists l0, filter (level_is 40) l0 = (if b then [] else [at_error (lit "Signature " ++ which i N ++ lit " is invalid!")]) /\ filter (level_is 20) l0 = [] /\ L = l0 ++ L' /\ res' = Err e).
  { destruct b; cbv iota in H, VL; [rewrite tbind_deb in H|rewrite tbind_error in H]; rewrite !tpre_tpre in H; unfold tpre in H; cbn [fst snd] in H; apply pair_inj in H as [<- ->];
      (eexists; split; [|split; [|split; [reflexivity|reflexivity]]]); unfold parts_log, der_log, which; rewrite <- ?app_assoc; reflexivity. }
  destruct H' as (l0 & F1 & F2 & -> & ->). destruct (IH (S i) _ L' e HN' VL) as (pre & x' & post & bs & -> & AC & NC & G1 & G2).
  exists (x :: pre), x', post, (b :: bs). split; [reflexivity|]. split; [constructor; auto|]. split.
  { intros b'. replace (i + length (x :: pre))%nat with (S i + length pre)%nat by (cbn; lia). apply NC. }
  rewrite !filter_app, F1, F2, G1, G2. split; reflexivity.
Qed.
Lemma verify_fail : forall t ins outs, body t ins outs -> Forall (fun x => exists spk, in_spk x spk) (tx_inputs t) -> forall L e, verify_says t = (L, Err e) ->
  exists pre x post bs, tx_inputs t = pre ++ x :: post /\ all_checked ins outs 0 pre bs /\ (forall b, ~ input_check ins outs (length pre) x b) /\
    filter (level_is 40) L = complaints (length (tx_inputs t)) 0 bs /\ filter (level_is 20) L = [].
Proof.
  intros t ins outs HB HF L e H. unfold verify_says in H. cbv zeta in H.
  destruct (verify_loop_says t (length (tx_inputs t)) 0 (tx_inputs t) 0) as [l [n|e1]] eqn:V; [rewrite tbind_ok, tbind_info in H; discriminate|].
  cbn [tbind] in H. apply pair_inj in H as [<- _]. destruct (verify_loop_fail t ins outs _ HB HF (tx_inputs t) 0 0 l e1 (fun j => eq_refl) V) as (pre & x & post & bs & R). exists pre, x, post, bs. exact R.
Qed.
End Hash.

(** ** sign *)
Section Crypto.
Hypothesis HC : CryptoOk E.

Lemma script_says_spec : forall t i form key pub k,
  to_hex_signable_form t i = Ok (hex_of form) -> bytes form -> tx_hash_type_1_byte t = hex_of [1] -> bytes pub -> length pub = 64%nat ->
  let k' := opt_nonce k in
  (exists sig, bytes sig /\ length sig = 64%nat /\ signature key (digest form) k' = Ok (hex_of sig) /\
     bytes (der_of sig) /\ len (der_of sig) <= 72 /\
     script_sig_says t i key (hex_of pub) k = (key_log pub ++ signature_log pub sig,
       Ok (hex_of [len (build_script_sig (der_of sig) pub)], len (build_script_sig (der_of sig) pub), hex_of (build_script_sig (der_of sig) pub)))) \/
  (exists e, signature key (digest form) k' = Err e /\ script_sig_says t i key (hex_of pub) k = (key_log pub, Err e)).
Proof.
  destruct HC as (HH & HZ & HK & HS & HP & HD).
  intros t i form key pub k F B T Bp Lp k'. unfold script_sig_says. rewrite tbind_deb_hex by auto.
  rewrite (create_sig_ok HH t i form key k F B). fold k'. destruct (signature key (digest form) k') as [s|e] eqn:S0; [left|right; exists e; auto].
  destruct (sig_bytes HS _ _ _ _ S0) as [sig [Bs [Ls [-> _]]]]. destruct (to_der_of HP HD sig Bs Ls) as [D1 [D2 D3]].
  exists sig. split; auto. split; auto. split; auto. split; auto. split; auto. rewrite tbind_silent.
  rewrite tbind_deb_hex by auto. rewrite D3, tbind_silent. rewrite tbind_deb_hex by auto. cbv zeta. rewrite T, <- hex_of_app.
  rewrite tbind_deb_hex by (apply bytes_app; split; auto; apply bytes1; unfold byte; lia).
  unfold len in D2. destruct (build_script_ok (der_of sig) pub) as [R1 [R2 R3]]; auto; [lia|].
  rewrite build_says_ok by (auto; lia). rewrite tbind_ok. cbv beta iota.
  rewrite var_int_to_int_ok by (unfold len; unfold len in R2; lia). rewrite tbind_silent, !tpre_tpre, tpre_silent. reflexivity.
Qed.

Lemma sign_loop_log : forall t ins outs N keys rv m todo dn pre,
  tx_body t ins outs ->
  (forall a, (exists k, map_find a m = Some k /\ In k keys /\ controls k a) \/ (map_find a m = None /\ forall k, In k keys -> ~ controls k a)) ->
  tx_inputs t = pre ++ todo -> map unsign dn = map unsign pre ->
  exists r xs' l, sign_loop_says t N m rv dn todo = (l, (r, dn ++ xs')) /\ signing_log keys rv ins outs N (length dn) todo r xs' l.
Proof.
  pose proof HC as (HH & HZ & HK & HS & HP & HD).
  intros t ins outs N keys rv m. induction todo as [|x todo IH]; intros dn pre HB HM HT HU.
  - exists (Ok tt), [], []. cbn [sign_loop_says]. rewrite app_nil_r. split; auto. constructor.
  - cbn [sign_loop_says]. assert (LP : length dn = length pre) by (rewrite <- (map_length unsign dn), HU, map_length; auto).
    destruct (no_nonce_random rv (length dn)) as [[NN ->]|[NN [k [-> NK]]]]; [exists (Err IndexError), (x :: todo), []; split; auto; constructor; auto|].
    cbv zeta.
    match goal with |- context [[(20, ?s)]] => replace s with (snd (announce (supplied rv) (length dn) N x)) end.
    2:{ unfold announce, at_info, which. cbn [snd]. destruct rv; cbn [supplied]; rewrite <- !app_assoc; reflexivity. }
    change (20, snd (announce (supplied rv) (length dn) N x)) with (announce (supplied rv) (length dn) N x).
    destruct (HM (ti_address x)) as [[key [MF [IK [pub [KP IA]]]]]|[MF NC]]; rewrite MF; [|eexists (Err ValueError), (x :: todo), _; split; [reflexivity|]; apply sl_no_key; auto].
    rewrite (key_public HK key pub KP).
    assert (OW : in_owner x (hash160 pub)).
    { destruct HB as (_ & _ & _ & HO). rewrite HT in HO. apply Forall_app in HO as [_ HO]. inversion HO as [|q1 q2 [h OW] _]; subst.
      pose proof OW as [IA' _]. rewrite (is_address_inj HH HZ _ _ _ IA IA'). exact OW. }
    assert (MU : map unsign (dn ++ set_public_key x (hex_of pub) :: todo) = map unsign (tx_inputs t)).
    { rewrite HT, !map_app, HU. reflexivity. }
    assert (NT : nth_error (tx_inputs t) (length dn) = Some x) by (rewrite HT, LP; apply nth_mid).
    destruct (form_ok HH t ins outs _ _ x pub HB MU NT OW) as [FO FB].
    pose proof KP as (_ & _ & _ & Bp & Lp).
    destruct (script_says_spec _ _ _ key pub k FO FB) as [(sig & Bs & Ls & SG & D1 & D2 & ->)|(e & SG & ->)]; auto.
    { destruct HB as [(_ & _ & _ & T & _) _]. exact T. }
    + set (x' := set_script _ _ _ _).
      destruct (IH (dn ++ [x']) (pre ++ [x])) as (r & xs' & l & SL & SI); auto.
      { rewrite HT, <- app_assoc. reflexivity. }
      { rewrite !map_app, HU. reflexivity. }
      exists r, (x' :: xs'), ([announce (supplied rv) (length dn) N x] ++ (key_log pub ++ signature_log pub sig) ++ l). rewrite SL. split; [rewrite <- (app_assoc dn); reflexivity|]. rewrite app_length in SI. cbn [length] in SI. rewrite Nat.add_1_r in SI.
      rewrite <- app_assoc. eapply sl_signed; eauto. exists pub, sig. rewrite NK. split; [exact KP|]. split; [exact OW|]. auto 10.
    + eexists (Err e), (with_public_key x pub :: todo), _. split; [reflexivity|]. cbn [app]. eapply sl_refused; eauto. rewrite NK. exact SG.
Qed.

Lemma sign_log : forall t ins outs keys rv, tx_body t ins outs ->
  check_random_values keys rv = Ok tt -> Forall (fun k => exists a, controls k a) keys ->
  exists (r : res unit) xs' l, sign_says t keys rv = (l ++ (if r then [at_info (signed_text (length (tx_inputs t)))] else []), (r, set_inputs t xs')) /\
    signing_log keys rv ins outs (length (tx_inputs t)) 0 (tx_inputs t) r xs' l.
Proof.
  intros t ins outs keys rv HB CR FK. unfold sign_says. rewrite CR. pose proof HC as (HH & HZ & HK & HS & HP & HD).
  destruct (build_map_ok HH HK keys [] FK) as [m [-> HM]].
  destruct (sign_loop_log t ins outs (length (tx_inputs t)) keys rv m (tx_inputs t) [] []) as (r & xs' & l & SL & SI); auto.
  - intros a. destruct (HM a) as [[k [MF [[I C]|N]]]|[MF [_ NC]]]; [left; exists k; auto|discriminate|right; auto].
  - cbv zeta. rewrite SL. exists r, xs', l. split; [|exact SI]. destruct r as [[]|e]; [|rewrite app_nil_r; reflexivity].
    cbn [app]. do 2 f_equal. unfold at_info, signed_text. do 4 f_equal. destruct (length (tx_inputs t)); reflexivity.
Qed.

Lemma signing_log_signing : forall keys rv ins outs n k xs r xs' l, signing_log keys rv ins outs n k xs r xs' l -> signing keys rv ins outs k xs r xs'.
Proof. intros keys rv ins outs n k xs r xs' l H. induction H; [constructor|eapply sg_signed|apply sg_no_nonce|apply sg_no_key|eapply sg_refused]; eauto. Qed.

(** The log of a successful signing is a function of the result. *)
Lemma der_of_inj : forall s s', bytes s -> length s = 64%nat -> bytes s' -> length s' = 64%nat -> der_of s = der_of s' -> s = s'.
Proof.
  pose proof HC as (HH & HZ & HK & HS & HP & HD). intros s s' B L B' L' D.
  assert (X : forall q, bytes q -> length q = 64%nat -> 0 <= be_val (firstn 32 q) < 256 ^ 32 /\ 0 <= be_val (skipn 32 q) < 256 ^ 32 /\ bytes (firstn 32 q) /\ bytes (skipn 32 q) /\
     length (firstn 32 q) = 32%nat /\ length (skipn 32 q) = 32%nat).
  { intros q Bq Lq. assert (F1 : bytes (firstn 32 q)) by (apply bytes_firstn; auto). assert (F2 : bytes (skipn 32 q)) by (apply bytes_skipn; auto).
    assert (L1 : length (firstn 32 q) = 32%nat) by (rewrite firstn_length; lia). assert (L2 : length (skipn 32 q) = 32%nat) by (rewrite skipn_length; lia).
    split; [apply half_values; auto|]. split; [apply half_values; auto|]. auto. }
  destruct (X s B L) as (R1 & R2 & F1 & F2 & L1 & L2). destruct (X s' B' L') as (R1' & R2' & F1' & F2' & L1' & L2').
  destruct (HD _ _ R1 R2) as (_ & _ & D1). destruct (HD _ _ R1' R2') as (_ & _ & D2). unfold der_of in D. rewrite D in D1. rewrite D1 in D2. injection D2 as Q1 Q2.
  rewrite <- (firstn_skipn 32 s), <- (firstn_skipn 32 s'). f_equal; apply (val_inj_len 256); auto; try lia.
Qed.
Lemma build_inj : forall d p d' p', build_script_sig d p = build_script_sig d' p' -> len d = len d' -> d = d' /\ p = p'.
Proof.
  intros d p d' p' H L. unfold build_script_sig in H. rewrite L in H. cbn [app] in H. injection H as H.
  assert (LL : length d = length d') by (unfold len in L; lia). destruct (app_inj_len _ _ _ _ _ LL H) as [-> Q]. injection Q as ->. auto.
Qed.
Lemma signing_log_fun : forall keys rv ins outs n k xs r xs' l, signing_log keys rv ins outs n k xs r xs' l -> r = Ok tt ->
  forall keys2 rv2 ins2 outs2 xs2 l2, signing_log keys2 rv2 ins2 outs2 n k xs2 (Ok tt) xs' l2 -> supplied rv2 = supplied rv -> l = l2.
Proof.
  intros keys rv ins outs n k xs r xs' l H. induction H as [k|k x x' xs r xs' key pub sig l NN IK IS PK Bp Lp Bs Ls SS Bd Ld H IH|k x xs NN|k x xs NN NC|k x xs key pub e NN IK KP OW SG];
    intros R keys2 rv2 ins2 outs2 xs2 l2 H2 SU; try discriminate.
  - inversion H2; subst. reflexivity.
  - inversion H2 as [|k2 y y' ys r2 ys' key2 pub2 sig2 l3 NN2 IK2 IS2 PK2 Bp2 Lp2 Bs2 Ls2 SS2 Bd2 Ld2 H3| | |]; subst.
    rewrite PK in PK2. injection PK2 as PK2. apply hex_of_inj in PK2; auto. subst pub2.
    rewrite SS in SS2. assert (SS3 := f_equal (fun o => match o with Some q => q | None => [] end) SS2). cbv beta iota in SS3. clear SS2. rename SS3 into SS2.
    assert (B1 : forall d, bytes d -> len d <= 72 -> bytes (build_script_sig d pub)).
    { intros d Bq Lq. apply build_script_ok; auto. unfold len in Lq. lia. }
    apply hex_of_inj in SS2; auto.
    assert (LD : len (der_of sig) = len (der_of sig2)). { apply (f_equal (@length Z)) in SS2. unfold build_script_sig in SS2. rewrite !app_length in SS2. cbn [length] in SS2. unfold len. lia. }
    destruct (build_inj _ _ _ _ SS2 LD) as [DD _]. apply der_of_inj in DD; auto. subst sig2.
    f_equal; [|f_equal; f_equal; eapply IH; eauto].
    rewrite SU. unfold announce. do 6 f_equal.
    destruct IS as (p1 & s1 & _ & _ & _ & _ & _ & _ & _ & ->). destruct IS2 as (p2 & s2 & _ & _ & _ & _ & _ & _ & _ & Q). exact (f_equal ti_address Q).
Qed.
End Crypto.

(** ** Loading *)
Section Load.
Hypothesis HH : HashOk E.
Hypothesis HU : UniOk E.

Lemma parse_input_log : forall k x i rest, decoded_input x i -> exists der pub, script_sig_parts (i_script i) der pub /\
  parse_input_says k (map hex1 (input_bytes i ++ rest)) = (input_log k i der pub, Ok (x, map hex1 rest)).
Proof.
  intros k x i rest [(A1 & A2 & A3 & A4 & A5) [sig [pub [a [PS [Lp [Ha ->]]]]]]].
  destruct i as [txid idx sc]. cbn [i_txid i_index i_script] in *. exists sig, pub. split; auto. unfold input_bytes. cbn [i_txid i_index i_script].
  unfold parse_input_says. rewrite tbind_deb, <- !app_assoc, take_n_hex.
  rewrite firstn_exact', skipn_exact' by (rewrite rev_length; auto). rewrite tbind_deb, take_n_hex.
  rewrite firstn_exact', skipn_exact' by apply le_bytes_length. rewrite tbind_deb. cbn [app]. rewrite take1_hex, tbind_silent. cbv beta iota. rewrite tbind_deb.
  rewrite var_int_to_int_ok by (unfold len in *; lia). rewrite tbind_silent, tbind_deb, take_n_hex.
  rewrite firstn_exact', skipn_exact' by (unfold len; lia). rewrite tbind_deb.
  destruct (script_parts_bytes sc sig pub A4 PS) as [Bsig Bpub].
  rewrite (parts_says_ok sc sig pub A4 PS), tbind_ok. cbv beta iota. rewrite !tbind_deb_hex by auto. rewrite take_n_hex.
  change (255 :: 255 :: 255 :: 255 :: rest) with ([255; 255; 255; 255] ++ rest).
  rewrite firstn_exact', skipn_exact' by reflexivity. rewrite tbind_deb.
  change (str_eqb (hex_of [255; 255; 255; 255]) (lit "ffffffff")) with true. cbn [negb].
  erewrite (proj2 (signed_input_iff HH pub txid idx sc _ Bpub A1 A3 A4 A5 Lp A2)); [|exists a; split; [exact Ha|reflexivity]].
  rewrite tbind_silent, !tpre_tpre, tpre_silent. reflexivity.
Qed.
Lemma parse_output_log : forall k y o rest, decoded_output y o -> exists s, btc_text s (o_value o) /\
  parse_output_says k (map hex1 (output_bytes o ++ rest)) = (output_log k o s, Ok (y, map hex1 rest)).
Proof.
  intros k y [v sc] rest [(A1 & A2 & A3) [A4 [a [s [Ha [BT ->]]]]]]. cbn [o_value o_script] in *. exists s. split; auto. unfold output_bytes. cbn [o_value o_script].
  unfold parse_output_says. rewrite tbind_deb, <- !app_assoc, take_n_hex.
  rewrite firstn_exact', skipn_exact' by apply le_bytes_length.
  rewrite hex_le_to_int_ok by (try apply le_bytes_bytes; discriminate). rewrite le_bytes_val by exact A1. rewrite tbind_silent.
  assert (SB : satoshi_to_bitcoin (PInt v) = Ok s) by (apply (satoshi_to_bitcoin_iff HU); exists v; repeat split; auto; lia).
  rewrite SB, tbind_silent, tbind_deb. cbn [app]. rewrite take1_hex, tbind_silent. cbv beta iota. rewrite tbind_deb.
  rewrite var_int_to_int_ok by (unfold len in *; lia). rewrite tbind_silent, tbind_deb, take_n_hex.
  rewrite firstn_exact', skipn_exact' by (unfold len; lia). rewrite tbind_deb.
  unfold txout_create_from_signed_tx_data. rewrite var_int_to_int_ok by (unfold len in *; lia). cbn [bind].
  rewrite (proj2 (script_address_iff HH sc a A2) Ha). cbn [bind].
  rewrite hex_le_to_int_ok by (try apply le_bytes_bytes; discriminate). rewrite le_bytes_val by exact A1. cbn [bind].
  rewrite SB. cbn [bind]. rewrite tbind_silent, !tpre_tpre, tpre_silent. reflexivity.
Qed.
Lemma parse_inputs_log : forall xs is, Forall2 decoded_input xs is -> forall k rest, exists l, inputs_log k is l /\
  parse_many_says parse_input_says k (length is) (map hex1 (flat_map input_bytes is ++ rest)) = (l, Ok (xs, map hex1 rest)).
Proof.
  intros xs is H. induction H as [|x i xs is D _ IH]; intros k rest; [exists []; split; [constructor|reflexivity]|].
  cbn [length parse_many_says flat_map]. rewrite <- app_assoc. destruct (parse_input_log k x i (flat_map input_bytes is ++ rest) D) as (der & pub & PS & ->).
  destruct (IH (S k) rest) as (l & IL & PL). exists (input_log k i der pub ++ l). split; [constructor; auto|].
  rewrite tbind_ok. cbv beta iota. rewrite PL, tbind_ok. cbv beta iota. rewrite tpre_tpre, tpre_silent. reflexivity.
Qed.
Lemma parse_outputs_log : forall ys os, Forall2 decoded_output ys os -> forall k rest, exists l, outputs_log k os l /\
  parse_many_says parse_output_says k (length os) (map hex1 (flat_map output_bytes os ++ rest)) = (l, Ok (ys, map hex1 rest)).
Proof.
  intros xs is H. induction H as [|x i xs is D _ IH]; intros k rest; [exists []; split; [constructor|reflexivity]|].
  cbn [length parse_many_says flat_map]. rewrite <- app_assoc. destruct (parse_output_log k x i (flat_map output_bytes is ++ rest) D) as (s & BT & ->).
  destruct (IH (S k) rest) as (l & IL & PL). exists (output_log k i s ++ l). split; [constructor; auto|].
  rewrite tbind_ok. cbv beta iota. rewrite PL, tbind_ok. cbv beta iota. rewrite tpre_tpre, tpre_silent. reflexivity.
Qed.
Lemma inputs_log_fun : forall k is l, inputs_log k is l -> Forall input_ok is -> forall l', inputs_log k is l' -> l = l'.
Proof.
  intros k is l H. induction H as [k|k i is der pub l PS _ IH]; intros F l' H'; inversion H' as [|k2 i2 is2 der2 pub2 l2 PS2 H2]; subst; auto. inversion F as [|? ? IO F']; subst. assert (B : bytes (i_script i)) by apply IO.
  destruct (script_parts_fun _ _ _ _ _ B PS PS2) as [<- <-]. f_equal. auto.
Qed.
Lemma outputs_log_fun : forall k os l, outputs_log k os l -> Forall (fun o => 0 <= o_value o <= 2100000000000000) os -> forall l', outputs_log k os l' -> l = l'.
Proof.
  intros k os l H. induction H as [k|k o os s l BT _ IH]; intros F l' H'; inversion H' as [|k2 o2 os2 s2 l2 BT2 H2]; subst; auto. inversion F as [|? ? B F']; subst.
  rewrite (btc_fun HU _ _ _ BT BT2 B). f_equal. auto.
Qed.
Lemma decoded_values : forall ys os, Forall2 decoded_output ys os -> Forall (fun o => 0 <= o_value o <= 2100000000000000) os.
Proof. intros ys os H. induction H as [|y o ys os D _ IH]; constructor; auto. destruct D as ((A & _) & B & _). lia. Qed.

Lemma from_hex_log : forall t ins outs rest, bytes rest -> decoded_tx t ins outs -> exists li lo, inputs_log 0 ins li /\ outputs_log 0 outs lo /\
  from_hex_says (hex_of (wire ins outs ++ rest)) = (loading_log ins outs rest li lo, Ok t).
Proof.
  intros t ins outs rest Br D. pose proof (decoded_tx_ok _ _ _ D) as OK. destruct D as [HD [C0 [HI HO]]].
  pose proof (wire_bytes _ _ OK) as Bw. assert (Ball : bytes (wire ins outs ++ rest)) by (apply bytes_app; auto).
  destruct OK as [O1 [O2 [O3 O4]]].
  destruct (parse_inputs_log _ _ HI 0%nat ([Z.of_nat (length outs)] ++ flat_map output_bytes outs ++ le_bytes 4 0 ++ rest)) as (li & IL & PI).
  destruct (parse_outputs_log _ _ HO 0%nat (le_bytes 4 0 ++ rest)) as (lo & OL & PO).
  exists li, lo. split; auto. split; auto.
  unfold from_hex_says. rewrite tbind_info, tbind_deb, hex_len_ok, tbind_silent, tbind_deb by auto. cbv zeta. rewrite chunks2_hex.
  set (hx := hex_of (wire ins outs ++ rest)) at 1. set (ln := num (length (wire ins outs ++ rest))). unfold wire.
  rewrite <- !app_assoc in *. rewrite take_n_hex. rewrite firstn_exact', skipn_exact' by apply le_bytes_length.
  change (str_eqb (hex_of (le_bytes 4 1)) (lit "01000000")) with true. cbn [negb app]. rewrite tbind_deb, take1_hex, tbind_silent. cbv beta iota. rewrite tbind_deb.
  rewrite var_int_to_int_ok by lia. rewrite tbind_silent, tbind_deb, Nat2Z.id.
  cbn [app] in PI. rewrite PI, tbind_ok. cbv beta iota. rewrite take1_hex, tbind_silent. cbv beta iota. rewrite tbind_deb.
  rewrite var_int_to_int_ok by lia. rewrite tbind_silent, tbind_deb, Nat2Z.id.
  rewrite PO, tbind_ok. cbv beta iota. rewrite take_n_hex. rewrite firstn_exact' by apply le_bytes_length. rewrite tbind_deb.
  change (str_eqb (hex_of (le_bytes 4 0)) (lit "00000000")) with true. cbn [negb]. rewrite (header_eta t HD C0), tbind_silent, tbind_info.
  rewrite !tpre_tpre, tpre_silent. unfold loading_log. fold hx. fold ln. cbn [app]. rewrite <- !app_assoc. reflexivity.
Qed.

Lemma from_hex_log_iff : forall s L t, from_hex_says s = (L, Ok t) <->
  exists ins outs rest li lo, bytes rest /\ s = hex_of (wire ins outs ++ rest) /\ decoded_tx t ins outs /\
    inputs_log 0 ins li /\ outputs_log 0 outs lo /\ L = loading_log ins outs rest li lo.
Proof.
  intros s L t. split.
  - intros H. assert (V : from_hex_signed s = Ok t) by (rewrite <- from_hex_erase, H; reflexivity).
    apply (from_hex_iff HH HU) in V as (ins & outs & rest & Br & -> & D). destruct (from_hex_log t ins outs rest Br D) as (li & lo & IL & OL & Q).
    rewrite H in Q. apply pair_inj in Q as [-> _]. exists ins, outs, rest, li, lo. auto 10.
  - intros (ins & outs & rest & li & lo & Br & -> & D & IL & OL & ->). destruct (from_hex_log t ins outs rest Br D) as (li' & lo' & IL' & OL' & ->).
    pose proof (decoded_tx_ok _ _ _ D) as [O1 _]. destruct D as (_ & _ & _ & HO).
    rewrite (inputs_log_fun _ _ _ IL' O1 _ IL), (outputs_log_fun _ _ _ OL' (decoded_values _ _ HO) _ OL). reflexivity.
Qed.
End Load.
End WithEnv.

(** ** When loading fails *)
Section Refuse.
Context {E : Env}.
Definition quiet_err {A} (m : trace A) : Prop := match snd m with Err _ => debug_only m | Ok _ => True end.
Lemma qe_dbg : forall A (m : trace A), debug_only m -> quiet_err m.
Proof. intros A [l [x|e]] H; [exact I|exact H]. Qed.
Lemma qe_bind : forall A B (m : trace A) (k : A -> trace B), debug_only m -> (forall x, quiet_err (k x)) -> quiet_err (tbind m k).
Proof.
  intros A B [l [x|e]] k H K; unfold quiet_err, tbind in *; [|exact H]. specialize (K x). destruct (k x) as [l' [y|e]]; cbn in *; [exact I|].
  unfold debug_only in *. cbn in *. apply Forall_app. auto.
Qed.
Ltac qstep := first [apply dbg_silent|apply dbg_deb|apply dbg_deb_hex|apply dbg_parts|apply dbg_der].
Lemma dbg_input : forall k bs, debug_only (parse_input_says k bs).
Proof.
  intros k bs. unfold parse_input_says. apply dbg_bind; [qstep|intros _]. destruct (take_n 32 bs) as [h b1]. apply dbg_bind; [qstep|intros _].
  destruct (take_n 4 b1) as [ix b2]. apply dbg_bind; [qstep|intros _]. apply dbg_bind; [qstep|intros [sl b3]]. apply dbg_bind; [qstep|intros _].
  apply dbg_bind; [qstep|intros n]. apply dbg_bind; [qstep|intros _]. destruct (take_n (Z.to_nat n) b3) as [ss b4]. apply dbg_bind; [qstep|intros _].
  apply dbg_bind; [qstep|intros [sg pk]]. apply dbg_bind; [qstep|intros _]. apply dbg_bind; [qstep|intros _]. destruct (take_n 4 b4) as [sq b5].
  apply dbg_bind; [qstep|intros _]. destruct (negb _); [qstep|]. apply dbg_bind; [qstep|intros i]. qstep.
Qed.
Lemma dbg_output : forall k bs, debug_only (parse_output_says k bs).
Proof.
  intros k bs. unfold parse_output_says. apply dbg_bind; [qstep|intros _]. destruct (take_n 8 bs) as [h b1]. apply dbg_bind; [qstep|intros sa]. apply dbg_bind; [qstep|intros ba].
  apply dbg_bind; [qstep|intros _]. apply dbg_bind; [qstep|intros [sl b3]]. apply dbg_bind; [qstep|intros _].
  apply dbg_bind; [qstep|intros n]. apply dbg_bind; [qstep|intros _]. destruct (take_n (Z.to_nat n) b3) as [ss b4]. apply dbg_bind; [qstep|intros _].
  apply dbg_bind; [qstep|intros i]. qstep.
Qed.
Lemma dbg_many : forall A (f : nat -> list pystr -> trace (A * list pystr)), (forall k bs, debug_only (f k bs)) -> forall n k bs, debug_only (parse_many_says f k n bs).
Proof.
  intros A f H. induction n as [|n IH]; intros k bs; cbn [parse_many_says]; [qstep|]. apply dbg_bind; [apply H|intros [a b1]]. apply dbg_bind; [apply IH|intros [l b2]]. qstep.
Qed.
Lemma from_hex_refused_log : forall s L e, from_hex_says s = (L, Err e) ->
  exists l, L = at_info (lit "Loading signed transaction from hex.") :: l /\ Forall (fun r => fst r = 10) l.
Proof.
  intros s L e H. unfold from_hex_says in H. rewrite tbind_info in H. cbv beta in H.
  match type of H with tpre _ ?m = _ => assert (Q : quiet_err m) end.
  { apply qe_bind; [qstep|intros _]. apply qe_bind; [qstep|intros n]. apply qe_bind; [qstep|intros _]. cbv zeta. destruct (take_n 4 (chunks2 s)) as [v b0].
    destruct (negb _); [apply qe_dbg; qstep|]. apply qe_bind; [qstep|intros _]. apply qe_bind; [qstep|intros [ic b1]]. apply qe_bind; [qstep|intros _].
    apply qe_bind; [qstep|intros n1]. apply qe_bind; [qstep|intros _]. apply qe_bind; [apply dbg_many, dbg_input|intros [ins b2]].
    apply qe_bind; [qstep|intros [oc b3]]. apply qe_bind; [qstep|intros _]. apply qe_bind; [qstep|intros n2]. apply qe_bind; [qstep|intros _].
    apply qe_bind; [apply dbg_many, dbg_output|intros [outs b4]]. destruct (take_n 4 b4) as [lt b5]. apply qe_bind; [qstep|intros _].
    destruct (negb _); [apply qe_dbg; qstep|]. apply qe_bind; [qstep|intros t]. exact I. }
  match type of H with tpre _ ?m = _ => destruct m as [l r] end. unfold tpre in H. cbn [fst snd app] in H. apply pair_inj in H as [<- ->]. exists l. split; [reflexivity|exact Q].
Qed.
End Refuse.
