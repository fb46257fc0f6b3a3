(** Lemmas about the command-line tasks. *)
From Coq Require Import String Floats.SpecFloat Permutation Sorted Lia.
From Verif Require Import PyBase Env PyNum Validate Basic Spec EnvOk TxInput TxOutput Tx Create Cli TxSpec SignSpec CreateSpec JsonSpec.
From Verif Require Import NumLemmas HexProofs Base58Proofs AddrProofs AmountProofs ScriptProofs WireProofs MakeProofs SignProofs PrepProofs DesignProofs BuildProofs CreateProofs JsonProofs VerifyProofs C_Create C_Sign C_Wire C_Json.
Open Scope Z_scope.

Section WithEnv.
Context {E : Env}.

(** ** What is signed depends on outpoints only. *)
Lemma replace_same : forall k spk ins ins', map i_txid ins = map i_txid ins' -> map i_index ins = map i_index ins' -> replace_scripts k spk ins = replace_scripts k spk ins'.
Proof.
  assert (M : forall l l', map i_txid l = map i_txid l' -> map i_index l = map i_index l' ->
    map (fun i => mk_sinput (i_txid i) (i_index i) []) l = map (fun i => mk_sinput (i_txid i) (i_index i) []) l').
  { induction l as [|a l IH]; intros [|b l'] A B; try discriminate; auto. cbn [map] in *. injection A as A1 A2. injection B as B1 B2. rewrite A1, B1. f_equal. auto. }
  induction k as [|k IH]; intros spk [|i l] [|j l'] H1 H2; try discriminate; auto; cbn [map] in *; injection H1 as A1 A2; injection H2 as B1 B2; cbn [replace_scripts]; rewrite A1, B1; f_equal; auto.
Qed.
Lemma sighash_same : forall k spk ins ins' outs, map i_txid ins = map i_txid ins' -> map i_index ins = map i_index ins' -> sighash_bytes k spk ins outs = sighash_bytes k spk ins' outs.
Proof. intros. unfold sighash_bytes. rewrite (replace_same k spk ins ins'); auto. Qed.

(** ** Created transactions. *)
Lemma plan_body : UniOk E -> forall a q sel outs f chg t, asked a q -> plan q sel outs f chg -> tx_of sel outs (q_change_address q) t ->
  exists ws, Forall2 (fun o w => exists h, is_address h (oa_address o) /\ w = mk_soutput (oa_value o) (p2pkh h)) outs ws /\
    tx_body t (map (fun i => mk_sinput (ia_txid i) (ia_index i) []) sel) ws /\
    Forall2 (fun i x => made_input (ia_address i) (ia_txid i) (PInt (ia_index i)) (ia_value i) x) sel (tx_inputs t) /\
    Forall2 (fun o y => made_output (oa_address o) (oa_value o) y) outs (tx_outputs t).
Proof.
  intros HU a q sel outs f chg t A PL (ins & os & FI & FO & ->). cbn [tx_inputs tx_outputs].
  assert (W : exists ws, Forall2 (fun o w => exists h, is_address h (oa_address o) /\ w = mk_soutput (oa_value o) (p2pkh h)) outs ws /\ Forall2 out_wire os ws).
  { clear - FO. induction FO as [|o y l ys M FO IH]; [exists []; split; constructor|]. destruct IH as (ws & I1 & I2).
    destruct (made_output_facts _ _ _ M) as (h & IA & OP & _). exists (mk_soutput (oa_value o) (p2pkh h) :: ws). split; constructor; eauto. }
  destruct W as (ws & W1 & W2). exists ws. split; auto. split; auto.
  assert (LI : length ins = length sel) by (symmetry; eapply F2_len; eauto). assert (LO : length os = length outs) by (symmetry; eapply F2_len; eauto).
  assert (LS : (length sel <= length (q_inputs q))%nat).
  { destruct PL as (_ & _ & _ & _ & _ & _ & _ & F & TT & (s & SF & SC) & _). pose proof (wf_values q (asked_wf HU _ _ A)) as [VI VO]. destruct (sorted_for_facts _ _ _ SF VI) as [SV VS].
    pose proof (out_value_nonneg _ VO). apply chosen_iff in SC; auto; [|lia]. subst sel. assert (L : length s = length (q_inputs q)) by (symmetry; apply Permutation_length, SF).
    destruct (_ =? _); [lia|]. rewrite <- L. apply iselect_length. }
  destruct PL as (L1 & L2 & L3 & _). split; [|split; [|split]]; cbn [tx_inputs tx_outputs]; auto.
  - repeat split; cbn; lia.
  - clear - FI. induction FI as [|i x l xs M FI IH]; cbn [map]; constructor; auto. destruct (made_input_facts _ _ _ _ _ M) as [(idx & h & I & O & _) _]. injection I as <-. exact O.
  - clear - FI. induction FI as [|i x l xs M FI IH]; constructor; auto. destruct (made_input_facts _ _ _ _ _ M) as [(idx & h & I & O & _ & OW) _]. eauto.
Qed.

(** Every plan can be carried out. *)
Lemma sel_sub : forall q sel outs f chg, plan q sel outs f chg -> forall i, In i sel -> In i (q_inputs q).
Proof.
  intros q sel outs f chg (_ & _ & _ & _ & _ & _ & _ & _ & _ & (s & (PM & _) & SC) & _) i I. apply (Permutation_in i (Permutation_sym PM)).
  destruct SC as [(_ & ->)|(_ & _ & fi & la & re & -> & -> & _)]; auto. apply in_or_app. auto.
Qed.
Lemma plan_made : UniOk E -> forall a q sel outs f chg, asked a q -> plan q sel outs f chg -> exists t, tx_of sel outs (q_change_address q) t.
Proof.
  intros HU a q sel outs f chg A PL. pose proof (asked_wf HU _ _ A) as W. destruct (plan_facts _ _ _ _ _ W PL) as (R & EQ & _).
  assert (exists xs, Forall2 (fun i x => made_input (ia_address i) (ia_txid i) (PInt (ia_index i)) (ia_value i) x) sel xs) as [xs X].
  { apply F2_choose. apply Forall_forall. intros i I. pose proof (sel_sub _ _ _ _ _ PL _ I) as I'. apply (make_input_exists HU).
    - destruct W as (W & _). rewrite Forall_forall in W. apply W; auto.
    - destruct PL as (_ & _ & _ & IX & _). rewrite Forall_forall in IX. auto. }
  assert (exists ys, Forall2 (fun o y => made_output (oa_address o) (oa_value o) y) outs ys) as [ys Y].
  { destruct PL as (_ & _ & _ & _ & M & _ & _ & F & _ & _ & SP & _). apply (omade_exists_all HU q _ _ _ _ W SP); lia. }
  eexists. exists xs, ys. split; auto.
Qed.

(** ** The decoded form of a signed transaction. *)
Definition wire_only (t : tx) : tx := set_change_address (set_inputs t (map forget_worth (tx_inputs t))) None.
Lemma verify_wire_only : forall t, verify (wire_only t) = verify t.
Proof.
  intros t. assert (S2 : forall i, to_hex_signable_form (wire_only t) i = to_hex_signable_form t i).
  { intros i. unfold to_hex_signable_form. replace (signable_inputs 0 i (tx_inputs (wire_only t))) with (signable_inputs 0 i (tx_inputs t)); auto.
    cbn [wire_only set_change_address set_inputs tx_inputs]. generalize O. induction (tx_inputs t) as [|x l IH]; intros p; auto. cbn [map signable_inputs]. rewrite IH. auto. }
  unfold verify. change (tx_inputs (wire_only t)) with (map forget_worth (tx_inputs t)). generalize O, 0. induction (tx_inputs t) as [|x l IH]; intros i z; auto. cbn [map verify_loop].
  change (ti_script_sig (forget_worth x)) with (ti_script_sig x). destruct (ti_script_sig x); auto. unfold verify_signature_for_one_input. rewrite S2.
  destruct (script_sig_to_signature_hex_and_public_key_hex p) as [[sg pk]|e]; auto. cbn [bind]. destruct (signature_from_der sg) as [s|e]; auto. cbn [bind].
  destruct (bind (to_hex_signable_form t i) _) as [b|e]; auto. cbn [bind]. apply IH.
Qed.

Lemma verify_change : forall t a, verify (set_change_address t a) = verify t.
Proof.
  intros t a. unfold verify. change (tx_inputs (set_change_address t a)) with (tx_inputs t). generalize O, 0. induction (tx_inputs t) as [|x l IH]; intros i z; auto. cbn [verify_loop].
  destruct (ti_script_sig x); auto. unfold verify_signature_for_one_input. change (to_hex_signable_form (set_change_address t a) i) with (to_hex_signable_form t i).
  destruct (script_sig_to_signature_hex_and_public_key_hex p) as [[sg pk]|e]; auto. cbn [bind]. destruct (signature_from_der sg) as [s|e]; auto. cbn [bind].
  destruct (bind (to_hex_signable_form t i) _) as [b|e]; auto. cbn [bind]. apply IH.
Qed.

Lemma all_in_signed : HashOk E -> forall keys rv ins outs n xs xs' is', all_signed keys rv ins outs n xs xs' -> Forall2 in_wire xs' is' ->
  Forall (fun x => exists z, ti_previous_output_index_int x = PInt z) xs -> Forall2 in_signed xs' is'.
Proof.
  intros HH keys rv ins outs n xs xs' is' H. revert is'. induction H as [|n x x' xs xs' key I IS H IH]; intros is' W F; inversion W as [|? i ? is2 Wx W']; subst; constructor; auto.
  - apply Forall_cons_iff in F as [[z Fx] F]. split; auto. destruct IS as (pub & sig & KP & OW & Bs & Ls & SG & D1 & D2 & ->). destruct Wx as [OP IS]. split.
    + destruct OP as (_ & _ & _ & _ & _ & _ & AI & _). cbn [ti_previous_output_index_int] in *. rewrite Fx in *. cbn in AI. congruence.
    + destruct KP as (_ & _ & _ & Bp & Lp). unfold len in D2. destruct (build_script_ok (der_of sig) pub) as [_ [B2 B3]]; auto; [lia|].
      destruct IS as (BI & _ & SI & _). cbn [ti_script_sig] in SI. assert (SQ : hex_of (build_script_sig (der_of sig) pub) = hex_of (i_script i)) by congruence.
      apply hex_of_inj in SQ; auto. exists (der_of sig), pub. split; auto. split; auto. rewrite <- SQ. split; [apply built_parts; auto; lia|]. split; [reflexivity|exact OW].
  - apply IH; auto. apply Forall_cons_iff in F. apply F.
Qed.

(** Signing what was created, and what follows in create_sign_and_verify_transaction_hex. *)
Lemma signed_decodes : CryptoOk E -> UniOk E -> forall t ins ws keys rv t', tx_body t ins ws ->
  Forall (fun x => exists z, ti_previous_output_index_int x = PInt z) (tx_inputs t) -> Forall (fun y => exists v h, out_pays y v h) (tx_outputs t) ->
  sign t keys rv = (Ok tt, t') ->
  exists ins', tx_wire t' ins' ws /\ to_hex_signed_form t' = Ok (hex_of (wire ins' ws)) /\ bytes (wire ins' ws) /\ from_hex_signed (hex_of (wire ins' ws)) = Ok (wire_only t') /\
    verify t' = Ok 0 /\ verify (wire_only t') = Ok 0 /\ decoded_tx (wire_only t') ins' ws /\ Forall2 in_signed (tx_inputs t') ins' /\
    map i_txid ins' = map i_txid ins /\ map i_index ins' = map i_index ins /\
    forall n i, nth_error ins' n = Some i ->
      exists x key pub sig, nth_error (tx_inputs t) n = Some x /\ In key keys /\ key_pub key pub /\ is_address (hash160 pub) (ti_address x) /\
        bytes sig /\ length sig = 64%nat /\
        signature key (digest (sighash_bytes n (p2pkh (hash160 pub)) ins' ws)) (nonce rv n) = Ok (hex_of sig) /\
        i_script i = build_script_sig (der_of sig) pub.
Proof.
  intros HC HU t ins ws keys rv t' HB FX FO H. pose proof HC as (HH & HZ & _).
  destruct (c25_signed_form HC _ _ _ _ _ _ HB H) as (ins' & TW & HX & SG & M1 & M2 & R). pose proof (c25_sign_then_verify HC _ _ _ _ _ _ HB H) as V.
  destruct (sign_ok_inv HC _ _ _ _ _ _ HB H) as (_ & _ & xs' & -> & AS & _).
  pose proof TW as (TH & WI & WO). cbn [set_inputs tx_inputs tx_outputs] in WI, WO.
  pose proof (all_in_signed HH _ _ _ _ _ _ _ _ AS WI FX) as IS.
  destruct (c21_decode_serialised HU HH (set_inputs t xs') ins' TH IS FO) as (s & S1 & S2). assert (s = hex_of (wire ins' ws)) by congruence. subst s. clear S1.
  assert (TOK : tx_ok ins' ws) by (eapply tx_wire_ok; eauto). assert (BW : bytes (wire ins' ws)) by (apply wire_bytes; auto).
  exists ins'. split; auto. split; auto. split; auto. split; [exact S2|]. split; auto. split; [rewrite verify_wire_only; auto|].
  split. { apply (from_hex_iff HH HU) in S2 as (i2 & w2 & rest & BR & HE & DT). pose proof (decoded_tx_ok _ _ _ DT) as OK2.
    apply hex_of_inj in HE; auto; [|apply bytes_app; split; auto; apply wire_bytes; auto]. rewrite <- (app_nil_r (wire ins' ws)) in HE.
    destruct (wire_cat _ _ _ _ _ _ TOK OK2 HE) as (-> & -> & _). exact DT. }
  split; auto. split; auto. split; auto. intros n i N. destruct (R n i N) as (x & key & pub & sig & X1 & X2 & X3 & X4 & X5 & X6 & X7 & X8).
  exists x, key, pub, sig. rewrite (sighash_same n _ ins' ins ws) by auto. auto 10.
Qed.

Lemma made_ints : forall sel xs, Forall2 (fun i x => made_input (ia_address i) (ia_txid i) (PInt (ia_index i)) (ia_value i) x) sel xs ->
  Forall (fun x => exists z, ti_previous_output_index_int x = PInt z) xs.
Proof. intros sel xs F. induction F as [|i x l xs (h & idx & s & _ & _ & _ & _ & _ & _ & _ & ->) F IH]; constructor; [eexists; reflexivity|auto]. Qed.
Lemma made_outs : forall outs ys, Forall2 (fun o y => made_output (oa_address o) (oa_value o) y) outs ys -> Forall (fun y => exists v h, out_pays y v h) ys.
Proof. intros outs ys F. induction F as [|o y l ys M F IH]; constructor; auto. destruct (made_output_facts _ _ _ M) as (h & _ & OP). eauto. Qed.

(** Addresses of inputs are those asked for. *)
Lemma made_address : forall sel xs, Forall2 (fun i x => made_input (ia_address i) (ia_txid i) (PInt (ia_index i)) (ia_value i) x) sel xs ->
  map ti_address xs = map ia_address sel.
Proof. intros sel xs F. induction F as [|i x l xs (h & idx & s & _ & _ & _ & _ & _ & _ & _ & ->) F IH]; cbn [map]; [auto|]. rewrite IH. auto. Qed.

(** ** Writing JSON for amounts that may be zero. *)
Lemma made_in_plain : forall a txid iv v x, made_input a txid iv v x -> json_plain (txin_to_dict x) = true.
Proof.
  intros a txid iv v x (h & idx & s & IA & Bt & Lt & I1 & I2 & V & BT & ->). apply plain_dict; [reflexivity|reflexivity|].
  repeat (apply Forall_cons; [auto|]); auto; cbn [snd]; try reflexivity; try (apply ascii_hex; auto using bytes_rev, le_bytes_bytes).
  - eapply plain_int; eauto.
  - apply bytes_p2pkh. apply IA.
  - eapply ascii_address; eauto.
  - eapply ascii_btc; eauto.
Qed.
Lemma made_out_plain : forall a v y, made_output a v y -> json_plain (txout_to_dict y) = true.
Proof.
  intros a v y (h & s & IA & V & BT & ->). apply plain_dict; [reflexivity|reflexivity|].
  repeat (apply Forall_cons; [auto|]); auto; cbn [snd]; try reflexivity; try (apply ascii_hex; auto using le_bytes_bytes).
  - apply bytes_p2pkh. apply IA.
  - eapply ascii_address; eauto.
  - eapply ascii_btc; eauto.
Qed.

Lemma sat_ascii : UniOk E -> forall n s, satoshi_to_bitcoin (PInt n) = Ok s -> ascii_str s = true.
Proof. intros HU n s H. apply (satoshi_to_bitcoin_iff HU) in H as (m & _ & _ & B). eapply ascii_btc; eauto. Qed.

Lemma version_long : forall h, ~ exists b, h = hex_of (le_bytes 4 1) ++ b /\ hex_len (PStr h) = Ok 0%nat.
Proof.
  intros h (b & -> & H). unfold hex_len in H. destruct (validate_hex _); [|discriminate]. cbn [bind as_str] in H.
  assert (L : (length (hex_of (le_bytes 4 1) ++ b) / 2 = 0)%nat) by congruence. rewrite Nat.div_small_iff in L by discriminate. rewrite app_length, hex_of_length, le_bytes_length in L. lia.
Qed.

(** to_dict of a created transaction, whatever its amounts. *)
Lemma created_plain : UniOk E -> forall sel outs ca t v, tx_of sel outs ca t -> (exists h, is_address h ca) -> (length (tx_inputs t) <= 252)%nat -> (length (tx_outputs t) <= 252)%nat ->
  out_value outs <= in_value sel -> to_dict t = Ok v -> json_plain v = true /\
  exists d, v = PDict d /\ has d "inputs" (PList (map txin_to_dict (tx_inputs t))) /\ has d "outputs" (PList (map txout_to_dict (tx_outputs t))).
Proof.
  intros HU sel outs ca t v TX CA L1 L2 LE H. destruct (tx_of_totals _ _ _ _ TX) as (TI & TO & FE). destruct TX as (ins & os & FI & FO & ET).
  assert (PI : json_plain (PList (map txin_to_dict (tx_inputs t))) = true).
  { rewrite ET. cbn [tx_inputs]. apply plain_list. clear - FI. induction FI; constructor; auto. eapply made_in_plain; eauto. }
  assert (PO : json_plain (PList (map txout_to_dict (tx_outputs t))) = true).
  { rewrite ET. cbn [tx_outputs]. apply plain_list. clear - FO. induction FO; constructor; auto. eapply made_out_plain; eauto. }
  unfold to_dict in H. rewrite estimate_ok in H by auto. cbn [bind] in H. rewrite TI, FE in H. inv_bind H e He. inv_bind He s1 S1. inv_bind He s2 S2. cbv zeta in He. injection He as <-.
  inv_bind H s3 S3. inv_bind H c Hc.
  assert (FB : 0 <= in_value sel - out_value outs <= 2100000000000000) by (apply (satoshi_to_bitcoin_iff HU) in S2 as (m2 & EM & BM & _); injection EM as <-; exact BM).
  assert (PC : json_plain c = true). { destruct (change t); [inv_bind Hc s4 S4|]; injection Hc as <-; auto. apply amounts_plain. eapply sat_ascii; eauto. }
  assert (NS : tx_signed t = false \/ tx_signed t = true /\ tx_inputs t = []).
  { rewrite ET. unfold tx_signed. cbn [tx_inputs]. clear - FI. destruct FI as [|i x l xs (h & idx & s & _ & _ & _ & _ & _ & _ & _ & ->) FI]; [right; auto|left; reflexivity]. }
  inv_bind H p Hp. destruct p as [sb fr]. injection H as <-. rewrite TO in *.
  assert (PP : json_plain sb = true /\ json_plain fr = true).
  { destruct (tx_signed t); [|injection Hp as <- <-; auto]. inv_bind Hp h Hh. inv_bind Hp n Hn. injection Hp as <- <-. split; auto. apply rates_plain; [lia|].
    destruct n; [|lia]. exfalso. rewrite ET in Hh. unfold to_hex_signed_form in Hh. inv_bind Hh hs Hhs. cbn [tx_version] in Hh. apply (version_long h). eexists. split; [|exact Hn]. symmetry. apply (f_equal (fun r : res pystr => match r with Ok n => n | Err _ => [] end) Hh). }
  split; [|eexists; split; [reflexivity|split; reflexivity]].
  apply plain_dict; [reflexivity|reflexivity|]. cbn [map snd]. rewrite ET. cbn [tx_version tx_input_count tx_output_count tx_block_lock_time tx_hash_type_4_byte tx_hash_type_1_byte tx_change_address].
  rewrite ET in L1, L2, PI, PO. cbn [tx_inputs tx_outputs] in *.
  constructor; [reflexivity|]. constructor; [apply ascii_hex, bytes1; unfold byte; lia|]. constructor; auto. constructor; [apply ascii_hex, bytes1; unfold byte; lia|]. constructor; auto.
  constructor; [reflexivity|]. constructor; [reflexivity|]. constructor; [reflexivity|]. constructor; [reflexivity|].
  constructor; [apply amounts_plain; eapply sat_ascii; eauto|]. constructor; [apply amounts_plain; eapply sat_ascii; eauto|]. constructor; [apply amounts_plain; eapply sat_ascii; eauto|].
  constructor. { destruct CA as (h & IA). eapply ascii_address; eauto. }
  constructor; auto. constructor; auto. constructor; [apply rates_plain; [lia|unfold estimated_size; lia]|]. constructor; [apply PP|]. constructor; [apply PP|auto].
Qed.


(** ** Created transactions with positive amounts can be written and read back. *)
Lemma plan_ready : UniOk E -> forall a q sel outs f chg t, asked a q -> plan q sel outs f chg -> tx_of sel outs (q_change_address q) t ->
  Forall (fun i => 0 < ia_value i) sel -> Forall (fun o => 0 < oa_value o) outs -> json_ready t.
Proof.
  intros HU a q sel outs f chg t A PL TX PS POS. destruct (plan_body HU _ _ _ _ _ _ _ A PL TX) as (ws & _ & (TH & _) & _).
  destruct (plan_facts _ _ _ _ _ (asked_wf HU _ _ A) PL) as (R & EQ & _). destruct (tx_of_totals _ _ _ _ TX) as (T1 & T2 & T3).
  assert (CA : exists h, is_address h (q_change_address q)) by (destruct A as (l & d & _ & _ & _ & (_ & (_ & AD) & _) & _); exact AD).
  assert (SM : total_output t <= Zsum (map ti_sat (tx_inputs t)) <= 2100000000000000).
  { assert (EI : Zsum (map ti_sat (tx_inputs t)) = in_value sel). { unfold total_input in T1. destruct (input_values_known t); [|discriminate]. cbn [negb] in T1. congruence. }
    rewrite EI, T2. assert (in_value (q_inputs q) <= max_money) by apply PL. assert (0 <= f) by apply PL. unfold max_money in *. lia. }
  destruct TX as (ins & os & FI & FO & ->). split; [exact TH|]. cbn [tx_inputs tx_outputs tx_change_address] in *. split; [|split; [|split]].
  - clear - FI PS. revert PS. induction FI as [|i x l ins M _ IH]; intros PS; constructor; apply Forall_cons_iff in PS as [P PS]; auto.
    destruct (made_input_facts _ _ _ _ _ M) as ((idx & h & I1 & OP & IA & (OW & O1 & O2 & O3)) & (U1 & U2 & U3 & U4) & W).
    assert (L25 : len (p2pkh h) = 25) by (unfold len; rewrite p2pkh_length; destruct IA as (_ & -> & _); reflexivity).
    exists (ia_txid i), idx, h, (p2pkh h), (ia_value i). rewrite L25. split; auto. split; auto. split; [split; [apply bytes_p2pkh, IA|auto]|]; [split; [lia|auto]|]. auto 10.
  - clear - FO POS. revert POS. induction FO as [|o y l os M _ IH]; intros PS; constructor; apply Forall_cons_iff in PS as [P PS]; auto.
    destruct (made_output_facts _ _ _ M) as (h & _ & OP). exists (oa_value o), h. auto.
  - exact SM.
  - intros c EC. injection EC as <-. exact CA.
Qed.

(** Conversely, reading back succeeds only for positive amounts. *)
Lemma reread_positive : HashOk E -> ZeroAddressOk E -> UniOk E -> JsonOk E -> forall a q sel outs f chg t s t2, asked a q -> plan q sel outs f chg -> tx_of sel outs (q_change_address q) t ->
  to_json t = Ok s -> from_json s = Ok t2 -> Forall (fun i => 0 < ia_value i) sel /\ Forall (fun o => 0 < oa_value o) outs.
Proof.
  intros HH HZ HU HJ a q sel outs f chg t s t2 A PL TX TJ FJ. destruct (plan_body HU _ _ _ _ _ _ _ A PL TX) as (ws & _ & (TH & _) & MI & MO).
  destruct (plan_facts _ _ _ _ _ (asked_wf HU _ _ A) PL) as (R & EQ & _).
  assert (CA : exists h, is_address h (q_change_address q)) by (destruct A as (l & d & _ & _ & _ & (_ & (_ & AD) & _) & _); exact AD).
  assert (F0 : 0 <= f) by apply PL. destruct TH as (_ & _ & _ & _ & _ & L1 & _ & L2).
  unfold to_json in TJ. inv_bind TJ v TV. destruct (created_plain HU _ _ _ _ _ TX CA L1 L2 ltac:(lia) TV) as (JP & d & -> & HI & HO).
  assert (s = json_dumps (PDict d)) by congruence. subst s. unfold from_json in FJ. rewrite (HJ _ JP) in FJ. cbn [bind] in FJ.
  apply (from_dict_iff HH HZ HU) in FJ as (d' & vi & vo & is' & os' & sg & ED & _ & HI' & FI & HO' & FO & _). injection ED as <-.
  unfold has in *. assert (vi = map txin_to_dict (tx_inputs t)) by congruence. assert (vo = map txout_to_dict (tx_outputs t)) by congruence. subst vi vo. clear HI HO HI' HO'. split.
  - clear - MI FI. revert is' FI. induction MI as [|i x l xs M MI IH]; intros is' FI; cbn [map] in FI; inversion FI as [|? x' ? ? J FI']; subst; constructor; eauto.
    destruct M as (h & idx & bt & _ & _ & _ & _ & _ & _ & _ & ->). destruct J as (d & txid & iv & ix & n & b & pk & lv1 & iv1 & sv1 & l1 & s1 & lv2 & iv2 & sv2 & l2 & s2 & ad & hh & ED & _ & _ & _ & _ & _ & _ & _ & _ & _ & _ & _ & HS & NP & _).
    unfold txin_to_dict in ED. injection ED as <-. unfold has in HS. cbn [ti_satoshi_amount opt_int] in HS. change (Some (PInt (ia_value i)) = Some (PInt n)) in HS. assert (ia_value i = n) by congruence. lia.
  - clear - MO FO. revert os' FO. induction MO as [|o y l ys M MO IH]; intros os' FO; cbn [map] in FO; inversion FO as [|? y' ? ? J FO']; subst; constructor; eauto.
    destruct M as (h & bt & _ & _ & _ & ->). destruct J as (d & iv & n & b & ad & hh & ED & _ & _ & _ & _ & _ & _ & HS & NP & _).
    unfold txout_to_dict in ED. injection ED as <-. unfold has in HS. change (Some (PInt (oa_value o)) = Some (PInt n)) in HS. assert (oa_value o = n) by congruence. lia.
Qed.

(** ** The change address plays no role in signing. *)
Lemma sign_loop_change : forall t a m rv todo dn, sign_loop (set_change_address t a) m rv dn todo = sign_loop t m rv dn todo.
Proof.
  intros t a m rv todo. induction todo as [|x r IH]; intros dn; auto. cbn [sign_loop]. destruct (random_value_at rv (length dn)) as [o|e]; auto.
  destruct (map_find (ti_address x) m) as [p|]; auto. destruct (private_key_hex_to_public_key_hex p) as [p0|e]; auto.
  change (set_inputs (set_change_address t a) (dn ++ set_public_key x p0 :: r)) with (set_change_address (set_inputs t (dn ++ set_public_key x p0 :: r)) a).
  replace (make_script_sig (set_change_address (set_inputs t (dn ++ set_public_key x p0 :: r)) a) (length dn) p p0 o) with (make_script_sig (set_inputs t (dn ++ set_public_key x p0 :: r)) (length dn) p p0 o) by reflexivity.
  destruct (make_script_sig _ _ _ _ _) as [[[sl n] sc]|e]; auto.
Qed.
Lemma sign_change : forall t keys rv a r t', sign t keys rv = (r, t') -> sign (set_change_address t a) keys rv = (r, set_change_address t' a).
Proof.
  intros t keys rv a r t' H. unfold sign in *. destruct (check_random_values keys rv); [|injection H as <- <-; auto]. destruct (build_key_map keys []); [|injection H as <- <-; auto].
  change (tx_inputs (set_change_address t a)) with (tx_inputs t). rewrite sign_loop_change. destruct (sign_loop t a1 rv [] (tx_inputs t)) as [r0 l0]. injection H as <- <-. reflexivity.
Qed.
Lemma forget_unsigned : forall t, Forall in_unsigned (tx_inputs t) -> forget_keys t = set_change_address t None.
Proof.
  intros t F. unfold forget_keys, set_change_address. f_equal. induction F as [|x l (_ & _ & _ & U) F IH]; auto. cbn [map]. rewrite IH. f_equal. destruct x. cbn in U. subst. reflexivity.
Qed.

(** ** strip *)
Lemma lstrip_all : forall a b, Forall (fun c => is_strip_space c = true) a -> lstrip_ws (a ++ b) = lstrip_ws b.
Proof. intros a b F. induction F as [|c a Hc F IH]; auto. cbn [app lstrip_ws]. rewrite Hc. auto. Qed.
Lemma lstrip_none : forall s, Forall (fun c => is_strip_space c = false) s -> lstrip_ws s = s.
Proof. intros s F. destruct F as [|c s Hc F]; auto. cbn [lstrip_ws]. rewrite Hc. auto. Qed.
Lemma strip_around : forall a s b, Forall (fun c => is_strip_space c = true) a -> Forall (fun c => is_strip_space c = true) b -> Forall (fun c => is_strip_space c = false) s ->
  strip (a ++ s ++ b) = s.
Proof.
  intros a s b A B S. unfold strip. rewrite lstrip_all by auto. destruct s as [|c s].
  - cbn [app]. rewrite <- (app_nil_r b) at 1. rewrite lstrip_all by auto. reflexivity.
  - cbn [app]. assert (C : is_strip_space c = false) by (apply Forall_cons_iff in S; apply S). cbn [lstrip_ws]. rewrite C. rewrite app_comm_cons, rev_app_distr, lstrip_all.
    + rewrite lstrip_none by (apply Forall_rev; auto). apply rev_involutive.
    + apply Forall_rev. auto.
Qed.
Lemma hex_no_space : forall bs, bytes bs -> Forall (fun c => is_strip_space c = false) (hex_of bs).
Proof.
  intros bs B. apply Forall_forall. intros c I. pose proof (ascii_hex bs B) as AS. unfold ascii_str in AS. rewrite forallb_forall in AS. specialize (AS c I).
  assert (HC : 48 <= c <= 57 \/ 97 <= c <= 102).
  { clear AS. induction B as [|x l Hx B IH]; [destruct I|]. cbn [hex_of flat_map] in I. unfold hex_of in I. cbn [flat_map] in I.
    assert (HX : forall d, 0 <= d < 16 -> 48 <= hex_char d <= 57 \/ 97 <= hex_char d <= 102) by (intros d Hd; assert (D : In d (map Z.of_nat (seq 0 16))) by (apply in_map_iff; exists (Z.to_nat d); split; [lia|apply in_seq; lia]);
      cbn in D; repeat (destruct D as [<-|D]; [first [left; vm_compute; split; discriminate|right; vm_compute; split; discriminate]|]); destruct D).
    unfold byte in Hx. apply in_app_or in I as [I|I]; [|auto]. cbn in I. destruct I as [<-|[<-|[]]]; apply HX; [split; [apply Z.div_pos; lia|apply Z.div_lt_upper_bound; lia]|apply Z.mod_pos_bound; lia]. }
  unfold is_strip_space. replace (c <? 128) with true by lia. lia.
Qed.
Lemma strip_hex : forall bs, bytes bs -> strip (hex_of bs) = hex_of bs.
Proof. intros bs B. pose proof (strip_around [] (hex_of bs) [] (Forall_nil _) (Forall_nil _) (hex_no_space bs B)) as H. cbn [app] in H. rewrite app_nil_r in H. exact H. Qed.

End WithEnv.
