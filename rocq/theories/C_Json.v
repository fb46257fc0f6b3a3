(** C32-C34, C57: the JSON form of transactions. *)
From Coq Require Import String Floats.SpecFloat Permutation Sorted Lia.
From Verif Require Import PyBase Env PyNum Validate Basic Spec EnvOk TxInput TxOutput Tx Create TxSpec SignSpec CreateSpec JsonSpec Demo DemoTx DemoCreate.
From Verif Require Import NumLemmas HexProofs Base58Proofs AddrProofs AmountProofs ScriptProofs WireProofs MakeProofs SignProofs PrepProofs DesignProofs BuildProofs CreateProofs JsonProofs DemoProofs DemoTxProofs DemoCreateProofs C_Create C_Sign C_Wire.
Open Scope Z_scope.

Section WithEnv.
Context {E : Env}.

Lemma created_ready : HashOk E -> ZeroAddressOk E -> UniOk E -> forall a q t, asked a q -> fst (create_transaction a) = Ok t ->
  Forall (fun i => 0 < ia_value i) (q_inputs q) -> Forall (fun o => 0 < oa_value o) (q_outputs q) -> json_ready t.
Proof.
  intros HH HZ HU a q t A H PI PO. destruct (created_plan HH HZ HU _ _ _ A H) as (sel & outs & f & chg & PL & TX).
  destruct (plan_facts _ _ _ _ _ (asked_wf HU _ _ A) PL) as (R & EQ & _). destruct (tx_of_totals _ _ _ _ TX) as (T1 & T2 & T3).
  destruct (c37_wire HH HZ HU a q t A H) as (sel' & outs' & f' & chg' & ws & _ & _ & (TH & _) & _).
  assert (PS : Forall (fun i => 0 < ia_value i) sel).
  { apply Forall_forall. intros i I. rewrite Forall_forall in PI. apply PI. destruct PL as (_ & _ & _ & _ & _ & _ & _ & _ & _ & (s & (PM & _) & SC) & _).
    apply (Permutation_in i (Permutation_sym PM)). destruct SC as [(_ & ->)|(_ & _ & fi & la & re & -> & -> & _)]; auto. apply in_or_app. auto. }
  assert (POS : Forall (fun o => 0 < oa_value o) outs).
  { destruct PL as (_ & _ & _ & _ & _ & _ & _ & F & TT & _ & SP & _). destruct SP as [(_ & -> & _)|[(NZ & _ & -> & _)|(NZ & pre & o & post & EO & _ & -> & _)]]; auto.
    - constructor; auto. cbn [oa_value]. lia.
    - rewrite EO in PO. apply Forall_app in PO as [P1 P2]. apply Forall_cons_iff in P2 as [P2 P3]. apply Forall_app. split; auto. constructor; auto. cbn [oa_value].
      assert (0 <= out_value (q_outputs q)) by (apply out_value_nonneg; apply wf_values; eapply asked_wf; eauto). lia. }
  assert (CA : exists h, is_address h (q_change_address q)) by (destruct A as (l & d & _ & _ & _ & (_ & (_ & AD) & _) & _); exact AD).
  assert (SM : total_output t <= Zsum (map ti_sat (tx_inputs t)) <= 2100000000000000).
  { assert (EI : Zsum (map ti_sat (tx_inputs t)) = in_value sel). { unfold total_input in T1. destruct (input_values_known t); [|discriminate]. cbn [negb] in T1. congruence. }
    rewrite EI, T2. assert (in_value (q_inputs q) <= max_money) by apply PL. assert (0 <= f) by apply PL. unfold max_money in *. lia. }
  destruct TX as (ins & os & FI & FO & ->). split; [exact TH|]. cbn [tx_inputs tx_outputs tx_change_address] in *. split; [|split; [|split]].
  - clear - FI PS. revert PS. induction FI as [|i x l ins M _ IH]; intros PS; constructor; apply Forall_cons_iff in PS as [P PS]; auto.
    destruct (made_input_facts _ _ _ _ _ M) as ((idx & h & I1 & OP & IA & (OW & O1 & O2 & O3)) & (U1 & U2 & U3 & U4) & W).
    assert (L25 : len (p2pkh h) = 25) by (unfold len; rewrite p2pkh_length; destruct IA as (_ & -> & _); reflexivity).
    exists (ia_txid i), idx, h, (p2pkh h), (ia_value i). rewrite L25. split; auto. split; auto. split; [split; [apply bytes_p2pkh, IA|auto]|]; [split; [lia|auto]|]. auto 10.
  - clear - FO POS. revert POS. induction FO as [|o y l os M _ IH]; intros PS; constructor; apply Forall_cons_iff in PS as [P PS]; auto.
    destruct (made_output_facts _ _ _ M) as (h & _ & OP). exists (oa_value o), h. auto.
  - exact SM.
  - intros c EC. injection EC as <-. exact CA.
Qed.

Lemma ready_key : forall x p, json_ready_input x -> bytes p -> length p = 64%nat -> json_ready_input (with_public_key x p).
Proof.
  intros x p (txid & idx & h & spk & n & OP & IA & SP & W & NP & PK & SC) B L. exists txid, idx, h, spk, n. split; auto. split; auto. split; auto. split; auto. split; auto. split; auto.
  right. exists p. auto.
Qed.

Lemma ready_signing : forall keys rv ins outs n xs r xs', signing keys rv ins outs n xs r xs' -> Forall json_ready_input xs ->
  Forall json_ready_input xs' /\ map ti_sat xs' = map ti_sat xs /\ length xs' = length xs.
Proof.
  intros keys rv ins outs n xs r xs' S. induction S; intros F; auto.
  - apply Forall_cons_iff in F as [Fx F]. destruct (IHS F) as (A & B & C). destruct H1 as (pub & sig & (_ & _ & _ & Bp & Lp) & _ & Bs & Ls & _ & Bd & Ld & ->).
    cbn [map length]. rewrite B, C. split; auto. constructor; auto.
    destruct Fx as (txid & idx & h & spk & m & OP & IA & SP & W & NP & PK & SC). exists txid, idx, h, spk, m. split; auto. split; auto. split; auto. split; auto. split; auto. split.
    + right. exists pub. auto.
    + right. exists (build_script_sig (der_of sig) pub). unfold in_script. split; [|split; auto].
      * unfold build_script_sig. apply bytes_app. split; [apply bytes1; unfold byte, len in *; lia|]. apply bytes_app. split; auto. constructor; [unfold byte; lia|]. constructor; [unfold byte; lia|]. constructor; [unfold byte; lia|auto].
      * unfold build_script_sig, len in *. rewrite !app_length. cbn [length]. lia.
  - apply Forall_cons_iff in F as [Fx F]. destruct H1 as (_ & _ & _ & Bp & Lp). split; auto. constructor; auto. apply ready_key; auto.
Qed.

Lemma signed_ready : CryptoOk E -> forall t ins outs keys rv r t', tx_body t ins outs -> json_ready t -> sign t keys rv = (r, t') -> json_ready t'.
Proof.
  intros (HH & HZ & HK & HS & HP & HD) t ins outs keys rv r t' TB JR H. unfold sign in H.
  destruct (check_random_values keys rv) as [[]|e] eqn:CR; [|injection H as <- <-; auto].
  destruct (build_key_map keys []) as [m|e] eqn:BM; [|injection H as <- <-; auto].
  assert (KF : Forall (fun k => exists a, controls k a) keys).
  { clear - BM HH HZ HK. revert BM. generalize (@nil (pystr * pystr)). induction keys as [|k keys IH]; intros m0 BM; constructor.
    - cbn [build_key_map] in BM. destruct (key_step HH HK k) as [(a & C & _)|(N & e & Q)]; [eauto|]. exfalso. destruct (validate_hex_length (PStr k) 32); [|discriminate]. cbn [bind] in *. rewrite Q in BM. discriminate.
    - cbn [build_key_map] in BM. inv_bind BM u U. inv_bind BM a Ha. eauto. }
  assert (SG : sign t keys rv = (r, t')) by (unfold sign; rewrite CR, BM; auto).
  destruct (sign_spec HH HK HS HP HD HZ t ins outs keys rv TB) as (r0 & xs' & Q & SI); auto.
  rewrite SG in Q. injection Q as -> ->. clear SG H.
  destruct JR as (TH & FI & FO & SM & CA). destruct (ready_signing _ _ _ _ _ _ _ _ SI FI) as (F' & M' & L'). split; [apply header_inputs; auto|].
  split; [exact F'|]. split; [exact FO|]. split; [|exact CA]. cbn [set_inputs tx_inputs tx_outputs]. rewrite M'. auto.
Qed.

(** C32.  Every well-formed transaction can be written as JSON and read back; only the change address and the public keys of
    the inputs are lost. *)
Lemma c32_round_trip : HashOk E -> ZeroAddressOk E -> UniOk E -> JsonOk E -> forall t, json_ready t ->
  exists s, to_json t = Ok s /\ from_json s = Ok (forget_keys t).
Proof.
  intros HH HZ HU HJ t R. destruct (to_dict_ok HU t R) as (d & TD & P & _ & J). exists (json_dumps (PDict d)). unfold to_json. rewrite TD. split; auto.
  unfold from_json. rewrite (HJ _ P). cbn [bind]. apply (from_dict_iff HH HZ HU). auto.
Qed.

(** C32.  This applies to every transaction made by create_transaction from positive amounts... *)
Lemma c32_created : HashOk E -> ZeroAddressOk E -> UniOk E -> JsonOk E -> forall a q t, asked a q -> fst (create_transaction a) = Ok t ->
  Forall (fun i => 0 < ia_value i) (q_inputs q) -> Forall (fun o => 0 < oa_value o) (q_outputs q) ->
  json_ready t /\ exists s, to_json t = Ok s /\ from_json s = Ok (forget_keys t).
Proof. intros HH HZ HU HJ a q t A H PI PO. pose proof (created_ready HH HZ HU a q t A H PI PO) as R. split; auto. apply c32_round_trip; auto. Qed.

(** C32.  ... and to what sign makes of it, whether signing succeeds or not. *)
Lemma c32_signed : CryptoOk E -> UniOk E -> JsonOk E -> forall t ins outs keys rv r t', tx_body t ins outs -> json_ready t -> sign t keys rv = (r, t') ->
  json_ready t' /\ exists s, to_json t' = Ok s /\ from_json s = Ok (forget_keys t').
Proof. intros HC HU HJ t ins outs keys rv r t' TB JR H. pose proof (signed_ready HC t ins outs keys rv r t' TB JR H) as R. split; auto. destruct HC as (HH & HZ & _). apply c32_round_trip; auto. Qed.

(** C32.  Reading back once more changes nothing. *)
Lemma c32_stable : HashOk E -> ZeroAddressOk E -> UniOk E -> JsonOk E -> forall t, json_ready t ->
  exists s, to_json (forget_keys t) = Ok s /\ from_json s = Ok (forget_keys t).
Proof.
  intros HH HZ HU HJ t R. destruct (c32_round_trip HH HZ HU HJ (forget_keys t)) as (s & A & B).
  - destruct R as (TH & FI & FO & SM & CA). split; [|split; [|split; [|split]]].
    + destruct TH as (H1 & H2 & H3 & H4 & H5 & H6 & H7 & H8). unfold tx_header, forget_keys. cbn [tx_version tx_block_lock_time tx_hash_type_4_byte tx_hash_type_1_byte tx_input_count tx_inputs tx_output_count tx_outputs]. rewrite map_length. auto 10.
    + cbn [forget_keys tx_inputs]. clear - FI. induction FI as [|x l Rx _ IH]; constructor; auto. destruct Rx as (txid & idx & h & spk & n & OP & IA & SP & W & NP & PK & SC). exists txid, idx, h, spk, n.
      do 3 (split; [assumption|]). split; [exact W|]. split; auto.
    + exact FO.
    + cbn [forget_keys tx_inputs tx_outputs]. replace (map ti_sat (map forget_key (tx_inputs t))) with (map ti_sat (tx_inputs t)) by (rewrite map_map; reflexivity). exact SM.
    + discriminate.
  - exists s. split; auto. rewrite B. f_equal. unfold forget_keys. cbn. f_equal. rewrite map_map. reflexivity.
Qed.

(** C32.  What is lost does not matter for serialising, verifying, computing the txid, or for what will be signed. *)
Lemma c32_same_forms : forall t, to_hex_signed_form (forget_keys t) = to_hex_signed_form t /\ verify (forget_keys t) = verify t /\
  calculate_txid (forget_keys t) = calculate_txid t /\ (forall i, to_hex_signable_form (forget_keys t) i = to_hex_signable_form t i) /\
  total_input (forget_keys t) = total_input t /\ total_output (forget_keys t) = total_output t /\ fee (forget_keys t) = fee t.
Proof.
  intros t.
  assert (S1 : to_hex_signed_form (forget_keys t) = to_hex_signed_form t).
  { unfold to_hex_signed_form. replace (mapM txin_hex_signed_form (tx_inputs (forget_keys t))) with (mapM txin_hex_signed_form (tx_inputs t)); auto.
    cbn [forget_keys tx_inputs]. induction (tx_inputs t) as [|x l IH]; auto. cbn [map mapM]. rewrite IH. auto. }
  assert (S2 : forall i, to_hex_signable_form (forget_keys t) i = to_hex_signable_form t i).
  { intros i. unfold to_hex_signable_form. replace (signable_inputs 0 i (tx_inputs (forget_keys t))) with (signable_inputs 0 i (tx_inputs t)); auto.
    cbn [forget_keys tx_inputs]. generalize O. induction (tx_inputs t) as [|x l IH]; intros p; auto. cbn [map signable_inputs]. rewrite IH. auto. }
  assert (S3 : tx_signed (forget_keys t) = tx_signed t).
  { unfold tx_signed. cbn [forget_keys tx_inputs]. induction (tx_inputs t) as [|x l IH]; auto. cbn [map forallb]. rewrite IH. auto. }
  assert (S4 : total_input (forget_keys t) = total_input t).
  { unfold total_input, input_values_known. cbn [forget_keys tx_inputs]. rewrite map_map. replace (map (fun x => ti_sat (forget_key x)) (tx_inputs t)) with (map ti_sat (tx_inputs t)) by reflexivity.
    replace (forallb _ (map forget_key (tx_inputs t))) with (forallb (fun x => match ti_satoshi_amount x with Some _ => true | None => false end) (tx_inputs t)); auto.
    induction (tx_inputs t) as [|x l IH]; auto. cbn [map forallb]. rewrite IH. auto. }
  split; auto. split.
  - unfold verify. cbn [forget_keys tx_inputs]. generalize O, 0. induction (tx_inputs t) as [|x l IH]; intros i z; auto. cbn [map verify_loop].
    change (ti_script_sig (forget_key x)) with (ti_script_sig x). destruct (ti_script_sig x); auto. unfold verify_signature_for_one_input.
    change (mk_tx _ _ _ _ _ _ _ _ _) with (forget_keys t). rewrite S2.
    destruct (script_sig_to_signature_hex_and_public_key_hex p) as [[sg pk]|e]; auto. cbn [bind]. destruct (signature_from_der sg) as [s|e]; auto. cbn [bind].
    destruct (bind (to_hex_signable_form t i) _) as [b|e]; auto. cbn [bind]. apply IH.
  - split; [|split; auto]. { unfold calculate_txid. rewrite S3, S1. auto. } split; auto. split; auto. unfold fee. rewrite S4. auto.
Qed.

(** C33.  from_json accepts exactly the documents described by [json_tx], and returns what is written there. *)
Lemma c33_accepted_iff : HashOk E -> ZeroAddressOk E -> UniOk E -> forall s t, from_json s = Ok t <-> exists v, json_loads s = Ok v /\ json_tx v t.
Proof.
  intros HH HZ HU s t. unfold from_json. split.
  - intros H. inv_bind H v Hv. exists v. split; auto. apply (from_dict_iff HH HZ HU). auto.
  - intros (v & -> & H). cbn [bind]. apply (from_dict_iff HH HZ HU). auto.
Qed.

(** C33.  A transaction read from JSON is consistent: counts, outputs, outpoints, amounts and script lengths agree, all amounts are
    positive, and the fee is known and not negative. *)
Lemma c33_consistent : HashOk E -> ZeroAddressOk E -> UniOk E -> forall s t, from_json s = Ok t ->
  tx_header t /\ Forall (fun y => exists v h, out_pays y v h /\ 0 < v) (tx_outputs t) /\
  Forall (fun x => exists txid idx n h, in_outpoint x txid idx /\ in_worth x n /\ 0 < n /\ is_address h (ti_address x) /\
     (ti_script_sig x = None \/ exists sc, bytes sc /\ ti_script_sig x = Some (hex_of sc) /\ ti_script_length x = Some (hex_of [len sc])) /\
     (ti_script_pub_key x = None \/ exists spk, bytes spk /\ ti_script_pub_key x = Some (hex_of spk) /\ ti_script_pub_key_length x = Some (hex_of [len spk]))) (tx_inputs t) /\
  (exists f, fee t = Some f /\ 0 <= f) /\ tx_change_address t = None.
Proof.
  intros HH HZ HU s t H. apply (c33_accepted_iff HH HZ HU) in H as (v & _ & d & vi & vo & ins & outs & sg & -> & _ & _ & FI & _ & FO & L1 & _ & L2 & _ & _ & _ & _ & _ & _ & LE & ->).
  split. { repeat split; auto. } cbn [tx_inputs tx_outputs tx_change_address]. split; [|split; [|split; auto]].
  - clear - FO. induction FO as [|v y vo outs J _ IH]; constructor; auto. destruct J as (d & iv & n & bt & a & h & -> & _ & IA & _ & _ & _ & AI & _ & NR & _ & BT & _ & ->).
    exists n, h. assert (L25 : len (p2pkh h) = 25) by (unfold len; rewrite p2pkh_length; destruct IA as (_ & -> & _); reflexivity).
    split; [|lia]. split; auto. unfold out_wire, output_ok. cbn [o_value o_script to_value to_script_length to_script_length_int to_script_pub_key to_bitcoin_amount to_satoshi_amount].
    rewrite L25. split. { split; [lia|]. split; [apply bytes_p2pkh, IA|lia]. } split; [lia|]. split; auto. split; auto. split; auto. split; auto.
    destruct iv; try discriminate; cbn in AI; [destruct b; discriminate|congruence].
  - clear - FI. induction FI as [|v x vi ins J _ IH]; constructor; auto.
    destruct J as (d & txid & iv & idx & n & bt & pk & lv1 & iv1 & sv1 & l1 & s1 & lv2 & iv2 & sv2 & l2 & s2 & a & h & -> & _ & Bt & Lt & _ & _ & I1 & I2 & _ & _ & _ & IA
      & _ & NR & _ & BT & _ & PK & _ & _ & _ & JS1 & _ & _ & _ & JS2 & ->).
    exists txid, idx, n, h. split. { repeat split; auto; lia. } split. { split; auto. split; [lia|]. exists bt. auto. } split; [lia|]. split; auto.
    assert (K : forall lv iv sv l s, json_script lv iv sv l s -> s = None \/ exists sc, bytes sc /\ s = Some (hex_of sc) /\ l = Some (hex_of [len sc])).
    { intros lv iv' sv l s [(_ & _ & _ & ->)|(m & _ & _ & -> & _ & [(_ & ->)|(bs & B & LB & _ & ->)])]; auto. right. exists bs. rewrite LB. auto. }
    split; eapply K; eauto.
  - exists (Zsum (map ti_sat ins) - Zsum (map to_satoshi_amount outs)). split; [|lia]. unfold fee, total_input. cbn [tx_inputs].
    assert (IK : input_values_known (mk_tx (hex_of (le_bytes 4 1)) (hex_of [Z.of_nat (length ins)]) ins (hex_of [Z.of_nat (length outs)]) outs (hex_of (le_bytes 4 0)) (hex_of (le_bytes 4 1)) (hex_of [1]) None) = true).
    { unfold input_values_known. cbn [tx_inputs]. clear - FI. induction FI as [|v x vi ins J _ IH]; auto. cbn [forallb]. rewrite IH.
      destruct J as (d & txid & iv & idx & n & bt & pk & lv1 & iv1 & sv1 & l1 & s1 & lv2 & iv2 & sv2 & l2 & s2 & a & h & J).
      assert (x = ltac:(let T := type of J in match T with context[x = ?y] => exact y end)) as -> by tauto. reflexivity. }
    rewrite IK. reflexivity.
Qed.

(** C34.  The version in the document is not looked at: changing it changes nothing. *)
Lemma c34_version_ignored : forall s s' d w w', json_loads s = Ok (PDict d) -> has d "version" w ->
  json_loads s' = Ok (PDict (dict_set (lit "version") w' d)) -> from_json s' = from_json s.
Proof.
  intros s s' d w w' H HV H'. unfold from_json. rewrite H, H'. cbn [bind]. unfold from_dict. cbn [as_dict bind].
  assert (K : dict_keys (dict_set (lit "version") w' d) = dict_keys d) by (eapply keys_set_present; exact HV).
  rewrite K. unfold dict_get. rewrite !set_other by discriminate. reflexivity.
Qed.

(** C34.  The scriptPubKey of an input is not compared with its address: it can be replaced by any other script. *)
Lemma c34_any_script : HashOk E -> ZeroAddressOk E -> UniOk E -> JsonOk E -> forall t spk, json_ready t -> bytes spk -> len spk <= 252 ->
  exists s, to_json (set_inputs t (map (with_script_pub_key spk) (tx_inputs t))) = Ok s /\
    from_json s = Ok (forget_keys (set_inputs t (map (with_script_pub_key spk) (tx_inputs t)))).
Proof.
  intros HH HZ HU HJ t spk R B L. apply c32_round_trip; auto. destruct R as (TH & FI & FO & SM & CA). split; [apply header_inputs; auto; apply map_length|].
  cbn [set_inputs tx_inputs tx_outputs tx_change_address]. split; [|split; [exact FO|split; [|exact CA]]].
  - clear - FI B L. induction FI as [|x l Rx _ IH]; constructor; auto. destruct Rx as (txid & idx & h & spk' & n & OP & IA & SP & W & NP & PK & SC). exists txid, idx, h, spk, n.
    split; [exact OP|]. split; [exact IA|]. split; [cbn [with_script_pub_key ti_script_pub_key ti_script_pub_key_length ti_script_pub_key_length_int]; auto|]. split; auto.
  - replace (map ti_sat (map (with_script_pub_key spk) (tx_inputs t))) with (map ti_sat (tx_inputs t)) by (rewrite map_map; reflexivity). exact SM.
Qed.

(** C57.  The summary in to_dict agrees with the transaction. *)
Lemma c57_summary : UniOk E -> forall t, json_ready t ->
  exists d, to_dict t = Ok (PDict d) /\ summary t (estimated_size (length (tx_inputs t)) (length (tx_outputs t))) d.
Proof. intros HU t R. destruct (to_dict_ok HU t R) as (d & TD & _ & S & _). eauto. Qed.

(** C57.  There is only one rounding. *)
Lemma c57_rounded_unique : forall a b u u', 0 < b -> rounded a b u -> rounded a b u' -> u = u'.
Proof.
  intros a b u u' Hb (A1 & A2) (B1 & B2). destruct (Z.eq_dec u u') as [|N]; auto. exfalso.
  assert (D : Z.abs (u - u') * b <= b). { replace (Z.abs (u - u') * b) with (Z.abs ((u * b - a) - (u' * b - a))) by (rewrite <- (Z.abs_eq b) at 3 by lia; rewrite <- Z.abs_mul; f_equal; lia). lia. }
  assert (D1 : Z.abs (u - u') = 1) by (assert (Z.abs (u - u') <> 0) by lia; nia).
  assert (EQ : 2 * Z.abs (u * b - a) = b /\ 2 * Z.abs (u' * b - a) = b) by nia. destruct EQ as [E1 E2]. destruct (A2 E1) as (x & ->), (B2 E2) as (y & ->). lia.
Qed.

(** C57.  For a transaction decoded from hex the amounts spent are unknown, and so are fee and fee rates. *)
Lemma c57_decoded : UniOk E -> forall t ins outs, decoded_tx t ins outs -> ins <> [] -> Zsum (map o_value outs) <= 2100000000000000 ->
  exists d, to_dict t = Ok (PDict d) /\ has d "signed" (PBool true) /\ has_no_amount d "total_input" /\ has_no_amount d "fee" /\ has_amount d "total_output" (Zsum (map o_value outs)) /\
       has d "size_bytes" (PInt (len (wire ins outs))) /\ has d "change_address" PNone /\ has_no_amount d "change" /\
       has d "estimated_size_bytes" (PInt (estimated_size (length ins) (length outs))) /\
       has d "estimated_fee_rate" (PDict [(lit "satoshi_per_byte", PNone); (lit "bitcoin_per_byte", PNone)]) /\ has_no_amount d "fee_rate".
Proof. intros HU t ins outs D NE M. destruct (proj1 (decoded_to_dict HU t ins outs D NE) M) as (d & TD & _ & _ & R). eauto. Qed.

(** C57.  A decoded transaction paying more than 21 million bitcoin cannot be shown. *)
Lemma c57_decoded_too_much : UniOk E -> forall t ins outs, decoded_tx t ins outs -> ins <> [] -> 2100000000000000 < Zsum (map o_value outs) ->
  to_dict t = Err ValueError.
Proof. intros HU t ins outs D NE M. apply (decoded_to_dict HU t ins outs D NE). auto. Qed.

(** C32.  Not every transaction object survives the round trip: one decoded from hex can be written as JSON, but what is
    written is not accepted when read. *)
Lemma c32_decoded_refuted : HashOk E -> ZeroAddressOk E -> UniOk E -> JsonOk E -> forall t ins outs, decoded_tx t ins outs -> ins <> [] ->
  Zsum (map o_value outs) <= 2100000000000000 -> exists s e, to_json t = Ok s /\ from_json s = Err e.
Proof.
  intros HH HZ HU HJ t ins outs D NE M. destruct (proj1 (decoded_to_dict HU t ins outs D NE) M) as (d & TD & P & HI & _).
  exists (json_dumps (PDict d)). unfold to_json. rewrite TD. cbn [bind]. destruct (from_json (json_dumps (PDict d))) as [t'|e] eqn:FJ; [exfalso|eauto].
  apply (c33_accepted_iff HH HZ HU) in FJ as (v & LV & d' & vi & vo & ins' & outs' & sg & -> & _ & GI & FI & _).
  rewrite (HJ _ P) in LV. injection LV as <-. unfold has in HI, GI. rewrite HI in GI. injection GI as <-.
  destruct D as (_ & _ & FD & _). destruct FD as [|x i l ins'' Dx _]; [congruence|]. cbn [map] in FI. inversion FI as [|? ? ? ? J _]; subst.
  destruct Dx as (_ & sig & pub & a & _ & _ & _ & ->).
  destruct J as (d0 & txid & iv & idx & n & bt & pk & lv1 & iv1 & sv1 & l1 & s1 & lv2 & iv2 & sv2 & l2 & s2 & a' & h & ED & _ & _ & _ & _ & _ & _ & _ & _ & _ & _ & _ & HS & _).
  injection ED as <-. vm_compute in HS. discriminate.
Qed.

End WithEnv.

(** Hypotheses met: the demo transaction, unsigned and signed. *)
Example ex32_created : @asked demo_env demo_ns demo_order /\ fst (@create_transaction demo_env demo_ns) = Ok created /\
  Forall (fun i => 0 < ia_value i) (q_inputs demo_order) /\ Forall (fun o => 0 < oa_value o) (q_outputs demo_order) /\ @json_ready demo_env created.
Proof.
  assert (P1 : Forall (fun i => 0 < ia_value i) (q_inputs demo_order)) by (repeat constructor).
  assert (P2 : Forall (fun o => 0 < oa_value o) (q_outputs demo_order)) by (repeat constructor).
  split; [exact demo_asked|]. split; [exact created_ok|]. split; auto. split; auto.
  exact (proj1 (@c32_created demo_env demo_hash demo_zero_address demo_uni demo_json _ _ _ demo_asked created_ok P1 P2)).
Qed.
(** The signed transaction is not returned unchanged: its change address is lost. *)
Example ex32_identity_refuted : @json_ready demo_env signed_tx /\
  exists s, @to_json demo_env signed_tx = Ok s /\ @from_json demo_env s = Ok (forget_keys signed_tx) /\ forget_keys signed_tx <> signed_tx.
Proof.
  destruct demo_body as (ins & outs & B). destruct ex32_created as (_ & _ & _ & _ & R).
  destruct (@c32_signed demo_env demo_crypto demo_uni demo_json created ins outs [key1; key2] None (Ok tt) signed_tx B R signed_ok) as (J & s & S1 & S2).
  split; auto. exists s. split; auto. split; auto. intros Q. apply (f_equal tx_change_address) in Q. discriminate.
Qed.
(** The script of an address the input does not have is accepted. *)
Example ex34_foreign_script_refuted : exists s t, @from_json demo_env s = Ok t /\
  Forall (fun x => ti_script_pub_key x = Some (hex_of [81]) /\ ~ exists h, @in_owner demo_env x h) (tx_inputs t) /\ length (tx_inputs t) = 2%nat.
Proof.
  destruct ex32_created as (_ & _ & _ & _ & R).
  destruct (@c34_any_script demo_env demo_hash demo_zero_address demo_uni demo_json created [81] R) as (s & _ & S2); [repeat constructor; vm_compute; discriminate|vm_compute; discriminate|].
  exists s. eexists. split; [exact S2|]. split; [|reflexivity]. cbn [forget_keys set_inputs tx_inputs]. rewrite map_map.
  apply Forall_forall. intros x I. apply in_map_iff in I as (y & <- & _). cbn [forget_key with_script_pub_key ti_script_pub_key]. split; auto.
  intros (h & (_ & L & _) & Q & _). cbn [forget_key with_script_pub_key ti_script_pub_key] in Q.
  apply (f_equal (fun o => match o with Some s => length s | None => O end)) in Q. rewrite !hex_of_length, p2pkh_length, L in Q. discriminate.
Qed.

(** Hypotheses met: the decoded demo transaction, and the same inputs paying twice 21 million bitcoin. *)
Example ex57_decoded : exists t ins outs, @from_hex_signed demo_env signed_hex = Ok t /\ @decoded_tx demo_env t ins outs /\ ins <> [] /\
  0 < Zsum (map o_value outs) <= 2100000000000000.
Proof.
  destruct decoded_ok as (t & D & _). pose proof D as D'. apply (from_hex_iff demo_hash demo_uni) in D' as (ins & outs & rest & _ & _ & DT).
  exists t, ins, outs. split; auto. split; auto. pose proof DT as (_ & _ & FI & FO).
  assert (A : match @from_hex_signed demo_env signed_hex with Ok t => Nat.eqb (length (tx_inputs t)) 2 && (total_output t =? 50190000) | Err _ => false end = true) by (vm_compute; reflexivity).
  rewrite D in A. apply andb_prop in A as [A1 A2]. apply Nat.eqb_eq in A1. apply Z.eqb_eq in A2. rewrite (F2_len _ _ _ _ _ FI) in A1. split. { intros ->. discriminate. }
  assert (TO : total_output t = Zsum (map o_value outs)).
  { unfold total_output. f_equal. clear - FO. induction FO as [|y o l outs (A1 & A2 & a & s & _ & BT & ->) _ IH]; auto. cbn [map]. rewrite IH. auto. }
  lia.
Qed.
Example ex57_decoded_too_much : exists t ins outs, @decoded_tx demo_env t ins outs /\ ins <> [] /\ 2100000000000000 < Zsum (map o_value outs).
Proof.
  destruct ex57_decoded as (t & ins & outs & _ & D & NE & _). pose proof (decoded_tx_ok _ _ _ D) as (O1 & O2 & O3 & O4). destruct D as (_ & _ & FI & _).
  destruct (proj1 (proj2 (@C_Wire.c21_decoder_exact demo_env demo_uni demo_hash)) ins (repeat {| o_value := 2100000000000000; o_script := [1; 2; 3; 4; 5; 6] |} 2) []) as (t' & _ & D').
  - split; [auto|]. split; [|split; auto]. all: cbn [repeat length]; try lia. repeat constructor; unfold byte, len; cbn; lia.
  - constructor.
  - clear - FI. induction FI as [|x i l ins (_ & sig & pub & a & P & L & _) _ IH]; constructor; eauto.
  - repeat constructor; cbn; lia.
  - exists t', ins. eexists. split; [exact D'|]. split; auto. vm_compute. reflexivity.
Qed.
Example ex33_loaded : exists s t, @from_json demo_env s = Ok t /\ length (tx_inputs t) = 2%nat /\ length (tx_outputs t) = 2%nat.
Proof. destruct ex32_identity_refuted as (_ & s & _ & S & _). exists s. eexists. split; [exact S|]. split; reflexivity. Qed.
