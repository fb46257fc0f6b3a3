(** C73: the command-line tasks that verify a transaction. *)
From Coq Require Import String Floats.SpecFloat Lia.
From Verif Require Import PyBase Env PyNum Validate Basic Spec EnvOk TxInput TxOutput Tx Create Cli CliSpec TxSpec SignSpec CreateSpec JsonSpec VerifySpec Demo DemoTx DemoCreate.
From Verif Require Import NumLemmas HexProofs Base58Proofs AddrProofs AmountProofs ScriptProofs WireProofs MakeProofs SignProofs JsonProofs VerifyProofs C_Sign C_Wire C_Json CliProofs StripProofs DemoProofs DemoTxProofs.
Open Scope Z_scope.

Section WithEnv.
Context {E : Env}.

Lemma decoded_bodies : HashOk E -> forall t ins outs, decoded_tx t ins outs -> body t ins outs /\ Forall (fun x => exists spk, in_spk x spk) (tx_inputs t).
Proof.
  intros HH t ins outs D. pose proof (decoded_wire _ _ _ D) as (T & WI & WO). destruct D as (_ & _ & FI & FO). split.
  - split; auto. split; auto. clear - WI. induction WI as [|x i xs is [O _] F IH]; constructor; auto.
  - clear - FI HH. induction FI as [|x i xs is D FI IH]; constructor; auto. destruct D as [_ (sig & pub & a & _ & _ & _ & ->)].
    exists (p2pkh (hash160 pub)). split; [apply bytes_p2pkh'; auto|]. rewrite len_p2pkh' by auto. split; [lia|]. auto.
Qed.

Lemma decoded_check : HashOk E -> forall x i ins outs n b, decoded_input x i -> (input_check ins outs n x b <-> wire_check ins outs n i b).
Proof.
  intros HH x i ins outs n b (OK & sig & pub & a & P & L & IA & ->). split.
  - intros (spk & script & der & pub' & sh & (S1 & S2 & S3 & S4) & SS & B & P' & L' & DS & V). cbn [ti_script_sig ti_script_pub_key] in *.
    apply (f_equal (fun o => match o with Some z => z | None => [] end)) in SS. cbv beta iota in SS. apply hex_of_inj in SS; [|apply OK|exact B]. subst script.
    destruct (script_parts_fun _ _ _ _ _ B P P') as [<- <-].
    apply (f_equal (fun o => match o with Some z => z | None => [] end)) in S3. cbv beta iota in S3. apply hex_of_inj in S3; [|apply bytes_p2pkh'; auto|exact S1]. subst spk.
    exists pub, sig, sh. auto 10.
  - intros (pub' & der & sh & P' & L' & DS & V). destruct (script_parts_fun _ _ _ _ _ (proj1 (proj2 (proj2 (proj2 OK)))) P P') as [<- <-].
    exists (p2pkh (hash160 pub)), (i_script i), sig, pub, sh. split.
    { split; [apply bytes_p2pkh'; auto|]. rewrite len_p2pkh' by auto. split; [lia|]. auto. }
    split; [reflexivity|]. split; [apply OK|]. auto.
Qed.

Lemma checked_verdicts : HashOk E -> forall ins0 outs xs ins m bs, Forall2 decoded_input xs ins ->
  (all_checked ins0 outs m xs bs <-> length bs = length ins /\ forall n i b, nth_error ins n = Some i -> nth_error bs n = Some b -> wire_check ins0 outs (m + n) i b).
Proof.
  intros HH ins0 outs xs ins m bs F. revert m bs. induction F as [|x i xs ins D F IH]; intros m bs.
  - split; [intros H; inversion H; split; auto; intros [|n1]; discriminate|]. intros [L _]. destruct bs; [constructor|discriminate].
  - split.
    + intros H. inversion H as [|q1 q2 q3 b bs' IC AC]; subst. apply IH in AC as [L V]. split; [cbn [length]; lia|].
      intros [|n] j c Ni Nb; cbn [nth_error] in *.
      * injection Ni as <-. injection Nb as <-. rewrite Nat.add_0_r. apply (decoded_check HH x); auto.
      * replace (m + S n)%nat with (S m + n)%nat by lia. eauto.
    + intros [L V]. destruct bs as [|b bs]; [discriminate|]. constructor.
      * apply (decoded_check HH x i); auto. specialize (V 0%nat i b eq_refl eq_refl). rewrite Nat.add_0_r in V. exact V.
      * apply IH. cbn [length] in L. split; [lia|]. intros n j c Ni Nb. specialize (V (S n) j c Ni Nb). replace (S m + n)%nat with (m + S n)%nat by lia. exact V.
Qed.

Lemma decoded_verdicts : HashOk E -> forall t ins outs n, decoded_tx t ins outs ->
  (verify t = Ok n <-> exists bs, wire_verdicts ins outs bs /\ n = falses bs).
Proof.
  intros HH t ins outs n D. destruct (decoded_bodies HH _ _ _ D) as [B SP]. rewrite (verify_iff HH t ins outs B SP). destruct D as (_ & _ & FI & _).
  split; intros (bs & AC & Q); exists bs; (split; [|exact Q]); revert AC; rewrite (checked_verdicts HH ins outs _ _ 0 bs FI); auto.
Qed.

Lemma falses_zero : forall bs, falses bs = 0 <-> forall b, In b bs -> b = true.
Proof.
  unfold falses. induction bs as [|b bs IH]; [split; [intros _ b []|reflexivity]|]. cbn [filter]. destruct b; cbn [negb].
  - rewrite IH. split; [intros H b [<-|I]; auto|intros H b I; apply H; right; auto].
  - cbn [length]. split; [lia|]. intros H. specialize (H false (or_introl eq_refl)). discriminate.
Qed.

Lemma text_decodes : HashOk E -> UniOk E -> forall d t, from_hex_signed (strip d) = Ok t ->
  exists ins outs, transaction_text stripped d ins outs /\ decoded_tx t ins outs.
Proof.
  intros HH HU d t H. apply (from_hex_iff HH HU) in H as (ins & outs & rest & B & ES & D). exists ins, outs. split; auto. exists (strip d), rest.
  split; [apply strip_stripped|]. split; auto. split; auto. destruct (tx_wire_ok _ _ _ (decoded_wire _ _ _ D)) as (O1 & O2 & L1 & L2). split; [split; auto|].
  destruct D as (_ & _ & _ & FO). clear - FO. induction FO as [|y o ys os (_ & V & _) F IH]; constructor; auto.
Qed.
Lemma decodes_text : HashOk E -> UniOk E -> forall d ins outs bs, transaction_text stripped d ins outs -> wire_verdicts ins outs bs ->
  exists t, from_hex_signed (strip d) = Ok t /\ decoded_tx t ins outs.
Proof.
  intros HH HU d ins outs bs (s & rest & ST & B & -> & OK & V) (L & W). apply strip_iff in ST. rewrite ST. destruct (c21_decoder_exact HU HH) as (_ & C & _). apply C; auto.
  apply Forall_forall. intros i I. apply In_nth_error in I as [n N]. destruct (nth_error bs n) as [b|] eqn:NB; [|apply nth_error_None in NB; assert (n < length ins)%nat by (apply nth_error_Some; congruence); lia].
  destruct (W n i b N NB) as (pub & der & sh & P & L64 & _). eauto.
Qed.

Lemma plural_verdict : forall w e n, lit w ++ lit " signature" ++ plural n ++ lit e = verdict w e n.
Proof.
  intros w e n. unfold verdict, plural. destruct (Nat.ltb_spec 1 n), (Nat.leb_spec n 1); try lia; rewrite <- ?app_assoc; reflexivity.
Qed.

(** C73.  verify_signed_transaction_hex says "Valid signature." or "Valid signatures." exactly if the data is a transaction, white space around it and
    bytes after it aside, and every input carries a valid signature.  In every other case it prints nothing and fails: with ValueError if a signature is
    wrong, and with AttributeError if there is no data. *)
Lemma c73_hex : HashOk E -> UniOk E -> forall d,
  (forall out, task_verify_signed_transaction_hex (Some d) = (out, Ok tt) <->
     exists ins outs bs, transaction_text stripped d ins outs /\ wire_verdicts ins outs bs /\ (forall b, In b bs -> b = true) /\ out = [verdict "Valid" "." (length ins)]) /\
  (forall out e, task_verify_signed_transaction_hex (Some d) = (out, Err e) -> out = []) /\
  (forall ins outs bs, transaction_text stripped d ins outs -> wire_verdicts ins outs bs -> In false bs -> task_verify_signed_transaction_hex (Some d) = ([], Err ValueError)) /\
  task_verify_signed_transaction_hex None = ([], Err AttributeError).
Proof.
  intros HH HU d. unfold task_verify_signed_transaction_hex, data_strip, after, fail, print_then, finish. split; [|split; [|split; [|reflexivity]]].
  - intros out. split.
    + intros H. destruct (from_hex_signed (strip d)) as [t|] eqn:F; [|discriminate]. destruct (verify t) as [n|] eqn:V; [|discriminate].
      destruct (Z.eqb_spec n 0) as [->|]; cbn [negb] in H; [|discriminate]. injection H as <-.
      destruct (text_decodes HH HU d t F) as (ins & outs & TT & D). destruct (proj1 (decoded_verdicts HH t ins outs 0 D) V) as (bs & W & Z0).
      exists ins, outs, bs. split; auto. split; auto. split; [apply falses_zero; auto|]. destruct D as (_ & _ & FI & _). rewrite (F2_len _ _ _ _ _ FI). f_equal. apply (plural_verdict "Valid" "."%string).
    + intros (ins & outs & bs & TT & W & A & ->). destruct (decodes_text HH HU d ins outs bs TT W) as (t & F & D). rewrite F.
      assert (V : verify t = Ok 0) by (apply (decoded_verdicts HH t ins outs 0 D); exists bs; split; auto; symmetry; apply falses_zero; auto). rewrite V. cbn [Z.eqb negb].
      destruct D as (_ & _ & FI & _). rewrite (F2_len _ _ _ _ _ FI). f_equal. f_equal. apply (plural_verdict "Valid" "."%string).
  - intros out e H. destruct (from_hex_signed (strip d)) as [t|]; [|congruence]. destruct (verify t) as [n|]; [|congruence]. destruct (negb (n =? 0)); congruence.
  - intros ins outs bs TT W I. destruct (decodes_text HH HU d ins outs bs TT W) as (t & F & D). rewrite F.
    assert (V : verify t = Ok (falses bs)) by (apply (decoded_verdicts HH t ins outs _ D); eauto). rewrite V.
    destruct (Z.eqb_spec (falses bs) 0) as [Z0|]; [|reflexivity]. apply falses_zero with (b := false) in Z0; [discriminate|auto].
Qed.

(** C73.  decode_signed_transaction_hex prints the transaction as JSON exactly if it can be parsed, all signatures can be checked, and the outputs are not worth
    more than 21 million bitcoin; it succeeds exactly if all signatures are valid, and fails with ValueError after printing if not. *)
Lemma c73_decode : HashOk E -> UniOk E -> JsonOk E -> forall d ins outs bs, transaction_text stripped d ins outs -> wire_verdicts ins outs bs -> ins <> [] ->
  (Zsum (map o_value outs) <= 2100000000000000 ->
     exists line v, task_decode_signed_transaction_hex (Some d) = ([line], if forallb (fun b => b) bs then Ok tt else Err ValueError) /\ json_loads line = Ok (PDict v) /\
       has v "signed" (PBool true) /\ has v "size_bytes" (PInt (len (wire ins outs))) /\ has_amount v "total_output" (Zsum (map o_value outs)) /\ has_no_amount v "fee") /\
  (2100000000000000 < Zsum (map o_value outs) -> task_decode_signed_transaction_hex (Some d) = ([], Err ValueError)).
Proof.
  intros HH HU HJ d ins outs bs TT W NE. destruct (decodes_text HH HU d ins outs bs TT W) as (t & F & D).
  assert (V : verify t = Ok (falses bs)) by (apply (decoded_verdicts HH t ins outs _ D); eauto).
  unfold task_decode_signed_transaction_hex, data_strip, after, fail, print_then, finish, to_json. rewrite F, V. destruct (decoded_to_dict HU t ins outs D NE) as [G1 G2]. split.
  - intros M. destruct (G1 M) as (v & TD & PL & _ & S1 & _ & S3 & S4 & S5 & _). rewrite TD. cbn [bind]. exists (json_dumps (PDict v)), v. split; [|split; [apply HJ; auto|auto]].
    destruct (forallb (fun b => b) bs) eqn:A.
    + rewrite forallb_forall in A. assert (Z0 : falses bs = 0) by (apply falses_zero; auto). rewrite Z0. reflexivity.
    + destruct (Z.eqb_spec (falses bs) 0) as [Z0|]; [|reflexivity]. exfalso. apply Bool.not_true_iff_false in A. apply A. apply forallb_forall. intros b I. apply falses_zero with (b := b) in Z0; auto.
  - intros M. rewrite (G2 M). reflexivity.
Qed.

(** C73.  Whatever the data is, what cannot be parsed or checked is not printed; without data the task fails with AttributeError. *)
Lemma c73_decode_refused : HashOk E -> UniOk E -> 
  (forall d, (forall ins outs bs, transaction_text stripped d ins outs -> ~ wire_verdicts ins outs bs) -> exists e, task_decode_signed_transaction_hex (Some d) = ([], Err e)) /\
  task_decode_signed_transaction_hex None = ([], Err AttributeError).
Proof.
  intros HH HU. split; [|reflexivity]. intros d N. unfold task_decode_signed_transaction_hex, data_strip, after, fail.
  destruct (from_hex_signed (strip d)) as [t|e] eqn:F; [|eauto]. destruct (verify t) as [n|e] eqn:V; [|eauto]. exfalso.
  destruct (text_decodes HH HU d t F) as (ins & outs & TT & D). destruct (proj1 (decoded_verdicts HH t ins outs n D) V) as (bs & W & _). exact (N ins outs bs TT W).
Qed.

(** C73, refuted: that "Valid signature." means that there is a signature.  A transaction without inputs gets the same verdict. *)
Lemma c73_no_signature_refuted : HashOk E -> UniOk E -> forall outs, tx_ok [] outs -> Forall (fun o => o_value o <= 2100000000000000) outs ->
  task_verify_signed_transaction_hex (Some (hex_of (wire [] outs))) = ([lit "Valid signature."], Ok tt).
Proof.
  intros HH HU outs OK V. apply (proj1 (c73_hex HH HU _)). exists [], outs, []. split; [|split; [|split; [intros b []|reflexivity]]].
  - exists (hex_of (wire [] outs)), []. rewrite app_nil_r. split; [|split; [constructor|auto]]. apply strip_iff, strip_hex. apply wire_bytes; auto.
  - split; auto. intros [|n]; discriminate.
Qed.

Lemma signable_no_script : forall ins j k x, nth_error ins k = Some x -> ti_script_pub_key x = None \/ ti_script_pub_key_length x = None -> forall h, signable_inputs j (j + k) ins <> Ok h.
Proof.
  induction ins as [|y ins IH]; intros j k x N S0 h H; [destruct k; discriminate|]. cbn [signable_inputs] in H. destruct k as [|k].
  - injection N as ->. rewrite Nat.add_0_r, Nat.eqb_refl in H. inv_bind H s Hs. unfold txin_hex_signable_form in Hs. destruct S0 as [S0|S0]; rewrite S0 in Hs; [destruct (ti_script_pub_key_length x); discriminate|discriminate].
  - inv_bind H s Hs. inv_bind H r Hr. replace (j + S k)%nat with (S j + k)%nat in Hr by lia. exact (IH (S j) k x N S0 r Hr).
Qed.
Lemma verify_no_script : forall t k x n, nth_error (tx_inputs t) k = Some x -> ti_script_pub_key x = None \/ ti_script_pub_key_length x = None -> verify t <> Ok n.
Proof.
  intros t k x n N S0. unfold verify. generalize 0 at 1.
  assert (G : forall xs i, (forall j, nth_error (tx_inputs t) (i + j) = nth_error xs j) -> (i <= k)%nat -> forall c, verify_loop t i xs c <> Ok n).
  { induction xs as [|y xs IH]; intros i HN L c H.
    - specialize (HN (k - i)%nat). replace (i + (k - i))%nat with k in HN by lia. rewrite N in HN. destruct (k - i)%nat; discriminate.
    - cbn [verify_loop] in H. destruct (ti_script_sig y); [|discriminate]. inv_bind H pq Hp. destruct pq as [sa sb]. inv_bind H sc Hs. inv_bind H vb Hv.
      destruct (Nat.eq_dec i k) as [->|].
      + unfold verify_signature_for_one_input in Hv. inv_bind Hv f Hf. unfold to_hex_signable_form in Hf. inv_bind Hf g Hg. exact (signable_no_script _ 0 k x N S0 g Hg).
      + apply (IH (S i)) in H; auto; [|lia]. intros j. specialize (HN (S j)). cbn [nth_error] in HN. rewrite <- HN. f_equal. lia. }
  intros c. apply G; auto. lia.
Qed.

Lemma json_body : HashOk E -> ZeroAddressOk E -> UniOk E -> forall s t, from_json s = Ok t -> exists ins outs, body t ins outs.
Proof.
  intros HH HZ HU s t H. destruct (c33_consistent HH HZ HU s t H) as (T & FO & FI & _).
  assert (exists ins, Forall2 (fun x i => in_outpoint x (i_txid i) (i_index i)) (tx_inputs t) ins) as [ins I].
  { clear - FI. induction FI as [|x xs (txid & idx & n & h & O & _) F [ins IH]]; [exists []; constructor|]. exists (mk_sinput txid idx [] :: ins). constructor; auto. }
  assert (exists outs, Forall2 out_wire (tx_outputs t) outs) as [outs O].
  { clear - FO. induction FO as [|y ys (v & h & [O _] & _) F [outs IH]]; [exists []; constructor|]. eexists. constructor; eauto. }
  exists ins, outs. split; auto.
Qed.

(** C73.  verify_signed_transaction_json gives a verdict exactly for documents that can be read and in which every input has a scriptSig that can be checked
    against its scriptPubKey: "Valid signature(s)." if all checks succeed and "Invalid signature(s)!." otherwise.  In every other case it prints nothing and fails. *)
Lemma c73_json : HashOk E -> ZeroAddressOk E -> UniOk E -> forall s,
  (forall out, task_verify_signed_transaction_json (Some s) = (out, Ok tt) <->
     exists t ins outs bs, from_json s = Ok t /\ Forall2 (fun x i => in_outpoint x (i_txid i) (i_index i)) (tx_inputs t) ins /\ Forall2 out_wire (tx_outputs t) outs /\
       all_checked ins outs 0 (tx_inputs t) bs /\
       out = [if forallb (fun b => b) bs then verdict "Valid" "." (length ins) else verdict "Invalid" "!." (length ins)]) /\
  (forall out e, task_verify_signed_transaction_json (Some s) = (out, Err e) -> out = []) /\
  task_verify_signed_transaction_json None = ([], Err TypeError).
Proof.
  intros HH HZ HU s. unfold task_verify_signed_transaction_json, data_for_json, after, fail, print_then, finish. split; [|split; [|reflexivity]].
  - assert (OUT : forall t (ins : list sinput) bs (n : nat), length (tx_inputs t) = length ins -> (if falses bs =? 0 then ([lit "Valid signature" ++ plural (length (tx_inputs t)) ++ lit "."], @Ok unit tt) else ([lit "Invalid signature" ++ plural (length (tx_inputs t)) ++ lit "!."], Ok tt)) =
      ([if forallb (fun b => b) bs then verdict "Valid" "." (length ins) else verdict "Invalid" "!." (length ins)], Ok tt)).
    { intros t ins bs _ ->. destruct (forallb (fun b => b) bs) eqn:A.
      - assert (Z0 : falses bs = 0) by (apply falses_zero; rewrite forallb_forall in A; auto). rewrite Z0. cbn [Z.eqb]. rewrite <- (plural_verdict "Valid" "."%string). reflexivity.
      - destruct (Z.eqb_spec (falses bs) 0) as [Z0|]; [exfalso|rewrite <- (plural_verdict "Invalid" "!."%string); reflexivity]. apply Bool.not_true_iff_false in A. apply A. apply forallb_forall. intros b I. apply falses_zero with (b := b) in Z0; auto. }
    intros out. split.
    + intros H. destruct (from_json s) as [t|] eqn:F; [|discriminate]. destruct (verify t) as [n|] eqn:V; [|discriminate].
      destruct (json_body HH HZ HU s t F) as (ins & outs & B). pose proof (c33_consistent HH HZ HU s t F) as (_ & _ & FI & _).
      assert (SP : Forall (fun x => exists spk, in_spk x spk) (tx_inputs t)).
      { apply Forall_forall. intros x I. pose proof I as I0. apply In_nth_error in I0 as [k N]. rewrite Forall_forall in FI. 
        apply (c33_accepted_iff HH HZ HU) in F as (v & _ & d & vi & vo & xs & ys & sg & -> & _ & _ & FJ & _ & _ & _ & _ & _ & _ & _ & _ & _ & _ & _ & _ & ->). cbn [tx_inputs] in *.
        assert (exists jv, json_input jv x) as [jv J]. { clear - FJ I. induction FJ as [|jv y l l' J FJ IH]; [destruct I|]. destruct I as [<-|I]; eauto. }
        destruct (ti_script_pub_key x) as [sp|] eqn:SPX; [|exfalso; refine (verify_no_script _ k x n _ (or_introl SPX) V); exact N].
        destruct J as (d' & txid & iv & idx & m & bt & pk & lv1 & iv1 & sv1 & l1 & s1 & lv2 & iv2 & sv2 & l2 & s2 & a & h & _ & _ & _ & _ & _ & _ & _ & _ & _ & _ & _ & _
          & _ & _ & _ & _ & _ & _ & _ & _ & _ & _ & _ & _ & _ & JS & ->). cbn [ti_script_pub_key] in SPX. subst s2.
        destruct JS as [(_ & _ & _ & Q)|(q & R & _ & -> & _ & [(_ & Q)|(bs & Bb & LB & _ & Q)])]; try discriminate. exists bs. split; auto. split; [lia|]. split; [exact Q|]. rewrite LB. reflexivity. }
      destruct (proj1 (verify_iff HH t ins outs B SP n) V) as (bs & AC & NV). subst n. exists t, ins, outs, bs. pose proof B as (_ & B1 & B2). do 4 (split; [auto|]).
      cbv zeta in H. assert (Q := OUT t ins bs 0%nat (F2_len _ _ _ _ _ B1)). assert (Q2 := eq_trans (eq_sym Q) H). congruence.
    + intros (t & ins & outs & bs & F & B1 & B2 & AC & ->). rewrite F. destruct (c33_consistent HH HZ HU s t F) as (T & _).
      assert (SP : Forall (fun x => exists spk, in_spk x spk) (tx_inputs t)) by (clear - AC; induction AC as [|n x xs b bs (spk & _ & _ & _ & _ & S0 & _) AC IH]; constructor; eauto).
      assert (V : verify t = Ok (falses bs)) by (apply (verify_iff HH t ins outs); [split; auto|auto|eauto]). rewrite V. cbv zeta. apply OUT; [exact 0%nat|]. eapply F2_len; eauto.
  - intros out e H. destruct (from_json s) as [t|]; [|congruence]. destruct (verify t) as [n|]; [|congruence]. cbv zeta in H. destruct (n =? 0); congruence.
Qed.

(** C73.  create_signed_transaction_json, given a document that is a well-formed transaction: if all keys are valid and every input's address is controlled by one of
    them, it prints one document and succeeds, and verify_signed_transaction_json says that this document is valid.  Otherwise it prints nothing and fails. *)
Lemma c73_sign : CryptoOk E -> SignTotal E -> UniOk E -> JsonOk E -> forall s t ins outs keys, from_json s = Ok t -> tx_body t ins outs -> json_ready t ->
  let signable := Forall (fun k => exists a, controls k a) keys /\ Forall (fun x => exists k, In k keys /\ controls k (ti_address x)) (tx_inputs t) in
  (signable -> exists js t', task_create_signed_transaction_json (Some s) keys = ([js], Ok tt) /\ from_json js = Ok t' /\
     map unsign (tx_inputs t') = map unsign (tx_inputs t) /\ tx_outputs t' = tx_outputs t /\
     task_verify_signed_transaction_json (Some js) = ([verdict "Valid" "." (length ins)], Ok tt)) /\
  (~ signable -> exists e, task_create_signed_transaction_json (Some s) keys = ([], Err e)).
Proof.
  intros HC HT HU HJ s t ins outs keys F TB JR. pose proof HC as (HH & HZ & _). cbv zeta. split.
  - intros [KF KS]. destruct (proj1 (c27_first_unknown HC HT _ _ _ _ TB KF) KS) as (xs' & SG & AS). pose proof (c25_sign_then_verify HC _ _ _ _ _ _ TB SG) as V.
    destruct (c32_signed HC HU HJ _ _ _ _ _ _ _ TB JR SG) as (JR' & js & TJ & FJ). exists js, (forget_keys (set_inputs t xs')). destruct (c32_same_forms (set_inputs t xs')) as (_ & SV & _).
    assert (LX : length xs' = length (tx_inputs t)) by (clear - AS; induction AS; cbn [length]; congruence).
    assert (LI : length (tx_inputs t) = length ins) by (destruct TB as (_ & FI & _); eapply F2_len; eauto).
    split; [|split; [exact FJ|split; [|split; [reflexivity|]]]].
    + unfold task_create_signed_transaction_json, data_for_json, after. rewrite F, SG, TJ, V. reflexivity.
    + cbn [forget_keys set_inputs tx_inputs]. rewrite map_map. clear - AS. induction AS as [|n x x' xs xs' key I (pub & sig & _ & _ & _ & _ & _ & _ & _ & ->) AS IH]; [reflexivity|]. cbn [map]. rewrite IH. reflexivity.
    + unfold task_verify_signed_transaction_json, data_for_json, after. rewrite FJ, SV, V. cbn [Z.eqb]. cbv zeta. cbn [forget_keys set_inputs tx_inputs]. rewrite map_length, LX, LI. unfold print_then, finish. f_equal. f_equal. apply (plural_verdict "Valid" "."%string).
  - intros N. unfold task_create_signed_transaction_json, data_for_json, after, fail. rewrite F. destruct (sign t keys None) as [[[]|e] t'] eqn:SG; [|eauto]. exfalso. apply N.
    destruct (sign_ok_inv HC _ _ _ _ _ _ TB SG) as (_ & KF & xs' & _ & AS & _). split; auto.
    clear - AS. induction AS as [|n x x' xs xs' key I (pub & sig & KP & OW & _) AS IH]; constructor; auto. exists key. split; auto. exists pub. split; auto. apply OW.
Qed.

End WithEnv.

(** Beside C73. *)
Example ex73_hex : @task_verify_signed_transaction_hex demo_env (Some ([32] ++ signed_hex ++ [10])) = ([lit "Valid signatures."], Ok tt) /\
  @task_verify_signed_transaction_hex demo_env (Some (hex_of (wire [] []))) = ([lit "Valid signature."], Ok tt) /\
  @task_verify_signed_transaction_hex demo_env (Some (lit "00")) = ([], Err ValueError).
Proof. split; [vm_compute; reflexivity|]. split; vm_compute; reflexivity. Qed.
Example ex73_meets : exists ins outs bs, @transaction_text (@stripped demo_env) signed_hex ins outs /\ @wire_verdicts demo_env ins outs bs /\ (forall b, In b bs -> b = true) /\ (1 < length ins)%nat.
Proof.
  pose proof demo_crypto as (HH & _). assert (T : @task_verify_signed_transaction_hex demo_env (Some signed_hex) = ([lit "Valid signatures."], Ok tt)) by (vm_compute; reflexivity).
  apply (proj1 (c73_hex HH demo_uni _)) in T as (ins & outs & bs & TT & W & A & Q). exists ins, outs, bs. split; auto. split; auto. split; auto.
  unfold verdict in Q. destruct (Nat.leb_spec (length ins) 1); [discriminate Q|auto].
Qed.
Example ex73_decode : exists line, @task_decode_signed_transaction_hex demo_env (Some signed_hex) = ([line], Ok tt).
Proof. eexists. vm_compute. reflexivity. Qed.
(** With another last byte in the last output script (before the lock time) the signatures are invalid: the task that decodes prints the document all the same. *)
Example ex73_tampered : @task_verify_signed_transaction_hex demo_env (Some tampered_hex) = ([], Err ValueError) /\
  exists line, @task_decode_signed_transaction_hex demo_env (Some tampered_hex) = ([line], Err ValueError).
Proof. split; [vm_compute; reflexivity|]. eexists. vm_compute. reflexivity. Qed.
(** The created demo transaction, written as JSON and read back, is such a document. *)
Example ex73_sign : exists j t ins outs, @from_json demo_env j = Ok t /\ @tx_body demo_env t ins outs /\ @json_ready demo_env t /\ (1 < length ins)%nat /\
  exists js, @task_create_signed_transaction_json demo_env (Some j) [key1; key2] = ([js], Ok tt).
Proof.
  destruct demo_body as (ins & outs & B). destruct ex32_created as (_ & _ & _ & _ & R).
  destruct (@to_json demo_env created) as [j|e] eqn:J; [|vm_compute in J; discriminate].
  assert (K : bind (@to_json demo_env created) (@from_json demo_env) = Ok (set_change_address created None)) by (vm_compute; reflexivity). rewrite J in K. cbn [bind] in K.
  assert (TB : @tx_body demo_env (set_change_address created None) ins outs) by exact B.
  assert (JR : @json_ready demo_env (set_change_address created None)).
  { destruct R as (X1 & X2 & X3 & X4 & _). split; [exact X1|]. split; [exact X2|]. split; [exact X3|]. split; [exact X4|discriminate]. }
  exists j, (set_change_address created None), ins, outs. split; [exact K|]. split; [exact TB|]. split; [exact JR|]. split.
  - destruct B as (_ & FI & _). rewrite <- (F2_len _ _ _ _ _ FI). vm_compute. lia.
  - destruct (proj1 (c73_sign demo_crypto demo_sign_total demo_uni demo_json _ _ _ _ [key1; key2] K TB JR)) as (js & _ & H & _); [|eauto].
    destruct (sign_ok_inv demo_crypto _ _ _ _ _ _ B signed_ok) as (_ & KF & xs' & _ & AS & _). split; [exact KF|].
    assert (IN : tx_inputs (set_change_address created None) = tx_inputs created) by reflexivity. rewrite IN.
    clear - AS. induction AS as [|n x x' xs xs' key I (pub & sig & KP & OW & _) AS IH]; constructor; auto. exists key. split; auto. exists pub. split; auto. apply OW.
Qed.
