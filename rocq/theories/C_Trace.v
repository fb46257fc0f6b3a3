(** C86-C88: what is logged while a transaction is signed, verified, loaded. *)
From Coq Require Import String Lia.
From Verif Require Import PyBase Env PyNum Validate Basic Spec EnvOk TxInput TxOutput Tx Trace Create TxSpec SignSpec TraceSpec Demo DemoTx DemoTrace.
From Verif Require Import NumLemmas HexProofs Base58Proofs AddrProofs AmountProofs ScriptProofs WireProofs SignProofs VerifyProofs TraceProofs TraceEraseProofs TraceLogProofs DemoProofs DemoTxProofs C_Sign.
Open Scope Z_scope.

Section WithEnv.
Context {E : Env}.

(** C86.  Logging changes nothing: with the records left out, the call is the one of C25-C28. *)
Lemma c86_erasure : forall t keys rv, snd (sign_says t keys rv) = sign t keys rv.
Proof. exact sign_erase. Qed.

(** C86.  The records of every call on a well-formed transaction: none if the nonces or keys are unfit, and otherwise those of
    each input in order, with the closing line exactly if all were signed. *)
Lemma c86_records : CryptoOk E -> forall t ins outs keys rv, tx_body t ins outs ->
  let nonces_fit := rv = None \/ rv = Some [] \/ exists l, rv = Some l /\ NoDup l /\ length l = length keys in
  let keys_fit := Forall (fun k => exists a, controls k a) keys in
  let n := length (tx_inputs t) in
  (~ nonces_fit -> sign_says t keys rv = ([], (Err ValueError, t))) /\
  (~ keys_fit -> exists e, sign_says t keys rv = ([], (Err e, t))) /\
  (nonces_fit -> keys_fit -> exists (r : res unit) xs' l,
     sign_says t keys rv = (l ++ match r with Ok _ => [at_info (signed_text n)] | Err _ => [] end, (r, set_inputs t xs')) /\
     signing_log keys rv ins outs n 0 (tx_inputs t) r xs' l).
Proof.
  intros HC t ins outs keys rv HB NF KF n. pose proof HC as (HH & HZ & HK & HS & HP & HD). split; [|split].
  - intros N. unfold sign_says. destruct (check_random_values keys rv) as [[]|e] eqn:CR.
    + exfalso. apply N. apply check_random_ok. exact CR.
    + rewrite (check_random_err _ _ _ CR). reflexivity.
  - intros N. unfold sign_says. destruct (check_random_values keys rv) as [[]|e]; [|eauto].
    destruct (build_map_bad HH HK keys [] N) as [e ->]. eauto.
  - intros N K. apply (sign_log HC t ins outs keys rv); auto. apply check_random_ok. exact N.
Qed.

(** C86.  The log of a successful signing tells nothing that the signed transaction does not tell: two signings that end with the
    same transaction, both with or both without a list of nonces, log the same, whatever their keys and nonces were. *)
Lemma c86_secrecy : CryptoOk E -> forall t ins outs keys rv l t2 ins2 outs2 keys2 rv2 l2 t',
  tx_body t ins outs -> tx_body t2 ins2 outs2 -> sign_says t keys rv = (l, (Ok tt, t')) -> sign_says t2 keys2 rv2 = (l2, (Ok tt, t')) ->
  (rv = None <-> rv2 = None) -> l = l2.
Proof.
  intros HC t ins outs keys rv l t2 ins2 outs2 keys2 rv2 l2 t' B1 B2 H1 H2 R.
  assert (K : forall t ins outs keys rv l, tx_body t ins outs -> sign_says t keys rv = (l, (Ok tt, t')) ->
    exists l0, l = l0 ++ [at_info (signed_text (length (tx_inputs t')))] /\
      signing_log keys rv ins outs (length (tx_inputs t')) 0 (tx_inputs t) (Ok tt) (tx_inputs t') l0).
  { clear - HC. intros t ins outs keys rv l HB H.
    assert (S0 : sign t keys rv = (Ok tt, t')) by (rewrite <- sign_erase, H; reflexivity).
    destruct (sign_ok_inv HC t ins outs keys rv t' HB S0) as (CR & FK & xs' & -> & AS & _).
    destruct (sign_log HC t ins outs keys rv HB CR FK) as (r & xs2 & l0 & SL & LG). rewrite H in SL. apply pair_inj in SL as [-> Q].
    apply pair_inj in Q as [<- Q]. apply (f_equal tx_inputs) in Q. cbn in Q. subst xs2. exists l0. cbn [tx_inputs set_inputs].
    assert (LL : length xs' = length (tx_inputs t)). { clear - AS. induction AS; cbn; auto. }
    rewrite LL. split; [reflexivity|exact LG]. }
  destruct (K _ _ _ _ _ _ B1 H1) as (a & -> & A). destruct (K _ _ _ _ _ _ B2 H2) as (b & -> & B). f_equal.
  eapply (signing_log_fun HC); [exact A|reflexivity|exact B|]. destruct rv, rv2; try reflexivity; destruct R as [R1 R2]; [discriminate R2|discriminate R1]; reflexivity.
Qed.

(** C86, refuted: the log is not always right about how a signature was made.  An empty list of nonces is the same as no list, but
    the signatures are then announced as non-deterministic. *)
Lemma c86_label_refuted : CryptoOk E -> forall t ins outs keys x xs, tx_body t ins outs -> Forall (fun k => exists a, controls k a) keys ->
  tx_inputs t = x :: xs ->
  sign t keys (Some []) = sign t keys None /\
  (exists l, fst (sign_says t keys (Some [])) = announce true 0 (length (tx_inputs t)) x :: l) /\
  (exists l, fst (sign_says t keys None) = announce false 0 (length (tx_inputs t)) x :: l).
Proof.
  intros HC t ins outs keys x xs HB FK HT.
  assert (K : forall rv, rv = None \/ rv = Some [] -> exists l, fst (sign_says t keys rv) = announce (supplied rv) 0 (length (tx_inputs t)) x :: l).
  { intros rv RV. destruct (sign_log HC t ins outs keys rv) as (r & xs' & l & -> & LG); auto; [destruct RV as [-> | ->]; reflexivity|].
    rewrite HT in LG at 2. cbn [fst]. inversion LG as [| |k2 x2 xs2 NN| |]; subst; cbn [app]; eauto.
    exfalso. destruct NN as (q & -> & NE & _). destruct RV as [?|RV]; [discriminate|]. injection RV as ->. contradiction. }
  split; [|split; [apply (K (Some [])); auto|apply (K None); auto]].
  assert (G : forall m todo dn, sign_loop t m (Some []) dn todo = sign_loop t m None dn todo).
  { intros m. induction todo as [|y r IH]; intros dn; cbn [sign_loop]; [reflexivity|]. change (random_value_at (Some []) (length dn)) with (random_value_at None (length dn)).
    destruct (random_value_at None (length dn)) as [k|]; [|reflexivity]. destruct (map_find _ _); [|reflexivity]. destruct (private_key_hex_to_public_key_hex _); [|reflexivity].
    cbv zeta. destruct (make_script_sig _ _ _ _ _) as [[[sl sn] ss]|e]; [apply IH|reflexivity]. }
  unfold sign. cbn [check_random_values]. destruct (build_key_map keys []) as [m|e]; [|reflexivity]. rewrite G. reflexivity.
Qed.

(** C87.  Logging changes nothing: with the records left out, the call is the one of C29, C30. *)
Lemma c87_erasure : forall t, snd (verify_says t) = verify t.
Proof. exact verify_erase. Qed.

(** C87.  A call that returns, and its records: for each input the parts of its scriptSig, the numbers of its signature and the
    verdict, and a closing line. *)
Lemma c87_records : HashOk E -> forall t ins outs L c, tx_header t ->
  Forall2 (fun x i => in_outpoint x (i_txid i) (i_index i)) (tx_inputs t) ins -> Forall2 out_wire (tx_outputs t) outs ->
  Forall (fun x => exists spk, in_spk x spk) (tx_inputs t) ->
  let n := length (tx_inputs t) in
  verify_says t = (L, Ok c) <->
  exists bs l, all_checked ins outs 0 (tx_inputs t) bs /\ c = Z.of_nat (length (filter negb bs)) /\
    checks_log n 0 (tx_inputs t) bs l /\ L = l ++ [at_info (verified_text n)].
Proof. intros HH t ins outs L c T HI HO SP n. apply (verify_log_iff HH t ins outs (conj T (conj HI HO)) SP). Qed.

(** C87.  Each invalid signature, and nothing else, is reported as an error: the ERROR records name the invalid signatures in order,
    and there are as many as verify returns.  The only INFO record is the closing line. *)
Lemma c87_complaints : HashOk E -> forall t ins outs L c, tx_header t ->
  Forall2 (fun x i => in_outpoint x (i_txid i) (i_index i)) (tx_inputs t) ins -> Forall2 out_wire (tx_outputs t) outs ->
  Forall (fun x => exists spk, in_spk x spk) (tx_inputs t) ->
  let n := length (tx_inputs t) in
  verify_says t = (L, Ok c) ->
  (exists bs, all_checked ins outs 0 (tx_inputs t) bs /\ filter (level_is 40) L = complaints n 0 bs) /\
  Z.of_nat (length (filter (level_is 40) L)) = c /\ filter (level_is 20) L = [at_info (verified_text n)].
Proof.
  intros HH t ins outs L c T HI HO SP n H. apply (verify_log_iff HH t ins outs (conj T (conj HI HO)) SP) in H as (bs & l & A & -> & C & ->).
  destruct (checks_log_split _ _ _ _ _ C) as [C1 C2]. rewrite !filter_app, C1, C2. cbn [filter level_is at_info fst]. change (20 =? 40) with false. change (20 =? 20) with true. cbv iota.
  rewrite app_nil_r. split; [exists bs; auto|]. split; [apply complaints_length|reflexivity].
Qed.

(** C87.  A call that raises does so at the first input whose scriptSig cannot be checked; the earlier invalid signatures have been
    reported, and there is no closing line. *)
Lemma c87_raised : HashOk E -> forall t ins outs L e, tx_header t ->
  Forall2 (fun x i => in_outpoint x (i_txid i) (i_index i)) (tx_inputs t) ins -> Forall2 out_wire (tx_outputs t) outs ->
  Forall (fun x => exists spk, in_spk x spk) (tx_inputs t) ->
  verify_says t = (L, Err e) ->
  exists pre x post bs, tx_inputs t = pre ++ x :: post /\ all_checked ins outs 0 pre bs /\ (forall b, ~ input_check ins outs (length pre) x b) /\
    filter (level_is 40) L = complaints (length (tx_inputs t)) 0 bs /\ filter (level_is 20) L = [].
Proof. intros HH t ins outs L e T HI HO SP H. exact (verify_fail HH t ins outs (conj T (conj HI HO)) SP L e H). Qed.

(** C87, refuted: the closing line is no evidence that any signature is valid.  It claims as many valid signatures as there are
    inputs even if none is valid. *)
Lemma c87_claim_refuted : HashOk E -> forall t ins outs bs, tx_header t ->
  Forall2 (fun x i => in_outpoint x (i_txid i) (i_index i)) (tx_inputs t) ins -> Forall2 out_wire (tx_outputs t) outs ->
  Forall (fun x => exists spk, in_spk x spk) (tx_inputs t) ->
  all_checked ins outs 0 (tx_inputs t) bs -> (forall b, In b bs -> b = false) ->
  exists L, verify_says t = (L, Ok (Z.of_nat (length (tx_inputs t)))) /\ In (at_info (verified_text (length (tx_inputs t)))) L.
Proof.
  intros HH t ins outs bs T HI HO SP A F.
  destruct (verify_loop_log HH t ins outs (length (tx_inputs t)) (conj T (conj HI HO)) (tx_inputs t) 0 0 bs (fun j => eq_refl) A) as (l & C & _).
  exists (l ++ [at_info (verified_text (length (tx_inputs t)))]). split; [|apply in_or_app; right; left; reflexivity].
  apply (verify_log_iff HH t ins outs (conj T (conj HI HO)) SP). exists bs, l. split; auto. split; [|auto].
  assert (LB : length (tx_inputs t) = length bs). { clear - A. induction A; cbn; auto. }
  assert (LF : length (filter negb bs) = length bs). { clear - F. induction bs as [|b bs IH]; [reflexivity|]. cbn. rewrite (F b (or_introl eq_refl)). cbn. rewrite IH; auto. intros b' I. apply F. right. auto. }
  unfold falses. rewrite LF, LB. reflexivity.
Qed.

(** C88.  Logging changes nothing: with the records left out, the calls are those of C22, C23, C32, C33. *)
Lemma c88_erasure : forall s t, snd (from_hex_says s) = from_hex_signed s /\ snd (to_hex_says t) = to_hex_signed_form t /\ snd (from_json_says s) = from_json s.
Proof.
  intros s t. split; [apply from_hex_erase|]. rewrite to_hex_says_eq, from_json_says_eq. split; [destruct (to_hex_signed_form t)|destruct (from_json s)]; reflexivity.
Qed.

(** C88.  A hex text that is loaded, and the records: every field of it, in order. *)
Lemma c88_records : HashOk E -> UniOk E -> forall s L t, from_hex_says s = (L, Ok t) <->
  exists ins outs rest li lo, bytes rest /\ s = hex_of (wire ins outs ++ rest) /\ decoded_tx t ins outs /\
    inputs_log 0 ins li /\ outputs_log 0 outs lo /\ L = loading_log ins outs rest li lo.
Proof. intros HH HU. exact (from_hex_log_iff HH HU). Qed.

(** C88.  A hex text that is refused: above DEBUG there is only the line that says loading has begun. *)
Lemma c88_refused : forall s L e, from_hex_says s = (L, Err e) ->
  exists l, L = at_info (lit "Loading signed transaction from hex.") :: l /\ Forall (fun r => fst r = 10) l.
Proof. exact from_hex_refused_log. Qed.

(** C88.  The other conversions log one line, and only on success. *)
Lemma c88_single : forall s t,
  to_hex_says t = match to_hex_signed_form t with Ok h => ([at_info (lit "Signed transaction converted to hex form.")], Ok h) | Err e => ([], Err e) end /\
  from_json_says s = match from_json s with Ok t => ([at_info (lit "Transaction successfully loaded from JSON format and validated.")], Ok t) | Err e => ([], Err e) end.
Proof. intros s t. split; [apply to_hex_says_eq|apply from_json_says_eq]. Qed.

End WithEnv.

(** The signed demo transaction: its log, with and without nonces, shows the announced labels; one key short, it stops. *)
Example ex86_signed : map snd (filter (level_is 20) (fst (@sign_says demo_env created [key1; key2] None))) = signed_lines.
Proof. vm_compute. reflexivity. Qed.
Example ex86_premises : CryptoOk demo_env /\ (exists ins outs, @tx_body demo_env created ins outs) /\ Forall (fun k => exists a, @controls demo_env k a) [key1; key2] /\
  tx_inputs created <> [].
Proof.
  split; [exact demo_crypto|]. split; [exact demo_body|]. split; [|vm_compute; discriminate].
  destruct demo_body as (ins & outs & B). apply (sign_ok_inv demo_crypto created ins outs [key1; key2] None signed_tx B signed_ok).
Qed.
Example ex86_one_input : signed_text 1 = lit "Transaction signed with 1 signatures.".
Proof. reflexivity. Qed.

(** Both signatures of [exchanged] are invalid: two errors, and a closing line that claims two valid signatures. *)
Example ex87_exchanged : exists L, @verify_says demo_env exchanged = (L, Ok 2) /\ length L = 19%nat /\
  map snd (filter (level_is 40) L) = [lit "Signature 1 of 2 is invalid!"; lit "Signature 2 of 2 is invalid!"] /\
  map snd (filter (level_is 20) L) = [lit "Transaction verified: 2 valid signatures"].
Proof. eexists. split; [vm_compute; reflexivity|]. repeat split; vm_compute; reflexivity. Qed.
Example ex87_premises : exists ins outs bs, tx_header exchanged /\
  Forall2 (fun x i => in_outpoint x (i_txid i) (i_index i)) (tx_inputs exchanged) ins /\ Forall2 out_wire (tx_outputs exchanged) outs /\
  Forall (fun x => exists spk, in_spk x spk) (tx_inputs exchanged) /\ @all_checked demo_env ins outs 0 (tx_inputs exchanged) bs /\
  length bs = 2%nat /\ forall b, In b bs -> b = false.
Proof.
  destruct demo_body as (ins & outs & B).
  assert (Q : exchanged = set_inputs created (tx_inputs exchanged)) by (vm_compute; reflexivity).
  assert (M : map unsign (tx_inputs exchanged) = map unsign (tx_inputs created)) by (vm_compute; reflexivity).
  pose proof (body_after created ins outs (tx_inputs exchanged) B M) as B'. rewrite <- Q in B'.
  pose proof (body_spk demo_hash exchanged ins outs B') as [(T' & HI' & HO') SP'].
  assert (V : @verify demo_env exchanged = Ok 2) by (vm_compute; reflexivity).
  apply (c29_verify demo_hash exchanged ins outs 2 T' HI' HO' SP') in V as (bs & A & C). exists ins, outs, bs.
  assert (L : length bs = 2%nat). { change 2%nat with (length (tx_inputs exchanged)). clear - A. induction A; cbn; auto. }
  split; [exact T'|]. split; [exact HI'|]. split; [exact HO'|]. split; [exact SP'|]. split; [exact A|]. split; [exact L|].
  clear - C L. destruct bs as [|[] [|[] [|? ?]]]; try discriminate. intros b [<-|[<-|[]]]; reflexivity.
Qed.

(** Loading the signed demo transaction. *)
Example ex88_loaded : exists L t, @from_hex_says demo_env signed_hex = (L, Ok t) /\ length L = 50%nat /\
  nth_error (map snd L) 2 = Some (lit "hex length: 438") /\ nth_error (map snd L) 5 = Some (lit "input_count_int: 2") /\
  nth_error (map snd L) 9 = Some (lit "- script_length: 8b").
Proof. eexists _, _. split; [vm_compute; reflexivity|]. repeat split; vm_compute; reflexivity. Qed.
Example ex88_refused : exists L, @from_hex_says demo_env (lit "0100000001") = (L, Err IndexError) /\ (1 < length L)%nat.
Proof. eexists. split; [vm_compute; reflexivity|]. cbn. lia. Qed.
