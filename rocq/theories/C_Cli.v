(** C49, C50, C55, C62-C64: the command-line tasks. *)
From Coq Require Import String Floats.SpecFloat Permutation Sorted Lia.
From Verif Require Import PyBase Env PyNum Validate Basic Spec EnvOk TxInput TxOutput Tx Create Cli CliSpec TxSpec SignSpec CreateSpec JsonSpec ValidSpec Demo DemoTx DemoCreate.
From Verif Require Import NumLemmas HexProofs Base58Proofs AddrProofs AmountProofs ScriptProofs WireProofs MakeProofs SignProofs PrepProofs DesignProofs BuildProofs CreateProofs JsonProofs VerifyProofs C_Hex C_Base58 C_Create C_Sign C_Wire C_Json C_Valid CliProofs StripProofs DemoProofs DemoTxProofs DemoCreateProofs.
Open Scope Z_scope.

Section WithEnv.
Context {E : Env}.

(** What task_create_transaction does once a transaction has been created. *)
Lemma task_cases : forall inputs design keys out r, task_create_transaction inputs design keys = (out, r) ->
  (out = [] /\ exists e, r = Err e) \/
  (r = Ok tt /\ exists t s t2 t' h t3, fst (create_transaction (cli_namespace inputs design)) = Ok t /\ to_json t = Ok s /\ from_json s = Ok t2 /\
     sign t keys None = (Ok tt, t') /\ to_hex_signed_form t' = Ok h /\ from_hex_signed h = Ok t3 /\ verify t3 = Ok 0 /\ out = [h]).
Proof.
  intros inputs design keys out r H. unfold task_create_transaction, after, fail, print_then, finish in H.
  destruct (fst _) as [t|e]; [|injection H as <- <-; eauto]. destruct (to_json t) as [s|e] eqn:TJ; [|injection H as <- <-; eauto].
  destruct (from_json s) as [t2|e] eqn:FJ; [|injection H as <- <-; eauto]. destruct (sign t keys None) as [r0 t'] eqn:SG. destruct r0 as [[]|e]; [|injection H as <- <-; eauto].
  destruct (verify t') as [n|e]; [|injection H as <- <-; eauto]. destruct (negb (n =? 0)); [injection H as <- <-; eauto|].
  destruct (to_hex_signed_form t') as [h|e] eqn:HX; [|injection H as <- <-; eauto]. destruct (hex_len (PStr h)); [|injection H as <- <-; eauto].
  destruct (from_hex_signed h) as [t3|e] eqn:FH; [|injection H as <- <-; eauto]. destruct (verify t3) as [n3|e] eqn:V3; [|injection H as <- <-; eauto].
  destruct (Z.eqb_spec n3 0); cbn [negb] in H; [|injection H as <- <-; eauto]. injection H as <- <-. right. split; auto. subst n3. exists t, s, t2, t', h, t3. auto 10.
Qed.

Lemma task_success : CryptoOk E -> UniOk E -> forall inputs design keys q sel outs f chg t s t2 t',
  asked (cli_namespace inputs design) q -> plan q sel outs f chg -> tx_of sel outs (q_change_address q) t -> to_json t = Ok s -> from_json s = Ok t2 -> sign t keys None = (Ok tt, t') ->
  exists h, task_create_transaction inputs design keys = ([h], Ok tt) /\ to_hex_signed_form t' = Ok h.
Proof.
  intros HC HU inputs design keys q sel outs f chg t s t2 t' A PL TX TJ FJ SG. pose proof HC as (HH & HZ & _).
  destruct (plan_body HU _ _ _ _ _ _ _ A PL TX) as (ws & _ & TB & MI & MO).
  destruct (signed_decodes HC HU _ _ _ _ _ _ TB (made_ints _ _ MI) (made_outs _ _ MO) SG) as (ins' & TW & HX & BW & FH & V1 & V2 & _).
  assert (CR : fst (create_transaction (cli_namespace inputs design)) = Ok t) by (apply (create_iff HH HZ HU); exists q, sel, outs, f, chg; auto).
  exists (hex_of (wire ins' ws)). split; auto. unfold task_create_transaction, after. rewrite CR, TJ, FJ, SG, V1, HX, FH, V2, hex_len_ok by auto. reflexivity.
Qed.

(** C49.  create_transaction on the command line either prints nothing and fails, or prints one line and succeeds. *)
Lemma c49_all_or_nothing : forall inputs design keys out r, task_create_transaction inputs design keys = (out, r) ->
  (out = [] /\ exists e, r = Err e) \/ (r = Ok tt /\ exists h, out = [h]).
Proof. intros inputs design keys out r H. apply task_cases in H as [H|(-> & t & s & t2 & t' & h & t3 & _ & _ & _ & _ & _ & _ & _ & ->)]; eauto. Qed.

(** C49.  What is printed is the wire format of the planned transaction: it spends the selected outpoints, makes the planned
    outputs, and each input carries a signature of its sighash by a supplied key that controls the input's address.  It
    decodes, and the decoded transaction verifies. *)
Lemma c49_printed : CryptoOk E -> UniOk E -> forall inputs design keys h, task_create_transaction inputs design keys = ([h], Ok tt) ->
  exists q sel outs f chg ins ws t, asked (cli_namespace inputs design) q /\ plan q sel outs f chg /\
    Forall2 (fun o w => exists h, is_address h (oa_address o) /\ w = mk_soutput (oa_value o) (p2pkh h)) outs ws /\
    h = hex_of (wire ins ws) /\ bytes (wire ins ws) /\ map i_txid ins = map ia_txid sel /\ map i_index ins = map ia_index sel /\
    (forall n i a, nth_error ins n = Some i -> nth_error sel n = Some a ->
       exists key pub sig, In key keys /\ key_pub key pub /\ is_address (hash160 pub) (ia_address a) /\ bytes sig /\ length sig = 64%nat /\
         ec_sign_digest key (hex_of (digest (sighash_bytes n (p2pkh (hash160 pub)) ins ws))) = Ok (hex_of sig) /\
         i_script i = build_script_sig (der_of sig) pub) /\
    from_hex_signed h = Ok t /\ verify t = Ok 0.
Proof.
  intros HC HU inputs design keys h0 H. pose proof HC as (HH & HZ & _).
  apply task_cases in H as [(H & _)|(_ & t & s & t2 & t' & h & t3 & CR & TJ & FJ & SG & HX & FH & V & EQ)]; [discriminate|]. injection EQ as ->.
  apply (create_iff HH HZ HU) in CR as (q & sel & outs & f & chg & A & PL & TX).
  destruct (plan_body HU _ _ _ _ _ _ _ A PL TX) as (ws & OW & TB & MI & MO).
  destruct (signed_decodes HC HU _ _ _ _ _ _ TB (made_ints _ _ MI) (made_outs _ _ MO) SG) as (ins' & TW & HX' & BW & FH' & V1 & V2 & _ & _ & M1 & M2 & R).
  assert (h = hex_of (wire ins' ws)) by congruence. subst h. rewrite map_map in M1, M2. cbn [i_txid i_index] in M1, M2.
  exists q, sel, outs, f, chg, ins', ws, t3. split; auto. split; auto. split; auto. split; auto. split; auto. split; auto. split; auto. split; auto.
  intros n i a N NS. destruct (R n i N) as (x & key & pub & sig & X1 & X2 & X3 & X4 & X5 & X6 & X7 & X8). exists key, pub, sig.
  assert (AX : ti_address x = ia_address a). { pose proof (made_address _ _ MI) as MA. apply (f_equal (fun l => nth_error l n)) in MA. rewrite !nth_error_map, X1, NS in MA. cbn in MA. congruence. }
  rewrite <- AX. auto 10.
Qed.

(** C49.  It succeeds exactly if there is a plan, all its amounts are positive, all supplied keys are valid, and every selected input
    is controlled by one of them. *)
Lemma c49_succeeds_iff : CryptoOk E -> SignTotal E -> UniOk E -> JsonOk E -> forall inputs design keys,
  (exists h, task_create_transaction inputs design keys = ([h], Ok tt)) <->
  exists q sel outs f chg, asked (cli_namespace inputs design) q /\ plan q sel outs f chg /\
    Forall (fun i => 0 < ia_value i) sel /\ Forall (fun o => 0 < oa_value o) outs /\
    Forall (fun k => exists a, controls k a) keys /\ Forall (fun i => exists k, In k keys /\ controls k (ia_address i)) sel.
Proof.
  intros HC HT HU HJ inputs design keys. pose proof HC as (HH & HZ & _). split.
  - intros (h & H). apply task_cases in H as [(H & _)|(_ & t & s & t2 & t' & h' & t3 & CR & TJ & FJ & SG & _)]; [discriminate|].
    apply (create_iff HH HZ HU) in CR as (q & sel & outs & f & chg & A & PL & TX). exists q, sel, outs, f, chg. split; auto. split; auto.
    destruct (reread_positive HH HZ HU HJ _ _ _ _ _ _ _ _ _ A PL TX TJ FJ) as [P1 P2]. split; auto. split; auto.
    destruct (plan_body HU _ _ _ _ _ _ _ A PL TX) as (ws & OW & TB & MI & MO). destruct (sign_ok_inv HC _ _ _ _ _ _ TB SG) as (_ & KF & xs' & _ & AS & _). split; auto.
    assert (K : Forall (fun x => exists k, In k keys /\ controls k (ti_address x)) (tx_inputs t)).
    { clear - AS. induction AS as [|n x x' xs xs' key I (pub & sig & KP & OW & _) AS IH]; constructor; auto. exists key. split; auto. exists pub. split; auto. apply OW. }
    pose proof (made_address _ _ MI) as MA. clear - MA K. apply Forall_map with (f := ia_address) (P := fun a => exists k, In k keys /\ controls k a). rewrite <- MA. apply Forall_map. exact K.
  - intros (q & sel & outs & f & chg & A & PL & P1 & P2 & KF & KS). destruct (plan_made HU _ _ _ _ _ _ A PL) as [t TX].
    destruct (plan_body HU _ _ _ _ _ _ _ A PL TX) as (ws & OW & TB & MI & MO).
    destruct (c32_round_trip HH HZ HU HJ t (plan_ready HU _ _ _ _ _ _ _ A PL TX P1 P2)) as (s & TJ & FJ).
    assert (K : Forall (fun x => exists k, In k keys /\ controls k (ti_address x)) (tx_inputs t)).
    { pose proof (made_address _ _ MI) as MA. apply Forall_map with (f := ti_address) (P := fun a => exists k, In k keys /\ controls k a). rewrite MA. apply Forall_map. exact KS. }
    destruct (proj1 (c27_first_unknown HC HT _ _ _ _ TB KF) K) as (xs' & SG & _).
    destruct (task_success HC HU _ _ _ _ _ _ _ _ _ _ _ _ A PL TX TJ FJ SG) as (h & T & _). eauto.
Qed.

(** C49.  In particular, with a key that is not valid, or without a key for one of the selected inputs, nothing is printed. *)
Lemma c49_refused : CryptoOk E -> UniOk E -> forall inputs design keys q sel outs f chg, asked (cli_namespace inputs design) q -> plan q sel outs f chg ->
  (exists k, In k keys /\ forall a, ~ controls k a) \/ (exists i, In i sel /\ forall k, In k keys -> ~ controls k (ia_address i)) ->
  exists e, task_create_transaction inputs design keys = ([], Err e).
Proof.
  intros HC HU inputs design keys q sel outs f chg A PL BAD. pose proof HC as (HH & HZ & _). destruct (task_create_transaction inputs design keys) as [out r] eqn:T.
  apply task_cases in T as [(-> & e & ->)|(_ & t & s & t2 & t' & h' & t3 & CR & TJ & FJ & SG & _)]; [eauto|exfalso].
  destruct (plan_made HU _ _ _ _ _ _ A PL) as [t0 TX].
  assert (CR0 : fst (create_transaction (cli_namespace inputs design)) = Ok t0) by (apply (create_iff HH HZ HU); exists q, sel, outs, f, chg; auto).
  rewrite CR in CR0. injection CR0 as <-. destruct (plan_body HU _ _ _ _ _ _ _ A PL TX) as (ws & OW & TB & MI & MO).
  destruct (sign_ok_inv HC _ _ _ _ _ _ TB SG) as (_ & KF & xs' & _ & AS & _). destruct BAD as [(k & I & N)|(i & I & N)].
  - rewrite Forall_forall in KF. destruct (KF k I) as [a C]. exact (N a C).
  - assert (K : Forall (fun a => exists k, In k keys /\ controls k a) (map ti_address (tx_inputs t))).
    { apply Forall_map. clear - AS. induction AS as [|n x x' xs xs' key I (pub & sig & KP & OW & _) AS IH]; constructor; auto. exists key. split; auto. exists pub. split; auto. apply OW. }
    rewrite (made_address _ _ MI) in K. rewrite Forall_forall in K. destruct (K (ia_address i)) as (k & Ik & C); [apply in_map; auto|]. exact (N k Ik C).
Qed.

(** C50.  create_signed_transaction_hex never succeeds... *)
Lemma c50_never_succeeds : forall data out r, task_create_signed_transaction_hex data = (out, r) -> r <> Ok tt.
Proof.
  intros data out r H. unfold task_create_signed_transaction_hex, after, fail, print_then in H.
  destruct (data_for_json data) as [s|e]; [|injection H as <- <-; discriminate]. destruct (from_json s) as [t|e]; [|injection H as <- <-; discriminate].
  destruct (verify t); [|injection H as <- <-; discriminate]. destruct (to_hex_signed_form t); injection H as <- <-; discriminate.
Qed.

(** C50.  ... but for every document that can be read and whose signatures can be checked, it first prints the serialised transaction,
    however many of the signatures are invalid. *)
Lemma c50_prints_first : HashOk E -> ZeroAddressOk E -> UniOk E -> forall s t n, from_json s = Ok t -> verify t = Ok n ->
  exists h, to_hex_signed_form t = Ok h /\ task_create_signed_transaction_hex (Some s) = ([h], Err NameError).
Proof.
  intros HH HZ HU s t n FJ V. destruct (c33_consistent HH HZ HU s t FJ) as (_ & _ & FI & _).
  assert (exists l, mapM txin_hex_signed_form (tx_inputs t) = Ok l) as [l M].
  { assert (NN : forall x, In x (tx_inputs t) -> ti_script_sig x <> None) by (intros x I N; exact (verify_none t x n I N V)). clear - FI NN.
    induction FI as [|x xs (txid & idx & m & h & _ & _ & _ & _ & SS & _) FI IH]; [exists []; auto|].
    destruct IH as [l IH]; [intros y I; apply NN; right; auto|]. cbn [mapM]. rewrite IH. destruct SS as [N|(sc & B & S1 & S2)]; [exfalso; apply (NN x); auto; left; auto|].
    unfold txin_hex_signed_form. rewrite S1, S2. cbn. eauto. }
  unfold to_hex_signed_form. rewrite M. cbn [bind]. eexists. split; [reflexivity|]. unfold task_create_signed_transaction_hex, data_for_json, after. rewrite FJ, V. unfold to_hex_signed_form. rewrite M. reflexivity.
Qed.

(** C50.  Nothing is printed if the document cannot be read or its signatures cannot be checked. *)
Lemma c50_refused : forall s, (forall t n, from_json s = Ok t -> verify t <> Ok n) -> exists e, task_create_signed_transaction_hex (Some s) = ([], Err e).
Proof.
  intros s H. unfold task_create_signed_transaction_hex, data_for_json, after, fail. destruct (from_json s) as [t|e] eqn:FJ; [|eauto]. destruct (verify t) as [n|e] eqn:V; [|eauto]. exfalso. exact (H t n eq_refl V).
Qed.

Lemma printable_dec : forall d, {Forall printable_char d} + {~ Forall printable_char d}.
Proof.
  intros d. apply Forall_dec. intros c. unfold printable_char. destruct (Z.eq_dec c 9); [left; auto|]. destruct (Z.eq_dec c 10); [left; auto|].
  destruct (Z_le_dec 32 c); [|right; lia]. destruct (Z_le_dec c 126); [left; lia|right; lia].
Qed.
Lemma printable_bytes : forall d, Forall printable_char d -> bytes d.
Proof. intros d F. eapply Forall_impl; [|exact F]. unfold printable_char, byte. intros. lia. Qed.

(** C55.  The exact behaviour of verify_data_signature: data that is not printable is refused, and so are a public key or a signature that are
    not 64 bytes of hex; otherwise the library decides. *)
Lemma c55_verify : 
  (forall p s d, ~ Forall printable_char d -> task_verify_data_signature p s (Some d) = ([], Err ValueError)) /\
  (forall p s, task_verify_data_signature p s None = ([], Err TypeError)) /\
  (forall p s d, (forall bs, bytes bs -> length bs = 64%nat -> p <> Some (hex_of bs)) \/ (forall bs, bytes bs -> length bs = 64%nat -> s <> Some (hex_of bs)) ->
     exists e, task_verify_data_signature p s d = ([], Err e) /\ (e = ValueError \/ e = TypeError)) /\
  (forall pub sig d, bytes pub -> length pub = 64%nat -> bytes sig -> length sig = 64%nat -> Forall printable_char d ->
     task_verify_data_signature (Some (hex_of pub)) (Some (hex_of sig)) (Some d) =
     match ec_verify (hex_of pub) (hex_of d) (hex_of sig) with
     | Ok true => ([lit "Valid signature."], Ok tt)
     | Ok false => ([lit "Invalid signature!"], Ok tt)
     | Err e => ([], Err e)
     end).
Proof.
  split; [|split; [|split]].
  - intros p s d N. unfold task_verify_data_signature. cbn [opt_str]. rewrite (proj2 (c53_printable d) N). reflexivity.
  - reflexivity.
  - intros p s d B. unfold task_verify_data_signature, after, fail. destruct d as [d|]; [|exists TypeError; auto]. cbn [opt_str data_for_json].
    destruct (printable_dec d) as [P|N]; [|rewrite (proj2 (c53_printable d) N); exists ValueError; auto]. rewrite (proj1 (c53_printable d) P). unfold hexlify_ascii. rewrite bytes_hex_hex_of by (apply printable_bytes; auto).
    assert (VL : forall o, validate_hex_length (opt_str o) 64 = Ok tt \/ exists e, validate_hex_length (opt_str o) 64 = Err e /\ (e = ValueError \/ e = TypeError)).
    { intros [o|]; cbn [opt_str]; [destruct (c01_validate_hex) as (_ & _ & _ & _ & V & _); destruct (V o 64%nat); eauto|right; exists TypeError; auto]. }
    unfold verify_signature. destruct (VL p) as [Vp|(e & -> & HE)]; [|exists e; split; [reflexivity|exact HE]]. rewrite Vp. cbn [bind]. rewrite validate_hex_ok by (apply printable_bytes; auto). cbn [bind].
    destruct (VL s) as [Vs|(e & -> & HE)]; [|exists e; split; [reflexivity|exact HE]]. exfalso. apply validate_hex_length_inv in Vp as (b1 & B1 & L1 & E1). apply validate_hex_length_inv in Vs as (b2 & B2 & L2 & E2).
    destruct p as [p|]; [|discriminate]. destruct s as [s|]; [|discriminate]. cbn [opt_str] in *. assert (p = hex_of b1) by congruence. assert (s = hex_of b2) by congruence. subst. destruct B as [B|B]; [apply (B b1)|apply (B b2)]; auto.
  - intros pub sig d Bp Lp Bs Ls P. unfold task_verify_data_signature, after, fail. cbn [opt_str data_for_json]. rewrite (proj1 (c53_printable d) P). unfold hexlify_ascii. rewrite bytes_hex_hex_of by (apply printable_bytes; auto).
    unfold verify_signature. rewrite !validate_hex_length_ok, validate_hex_ok by (auto; apply printable_bytes; auto). cbn [bind as_str]. destruct (ec_verify _ _ _) as [[|]|e]; reflexivity.
Qed.

(** C55.  Whatever sign_data prints on success is one signature of the (printable) data that the library accepts, and
    verify_data_signature agrees. *)
Lemma c55_agree : KeysOk E -> forall key d out, task_sign_data key (Some d) = (out, Ok tt) ->
  Forall printable_char d /\
  exists sig pub, bytes sig /\ length sig = 64%nat /\ bytes pub /\ length pub = 64%nat /\ out = [hex_of sig] /\ ec_sign key (hex_of d) = Ok (hex_of sig) /\
    private_key_hex_to_public_key_hex key = Ok (hex_of pub) /\
    task_verify_data_signature (Some (hex_of pub)) (Some (hex_of sig)) (Some d) = ([lit "Valid signature."], Ok tt).
Proof.
  intros HK key d out H. unfold task_sign_data, after, fail in H. cbn [opt_str data_for_json] in H.
  destruct (printable_dec d) as [P|N]; [|rewrite (proj2 (c53_printable d) N) in H; discriminate]. rewrite (proj1 (c53_printable d) P) in H.
  split; auto. unfold hexlify_ascii, create_deterministic_signature in H. rewrite bytes_hex_hex_of in H by (apply printable_bytes; auto).
  destruct (ec_sign key (hex_of d)) as [s|e] eqn:ES; [|discriminate]. unfold print_then in H. destruct (private_key_hex_to_public_key_hex key) as [p|e] eqn:PK; [|discriminate].
  destruct (verify_signature (PStr p) (PStr (hex_of d)) (PStr s)) as [b|e] eqn:VS; [|discriminate]. destruct b; [|discriminate]. unfold finish in H. injection H as <-.
  pose proof VS as VS0. unfold verify_signature in VS0. inv_bind VS0 u1 U1. inv_bind VS0 u2 U2. inv_bind VS0 u3 U3. destruct u1, u3. cbn [as_str bind] in VS0.
  apply validate_hex_length_inv in U1 as (pub & Bp & Lp & E1). apply validate_hex_length_inv in U3 as (sig & Bs & Ls & E3). assert (p = hex_of pub) by congruence. assert (s = hex_of sig) by congruence. subst p s.
  exists sig, pub. do 7 (split; [auto|]). rewrite (proj2 (proj2 (proj2 c55_verify))) by auto. rewrite VS0. reflexivity.
Qed.

(** C55.  With a valid key and printable data sign_data succeeds whenever the library signs, and nothing else is printed; data that is not printable
    is refused before anything is signed. *)
Lemma c55_signs : KeysOk E -> SignOk E ->
  (forall key pub d s, key_pub key pub -> Forall printable_char d -> ec_sign key (hex_of d) = Ok s -> task_sign_data key (Some d) = ([s], Ok tt)) /\
  (forall key d e, Forall printable_char d -> ec_sign key (hex_of d) = Err e -> task_sign_data key (Some d) = ([], Err e)) /\
  (forall key d, ~ Forall printable_char d -> task_sign_data key (Some d) = ([], Err ValueError)).
Proof.
  intros HK HS. split; [|split].
  - intros key pub d s KP P ES. unfold task_sign_data, after, fail. cbn [opt_str data_for_json]. rewrite (proj1 (c53_printable d) P).
    unfold hexlify_ascii, create_deterministic_signature. rewrite bytes_hex_hex_of by (apply printable_bytes; auto). rewrite ES.
    destruct KP as (_ & VK & PK & Bp & Lp). destruct HK as (_ & K2 & _). destruct (K2 _ VK) as [FK _]. unfold private_key_hex_to_public_key_hex. rewrite FK. cbn [bind]. rewrite VK. cbn [bind]. rewrite PK.
    destruct HS as (_ & _ & S3). destruct (S3 _ _ _ ES) as ((sig & Bs & Ls & ->) & V). unfold verify_signature.
    rewrite !validate_hex_length_ok, validate_hex_ok by (auto; apply printable_bytes; auto). cbn [bind as_str]. rewrite (V _ PK). reflexivity.
  - intros key d e P ES. unfold task_sign_data, after, fail. cbn [opt_str data_for_json]. rewrite (proj1 (c53_printable d) P).
    unfold hexlify_ascii, create_deterministic_signature. rewrite bytes_hex_hex_of by (apply printable_bytes; auto). rewrite ES. reflexivity.
  - intros key d N. unfold task_sign_data. cbn [opt_str]. rewrite (proj2 (c53_printable d) N). reflexivity.
Qed.

(** C62.  The steps of create_transaction can also be taken one at a time: unsigned JSON, validation, signed JSON, verification, hex (which is printed,
    though the task then fails, see C50), verification and decoding of the hex, with white space around it.  The same hex results. *)
Lemma c62_workflow : CryptoOk E -> UniOk E -> JsonOk E -> forall inputs design keys h, task_create_transaction inputs design keys = ([h], Ok tt) ->
  exists j js jd t, 
    task_create_unsigned_transaction_json inputs design = ([j], Ok tt) /\
    task_validate_unsigned_transaction_json (Some j) = ([lit "Unsigned transaction data validated."], Ok tt) /\
    task_create_signed_transaction_json (Some j) keys = ([js], Ok tt) /\
    from_hex_signed h = Ok t /\ (0 < length (tx_inputs t))%nat /\
    let valid := if (1 <? length (tx_inputs t))%nat then lit "Valid signatures." else lit "Valid signature." in
    task_verify_signed_transaction_json (Some js) = ([valid], Ok tt) /\
    task_create_signed_transaction_hex (Some js) = ([h], Err NameError) /\
    forall before after, Forall blank before -> Forall blank after ->
      task_verify_signed_transaction_hex (Some (before ++ h ++ after)) = ([valid], Ok tt) /\
      task_decode_signed_transaction_hex (Some (before ++ h ++ after)) = ([jd], Ok tt).
Proof.
  intros HC HU HJ inputs design keys h0 H. pose proof HC as (HH & HZ & _).
  apply task_cases in H as [(H & _)|(_ & t & j & t2 & t' & h & t3 & CR & TJ & FJ & SG & HX & FH & V & EQ)]; [discriminate|]. injection EQ as ->.
  pose proof CR as CR0. apply (create_iff HH HZ HU) in CR as (q & sel & outs & f & chg & A & PL & TX).
  destruct (plan_body HU _ _ _ _ _ _ _ A PL TX) as (ws & OW & TB & MI & MO).
  destruct (signed_decodes HC HU _ _ _ _ _ _ TB (made_ints _ _ MI) (made_outs _ _ MO) SG) as (ins' & TW & HX' & BW & FH' & V1 & V2 & DT & _ & M1 & M2 & R).
  assert (h = hex_of (wire ins' ws)) by congruence. subst h. rewrite FH' in FH. injection FH as <-.
  destruct (reread_positive HH HZ HU HJ _ _ _ _ _ _ _ _ _ A PL TX TJ FJ) as [P1 P2]. pose proof (plan_ready HU _ _ _ _ _ _ _ A PL TX P1 P2) as JR.
  assert (UN : Forall in_unsigned (tx_inputs t)). { clear - MI. induction MI as [|i x l xs M MI IH]; constructor; auto. apply (made_input_facts _ _ _ _ _ M). }
  destruct (c32_round_trip HH HZ HU HJ t JR) as (s & TJ' & FJ'). assert (s = j) by congruence. subst s. rewrite FJ in FJ'. injection FJ' as ->. rewrite (forget_unsigned t UN) in FJ.
  pose proof (sign_change t keys None None _ _ SG) as SG2. pose proof (signed_ready HC _ _ _ _ _ _ _ TB JR SG) as JR'.
  assert (JR2 : json_ready (set_change_address t' None)). { destruct JR' as (X1 & X2 & X3 & X4 & _). split; [exact X1|]. split; [exact X2|]. split; [exact X3|]. split; [exact X4|discriminate]. }
  destruct (c32_round_trip HH HZ HU HJ _ JR2) as (js & TJS & FJS). destruct (c32_same_forms (set_change_address t' None)) as (SF1 & SF2 & _).
  assert (VC : verify (set_change_address t' None) = Ok 0). { rewrite verify_change. exact V1. }
  assert (HC2 : to_hex_signed_form (set_change_address t' None) = Ok (hex_of (wire ins' ws))) by (rewrite <- HX'; reflexivity).
  assert (NE : ins' <> []).
  { intros ->. rewrite map_map in M1. assert (sel <> []). { destruct PL as (_ & _ & _ & _ & TI & _ & _ & _ & _ & (s & (PM & _) & SC) & _).
      destruct SC as [(_ & ->)|(_ & _ & fi & la & re & -> & _)]; [|destruct fi; discriminate]. intros ->. apply Permutation_sym, Permutation_nil in PM. rewrite PM in TI. cbn in TI. lia. }
    destruct sel; [auto|discriminate]. }
  assert (SZ : Zsum (map o_value ws) <= 2100000000000000).
  { destruct (plan_facts _ _ _ _ _ (asked_wf HU _ _ A) PL) as (RR & EQ & _). assert (in_value (q_inputs q) <= max_money) by apply PL. assert (0 <= f) by apply PL.
    assert (Zsum (map o_value ws) = out_value outs). { clear - OW. induction OW as [|o w l ws (h & _ & ->) OW IH]; auto. unfold out_value in *. cbn [map Zsum o_value]. unfold Zsum in *. cbn. rewrite IH. auto. }
    unfold max_money in *. lia. }
  destruct (c57_decoded HU _ _ _ DT NE SZ) as (d & TD & _).
  assert (LI : length (tx_inputs (wire_only t')) = length ins') by (destruct DT as (_ & _ & F & _); eapply F2_len; eauto).
  assert (LF : length (tx_inputs (forget_keys (set_change_address t' None))) = length (tx_inputs (wire_only t'))).
  { cbn [forget_keys set_change_address tx_inputs wire_only set_inputs]. rewrite !map_length. reflexivity. }
  exists j, js, (json_dumps (PDict d)), (wire_only t'). split; [|split; [|split; [|split; [|split]]]].
  - unfold task_create_unsigned_transaction_json, after. rewrite CR0, TJ, FJ. reflexivity.
  - unfold task_validate_unsigned_transaction_json, data_for_json, after. rewrite FJ. reflexivity.
  - unfold task_create_signed_transaction_json, data_for_json, after. rewrite FJ, SG2, TJS, VC. reflexivity.
  - exact FH'.
  - rewrite LI. destruct ins'; [congruence|cbn; lia].
  - cbv zeta. set (valid := if (1 <? length (tx_inputs (wire_only t')))%nat then lit "Valid signatures." else lit "Valid signature.").
    assert (VV : lit "Valid signature" ++ plural (length (tx_inputs (wire_only t'))) ++ lit "." = valid) by (unfold valid, plural; destruct (1 <? length _)%nat; reflexivity).
    split; [|split].
    + unfold task_verify_signed_transaction_json, data_for_json, after. rewrite FJS, SF2, VC. cbn [Z.eqb]. cbv zeta. rewrite LF, VV. reflexivity.
    + unfold task_create_signed_transaction_hex, data_for_json, after. rewrite FJS, SF2, VC, SF1, HC2. reflexivity.
    + intros b a FB FA. assert (SP : forall l, Forall blank l -> Forall (fun c => is_strip_space c = true) l) by (intros l; apply Forall_impl; intros; apply blank_space; auto).
      unfold task_verify_signed_transaction_hex, task_decode_signed_transaction_hex, data_strip, after. rewrite strip_around by (auto using hex_no_space). rewrite FH', V2. cbn [Z.eqb negb]. rewrite VV. split; [reflexivity|].
      unfold to_json. rewrite TD. reflexivity.
Qed.


Lemma task_is_spec : forall c l, task_is c l = true <-> In (c_task c) (map lit l).
Proof. intros. apply str_in_In. Qed.
Lemma task_is_no : forall c l, ~ In (c_task c) (map lit l) -> task_is c l = false.
Proof. intros c l N. destruct (task_is c l) eqn:H; auto. apply task_is_spec in H. contradiction. Qed.

(** C63.  Tasks that use a private key need exactly one. *)
Lemma c63_one_key : forall sh c, In (c_task c) [lit "get_private_key_wif"; lit "get_public_key"; lit "get_address"; lit "sign_data"] ->
  length (private_keys c) <> 1%nat -> main sh c = ([], Err AssertionError).
Proof.
  intros sh c I N. unfold main, dispatch, check_single_key. assert (T : task_is c single_key_tasks = true) by (apply task_is_spec; exact I). rewrite T.
  destruct (Nat.eqb_spec (length (private_keys c)) 1); [contradiction|]. reflexivity.
Qed.

(** C63.  Keys are those given on the command line, then those in files, without the white space around them. *)
Lemma c63_keys :
  (forall c ks, private_keys c = c_private_key_hex c ++ ks <-> Forall2 stripped (c_private_key_files c) ks) /\
  (forall bs before after, bytes bs -> Forall blank before -> Forall blank after -> stripped (before ++ hex_of bs ++ after) (hex_of bs)).
Proof.
  split.
  - intros c ks. unfold private_keys. split.
    + intros H. apply app_inv_head in H. subst ks. induction (c_private_key_files c); constructor; auto using strip_stripped.
    + intros F. f_equal. induction F as [|s k l ks S F IH]; [reflexivity|]. cbn [map]. rewrite IH. f_equal. apply strip_iff; auto.
  - intros bs b a B FB FA. apply strip_iff. apply strip_around; auto using hex_no_space; eapply Forall_impl; try eassumption; intros; apply blank_space; auto.
Qed.

(** C63.  sign_data and validate_unsigned_transaction_json need data that is not empty. *)
Lemma c63_data : forall sh c, c_task c = lit "validate_unsigned_transaction_json" \/ (c_task c = lit "sign_data" /\ length (private_keys c) = 1%nat) ->
  c_data c = None \/ c_data c = Some [] -> main sh c = ([], Err ValueError).
Proof.
  intros sh c T D. assert (DD : match c_data c with None | Some [] => @Err unit ValueError | _ => Ok tt end = Err ValueError) by (destruct D as [-> | ->]; reflexivity).
  unfold main, dispatch, check_single_key, check_data, task_is. destruct T as [-> | [-> L]].
  - change (str_in _ (map lit single_key_tasks)) with false. change (str_in _ _) with true. cbv iota. unfold after at 1. rewrite DD. reflexivity.
  - change (str_in _ (map lit single_key_tasks)) with true. change (str_in _ _) with true. cbv iota. rewrite L. cbn [Nat.eqb assert_ after]. rewrite DD. reflexivity.
Qed.

(** C63.  The tasks that create a transaction need both files, and both must be JSON. *)
Lemma c63_files : forall sh c, In (c_task c) [lit "create_unsigned_transaction_json"; lit "create_sign_and_verify_transaction_hex"; lit "create_transaction"] ->
  (c_input_file c = None \/ c_design_file c = None -> main sh c = ([], Err ValueError)) /\
  (forall i d e, c_input_file c = Some i -> c_design_file c = Some d -> json_loads i = Err e -> main sh c = ([], Err e)) /\
  (forall i d v e, c_input_file c = Some i -> c_design_file c = Some d -> json_loads i = Ok v -> json_loads d = Err e -> main sh c = ([], Err e)) /\
  (forall i d inputs design, c_input_file c = Some i -> c_design_file c = Some d -> json_loads i = Ok inputs -> json_loads d = Ok design ->
     main sh c = if str_eqb (c_task c) (lit "create_unsigned_transaction_json") then task_create_unsigned_transaction_json inputs design
                 else task_create_transaction inputs design (private_keys c)).
Proof.
  intros sh c I.
  assert (A : task_is c single_key_tasks = false /\ task_is c ["sign_data"; "validate_unsigned_transaction_json"]%string = false /\
    task_is c ["create_unsigned_transaction_json"; "create_sign_and_verify_transaction_hex"; "create_transaction"]%string = true).
  { unfold task_is. destruct I as [<-|[<-|[<-|[]]]]; auto. }
  destruct A as (A1 & A2 & A3). unfold main, dispatch, check_single_key, check_data, load_files. rewrite A1, A2, A3. cbn [after].
  split; [|split; [|split]].
  - intros [-> | ->]; [reflexivity|]. destruct (c_input_file c); reflexivity.
  - intros i d e -> -> ->. reflexivity.
  - intros i d v e -> -> -> . cbn [bind]. intros ->. reflexivity.
  - intros i d v e -> -> -> . cbn [bind]. intros ->. cbn [bind]. destruct I as [<-|[<-|[<-|[]]]]; reflexivity.
Qed.

(** C63.  The other tasks. *)
Lemma c63_runs : forall sh c,
  (c_task c = lit "hello" \/ c_task c = lit "hello2" -> main sh c = ([lit "hello world"], Ok tt)) /\
  (c_task c = lit "get_python_version" -> main sh c = task_get_python_version sh) /\
  (c_task c = lit "private_key_wif_to_hex" -> main sh c = task_private_key_wif_to_hex (c_private_key_wif c)) /\
  (forall key, private_keys c = [key] ->
     (c_task c = lit "get_private_key_wif" -> main sh c = task_get_private_key_wif key) /\
     (c_task c = lit "get_public_key" -> main sh c = task_get_public_key key) /\
     (c_task c = lit "get_address" -> main sh c = task_get_address key) /\
     (forall d, d <> [] -> c_data c = Some d -> c_task c = lit "sign_data" -> main sh c = task_sign_data key (Some d))) /\
  (forall d, d <> [] -> c_data c = Some d -> c_task c = lit "validate_unsigned_transaction_json" -> main sh c = task_validate_unsigned_transaction_json (Some d)) /\
  (c_task c = lit "verify_data_signature" -> main sh c = task_verify_data_signature (c_public_key_hex c) (c_signature_hex c) (c_data c)) /\
  (c_task c = lit "create_signed_transaction_json" -> main sh c = task_create_signed_transaction_json (c_data c) (private_keys c)) /\
  (c_task c = lit "verify_signed_transaction_json" -> main sh c = task_verify_signed_transaction_json (c_data c)) /\
  (c_task c = lit "create_signed_transaction_hex" -> main sh c = task_create_signed_transaction_hex (c_data c)) /\
  (c_task c = lit "verify_signed_transaction_hex" -> main sh c = task_verify_signed_transaction_hex (c_data c)) /\
  (c_task c = lit "decode_signed_transaction_hex" -> main sh c = task_decode_signed_transaction_hex (c_data c)).
Proof.
  intros sh c. repeat match goal with |- _ /\ _ => split end;
    try (intros T; unfold main, dispatch, check_single_key, check_data, load_files, task_is; rewrite T; reflexivity).
  - intros [T|T]; unfold main, dispatch, check_single_key, check_data, load_files, task_is; rewrite T; reflexivity.
  - intros key K. repeat match goal with |- _ /\ _ => split end; try (intros T; unfold main, dispatch, check_single_key, check_data, load_files, task_is; rewrite T, K; reflexivity).
    intros d N D T. unfold main, dispatch, check_single_key, check_data, load_files, task_is. rewrite T, K, D. destruct d; [congruence|reflexivity].
  - intros d N D T. unfold main, dispatch, check_single_key, check_data, load_files, task_is. rewrite T, D. destruct d; [congruence|reflexivity].
Qed.

(** C63.  Any other name is refused, with a message, whatever the other arguments are. *)
Lemma c63_unknown : forall sh c,
  ~ In (c_task c) (map lit ["hello"; "hello2"; "get_python_version"; "get_private_key_wif"; "private_key_wif_to_hex"; "get_public_key"; "get_address";
   "sign_data"; "verify_data_signature"; "create_unsigned_transaction_json"; "validate_unsigned_transaction_json";
   "create_signed_transaction_json"; "verify_signed_transaction_json"; "create_signed_transaction_hex";
   "verify_signed_transaction_hex"; "decode_signed_transaction_hex"; "create_sign_and_verify_transaction_hex"; "create_transaction"]%string) ->
  main sh c = ([lit "Unrecognised task: " ++ c_task c ++ [10] ++
    lit "Task list: ['hello', 'hello2', 'get_python_version', 'get_private_key_wif', 'private_key_wif_to_hex', 'get_public_key', 'get_address', 'sign_data', 'verify_data_signature', 'create_unsigned_transaction_json', 'validate_unsigned_transaction_json', 'create_signed_transaction_json', 'verify_signed_transaction_json', 'create_signed_transaction_hex', 'verify_signed_transaction_hex', 'decode_signed_transaction_hex', 'create_sign_and_verify_transaction_hex', 'create_transaction']"],
    Err SystemExit).
Proof.
  intros sh c N. assert (T : str_in (c_task c) tasks = false). { destruct (str_in (c_task c) tasks) eqn:H; auto. apply str_in_In in H. contradiction. }
  unfold main, dispatch, check_single_key, check_data, load_files. 
  assert (S1 : forall l, incl (map lit l) tasks -> task_is c l = false) by (intros l I; apply task_is_no; intros J; apply N, I, J).
  rewrite !S1; [|intros x I; cbn [map In single_key_tasks tasks] in I |- *; intuition auto..].
  cbn [after]. rewrite T. cbn [negb print_then fail]. f_equal.
Qed.

(** C64.  For a valid key the key tasks print its public key, its address, and its WIF, from which the key is recovered. *)
Lemma c64_key_tasks : HashOk E -> ZeroAddressOk E -> KeysOk E -> forall key pub, key_pub key pub ->
  task_get_public_key key = ([hex_of pub], Ok tt) /\
  (exists a, is_address (hash160 pub) a /\ task_get_address key = ([a], Ok tt)) /\
  (exists w bs, bytes bs /\ length bs = 32%nat /\ key = hex_of bs /\ is_base58check (128 :: bs) w /\ task_get_private_key_wif key = ([w], Ok tt) /\
     task_private_key_wif_to_hex (Some w) = ([key], Ok tt)).
Proof.
  intros HH HZ HK key pub KP. pose proof (key_public HK _ _ KP) as KP1.
  split; [|split].
  - unfold task_get_public_key. rewrite KP1. reflexivity.
  - destruct HH as [H1 H2]. destruct (H2 (sha256 (4 :: pub))) as [B L]. destruct (c11_address_conversions (conj H1 H2) HZ) as (C1 & _). destruct (C1 (hash160 pub) B L) as (a & IA & _).
    exists a. split; auto. assert (C : controls key a) by (exists pub; auto). destruct (key_step_ok (conj H1 H2) HK key a C) as [_ K]. unfold task_get_address. rewrite K. reflexivity.
  - destruct (c13_wif HH HK) as (W1 & W2 & _). destruct KP as ((bs & B & L & K) & V & _). pose proof HK as (_ & _ & K3).
    destruct (proj2 (W1 key)) as [w W]; [exists key; rewrite K at 1; rewrite K3 by auto; subst; auto|]. destruct (W2 key w W) as (bs' & B' & L' & F & IB & R).
    assert (bs' = bs). { rewrite K in F. rewrite K3 in F by auto. apply hex_of_inj; auto. congruence. } subst bs'. exists w, bs. do 4 (split; [auto|]). unfold task_get_private_key_wif, task_private_key_wif_to_hex. rewrite W. cbn [opt_str]. rewrite R, K. split; reflexivity.
Qed.

(** C64.  A key that cannot be formatted or is not valid is refused and nothing is printed. *)
Lemma c64_refused : HashOk E -> KeysOk E -> forall key, (forall k, ec_format_private_key_hex key = Ok k -> ec_validate_private_key_hex k <> Ok tt) ->
  (exists e, task_get_public_key key = ([], Err e)) /\ (exists e, task_get_address key = ([], Err e)) /\ (exists e, task_get_private_key_wif key = ([], Err e)).
Proof.
  intros HH HK key N. unfold task_get_public_key, task_get_address, task_get_private_key_wif, private_key_hex_to_public_key_hex, private_key_hex_to_address, private_key_hex_to_wif.
  destruct (ec_format_private_key_hex key) as [k|e]; [|cbn [bind after fail]; split; [|split]; eexists; reflexivity]. cbn [bind]. specialize (N k eq_refl).
  destruct (ec_validate_private_key_hex k) as [[]|e]; [congruence|]. cbn [bind after fail]; split; [|split]; eexists; reflexivity.
Qed.

(** C65.  get_python_version prints one line only if both shell commands end with code 0 and write nothing to stderr and only ASCII to stdout;
    the line is what "python3 --version" wrote, without the white space around it.  Whatever the shell does, it never succeeds otherwise. *)
Lemma c65_version : forall sh out, task_get_python_version sh = (out, Ok tt) <->
  exists o1 o2, sh (lit "command -v python3") = (o1, [], 0) /\ sh (lit "python3 --version") = (o2, [], 0) /\
    Forall (fun c => c < 128) o1 /\ Forall (fun c => c < 128) o2 /\ exists line, stripped o2 line /\ out = [line].
Proof.
  assert (DA : forall b, decode_ascii b = Ok b /\ Forall (fun c => c < 128) b \/ decode_ascii b = Err ValueError /\ ~ Forall (fun c => c < 128) b).
  { intros b. unfold decode_ascii. destruct (forallb _ b) eqn:F; [left|right]; split; auto.
    - apply Forall_forall. intros x I. rewrite forallb_forall in F. apply F in I. lia.
    - intros N. apply Bool.not_true_iff_false in F. apply F. apply forallb_forall. intros x I. rewrite Forall_forall in N. apply N in I. lia. }
  intros sh out. unfold task_get_python_version, shell_tool_exists. change (existsb _ (lit "python3")) with false. cbv iota.
  change (lit "command -v " ++ lit "python3") with (lit "command -v python3"). unfold run_local_cmd. split.
  - intros H. destruct (sh (lit "command -v python3")) as [[o1 e1] c1]. destruct (DA o1) as [[R1 P1]|[R1 _]]; rewrite R1 in H; [|discriminate]. cbn [after] in H.
    destruct (DA e1) as [[R2 _]|[R2 _]]; rewrite R2 in H; [|discriminate]. cbn [after] in H.
    destruct e1; [|discriminate]. destruct (Z.eqb_spec c1 0) as [C1|C1]; [subst c1|discriminate H].
    destruct (sh (lit "python3 --version")) as [[o2 e2] c2]. destruct (DA o2) as [[R3 P2]|[R3 _]]; rewrite R3 in H; [|discriminate]. cbn [after] in H.
    destruct (DA e2) as [[R4 _]|[R4 _]]; rewrite R4 in H; [|discriminate]. cbn [after] in H.
    destruct e2; [|discriminate]. destruct (Z.eqb_spec c2 0) as [C2|C2]; [subst c2|discriminate H]. unfold negb, print_then, finish in H. assert (out = [strip o2]) by congruence. exists o1, o2. do 4 (split; [auto|]). exists (strip o2). split; [apply strip_stripped|auto].
  - intros (o1 & o2 & -> & -> & P1 & P2 & line & ST & ->). apply strip_iff in ST. subst line. destruct (DA o1) as [[-> _]|[_ N]]; [|contradiction]. cbn [after]. change (decode_ascii []) with (@Ok pystr []). cbn [after].
    change (0 =? 0) with true. cbv iota. destruct (DA o2) as [[-> _]|[_ N]]; [|contradiction]. cbn [after]. reflexivity.
Qed.

(** C65.  A local command: output that is not ASCII is a ValueError; anything on stderr is printed after the command and ends the program;
    otherwise the caller gets the output and the exit code. *)
Lemma c65_command : forall sh cmd k out err code, sh cmd = (out, err, code) ->
  (~ Forall (fun c => c < 128) (out ++ err) -> run_local_cmd sh cmd k = ([], Err ValueError)) /\
  (Forall (fun c => c < 128) (out ++ err) -> err <> [] ->
     run_local_cmd sh cmd k = ([lit "COMMAND FAILED" ++ [10] ++ lit "$ " ++ cmd ++ [10] ++ err], Err SystemExit)) /\
  (Forall (fun c => c < 128) (out ++ err) -> err = [] -> run_local_cmd sh cmd k = k out code).
Proof.
  assert (DA : forall b, decode_ascii b = Ok b /\ Forall (fun c => c < 128) b \/ decode_ascii b = Err ValueError /\ ~ Forall (fun c => c < 128) b).
  { intros b. unfold decode_ascii. destruct (forallb _ b) eqn:F; [left|right]; split; auto.
    - apply Forall_forall. intros x I. rewrite forallb_forall in F. apply F in I. lia.
    - intros N. apply Bool.not_true_iff_false in F. apply F. apply forallb_forall. intros x I. rewrite Forall_forall in N. apply N in I. lia. }
  intros sh cmd k out err code H. unfold run_local_cmd. rewrite H. rewrite Forall_app.
  destruct (DA out) as [[-> P1]|[-> N1]]; cbn [after]; [|split; [reflexivity|split; [intros [X _]; contradiction|intros [X _]; contradiction]]].
  destruct (DA err) as [[-> P2]|[-> N2]]; cbn [after]; [|split; [reflexivity|split; [intros [_ X]; contradiction|intros [_ X]; contradiction]]].
  split; [intros X; elim X; auto|]. destruct err as [|c err]; split; try reflexivity; try congruence.
Qed.

(** C65.  A tool name with a space is refused before any command is run. *)
Lemma c65_space : forall sh tool k, In 32 tool -> shell_tool_exists sh tool k = ([], Err ValueError).
Proof. intros sh tool k I. unfold shell_tool_exists. assert (existsb (fun c => c =? 32) tool = true) as -> by (apply existsb_exists; exists 32; auto). reflexivity. Qed.

(** C66.  verify_signature_digest checks that the public key is 64 bytes of hex (ValueError) and that the digest is hex of any length (AttributeError,
    from building the message with 64 as the name); nothing about the signature is checked before the library is asked. *)
Lemma c66_digest : forall p d s,
  ((forall bs, bytes bs -> length bs = 64%nat -> p <> hex_of bs) -> verify_signature_digest p d s = Err ValueError) /\
  (forall pub, bytes pub -> length pub = 64%nat -> p = hex_of pub -> ~ is_hex d -> verify_signature_digest p d s = Err AttributeError) /\
  (forall pub bs, bytes pub -> length pub = 64%nat -> p = hex_of pub -> bytes bs -> d = hex_of bs -> verify_signature_digest p d s = ec_verify_digest p d s).
Proof.
  intros p d s. unfold verify_signature_digest, validate_hex_bad_name. split; [|split].
  - intros N. destruct c01_validate_hex as (_ & _ & _ & _ & V & _). destruct (V p 64%nat) as [H|H]; rewrite H; [|reflexivity].
    apply validate_hex_length_inv in H as (b & B & L & Q). exfalso. apply (N b B L). congruence.
  - intros pub B L -> N. rewrite validate_hex_length_ok by auto. cbn [bind]. destruct (validate_hex_cases d) as [[H _]|[_ ->]]; [contradiction|reflexivity].
  - intros pub bs B L -> B2 ->. rewrite validate_hex_length_ok, validate_hex_ok by auto. reflexivity.
Qed.

(** C66.  verify_signature checks all three arguments, in order. *)
Lemma c66_data : forall p d s,
  ((forall bs, bytes bs -> length bs = 64%nat -> p <> hex_of bs) \/ ~ is_hex d \/ (forall bs, bytes bs -> length bs = 64%nat -> s <> hex_of bs) ->
     verify_signature (PStr p) (PStr d) (PStr s) = Err ValueError) /\
  (forall b1 b2 b3, bytes b1 -> length b1 = 64%nat -> p = hex_of b1 -> bytes b2 -> d = hex_of b2 -> bytes b3 -> length b3 = 64%nat -> s = hex_of b3 ->
     verify_signature (PStr p) (PStr d) (PStr s) = ec_verify p d s).
Proof.
  intros p d s. unfold verify_signature. split.
  - intros N. destruct c01_validate_hex as (_ & _ & _ & _ & V & _). destruct (V p 64%nat) as [H|H]; rewrite H; [|reflexivity].
    cbn [bind]. destruct (validate_hex_cases d) as [[D ->]|[_ ->]]; [|reflexivity]. cbn [bind]. destruct (V s 64%nat) as [H2|H2]; rewrite H2; [|reflexivity]. exfalso.
    apply validate_hex_length_inv in H as (b & B & L & Q). apply validate_hex_length_inv in H2 as (b2 & B2 & L2 & Q2). destruct N as [N|[N|N]]; [apply (N b B L); congruence|auto|apply (N b2 B2 L2); congruence].
  - intros b1 b2 b3 B1 L1 -> B2 -> B3 L3 ->. rewrite !validate_hex_length_ok, validate_hex_ok by auto. reflexivity.
Qed.

End WithEnv.

(** Beside C49: both keys are needed, in either order. *)
Example ex49_demo : @asked demo_env (cli_namespace cli_inputs cli_design) demo_order /\
  @task_create_transaction demo_env cli_inputs cli_design [key1; key2] = ([signed_hex], Ok tt) /\
  @task_create_transaction demo_env cli_inputs cli_design [key1] = ([], Err ValueError).
Proof.
  split; [exact demo_asked|]. unfold task_create_transaction. change (cli_namespace cli_inputs cli_design) with demo_ns. rewrite created_ok. cbn [after].
  destruct (@to_json demo_env created) as [j|e] eqn:J; [|vm_compute in J; discriminate]. cbn [after].
  assert (X : @from_json demo_env j = Ok (set_change_address created None)). { assert (K : bind (@to_json demo_env created) (@from_json demo_env) = Ok (set_change_address created None)) by (vm_compute; reflexivity). rewrite J in K. exact K. }
  rewrite X. cbn [after]. split; [|vm_compute; reflexivity]. rewrite signed_ok. vm_compute. reflexivity.
Qed.

(** Beside C50: a transaction whose signatures do not verify is printed all the same. *)
Example ex50_demo : @from_json demo_env forged_json = Ok forged_loaded /\
  exists h, @to_hex_signed_form forged_loaded = Ok h /\ @task_create_signed_transaction_hex demo_env (Some forged_json) = ([h], Err NameError).
Proof.
  assert (F : @from_json demo_env forged_json = Ok forged_loaded) by (vm_compute; reflexivity). split; [exact F|].
  assert (V : @verify demo_env forged_loaded = Ok 0) by (vm_compute; reflexivity).
  pose proof demo_crypto as (HH & HZ & _). exact (c50_prints_first HH HZ demo_uni _ _ _ F V).
Qed.

(** Beside C55. *)
Example ex55_demo : exists s p, @task_sign_data demo_env key1 (Some (lit "hello world")) = ([s], Ok tt) /\ @task_get_public_key demo_env key1 = ([p], Ok tt) /\
  @task_verify_data_signature demo_env (Some p) (Some s) (Some (lit "hello world")) = ([lit "Valid signature."], Ok tt) /\
  @task_verify_data_signature demo_env (Some p) (Some s) (Some (lit "hello")) = ([lit "Invalid signature!"], Ok tt) /\
  @task_verify_data_signature demo_env (Some p) None (Some (lit "hello")) = ([], Err TypeError).
Proof.
  eexists. eexists. split; [vm_compute; reflexivity|]. split; [vm_compute; reflexivity|]. split; [vm_compute; reflexivity|]. split; vm_compute; reflexivity.
Qed.

(** Beside C62: the steps reproduce the hex of ex49_demo. *)
Example ex62_demo : exists j js, @task_create_unsigned_transaction_json demo_env cli_inputs cli_design = ([j], Ok tt) /\
  @task_create_signed_transaction_json demo_env (Some j) [key1; key2] = ([js], Ok tt) /\ @task_create_signed_transaction_hex demo_env (Some js) = ([signed_hex], Err NameError).
Proof.
  destruct ex49_demo as (_ & H & _). destruct (c62_workflow demo_crypto demo_uni demo_json _ _ _ _ H) as (j & js & jd & t & H1 & _ & H2 & _ & _ & _ & H3 & _).
  exists j, js. auto.
Qed.

(** Beside C63. *)
Example ex63_demo : @main demo_env no_shell (command "hello" [] [] None) = ([lit "hello world"], Ok tt) /\
  @main demo_env no_shell (command "get_address" [] [[32] ++ key1 ++ [10]] None) = ([addr1], Ok tt) /\
  @main demo_env no_shell (command "get_address" [key1; key2] [] None) = ([], Err AssertionError) /\
  @main demo_env no_shell (command "sign_data" [key1] [] (Some [])) = ([], Err ValueError) /\
  @main demo_env no_shell (command "create_transaction" [key1] [] None) = ([], Err ValueError) /\
  @main demo_env no_shell (command "get_python_version" [] [] None) = ([], Err ValueError) /\
  snd (@main demo_env no_shell (command "stop" [] [] None)) = Err SystemExit.
Proof. repeat (split; [vm_compute; reflexivity|]). vm_compute; reflexivity. Qed.

(** Beside C64: a valid key, and an invalid one. *)
Example ex64_demo : (exists pub, @key_pub demo_env key1 pub) /\
  (forall k, @ec_format_private_key_hex demo_env (hex_of (repeat 0 32)) = Ok k -> @ec_validate_private_key_hex demo_env k <> Ok tt).
Proof.
  split.
  - destruct demo_crypto as (_ & _ & (_ & K & _) & _). assert (V : @ec_validate_private_key_hex demo_env key1 = Ok tt) by (vm_compute; reflexivity). destruct (K key1 V) as (_ & p & B & L & P).
    exists p. split; [|auto]. exists (repeat 17 32). split; [apply bytes_repeat; unfold byte; lia|auto].
  - intros k H. vm_compute in H. try (injection H as <-; vm_compute; discriminate); discriminate.
Qed.

(** Beside C65. *)
Example ex65_demo : @task_get_python_version demo_env (fun c => if str_eqb c (lit "python3 --version") then (lit "Python 3.9.2" ++ [10], [], 0) else (lit "/usr/bin/python3" ++ [10], [], 0)) = ([lit "Python 3.9.2"], Ok tt) /\
  (exists out, @task_get_python_version demo_env (fun c => ([], lit "no", 0)) = (out, Err SystemExit)) /\
  shell_tool_exists no_shell (lit "rm x") (fun _ => finish) = ([], Err ValueError).
Proof. split; [vm_compute; reflexivity|]. split; [eexists; vm_compute; reflexivity|reflexivity]. Qed.

(** Beside C66: a digest of any length is accepted, and anything that is hex for the signature reaches the library. *)
Example ex66_demo : forall E : Env, @verify_signature_digest E (hex_of (repeat 1 64)) [] [] = ec_verify_digest (hex_of (repeat 1 64)) [] [] /\
  @verify_signature_digest E (hex_of (repeat 1 64)) (lit "0") [] = Err AttributeError /\ @verify_signature_digest E [] [] [] = Err ValueError /\
  @verify_signature E (PStr (hex_of (repeat 1 64))) (PStr []) (PStr []) = Err ValueError.
Proof. intros E. repeat split; reflexivity. Qed.
