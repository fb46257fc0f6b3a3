(** C97: what cli.py says in its own words when it refuses. *)
From Coq Require Import String Floats.SpecFloat Bool Lia.
From Verif Require Import PyBase Env PyNum Validate Basic Spec EnvOk TxInput TxOutput Tx Create Cli CliSpec ValidSpec TxSpec SignSpec CreateSpec JsonSpec VerifySpec AsWrittenSpec CliSays CliSaysSpec Demo DemoTx DemoCreate.
From Verif Require Import NumLemmas HexProofs Base58Proofs AddrProofs AmountProofs ScriptProofs WireProofs MakeProofs SignProofs JsonProofs VerifyProofs CreateProofs C_Sign C_Wire C_Json C_Valid C_Create CliProofs StripProofs C_Cli C_Verify C_AsWritten DemoProofs DemoTxProofs.
Open Scope Z_scope.

Section WithEnv.
Context {E : Env}.

Lemma untold_call : forall A (m : res A) (k : A -> told_task) (k' : A -> task), (forall a, untold (k a) = k' a) -> untold (call m k) = after m k'.
Proof. intros A [a|e] k k' H; cbn [call after]; [apply H|reflexivity]. Qed.
Lemma untold_print : forall s k k', untold k = k' -> untold (tell_print s k) = print_then s k'.
Proof. intros s [o r] k' <-. destruct r; reflexivity. Qed.
Lemma untold_run : forall sh cmd k k', (forall a b, untold (k a b) = k' a b) -> untold (says_run_local_cmd sh cmd k) = run_local_cmd sh cmd k'.
Proof.
  intros sh cmd k k' H. unfold says_run_local_cmd, run_local_cmd. destruct (sh cmd) as [[o e] n]. apply untold_call. intros o'. apply untold_call. intros [|x e']; [apply H|reflexivity].
Qed.

Ltac walk := repeat first
  [ reflexivity | apply untold_call; intros | apply untold_print | apply untold_run; intros
  | match goal with |- untold (if ?b then _ else _) = _ => destruct b end
  | match goal with |- untold (let '(_, _) := ?p in _) = _ => destruct p end ].

(** C97.  Without the texts, this is the command line of C63. *)
Lemma c97_same : forall sh c, untold (main_says sh c) = main sh c.
Proof.
  intros sh c. unfold main_says, main, says_check_single_key, check_single_key, assert_, says_check_data, check_data, says_load_files, load_files.
  assert (D : forall i d, untold (says_dispatch sh c i d) = dispatch sh c i d).
  { intros i d. unfold says_dispatch, dispatch. cbv zeta.
    repeat match goal with |- untold (if ?b then _ else _) = _ => destruct b end;
      unfold says_hello, task_hello, says_get_python_version, task_get_python_version, says_shell_tool_exists, shell_tool_exists, says_get_private_key_wif, task_get_private_key_wif,
        says_private_key_wif_to_hex, task_private_key_wif_to_hex, says_get_public_key, task_get_public_key, says_get_address, task_get_address, says_sign_data, task_sign_data,
        says_verify_data_signature, task_verify_data_signature, says_create_unsigned_transaction_json, task_create_unsigned_transaction_json, says_validate_unsigned_transaction_json,
        task_validate_unsigned_transaction_json, says_create_signed_transaction_json, task_create_signed_transaction_json, says_verify_signed_transaction_json, task_verify_signed_transaction_json,
        says_create_signed_transaction_hex, task_create_signed_transaction_hex, says_verify_signed_transaction_hex, task_verify_signed_transaction_hex,
        says_decode_signed_transaction_hex, task_decode_signed_transaction_hex, says_create_transaction, task_create_transaction; cbv zeta; walk. }
  destruct (task_is c single_key_tasks); [destruct (Nat.eqb (length (private_keys c)) 1); [|reflexivity]|]; cbn [after];
    (destruct (task_is c ["sign_data"%string; "validate_unsigned_transaction_json"%string]); [destruct (c_data c) as [[|x d]|]; try reflexivity|]; cbn [after];
     (destruct (task_is c _); [destruct (c_input_file c) as [i|]; [destruct (c_design_file c) as [d0|]|]; try reflexivity;
        destruct (json_loads i); [|reflexivity]; cbn [bind call]; destruct (json_loads d0); [|reflexivity]; cbn [bind call after]; apply D|cbn [after]; apply D])).
Qed.

(** *** The own words of each task. *)
Lemma ascii_cases : forall b, decode_ascii b = Ok b /\ ascii_bytes b \/ decode_ascii b = Err ValueError /\ ~ ascii_bytes b.
Proof.
  intros b. unfold decode_ascii. destruct (forallb _ b) eqn:F; [left|right]; split; auto.
  - apply Forall_forall. intros x I. rewrite forallb_forall in F. apply F in I. lia.
  - intros N. apply Bool.not_true_iff_false in F. apply F. apply forallb_forall. intros x I. unfold ascii_bytes in N. rewrite Forall_forall in N. apply N in I. lia.
Qed.

(** k does not end in own words. *)
Definition wordless (k : told_task) : Prop := forall out e t, k <> (out, Own e t).
Lemma call_own : forall A (m : res A) k out e t, call m k = (out, Own e t) -> exists a, m = Ok a /\ k a = (out, Own e t).
Proof. intros A [a|e0] k out e t H; [eauto|discriminate]. Qed.
Lemma print_own : forall s k out e t, tell_print s k = (out, Own e t) -> exists o, k = (o, Own e t).
Proof. intros s [o r] out e t H. exists o. cbn in H. congruence. Qed.
Lemma own_own : forall e0 t0 out e t, own e0 t0 = (out, Own e t) -> e0 = e /\ t0 = t.
Proof. intros e0 t0 out e t H. unfold own in H. split; congruence. Qed.
Lemma finish_own : forall out e t, told_finish = (out, Own e t) -> False.
Proof. intros out e t H. discriminate. Qed.

Lemma python_words : forall sh e t, (exists out, says_get_python_version sh = (out, Own e t)) <->
  (exists o err n, sh look_for_python = (o, err, n) /\ ascii_bytes o /\ ascii_bytes err /\
    (err <> [] /\ e = SystemExit /\ t = [] \/
     err = [] /\ n <> 0 /\ e = ValueError /\ t = lit "Can't find 'python3' tool in bash shell'" \/
     err = [] /\ n = 0 /\ exists o2 err2 n2, sh ask_python = (o2, err2, n2) /\ ascii_bytes o2 /\ ascii_bytes err2 /\
        (err2 <> [] /\ e = SystemExit /\ t = [] \/ err2 = [] /\ n2 <> 0 /\ e = ValueError /\ t = lit "Ran command = 'python3 --version', but got exit code = " ++ int_str n2))).
Proof.
  intros sh e t. unfold says_get_python_version, says_shell_tool_exists. change (existsb _ (lit "python3")) with false. cbv iota.
  change (lit "command -v " ++ lit "python3") with look_for_python. change (lit "python3 --version") with ask_python. unfold says_run_local_cmd. split.
  - intros (out & H). destruct (sh look_for_python) as [[o err] n]. exists o, err, n. split; auto.
    destruct (ascii_cases o) as [[R1 P1]|[R1 _]]; rewrite R1 in H; [|discriminate]. cbn [call] in H.
    destruct (ascii_cases err) as [[R2 P2]|[R2 _]]; rewrite R2 in H; [|discriminate]. cbn [call] in H. split; auto. split; auto.
    destruct err as [|x err]; [|left; apply print_own in H as (o' & H); apply own_own in H as [<- <-]; split; [discriminate|auto]].
    destruct (Z.eqb_spec n 0) as [N|N]; [|right; left; apply own_own in H as [<- <-]; auto]. right. right. split; auto. split; auto.
    destruct (sh ask_python) as [[o2 err2] n2]. exists o2, err2, n2. split; auto.
    destruct (ascii_cases o2) as [[R3 P3]|[R3 _]]; rewrite R3 in H; [|discriminate]. cbn [call] in H.
    destruct (ascii_cases err2) as [[R4 P4]|[R4 _]]; rewrite R4 in H; [|discriminate]. cbn [call] in H. split; auto. split; auto.
    destruct err2 as [|x err2]; [|left; apply print_own in H as (o' & H); apply own_own in H as [<- <-]; split; [discriminate|auto]].
    right. split; auto. destruct (Z.eqb_spec n2 0) as [N2|N2]; cbn [negb] in H; [apply print_own in H as (o' & H); destruct (finish_own _ _ _ H)|]. apply own_own in H as [<- <-]. auto.
  - intros (o & err & n & -> & P1 & P2 & C). destruct (ascii_cases o) as [[-> _]|[_ X]]; [|contradiction]. cbn [call]. destruct (ascii_cases err) as [[-> _]|[_ X]]; [|contradiction]. cbn [call].
    destruct C as [(N & -> & ->)|[(-> & N & -> & ->)|(-> & -> & o2 & err2 & n2 & -> & P3 & P4 & C)]].
    + destruct err; [contradiction|]. eexists. reflexivity.
    + destruct (Z.eqb_spec n 0); [contradiction|]. eexists. reflexivity.
    + change (0 =? 0) with true. cbv iota. destruct (ascii_cases o2) as [[-> _]|[_ X]]; [|contradiction]. cbn [call]. destruct (ascii_cases err2) as [[-> _]|[_ X]]; [|contradiction]. cbn [call].
      destruct C as [(N & -> & ->)|(-> & N & -> & ->)].
      * destruct err2; [contradiction|]. eexists. reflexivity.
      * destruct (Z.eqb_spec n2 0); [contradiction|]. eexists. reflexivity.
Qed.

Lemma sign_data_words : forall key d e t, (exists out, says_sign_data key d = (out, Own e t)) <->
  e = ValueError /\ t = lit "Invalid signature!" /\ exists s k pub sig data, d = Some data /\ Forall printable_char data /\
    ec_sign key (hex_of data) = Ok s /\ ec_format_private_key_hex key = Ok k /\ ec_validate_private_key_hex k = Ok tt /\
    bytes pub /\ length pub = 64%nat /\ bytes sig /\ length sig = 64%nat /\ s = hex_of sig /\
    ec_public_key k = Ok (hex_of pub) /\ ec_verify (hex_of pub) (hex_of data) s = Ok false.
Proof.
  intros key d e t. unfold says_sign_data, create_deterministic_signature, private_key_hex_to_public_key_hex, verify_signature. split.
  - intros (out & H). destruct d as [data|]; cbn [opt_str data_for_json] in H; [|discriminate H]. apply call_own in H as ([] & PR & H). cbn [call] in H.
    assert (P : Forall printable_char data) by (destruct (printable_dec data) as [P|NP]; auto; exfalso; rewrite (proj2 (c53_printable data) NP) in PR; discriminate).
    apply call_own in H as (s & ES & H). unfold hexlify_ascii in *. rewrite bytes_hex_hex_of in * by (apply printable_bytes; auto). apply print_own in H as (o & H).
    apply call_own in H as (p & EP & H). inv_bind EP k FK. inv_bind EP u VK. destruct u. apply call_own in H as (b & EV & H). cbn [as_str] in EV. inv_bind EV u1 V1. inv_bind EV u2 V2. inv_bind EV u3 V3. destruct u1, u3. cbn [bind] in EV.
    apply validate_hex_length_inv in V1 as (pub & Bp & Lp & Q). assert (p = hex_of pub) by congruence. subst p.
    apply validate_hex_length_inv in V3 as (sig & Bs & Ls & Q3). assert (s = hex_of sig) by congruence. subst s.
    destruct b; [destruct (finish_own _ _ _ H)|]. apply own_own in H as [<- <-]. split; auto. split; auto. exists (hex_of sig), k, pub, sig, data. auto 20.
  - intros (-> & -> & s & k & pub & sig & data & -> & P & ES & FK & VK & Bp & Lp & Bs & Ls & -> & PK & EV). cbn [opt_str data_for_json]. rewrite (proj1 (c53_printable data) P). cbn [call].
    unfold hexlify_ascii. rewrite bytes_hex_hex_of by (apply printable_bytes; auto). rewrite ES. cbn [call]. rewrite FK. cbn [bind]. rewrite VK. cbn [bind]. rewrite PK. cbn [call].
    rewrite !validate_hex_length_ok, validate_hex_ok by (auto; apply printable_bytes; auto). cbn [bind as_str]. rewrite EV. eexists. reflexivity.
Qed.

Lemma signed_json_wordless : CryptoOk E -> UniOk E -> forall d keys, wordless (says_create_signed_transaction_json d keys).
Proof.
  intros HC HU d keys out e t H. pose proof HC as (HH & HZ & _). unfold says_create_signed_transaction_json in H. apply call_own in H as (s & _ & H). apply call_own in H as (tx & FJ & H).
  destruct (sign tx keys None) as [r tx'] eqn:SG. apply call_own in H as ([] & -> & H). apply call_own in H as (j & _ & H). apply print_own in H as (o & H).
  destruct (c96_documents HH HZ HU s tx FJ) as (ins & outs & W). destruct (c96_verifies HC _ _ _ _ _ _ W SG) as (V & _). rewrite V in H. cbn in H. discriminate.
Qed.

Lemma create_wordless : CryptoOk E -> UniOk E -> forall i d keys, wordless (says_create_transaction i d keys).
Proof.
  intros HC HU i d keys out e t H. pose proof HC as (HH & HZ & _). unfold says_create_transaction in H. apply call_own in H as (tx & CR & H). apply call_own in H as (j & _ & H). apply call_own in H as (t2 & _ & H).
  destruct (sign tx keys None) as [r tx'] eqn:SG. apply call_own in H as ([] & -> & H).
  apply (create_iff HH HZ HU) in CR as (q & sel & outs & f & chg & A & PL & TX). destruct (plan_body HU _ _ _ _ _ _ _ A PL TX) as (ws & OW & TB & MI & MO).
  destruct (signed_decodes HC HU _ _ _ _ _ _ TB (made_ints _ _ MI) (made_outs _ _ MO) SG) as (ins' & TW & HX & BW & FH & V1 & V2 & _).
  apply call_own in H as (n & Vn & H). assert (n = 0) by congruence. subst n. change (negb (0 =? 0)) with false in H. cbv iota in H. apply call_own in H as (h & Hh & H). apply call_own in H as (l & _ & H).
  apply call_own in H as (t3 & F3 & H). assert (t3 = wire_only tx') by congruence. subst t3. rewrite V2 in H. cbn [call] in H. change (negb (0 =? 0)) with false in H. cbv iota in H. apply print_own in H as (o & H). destruct (finish_own _ _ _ H).
Qed.

Lemma falses_count : forall bs, falses bs = Z.of_nat (count_occ bool_dec bs false).
Proof.
  intros bs. unfold falses. f_equal. induction bs as [|b bs IH]; auto. cbn [filter count_occ]. destruct b; cbn [negb length]; [destruct (bool_dec true false); [discriminate|auto]|]. destruct (bool_dec false false); [lia|contradiction].
Qed.
Lemma detected_text : forall bs n, says_detected (falses bs) (plural n) = detected bs n.
Proof. intros bs n. unfold says_detected, detected. rewrite falses_count. unfold plural. destruct (Nat.ltb_spec 1 n), (Nat.leb_spec n 1); try lia; reflexivity. Qed.
Lemma falses_In : forall bs, falses bs <> 0 <-> In false bs.
Proof.
  intros bs. rewrite falses_zero. split.
  - intros N. destruct (in_dec bool_dec false bs) as [I|I]; auto. exfalso. apply N. intros [] Ib; [reflexivity|contradiction].
  - intros I A. specialize (A false I). discriminate.
Qed.

Lemma verify_words : HashOk E -> UniOk E -> forall data e t, (exists out, says_verify_signed_transaction_hex data = (out, Own e t)) <->
  exists d ins outs bs, data = Some d /\ transaction_text stripped d ins outs /\ wire_verdicts ins outs bs /\ In false bs /\ e = ValueError /\ t = detected bs (length ins).
Proof.
  intros HH HU data e t. unfold says_verify_signed_transaction_hex. split.
  - intros (out & H). destruct data as [d|]; [|discriminate H]. cbn [data_strip call] in H. apply call_own in H as (tx & FH & H). apply call_own in H as (n & V & H).
    destruct (text_decodes HH HU d tx FH) as (ins & outs & TT & D). destruct (proj1 (decoded_verdicts HH tx ins outs n D) V) as (bs & W & ->). exists d, ins, outs, bs. split; auto. split; auto. split; auto.
    destruct D as (_ & _ & FI & _). rewrite (F2_len _ _ _ _ _ FI) in H.
    destruct (Z.eqb_spec (falses bs) 0) as [Z0|N]; cbn [negb] in H; [apply print_own in H as (o & H); destruct (finish_own _ _ _ H)|]. split; [apply falses_In; auto|]. apply own_own in H as [<- <-]. split; auto. symmetry. symmetry. apply detected_text.
  - intros (d & ins & outs & bs & -> & TT & W & I & -> & ->). destruct (decodes_text HH HU d ins outs bs TT W) as (tx & F & D). cbn [data_strip call]. rewrite F. cbn [call].
    assert (V : verify tx = Ok (falses bs)) by (apply (decoded_verdicts HH tx ins outs _ D); eauto). rewrite V. cbn [call]. destruct D as (_ & _ & FI & _). rewrite (F2_len _ _ _ _ _ FI).
    destruct (Z.eqb_spec (falses bs) 0) as [Z0|N]; [apply falses_In in I; contradiction|]. cbn [negb]. rewrite detected_text. eexists. reflexivity.
Qed.

Lemma decode_words : HashOk E -> UniOk E -> forall data e t, (exists out, says_decode_signed_transaction_hex data = (out, Own e t)) <->
  exists d ins outs bs, data = Some d /\ transaction_text stripped d ins outs /\ wire_verdicts ins outs bs /\ In false bs /\ Zsum (map o_value outs) <= 2100000000000000 /\ e = ValueError /\ t = detected bs (length ins).
Proof.
  intros HH HU data e t. unfold says_decode_signed_transaction_hex, to_json. split.
  - intros (out & H). destruct data as [d|]; [|discriminate H]. cbn [data_strip call] in H. apply call_own in H as (tx & FH & H). apply call_own in H as (n & V & H). apply call_own in H as (j & TJ & H). apply print_own in H as (o & H).
    destruct (text_decodes HH HU d tx FH) as (ins & outs & TT & D). destruct (proj1 (decoded_verdicts HH tx ins outs n D) V) as (bs & W & ->). exists d, ins, outs, bs. split; auto. split; auto. split; auto.
    destruct (Z.eqb_spec (falses bs) 0) as [Z0|N]; cbn [negb] in H; [destruct (finish_own _ _ _ H)|]. apply falses_In in N. split; auto.
    assert (NE : ins <> []). { intros ->. destruct W as [L _]. destruct bs; [destruct N|discriminate]. }
    split. { destruct (Z_le_gt_dec (Zsum (map o_value outs)) 2100000000000000) as [L|L]; auto. rewrite (proj2 (decoded_to_dict HU tx ins outs D NE)) in TJ by lia. discriminate. }
    destruct D as (_ & _ & FI & _). rewrite (F2_len _ _ _ _ _ FI) in H. apply own_own in H as [<- <-]. split; auto. apply detected_text.
  - intros (d & ins & outs & bs & -> & TT & W & I & L & -> & ->). destruct (decodes_text HH HU d ins outs bs TT W) as (tx & F & D). cbn [data_strip call]. rewrite F. cbn [call].
    assert (V : verify tx = Ok (falses bs)) by (apply (decoded_verdicts HH tx ins outs _ D); eauto). rewrite V. cbn [call].
    assert (NE : ins <> []). { intros ->. destruct W as [LW _]. destruct bs; [destruct I|discriminate]. }
    destruct (proj1 (decoded_to_dict HU tx ins outs D NE) L) as (v & TD & _). rewrite TD. cbn [bind call]. destruct D as (_ & _ & FI & _). rewrite (F2_len _ _ _ _ _ FI).
    destruct (Z.eqb_spec (falses bs) 0) as [Z0|N]; [apply falses_In in I; contradiction|]. cbn [negb]. rewrite detected_text. eexists. reflexivity.
Qed.

Lemma hex_words : HashOk E -> ZeroAddressOk E -> UniOk E -> forall data e t, (exists out, says_create_signed_transaction_hex data = (out, Own e t)) <->
  exists d tx ins outs bs, data = Some d /\ from_json d = Ok tx /\ written_tx tx ins outs /\ all_checked ins outs 0 (tx_inputs tx) bs /\ e = NameError /\ t = lit "name 'invalid_signatures' is not defined".
Proof.
  intros HH HZ HU data e t. unfold says_create_signed_transaction_hex. split.
  - intros (out & H). destruct data as [d|]; [|discriminate H]. cbn [data_for_json call] in H. apply call_own in H as (tx & FJ & H). apply call_own in H as (n & V & H). apply call_own in H as (h & _ & H). apply print_own in H as (o & H).
    apply own_own in H as [<- <-]. destruct (c96_documents HH HZ HU d tx FJ) as (ins & outs & W). pose proof W as (T & HI & HO & HF).
    assert (SP : Forall (fun x => exists spk, in_spk x spk) (tx_inputs tx)).
    { apply Forall_forall. intros x I. rewrite Forall_forall in HF. destruct (HF x I) as [S1|S0]; auto. exfalso. apply In_nth_error in I as [k N]. exact (verify_no_script tx k x n N (or_introl S0) V). }
    destruct (proj1 (verify_iff HH tx ins outs (conj T (conj HI HO)) SP n) V) as (bs & AC & _). exists d, tx, ins, outs, bs. auto 10.
  - intros (d & tx & ins & outs & bs & -> & FJ & W & AC & -> & ->). pose proof W as (T & HI & HO & _).
    assert (SP : Forall (fun x => exists spk, in_spk x spk) (tx_inputs tx)) by (clear - AC; induction AC as [|n x xs b bs (spk & _ & _ & _ & _ & S0 & _) AC IH]; constructor; eauto).
    assert (V : verify tx = Ok (falses bs)) by (apply (verify_iff HH tx ins outs); [split; auto|auto|eauto]).
    destruct (c50_prints_first HH HZ HU d tx _ FJ V) as (h & HX & _). cbn [data_for_json call]. rewrite FJ. cbn [call]. rewrite V. cbn [call]. rewrite HX. eexists. reflexivity.
Qed.

(** *** Which task is run. *)
Lemma keys_number : forall c, length (private_keys c) = number_of_keys c.
Proof. intros c. unfold private_keys, number_of_keys. rewrite app_length, map_length. reflexivity. Qed.
Lemma key_only : forall c, number_of_keys c = 1%nat -> only_key c (hd [] (private_keys c)).
Proof.
  intros c H. unfold number_of_keys, private_keys, only_key in *. destruct (c_private_key_hex c) as [|k [|k2 l]], (c_private_key_files c) as [|f [|f2 m]]; cbn [length Nat.add] in H; try lia; cbn [map app hd].
  - right. split; auto. exists f. split; auto. apply strip_stripped.
  - left. auto.
Qed.
Lemma only_key_is : forall c key, only_key c key -> number_of_keys c = 1%nat /\ hd [] (private_keys c) = key.
Proof.
  intros c key [[H1 H2]|[H1 (text & H2 & ST)]]; unfold number_of_keys, private_keys; rewrite H1, H2; cbn [length Nat.add map app hd]; split; auto. apply strip_iff. exact ST.
Qed.

Definition with_data (c : cli_args) (k : told_task) : told_task :=
  match c_data c with
  | None | Some [] => own ValueError (lit "One of these arguments must be supplied: --data <data_string> --data-file <file_path>")
  | _ => k
  end.
Definition with_files (c : cli_args) (k : pyval -> pyval -> told_task) : told_task :=
  match c_input_file c, c_design_file c with
  | None, _ => own ValueError (lit "This argument must be supplied: --input-file '<input_file>'")
  | _, None => own ValueError (lit "This argument must be supplied: --design-file '<design_file>'")
  | Some i, Some d => inputs <== json_loads i ;; design <== json_loads d ;; k inputs design
  end.
Definition with_key (c : cli_args) (k : told_task) : told_task := if Nat.eqb (length (private_keys c)) 1 then k else own AssertionError [].

Lemma run_task : forall sh c,
  let keys := private_keys c in
  (a_task c "hello" \/ a_task c "hello2" -> main_says sh c = says_hello) /\
  (a_task c "get_python_version" -> main_says sh c = says_get_python_version sh) /\
  (a_task c "get_private_key_wif" -> main_says sh c = with_key c (says_get_private_key_wif (hd [] keys))) /\
  (a_task c "private_key_wif_to_hex" -> main_says sh c = says_private_key_wif_to_hex (c_private_key_wif c)) /\
  (a_task c "get_public_key" -> main_says sh c = with_key c (says_get_public_key (hd [] keys))) /\
  (a_task c "get_address" -> main_says sh c = with_key c (says_get_address (hd [] keys))) /\
  (a_task c "sign_data" -> main_says sh c = with_key c (with_data c (says_sign_data (hd [] keys) (c_data c)))) /\
  (a_task c "verify_data_signature" -> main_says sh c = says_verify_data_signature (c_public_key_hex c) (c_signature_hex c) (c_data c)) /\
  (a_task c "create_unsigned_transaction_json" -> main_says sh c = with_files c says_create_unsigned_transaction_json) /\
  (a_task c "validate_unsigned_transaction_json" -> main_says sh c = with_data c (says_validate_unsigned_transaction_json (c_data c))) /\
  (a_task c "create_signed_transaction_json" -> main_says sh c = says_create_signed_transaction_json (c_data c) keys) /\
  (a_task c "verify_signed_transaction_json" -> main_says sh c = says_verify_signed_transaction_json (c_data c)) /\
  (a_task c "create_signed_transaction_hex" -> main_says sh c = says_create_signed_transaction_hex (c_data c)) /\
  (a_task c "verify_signed_transaction_hex" -> main_says sh c = says_verify_signed_transaction_hex (c_data c)) /\
  (a_task c "decode_signed_transaction_hex" -> main_says sh c = says_decode_signed_transaction_hex (c_data c)) /\
  (a_task c "create_sign_and_verify_transaction_hex" \/ a_task c "create_transaction" -> main_says sh c = with_files c (fun i d => says_create_transaction i d keys)).
Proof.
  intros sh c keys. unfold keys, a_task, main_says, says_check_single_key, says_check_data, says_load_files, says_dispatch, task_is, single_key_tasks.
  repeat match goal with |- _ /\ _ => split end; intros H; repeat match goal with H : _ \/ _ |- _ => destruct H as [H|H] end; rewrite H; reflexivity.
Qed.

Lemma no_task : forall sh c, str_in (c_task c) tasks = false -> exists out, main_says sh c = (out, Own SystemExit []).
Proof.
  intros sh c N. assert (T : forall l, (forall n, In n l -> str_in (lit n) tasks = true) -> task_is c l = false).
  { intros l H. unfold task_is. destruct (str_in (c_task c) (map lit l)) eqn:S0; auto. apply str_in_In, in_map_iff in S0 as (n & Q & I). rewrite <- Q, (H n I) in N. discriminate. }
  assert (T1 : task_is c single_key_tasks = false) by (apply T; unfold single_key_tasks; intros n I; cbn [In] in I; repeat (destruct I as [<-|I]; [reflexivity|]); destruct I).
  assert (T2 : task_is c ["sign_data"; "validate_unsigned_transaction_json"]%string = false) by (apply T; intros n I; cbn [In] in I; repeat (destruct I as [<-|I]; [reflexivity|]); destruct I).
  assert (T3 : task_is c ["create_unsigned_transaction_json"; "create_sign_and_verify_transaction_hex"; "create_transaction"]%string = false) by (apply T; intros n I; cbn [In] in I; repeat (destruct I as [<-|I]; [reflexivity|]); destruct I).
  unfold main_says, says_check_single_key, says_check_data, says_load_files, says_dispatch. rewrite T1, T2, T3, N. eexists. reflexivity.
Qed.

(** C97.  The exceptions that cli.py raises itself, and their texts, are exactly those listed in [own_words]; all others come from the functions that it calls.  In particular the messages
    about invalid signatures of the three tasks that sign transactions never appear. *)
Lemma c97_words : CryptoOk E -> UniOk E -> forall sh c e t, (exists out, main_says sh c = (out, Own e t)) <-> own_words sh c e t.
Proof.
  intros HC HU sh c e t. pose proof HC as (HH & HZ & _).
  destruct (run_task sh c) as (R1 & R2 & R3 & R4 & R5 & R6 & R7 & R8 & R9 & R10 & R11 & R12 & R13 & R14 & R15 & R16). split.
  - intros (out & H).
    assert (KEY : forall k, with_key c k = (out, Own e t) -> (number_of_keys c <> 1%nat /\ e = AssertionError /\ t = []) \/ (number_of_keys c = 1%nat /\ k = (out, Own e t))).
    { intros k K. unfold with_key in K. rewrite keys_number in K. destruct (Nat.eqb_spec (number_of_keys c) 1); [right; auto|left]. apply own_own in K as [<- <-]. auto. }
    assert (FILES : forall k, (forall i d, wordless (k i d)) -> with_files c k = (out, Own e t) -> 
       (c_input_file c = None /\ e = ValueError /\ t = lit "This argument must be supplied: --input-file '<input_file>'") \/
       (c_input_file c <> None /\ c_design_file c = None /\ e = ValueError /\ t = lit "This argument must be supplied: --design-file '<design_file>'")).
    { intros k W K. unfold with_files in K. destruct (c_input_file c) as [i|]; [|left; apply own_own in K as [<- <-]; auto].
      destruct (c_design_file c) as [d|]; [|right; apply own_own in K as [<- <-]; split; [discriminate|auto]]. exfalso. apply call_own in K as (x & _ & K). apply call_own in K as (y & _ & K). exact (W _ _ _ _ _ K). }
    assert (SIMPLE : forall A (m : res A) (f : A -> pystr), wordless (call m (fun w => tell_print (f w) told_finish))).
    { intros A m f o0 e0 t0 K. apply call_own in K as (x & _ & K). apply print_own in K as (o' & K). exact (finish_own _ _ _ K). }
    destruct (str_in (c_task c) tasks) eqn:TS.
    2:{ destruct (no_task sh c TS) as (o & Q). rewrite Q in H. assert (e = SystemExit /\ t = []) as [-> ->] by (split; congruence). apply w_task. intros I. apply Bool.not_true_iff_false in TS. apply TS. apply str_in_In.
        unfold tasks. apply in_map_iff in I as (n & Q1 & I). apply in_map_iff. exists n. split; auto. cbn [In] in I |- *. tauto. }
    apply str_in_In in TS. unfold tasks in TS. cbn [map In] in TS.
    repeat (destruct TS as [TS|TS]; [symmetry in TS; change (c_task c = lit ?n) with (a_task c n) in TS|]).
    + rewrite R1 in H by auto. apply print_own in H as (o & H). destruct (finish_own _ _ _ H).
    + rewrite R1 in H by auto. apply print_own in H as (o & H). destruct (finish_own _ _ _ H).
    + rewrite R2 in H by auto. destruct (proj1 (python_words sh e t) (ex_intro _ out H)) as (o & err & n & S1 & P1 & P2 & [(N & -> & ->)|[(-> & N & -> & ->)|(-> & -> & o2 & err2 & n2 & S2 & P3 & P4 & [(N & -> & ->)|(-> & N & -> & ->)])]]).
      * eapply w_look_failed; eauto.
      * eapply w_no_python; eauto.
      * eapply w_ask_failed; eauto.
      * eapply w_exit_code; eauto.
    + rewrite R3 in H by auto. apply KEY in H as [(N & -> & ->)|[_ H]]; [apply w_key; auto|destruct (SIMPLE _ _ _ _ _ _ H)].
    + rewrite R4 in H by auto. destruct (SIMPLE _ _ _ _ _ _ H).
    + rewrite R5 in H by auto. apply KEY in H as [(N & -> & ->)|[_ H]]; [apply w_key; auto|destruct (SIMPLE _ _ _ _ _ _ H)].
    + rewrite R6 in H by auto. apply KEY in H as [(N & -> & ->)|[_ H]]; [apply w_key; auto|destruct (SIMPLE _ _ _ _ _ _ H)].
    + rewrite R7 in H by auto. apply KEY in H as [(N & -> & ->)|[K1 H]]; [apply w_key; auto|]. unfold with_data in H. destruct (c_data c) as [[|x d]|] eqn:CD.
      * apply own_own in H as [<- <-]. apply w_data; auto.
      * destruct (proj1 (sign_data_words _ _ e t) (ex_intro _ out H)) as (-> & -> & s & k & pub & sig & data & Q & P & X). destruct X as (X1 & X2 & X3 & X4 & X5 & X6 & X7 & X8 & X9 & X10).
        assert (data = x :: d) by congruence. subst data. eapply (w_disagrees sh c (hd [] (private_keys c)) k (x :: d) s pub sig); auto; [apply key_only; auto|discriminate].
      * apply own_own in H as [<- <-]. apply w_data; auto.
    + rewrite R8 in H by auto. exfalso. unfold says_verify_data_signature in H. apply call_own in H as (u & _ & H). apply call_own in H as (u2 & _ & H). apply call_own in H as (b & _ & H). destruct b; apply print_own in H as (o & H); exact (finish_own _ _ _ H).
    + rewrite R9 in H by auto. apply FILES in H as [(Q & -> & ->)|(Q & Q2 & -> & ->)]; [apply w_input; auto|apply w_design; auto|].
      intros i d o0 e0 t0 K. unfold says_create_unsigned_transaction_json in K. apply call_own in K as (x & _ & K). apply call_own in K as (y & _ & K). apply print_own in K as (o' & K). apply call_own in K as (z & _ & K). exact (finish_own _ _ _ K).
    + rewrite R10 in H by auto. unfold with_data in H. destruct (c_data c) as [[|x d]|] eqn:CD.
      * apply own_own in H as [<- <-]. apply w_data; auto.
      * exfalso. unfold says_validate_unsigned_transaction_json in H. apply call_own in H as (u & _ & H). exact (SIMPLE _ _ _ _ _ _ H).
      * apply own_own in H as [<- <-]. apply w_data; auto.
    + rewrite R11 in H by auto. destruct (signed_json_wordless HC HU _ _ _ _ _ H).
    + rewrite R12 in H by auto. exfalso. unfold says_verify_signed_transaction_json in H. apply call_own in H as (u & _ & H). apply call_own in H as (u2 & _ & H). apply call_own in H as (n & _ & H). cbv zeta in H. destruct (n =? 0); apply print_own in H as (o & H); exact (finish_own _ _ _ H).
    + rewrite R13 in H by auto. destruct (proj1 (hex_words HH HZ HU _ e t) (ex_intro _ out H)) as (d & tx & ins & outs & bs & CD & FJ & W & AC & -> & ->). eapply w_name; eauto.
    + rewrite R14 in H by auto. destruct (proj1 (verify_words HH HU _ e t) (ex_intro _ out H)) as (d & ins & outs & bs & CD & TT & W & I & -> & ->). eapply w_verify; eauto.
    + rewrite R15 in H by auto. destruct (proj1 (decode_words HH HU _ e t) (ex_intro _ out H)) as (d & ins & outs & bs & CD & TT & W & I & L & -> & ->). eapply w_decode; eauto.
    + rewrite R16 in H by auto. apply FILES in H as [(Q & -> & ->)|(Q & Q2 & -> & ->)]; [apply w_input; auto|apply w_design; auto|]. intros i d. apply create_wordless; auto.
    + rewrite R16 in H by auto. apply FILES in H as [(Q & -> & ->)|(Q & Q2 & -> & ->)]; [apply w_input; auto|apply w_design; auto|]. intros i d. apply create_wordless; auto.
    + destruct TS.
  - intros H. destruct H as [T N|T D|T Q|T Q Q2|T|o err n T S1 P1 P2 N|o n T S1 P1 N|o o2 err n T S1 P1 S2 P3 P4 N|o o2 n T S1 P1 S2 P3 N|key k d s pub sig T OK CD ND P ES FK VK Bp Lp Bs Ls Q PK EV
      |d tx ins outs bs T CD FJ W AC|d ins outs bs T CD TT W I|d ins outs bs T CD TT W I L].
    + assert (K : forall k, with_key c k = own AssertionError []) by (intros k; unfold with_key; rewrite keys_number; destruct (Nat.eqb_spec (number_of_keys c) 1); [contradiction|auto]).
      destruct T as [T|[T|[T|T]]]; [rewrite R3|rewrite R5|rewrite R6|rewrite R7]; auto; rewrite K; eexists; reflexivity.
    + assert (K : forall k, with_data c k = own ValueError (lit "One of these arguments must be supplied: --data <data_string> --data-file <file_path>")) by (intros k; unfold with_data; destruct D as [->| ->]; reflexivity).
      destruct T as [[T N]|T]; [rewrite R7|rewrite R10]; auto; rewrite K; [unfold with_key; rewrite keys_number, N|]; eexists; reflexivity.
    + assert (K : forall k, with_files c k = own ValueError (lit "This argument must be supplied: --input-file '<input_file>'")) by (intros k; unfold with_files; rewrite Q; reflexivity).
      destruct T as [T|T]; [rewrite R9|rewrite R16]; auto; rewrite K; eexists; reflexivity.
    + assert (K : forall k, with_files c k = own ValueError (lit "This argument must be supplied: --design-file '<design_file>'")) by (intros k; unfold with_files; destruct (c_input_file c); [rewrite Q2; reflexivity|contradiction]).
      destruct T as [T|T]; [rewrite R9|rewrite R16]; auto; rewrite K; eexists; reflexivity.
    + apply no_task. apply Bool.not_true_iff_false. intros S0. apply T. apply str_in_In in S0. unfold tasks in S0. apply in_map_iff in S0 as (n & Q1 & I). apply in_map_iff. exists n. split; auto. cbn [In] in I |- *. tauto.
    + rewrite R2 by auto. apply python_words. exists o, err, n. auto 10.
    + rewrite R2 by auto. apply python_words. exists o, [], n. split; auto. split; auto. split; [constructor|]. auto 10.
    + rewrite R2 by auto. apply python_words. exists o, [], 0. split; auto. split; auto. split; [constructor|]. right. right. split; auto. split; auto. exists o2, err, n. auto 10.
    + rewrite R2 by auto. apply python_words. exists o, [], 0. split; auto. split; auto. split; [constructor|]. right. right. split; auto. split; auto. exists o2, [], n. split; auto. split; auto. split; [constructor|]. auto 10.
    + rewrite R7 by auto. destruct (only_key_is _ _ OK) as [K1 K2]. unfold with_key, with_data. rewrite keys_number, K1, K2, CD. cbn [Nat.eqb]. destruct d as [|x d]; [contradiction|]. apply sign_data_words. split; auto. split; auto. exists s, k, pub, sig, (x :: d). auto 20.
    + rewrite R13 by auto. apply (hex_words HH HZ HU). exists d, tx, ins, outs, bs. auto 10.
    + rewrite R14 by auto. apply (verify_words HH HU). exists d, ins, outs, bs. auto 10.
    + rewrite R15 by auto. apply (decode_words HH HU). exists d, ins, outs, bs. auto 10.
Qed.

(** C97.  A valid key never gets "Invalid signature!" from sign_data. *)
Lemma c97_valid_key : KeysOk E -> SignOk E -> forall sh c key, a_task c "sign_data" -> only_key c key -> ec_validate_private_key_hex key = Ok tt ->
  forall out t, main_says sh c = (out, Own ValueError t) -> t = lit "One of these arguments must be supplied: --data <data_string> --data-file <file_path>".
Proof.
  intros HK HS sh c key T OK VK out t H. destruct (run_task sh c) as (_ & _ & _ & _ & _ & _ & R7 & _). rewrite R7 in H by auto. destruct (only_key_is _ _ OK) as [K1 K2]. unfold with_key, with_data in H. rewrite keys_number, K1, K2 in H. cbn [Nat.eqb] in H.
  destruct (c_data c) as [[|x d]|] eqn:CD; [apply own_own in H as [_ <-]; auto| |apply own_own in H as [_ <-]; auto]. exfalso.
  destruct (proj1 (sign_data_words _ _ _ _) (ex_intro _ out H)) as (_ & _ & s & k & pub & sig & data & Q & P & X1 & X2 & X3 & X4 & X5 & X6 & X7 & X8 & X9 & X10).
  destruct HK as (_ & HK2 & _). destruct (HK2 _ VK) as [FK _]. assert (k = key) by congruence. subst k. destruct HS as (_ & _ & S3). destruct (S3 _ _ _ X1) as (_ & V). rewrite (V _ X9) in X10. discriminate.
Qed.

End WithEnv.

(** Beside C97. *)
Example ex97_tampered : @main_says demo_env no_shell (command "verify_signed_transaction_hex" [] [] (Some tampered_hex)) =
  ([], Own ValueError (lit "Signed transaction: 2 invalid signatures detected! Please re-run using the --debug flag.")).
Proof. vm_compute. reflexivity. Qed.
Example ex97_words : @own_words demo_env no_shell (command "verify_signed_transaction_hex" [] [] (Some tampered_hex)) ValueError
  (lit "Signed transaction: 2 invalid signatures detected! Please re-run using the --debug flag.").
Proof. apply (c97_words demo_crypto demo_uni). eexists. exact ex97_tampered. Qed.
Example ex97_missing : @main_says demo_env no_shell (command "sign_data" [key1] [] None) =
    ([], Own ValueError (lit "One of these arguments must be supplied: --data <data_string> --data-file <file_path>")) /\
  @main_says demo_env no_shell (command "sign_data" [key1; key2] [] None) = ([], Own AssertionError []) /\
  @main_says demo_env no_shell (command "create_transaction" [key1] [] None) = ([], Own ValueError (lit "This argument must be supplied: --input-file '<input_file>'")) /\
  @main_says demo_env no_shell (command "get_python_version" [] [] None) = ([], Own ValueError (lit "Can't find 'python3' tool in bash shell'")) /\
  exists line, @main_says demo_env no_shell (command "goodbye" [] [] None) = ([line], Own SystemExit []).
Proof. repeat split; try (vm_compute; reflexivity). eexists. vm_compute. reflexivity. Qed.
