(** C67, C68: the dictionary and JSON forms used for signing and publishing, and the str() descriptions. *)
From Coq Require Import String Lia.
From Verif Require Import PyBase Env PyNum Validate Basic Spec EnvOk TxInput TxOutput Tx Create TxSpec SignSpec CreateSpec FormsSpec Forms Demo DemoTx.
From Verif Require Import NumLemmas HexProofs Base58Proofs AddrProofs AmountProofs ScriptProofs WireProofs MakeProofs SignProofs CreateProofs JsonProofs C_Create C_Wire C_Sign DemoProofs DemoTxProofs.
Open Scope Z_scope.

Definition nulls (d : dict) : bool := has_null (PDict d).
Definition texts (d : dict) : pystr := concat (strings_of (PDict d)).

Lemma txin_signed_cases : forall x, txin_hex_signed_form x = if nulls (txin_dict_signed x) then Err TypeError else Ok (texts (txin_dict_signed x)).
Proof. intros x. unfold txin_hex_signed_form, nulls, texts, txin_dict_signed. destruct (ti_script_length x); [|reflexivity]. destruct (ti_script_sig x); [|reflexivity]. cbn -[lit]. rewrite app_nil_r. reflexivity. Qed.
Lemma txin_signable_cases : forall x, txin_hex_signable_form x = if nulls (txin_dict_signable x) then Err TypeError else Ok (texts (txin_dict_signable x)).
Proof. intros x. unfold txin_hex_signable_form, nulls, texts, txin_dict_signable. destruct (ti_script_pub_key_length x); [|reflexivity]. destruct (ti_script_pub_key x); [|reflexivity]. cbn -[lit]. rewrite app_nil_r. reflexivity. Qed.
Lemma txin_empty_cases : forall x, txin_hex_signable_form_empty x = if nulls (txin_dict_signable_empty x) then Err TypeError else Ok (texts (txin_dict_signable_empty x)).
Proof. intros x. unfold txin_hex_signable_form_empty, nulls, texts, txin_dict_signable_empty. cbn -[lit]. rewrite app_nil_r. reflexivity. Qed.
Lemma txout_texts : forall o, nulls (txout_dict o) = false /\ texts (txout_dict o) = txout_hex_form o.
Proof. intros o. split; [reflexivity|]. unfold texts, txout_hex_form. cbn -[lit]. rewrite app_nil_r. reflexivity. Qed.

(** Dictionaries whose values are strings or null. *)
Definition flat (d : dict) : Prop := Forall (fun p => snd p = PNone \/ exists s, snd p = PStr s) d.
Lemma add_items_flat : forall d, flat d -> forall s, add_items s d = if nulls d then Err TypeError else Ok (s ++ texts d).
Proof.
  unfold nulls, texts. induction 1 as [|[k v] d Hv F IH]; intros s; [cbn; rewrite app_nil_r; reflexivity|]. cbn [snd] in Hv. cbn [add_items].
  destruct Hv as [-> | [x ->]]; [reflexivity|]. cbn [add_value bind]. rewrite IH. cbn [has_null existsb snd orb strings_of map concat].
  destruct (existsb _ d); [reflexivity|]. rewrite concat_app. cbn [concat]. rewrite app_nil_r, app_assoc. reflexivity.
Qed.
Lemma flat_opt : forall o : option pystr, opt_str o = PNone \/ exists s, opt_str o = PStr s.
Proof. intros [s|]; [right; exists s; reflexivity|left; reflexivity]. Qed.
Lemma flat_signed : forall x, flat (txin_dict_signed x).
Proof. intros x. repeat (constructor; [cbn [snd]; first [right; eexists; reflexivity|apply flat_opt]|]). constructor. Qed.
Lemma flat_signable : forall x, flat (txin_dict_signable x).
Proof. intros x. repeat (constructor; [cbn [snd]; first [right; eexists; reflexivity|apply flat_opt]|]). constructor. Qed.
Lemma flat_empty : forall x, flat (txin_dict_signable_empty x).
Proof. intros x. repeat (constructor; [cbn [snd]; first [right; eexists; reflexivity|apply flat_opt]|]). constructor. Qed.
Lemma flat_out : forall o, flat (txout_dict o).
Proof. intros x. repeat (constructor; [cbn [snd]; first [right; eexists; reflexivity|apply flat_opt]|]). constructor. Qed.

Lemma add_dicts_flat : forall l, Forall flat l -> forall s, add_dicts s (map PDict l) = if existsb nulls l then Err TypeError else Ok (s ++ concat (map texts l)).
Proof.
  induction 1 as [|d l Hd F IH]; intros s; cbn [map add_dicts existsb concat]; [rewrite app_nil_r; reflexivity|]. cbn [as_dict bind]. rewrite add_items_flat by auto.
  destruct (nulls d); [reflexivity|]. cbn [bind orb]. rewrite IH. destruct (existsb nulls l); [reflexivity|]. rewrite app_assoc. reflexivity.
Qed.

Lemma docs_null : forall l, has_null (PList (map PDict l)) = existsb nulls l.
Proof. intros l. unfold nulls. cbn [has_null]. induction l as [|d l IH]; auto. cbn [map existsb]. rewrite IH. reflexivity. Qed.
Lemma docs_texts : forall l, concat (strings_of (PList (map PDict l))) = concat (map texts l).
Proof. intros l. unfold texts. cbn [strings_of]. induction l as [|d l IH]; auto. cbn [map concat]. rewrite concat_app, IH. reflexivity. Qed.

Definition in_docs (t : tx) : list dict := map txin_dict_signed (tx_inputs t).
Definition out_docs (t : tx) : list dict := map txout_dict (tx_outputs t).
Fixpoint sig_docs (i k : nat) (ins : list txin) : list dict :=
  match ins with [] => [] | x :: r => (if Nat.eqb i k then txin_dict_signable x else txin_dict_signable_empty x) :: sig_docs (S i) k r end.

Lemma sig_docs_ok : forall ins i k, dicts_signable i k ins = map PDict (sig_docs i k ins).
Proof. induction ins as [|x ins IH]; intros; cbn [dicts_signable sig_docs map]; auto. rewrite IH. reflexivity. Qed.
Lemma in_docs_ok : forall t, map (fun x => PDict (txin_dict_signed x)) (tx_inputs t) = map PDict (in_docs t).
Proof. intros. unfold in_docs. rewrite map_map. reflexivity. Qed.
Lemma out_docs_ok : forall t, map (fun x => PDict (txout_dict x)) (tx_outputs t) = map PDict (out_docs t).
Proof. intros. unfold out_docs. rewrite map_map. reflexivity. Qed.
Lemma out_docs_facts : forall t, existsb nulls (out_docs t) = false /\ concat (map texts (out_docs t)) = concat (map txout_hex_form (tx_outputs t)) /\ Forall flat (out_docs t).
Proof.
  intros t. unfold out_docs. induction (tx_outputs t) as [|o l (I1 & I2 & I3)]; [repeat split; constructor|]. cbn [map existsb concat]. destruct (txout_texts o) as [-> ->]. rewrite I1, I2.
  split; [reflexivity|]. split; [reflexivity|]. constructor; auto using flat_out.
Qed.
Lemma in_docs_facts : forall t, mapM txin_hex_signed_form (tx_inputs t) = (if existsb nulls (in_docs t) then Err TypeError else Ok (map texts (in_docs t))) /\ Forall flat (in_docs t).
Proof.
  intros t. unfold in_docs. induction (tx_inputs t) as [|x l (I1 & I2)]; [split; [reflexivity|constructor]|]. cbn [map existsb mapM]. rewrite txin_signed_cases, I1. split; [|constructor; auto using flat_signed].
  destruct (nulls (txin_dict_signed x)); [reflexivity|]. cbn [bind orb]. destruct (existsb nulls _); reflexivity.
Qed.
Lemma sig_docs_facts : forall ins i k, signable_inputs i k ins = (if existsb nulls (sig_docs i k ins) then Err TypeError else Ok (concat (map texts (sig_docs i k ins)))) /\ Forall flat (sig_docs i k ins).
Proof.
  induction ins as [|x ins IH]; intros i k; [split; [reflexivity|constructor]|]. destruct (IH (S i) k) as [I1 I2]. cbn [signable_inputs sig_docs map existsb concat]. rewrite I1.
  split; [|constructor; auto; destruct (Nat.eqb i k); auto using flat_signable, flat_empty].
  destruct (Nat.eqb i k); [rewrite txin_signable_cases|rewrite txin_empty_cases]; destruct (nulls _); try reflexivity; cbn [bind orb]; destruct (existsb nulls _); reflexivity.
Qed.

Lemma signed_doc_facts : forall t, has_null (PDict (to_dict_signed_form t)) = existsb nulls (in_docs t) /\
  concat (strings_of (PDict (to_dict_signed_form t))) = tx_version t ++ tx_input_count t ++ concat (map texts (in_docs t)) ++ tx_output_count t ++ concat (map txout_hex_form (tx_outputs t)) ++ tx_block_lock_time t.
Proof.
  intros t. unfold to_dict_signed_form. rewrite in_docs_ok, out_docs_ok. destruct (out_docs_facts t) as (O1 & O2 & _). split.
  - cbn [has_null existsb snd orb]. change (existsb has_null (map PDict (in_docs t))) with (has_null (PList (map PDict (in_docs t)))). change (existsb has_null (map PDict (out_docs t))) with (has_null (PList (map PDict (out_docs t)))).
    rewrite !docs_null, O1. cbn [orb]. rewrite Bool.orb_false_r. reflexivity.
  - change (strings_of (PDict ?d)) with (concat (map (fun p => strings_of (snd p)) d)). cbn [map snd concat]. change (strings_of (PStr ?s)) with [s]. rewrite !concat_app, !docs_texts, O2. cbn [concat]. rewrite !app_nil_r. reflexivity.
Qed.
Lemma signable_doc_facts : forall t k, has_null (PDict (to_dict_signable_form t k)) = existsb nulls (sig_docs 0 k (tx_inputs t)) /\
  concat (strings_of (PDict (to_dict_signable_form t k))) = tx_version t ++ tx_input_count t ++ concat (map texts (sig_docs 0 k (tx_inputs t))) ++ tx_output_count t ++ concat (map txout_hex_form (tx_outputs t)) ++ tx_block_lock_time t ++ tx_hash_type_4_byte t.
Proof.
  intros t k. unfold to_dict_signable_form. rewrite sig_docs_ok, out_docs_ok. destruct (out_docs_facts t) as (O1 & O2 & _). split.
  - cbn [has_null existsb snd orb]. change (existsb has_null (map PDict (sig_docs 0 k (tx_inputs t)))) with (has_null (PList (map PDict (sig_docs 0 k (tx_inputs t))))). change (existsb has_null (map PDict (out_docs t))) with (has_null (PList (map PDict (out_docs t)))).
    rewrite !docs_null, O1. cbn [orb]. rewrite Bool.orb_false_r. reflexivity.
  - change (strings_of (PDict ?d)) with (concat (map (fun p => strings_of (snd p)) d)). cbn [map snd concat]. change (strings_of (PStr ?s)) with [s]. rewrite !concat_app, !docs_texts, O2. cbn [concat]. rewrite !app_nil_r. reflexivity.
Qed.

Section WithEnv.
Context {E : Env}.

(** C67.  The hex forms are made by going through the dictionaries, exactly as the source writes it. *)
Lemma c67_loops : (forall t k, hex_signable t k = to_hex_signable_form t k) /\ (forall t, hex_signed t = to_hex_signed_form t).
Proof.
  split.
  - intros t k. unfold hex_signable, to_dict_signable_form, to_hex_signable_form. rewrite sig_docs_ok, out_docs_ok. destruct (sig_docs_facts (tx_inputs t) 0 k) as [I1 I2]. destruct (out_docs_facts t) as (O1 & O2 & O3). rewrite I1.
    unfold form_hex. change (str_in (lit "version") _) with false. change (str_in (lit "input_count") _) with false. change (str_in (lit "inputs") _) with true. change (str_in (lit "output_count") _) with false. change (str_in (lit "outputs") _) with true.
    change (str_in (lit "block_lock_time") _) with false. change (str_in (lit "hash_type_4_byte") _) with false. cbv iota. cbn [bind add_value as_list]. rewrite add_dicts_flat by auto. destruct (existsb nulls (sig_docs 0 k (tx_inputs t))); [reflexivity|]. cbn [bind].
    rewrite add_dicts_flat by auto. rewrite O1, O2. cbn [bind app]. rewrite <- !app_assoc. reflexivity.
  - intros t. unfold hex_signed, to_dict_signed_form, to_hex_signed_form. rewrite in_docs_ok, out_docs_ok. destruct (in_docs_facts t) as [I1 I2]. destruct (out_docs_facts t) as (O1 & O2 & O3). rewrite I1.
    unfold form_hex. change (str_in (lit "version") _) with false. change (str_in (lit "input_count") _) with false. change (str_in (lit "inputs") _) with true. change (str_in (lit "output_count") _) with false. change (str_in (lit "outputs") _) with true.
    change (str_in (lit "block_lock_time") _) with false. cbv iota. cbn [bind add_value as_list]. rewrite add_dicts_flat by auto. destruct (existsb nulls (in_docs t)); [reflexivity|]. cbn [bind].
    rewrite add_dicts_flat by auto. rewrite O1, O2. cbn [bind app]. rewrite <- !app_assoc. reflexivity.
Qed.

(** C67.  The hex form is the concatenation of all strings of the document, in order; it exists exactly if the document contains no null. *)
Lemma c67_document :
  (forall t h, to_hex_signed_form t = Ok h <-> has_null (PDict (to_dict_signed_form t)) = false /\ h = concat (strings_of (PDict (to_dict_signed_form t)))) /\
  (forall t k h, to_hex_signable_form t k = Ok h <-> has_null (PDict (to_dict_signable_form t k)) = false /\ h = concat (strings_of (PDict (to_dict_signable_form t k)))) /\
  (forall t e, to_hex_signed_form t = Err e -> e = TypeError) /\ (forall t k e, to_hex_signable_form t k = Err e -> e = TypeError).
Proof.
  split; [|split; [|split]].
  - intros t h. destruct (signed_doc_facts t) as [-> ->]. unfold to_hex_signed_form. destruct (in_docs_facts t) as [-> _]. destruct (existsb nulls (in_docs t)); cbn [bind]; [split; [discriminate|intros [? _]; discriminate]|].
    split; [intros H; split; [reflexivity|congruence]|intros [_ ->]; reflexivity].
  - intros t k h. destruct (signable_doc_facts t k) as [-> ->]. unfold to_hex_signable_form. destruct (sig_docs_facts (tx_inputs t) 0 k) as [-> _]. destruct (existsb nulls _); cbn [bind]; [split; [discriminate|intros [? _]; discriminate]|].
    split; [intros H; split; [reflexivity|congruence]|intros [_ ->]; reflexivity].
  - intros t e. unfold to_hex_signed_form. destruct (in_docs_facts t) as [-> _]. destruct (existsb nulls (in_docs t)); cbn [bind]; congruence.
  - intros t k e. unfold to_hex_signable_form. destruct (sig_docs_facts (tx_inputs t) 0 k) as [-> _]. destruct (existsb nulls _); cbn [bind]; congruence.
Qed.

Lemma plain_docs : forall l, Forall (fun d => json_plain (PDict d) = true) l -> json_plain (PList (map PDict l)) = true.
Proof. intros l F. cbn [json_plain]. apply forallb_forall. intros v I. apply in_map_iff in I as (d & <- & I). rewrite Forall_forall in F. auto. Qed.
Lemma out_plain : forall y w, out_wire y w -> json_plain (PDict (txout_dict y)) = true.
Proof.
  intros y w ((_ & B & L) & _ & O3 & O4 & O5 & _). apply plain_dict; [reflexivity|reflexivity|]. cbn [map snd txout_dict]. rewrite O3, O4, O5.
  repeat (apply Forall_cons; [cbn [json_plain]; apply ascii_hex; auto using le_bytes_bytes|]); [|constructor]. repeat constructor; unfold len in *; lia.
Qed.
Lemma outs_plain : forall t ws, Forall2 out_wire (tx_outputs t) ws -> json_plain (PList (map PDict (out_docs t))) = true.
Proof. intros t ws F. apply plain_docs. unfold out_docs. apply Forall_map. induction F; constructor; auto. eapply out_plain; eauto. Qed.
Lemma opt_plain : forall o : option pystr, (forall s, o = Some s -> ascii_str s = true) -> json_plain (opt_str o) = true.
Proof. intros [s|] H; [apply H; auto|reflexivity]. Qed.
Lemma header_plain : forall t, tx_header t -> ascii_str (tx_version t) = true /\ ascii_str (tx_input_count t) = true /\ ascii_str (tx_output_count t) = true /\
  ascii_str (tx_block_lock_time t) = true /\ ascii_str (tx_hash_type_4_byte t) = true.
Proof.
  intros t (A1 & A2 & A3 & A4 & A5 & A6 & A7 & A8). rewrite A1, A2, A3, A5, A7. repeat split; apply ascii_hex; auto using le_bytes_bytes; repeat constructor; lia.
Qed.

(** C67.  The dictionary forms, field by field. *)
Lemma c67_fields :
  (forall t ins outs, tx_wire t ins outs -> PDict (to_dict_signed_form t) = signed_doc ins outs) /\
  (forall t ins outs k x h, tx_body t ins outs -> nth_error (tx_inputs t) k = Some x -> in_owner x h ->
     PDict (to_dict_signable_form t k) = sighash_doc k (p2pkh h) ins outs).
Proof.
  assert (OD : forall ys outs, Forall2 out_wire ys outs -> map (fun o => PDict (txout_dict o)) ys = map output_doc outs).
  { induction 1 as [|y o ys os (_ & _ & V & S1 & S2 & _) F IH]; [reflexivity|]. cbn [map]. rewrite IH. unfold txout_dict. rewrite V, S1, S2. reflexivity. }
  split.
  - intros t ins outs ((H1 & H2 & _ & _ & H5 & _ & H7 & _) & FI & FO). unfold to_dict_signed_form, signed_doc. rewrite (OD _ _ FO), H1, H2, H5, H7, (F2_len _ _ _ _ _ FI), (F2_len _ _ _ _ _ FO).
    assert (ID : map (fun x => PDict (txin_dict_signed x)) (tx_inputs t) = map signed_input_doc ins).
    { clear - FI. induction FI as [|x i xs is ((_ & _ & _ & _ & O1 & O2 & _ & O4) & (_ & _ & S3 & S4 & _)) FI IH]; [reflexivity|]. cbn [map]. rewrite IH. unfold txin_dict_signed. rewrite O1, O2, O4, S3, S4. reflexivity. }
    rewrite ID. reflexivity.
  - intros t ins outs k x h ((H1 & H2 & H3 & _ & H5 & _ & H7 & _) & FI & FO & _) N OW. unfold to_dict_signable_form, sighash_doc. rewrite (OD _ _ FO), H1, H2, H3, H5, H7, (F2_len _ _ _ _ _ FI), (F2_len _ _ _ _ _ FO).
    assert (OTHER : forall xs is m, Forall2 (fun x i => in_outpoint x (i_txid i) (i_index i)) xs is -> (k < m)%nat -> dicts_signable m k xs = map (unsigned_input_doc None) is).
    { clear. induction xs as [|x xs IH]; intros is m FI M; inversion FI as [|? i ? is' O F]; subst; [reflexivity|]. cbn [dicts_signable map]. rewrite (IH is') by (auto; lia). destruct (Nat.eqb_spec m k); [lia|].
      destruct O as (_ & _ & _ & _ & O1 & O2 & _ & O4). unfold txin_dict_signable_empty. rewrite O1, O2, O4. reflexivity. }
    assert (ID : forall xs is m j, Forall2 (fun x i => in_outpoint x (i_txid i) (i_index i)) xs is -> (m + j = k)%nat -> nth_error xs j = Some x ->
      dicts_signable m k xs = map (unsigned_input_doc None) (firstn j is) ++ match nth_error is j with Some i => [unsigned_input_doc (Some (p2pkh h)) i] | None => [] end ++ map (unsigned_input_doc None) (skipn (S j) is)).
    { clear - OTHER OW. induction xs as [|y xs IH]; intros is m j FI M N; inversion FI as [|? i ? is' O F]; subst; [destruct j; discriminate|]. cbn [dicts_signable].
      destruct O as (_ & _ & _ & _ & O1 & O2 & _ & O4). destruct j as [|j].
      - injection N as ->. destruct (Nat.eqb_spec m (m + 0)); [|lia]. rewrite (OTHER _ is' (S m)) by (auto; lia). cbn [firstn map nth_error app skipn].
        destruct OW as (IA & W1 & W2 & _). assert (L : len (p2pkh h) = 25) by (unfold len, p2pkh; rewrite !app_length; destruct IA as (_ & -> & _); reflexivity).
        unfold txin_dict_signable, unsigned_input_doc. rewrite O1, O2, O4, W1, W2, L. reflexivity.
      - destruct (Nat.eqb_spec m (m + S j)); [lia|]. cbn [nth_error] in N. rewrite (IH is' (S m) j) by (auto; lia). cbn [firstn map nth_error app skipn].
        unfold txin_dict_signable_empty. rewrite O1, O2, O4. reflexivity. }
    rewrite (ID _ _ 0%nat k FI eq_refl N). reflexivity.
Qed.

(** C67.  Reading back the JSON of the signed form, or of the form that is hashed and signed for input k, gives the document of the transaction; its strings,
    one after the other, are the bytes on the wire, or the bytes of the sighash form. *)
Lemma c67_json : JsonOk E ->
  (forall t ins outs, tx_wire t ins outs -> json_loads (to_json_signed_form t) = Ok (signed_doc ins outs) /\ concat (strings_of (signed_doc ins outs)) = hex_of (wire ins outs)) /\
  (forall t ins outs k x h, tx_body t ins outs -> nth_error (tx_inputs t) k = Some x -> in_owner x h ->
     json_loads (to_json_signable_form t k) = Ok (sighash_doc k (p2pkh h) ins outs) /\ concat (strings_of (sighash_doc k (p2pkh h) ins outs)) = hex_of (sighash_bytes k (p2pkh h) ins outs)).
Proof.
  intros HJ. destruct c67_document as (D1 & D2 & _). split.
  - intros t ins outs W. destruct c20_serialisation as [C _]. destruct (C t ins outs W) as [HX _]. apply D1 in HX as [_ HX]. destruct c67_fields as [FL _]. rewrite <- (FL _ _ _ W). split; [|symmetry; exact HX].
    unfold to_json_signed_form. apply HJ. destruct W as (HD & FI & FO). destruct (header_plain t HD) as (P1 & P2 & P3 & P4 & P5).
    apply plain_dict; [reflexivity|reflexivity|]. cbn [map snd to_dict_signed_form]. rewrite in_docs_ok, out_docs_ok. repeat (apply Forall_cons; [first [assumption|eapply outs_plain; eassumption|idtac]|]); [|constructor].
    apply plain_docs. unfold in_docs. apply Forall_map. clear - FI. induction FI as [|x i xs is ((B & L & R & _ & O1 & O2 & _ & O4) & (S1 & S2 & S3 & S4 & _)) FI IH]; constructor; auto.
    apply plain_dict; [reflexivity|reflexivity|]. cbn [map snd txin_dict_signed]. rewrite O1, O2, O4, S3, S4. cbn [opt_str].
    repeat (apply Forall_cons; [cbn [json_plain]; apply ascii_hex; auto using bytes_rev, le_bytes_bytes; repeat constructor; unfold len in *; lia|]). constructor.
  - intros t ins outs k x h (HD & FI & FO & FW) N OW. pose proof OW as (IA & W1 & W2 & W3). 
    assert (HX : to_hex_signable_form t k = Ok (hex_of (sighash_bytes k (p2pkh h) ins outs))).
    { apply signable_ok; auto. exists x. split; auto. split; auto. assert (len (p2pkh h) = 25) as ->; [|exact W2]. unfold len, p2pkh. rewrite !app_length. destruct IA as (_ & -> & _). reflexivity. }
    apply D2 in HX as [_ HX]. destruct c67_fields as [_ FL]. rewrite <- (FL _ _ _ _ _ _ (conj HD (conj FI (conj FO FW))) N OW). split; [|symmetry; exact HX].
    unfold to_json_signable_form. apply HJ. destruct (header_plain t HD) as (P1 & P2 & P3 & P4 & P5).
    apply plain_dict; [reflexivity|reflexivity|]. cbn [map snd to_dict_signable_form]. rewrite sig_docs_ok, out_docs_ok. repeat (apply Forall_cons; [first [assumption|eapply outs_plain; eassumption|idtac]|]); [|constructor].
    apply plain_docs. clear - FI FW. revert FW. generalize 0%nat. induction FI as [|x i xs is (B & L & R & _ & O1 & O2 & _ & O4) FI IH]; intros n FW; cbn [sig_docs]; constructor; [|apply IH; apply Forall_cons_iff in FW; apply FW].
    apply Forall_cons_iff in FW as [(h & IA & W1 & W2 & _) _]. destruct (Nat.eqb n k).
    + apply plain_dict; [reflexivity|reflexivity|]. cbn [map snd txin_dict_signable]. rewrite O1, O2, O4, W1, W2. cbn [opt_str].
      repeat (apply Forall_cons; [cbn [json_plain]; apply ascii_hex; auto using bytes_rev, le_bytes_bytes; try (apply bytes_p2pkh; apply IA); repeat constructor; lia|]). constructor.
    + apply plain_dict; [reflexivity|reflexivity|]. cbn [map snd txin_dict_signable_empty]. rewrite O1, O2, O4.
      repeat (apply Forall_cons; [cbn [json_plain]; first [reflexivity|apply ascii_hex; auto using bytes_rev, le_bytes_bytes; repeat constructor; lia]|]). constructor.
Qed.

Lemma tx_str_described : forall t, tx_str t = described (tx_signed t) (length (tx_inputs t)) (length (tx_outputs t)).
Proof.
  intros t. unfold tx_str, described, s_plural. set (i := length (tx_inputs t)). set (o := length (tx_outputs t)).
  replace (Nat.leb i 1) with (negb (Nat.ltb 1 i)) by (unfold Nat.ltb; destruct (Nat.leb_spec 2 i), (Nat.leb_spec i 1); auto; lia).
  replace (Nat.leb o 1) with (negb (Nat.ltb 1 o)) by (unfold Nat.ltb; destruct (Nat.leb_spec 2 o), (Nat.leb_spec o 1); auto; lia).
  destruct (tx_signed t), (Nat.ltb 1 i), (Nat.ltb 1 o); cbn [negb]; rewrite <- ?app_assoc; reflexivity.
Qed.

(** C68.  str(transaction) tells the numbers of inputs and outputs and whether all inputs are signed; in particular a created transaction is described as
    unsigned, and one that has been signed or decoded as signed. *)
Lemma c68_transaction : HashOk E -> ZeroAddressOk E -> UniOk E ->
  (forall t, tx_str t = described (tx_signed t) (length (tx_inputs t)) (length (tx_outputs t))) /\
  (forall t, tx_signed t = true <-> forall x, In x (tx_inputs t) -> exists l s, ti_script_length x = Some l /\ ti_script_sig x = Some s) /\
  (forall a t, fst (create_transaction a) = Ok t -> tx_str t = described false (length (tx_inputs t)) (length (tx_outputs t))) /\
  (forall s t, from_hex_signed s = Ok t -> tx_str t = described true (length (tx_inputs t)) (length (tx_outputs t))).
Proof.
  intros HH HZ HU.
  assert (S : forall t, tx_signed t = true <-> forall x, In x (tx_inputs t) -> exists l s, ti_script_length x = Some l /\ ti_script_sig x = Some s).
  { intros t. unfold tx_signed. rewrite forallb_forall. split; intros H x I; specialize (H x I); unfold txin_signed in *.
    - destruct (ti_script_length x), (ti_script_sig x); try discriminate; eauto.
    - destruct H as (l & s & -> & ->). reflexivity. }
  split; [exact tx_str_described|]. split; [exact S|]. split.
  - intros a t H. rewrite tx_str_described. f_equal. apply Bool.not_true_iff_false. intros C. rewrite S in C.
    apply (create_iff HH HZ HU) in H as (q & sel & outs & f & chg & A & PL & (ins & os & FI & FO & ->)). cbn [tx_inputs] in C.
    assert (NE : sel <> []). { destruct PL as (_ & _ & _ & _ & TI & _ & _ & _ & _ & (s & (PM & _) & SC) & _).
      destruct SC as [(_ & ->)|(_ & _ & fi & la & re & -> & _)]; [|destruct fi; discriminate]. intros ->. apply Permutation.Permutation_sym, Permutation.Permutation_nil in PM. rewrite PM in TI. cbn in TI. lia. }
    destruct FI as [|i x sel ins M FI]; [congruence|]. destruct (C x (or_introl eq_refl)) as (l & s & L & _). destruct (made_input_facts _ _ _ _ _ M) as (_ & (_ & U & _) & _). congruence.
  - intros s t H. rewrite tx_str_described. f_equal. apply S. intros x I. apply (from_hex_iff HH HU) in H as (ins & outs & rest & _ & _ & (_ & _ & F & _)).
    clear - F I. induction F as [|y i xs is (_ & sig & pub & a & _ & _ & _ & ->) F IH]; [destruct I|]. destruct I as [<-|I]; [eexists; eexists; split; reflexivity|auto].
Qed.

(** C68.  After signing it says "signed". *)
Lemma c68_signed : CryptoOk E -> forall t ins outs keys rv t', tx_body t ins outs -> sign t keys rv = (Ok tt, t') ->
  tx_str t' = described true (length ins) (length outs).
Proof.
  intros HC t ins outs keys rv t' B H. destruct (c25_signed_form HC _ _ _ _ _ _ B H) as (ins' & (_ & FI & FO) & _ & S & M & _). rewrite tx_str_described, S. f_equal.
  - rewrite (F2_len _ _ _ _ _ FI). apply (f_equal (@length _)) in M. rewrite !map_length in M. exact M.
  - apply (F2_len _ _ _ _ _ FO).
Qed.

(** C68.  str(input) shows the address, the first and last two bytes of the transaction id, the output index and the worth; str(output) the address and the value. *)
Lemma c68_parts : forall f,
  (forall x txid idx, in_outpoint x txid idx -> txin_str f x =
     lit "TransactionInput" ++ (if txin_signed x then lit " (signed): " else lit " (unsigned): ") ++ lit "address=" ++ ti_address x ++
     lit ", txid=" ++ hex_of (firstn 2 txid) ++ lit "..." ++ hex_of (skipn 30 txid) ++ lit ", index=" ++ f (ti_previous_output_index_int x) ++
     lit ", satoshi_amount=" ++ match ti_satoshi_amount x with Some n => int_str n | None => lit "None" end) /\
  (forall y v h, out_pays y v h -> txout_str y = lit "TransactionOutput: address=" ++ to_address y ++ lit ", satoshi_amount=" ++ int_str v).
Proof.
  intros f. split.
  - intros x txid idx (B & L & _ & T & _). unfold txin_str. rewrite T. unfold last_n. rewrite hex_of_length, L. change (2 * 32 - 4)%nat with 60%nat.
    replace (firstn 4 (hex_of txid)) with (hex_of (firstn 2 txid)) by (do 2 (destruct txid as [|? txid]; [discriminate|]); reflexivity).
    replace (skipn 60 (hex_of txid)) with (hex_of (skipn 30 txid)) by (do 30 (destruct txid as [|? txid]; [discriminate|]); reflexivity).
    destruct (txin_signed x); cbn [negb]; rewrite <- ?app_assoc; reflexivity.
  - intros y v h ((_ & _ & _ & _ & _ & _ & V & _) & _). cbn [o_value] in V. unfold txout_str. rewrite V. reflexivity.
Qed.

End WithEnv.

(** Beside C67 and C68: the demo transaction before and after signing. *)
Example ex67_demo : hex_signed signed_tx = Ok signed_hex /\ has_null (PDict (to_dict_signed_form created)) = true /\ hex_signed created = Err TypeError /\
  exists h, hex_signable created 1 = Ok h.
Proof. split; [vm_compute; reflexivity|]. split; [vm_compute; reflexivity|]. split; [vm_compute; reflexivity|]. eexists; vm_compute; reflexivity. Qed.
Example ex68_demo : tx_str created = lit "Transaction (unsigned): 2 inputs, 2 outputs" /\ tx_str signed_tx = lit "Transaction (signed): 2 inputs, 2 outputs" /\
  (exists x, hd_error (tx_inputs created) = Some x /\ txin_str (fun v => match v with PInt n => int_str n | _ => [] end) x =
     lit "TransactionInput (unsigned): address=" ++ addr1 ++ lit ", txid=cdcd...cdcd, index=1, satoshi_amount=50000000").
Proof. split; [vm_compute; reflexivity|]. split; [vm_compute; reflexivity|]. eexists. split; [reflexivity|]. vm_compute. reflexivity. Qed.
(** The document of the signed demo transaction has every field. *)
Example ex67_fields : exists d, to_dict_signed_form signed_tx = d /\ map fst d = [lit "version"; lit "input_count"; lit "inputs"; lit "output_count"; lit "outputs"; lit "block_lock_time"] /\
  exists i1 i2, dict_find (lit "inputs") d = Some (PList [PDict i1; PDict i2]) /\ map fst i1 = [lit "previous_output_hash"; lit "previous_output_index"; lit "script_length"; lit "script_sig"; lit "sequence"].
Proof. eexists. split; [reflexivity|]. split; [vm_compute; reflexivity|]. eexists _, _. split; [vm_compute; reflexivity|reflexivity]. Qed.
