(** C47, C48, C52: what create_transaction does to and reads from its arguments. *)
From Coq Require Import String Floats.SpecFloat Permutation Sorted Lia.
From Verif Require Import PyBase Env PyNum Validate Basic Spec EnvOk TxInput TxOutput Tx Create TxSpec SignSpec FloatSpec NumSpec CreateSpec Demo DemoTx DemoCreate.
From Verif Require Import NumLemmas HexProofs Base58Proofs AddrProofs AmountProofs ScriptProofs WireProofs MakeProofs NumProofs PrepProofs DesignProofs BuildProofs CreateProofs DemoProofs DemoTxProofs DemoCreateProofs C_Create.
Open Scope Z_scope.

Lemma NoDup_app_l : forall A (x y : list A), NoDup (x ++ y) -> NoDup x.
Proof. induction x as [|a x IH]; cbn [app]; intros y H; [constructor|]. inversion H; subst. constructor; eauto. intros I. apply H2. apply in_or_app. auto. Qed.

Section WithEnv.
Context {E : Env}.

Lemma create_after : HashOk E -> ZeroAddressOk E -> UniOk E -> forall a q, asked a q -> used (snd (create_transaction a)) q.
Proof.
  intros HH HZ HU a q A. destruct (prepare_ok HH HZ HU a q A) as (p & a' & P & _ & U). unfold create_transaction. rewrite P. exact U.
Qed.

(** C47.  A call rewrites the input dicts it was given: the index becomes an int and 'satoshi_amount' is added. *)
Lemma c47_rewrites_arguments : HashOk E -> ZeroAddressOk E -> UniOk E -> forall a q, asked a q ->
  exists l, ns_inputs (snd (create_transaction a)) = Some (PList l) /\
    Forall2 (fun i v => exists d, v = PDict d /\ dict_find (lit "previous_output_index") d = Some (PInt (ia_index i)) /\
                                  dict_find (lit "satoshi_amount") d = Some (PInt (ia_value i))) (q_inputs q) l.
Proof.
  intros HH HZ HU a q A. destruct (create_after HH HZ HU a q A) as (l & d & f & m & NI & FI & _). exists l. split; auto.
  eapply F2_impl; [|exact FI]. intros i v (d0 & ->). eexists. split; [reflexivity|]. unfold final_input. rewrite find_set_same.
  rewrite set_other by discriminate. unfold adjusted_input. rewrite find_set_same. auto.
Qed.

(** C47.  A second call with the same argument object raises ValueError. *)
Lemma c47_second_call : HashOk E -> ZeroAddressOk E -> UniOk E -> forall a q, asked a q -> q_inputs q <> [] ->
  fst (create_transaction (snd (create_transaction a))) = Err ValueError.
Proof.
  intros HH HZ HU a q A NE. destruct (create_after HH HZ HU a q A) as (l & d & f & m & NI & FI & ND & F & M).
  set (a' := snd (create_transaction a)) in *. unfold create_transaction, prepare. rewrite NI, ND.
  destruct (adjust_design_ok d f m F M) as [d1 ->].
  set (again := fun (i : iarg) (v : pyval) => match v with PDict d0 => PDict (dict_set (lit "previous_output_index") (PInt (ia_index i)) d0) | _ => v end).
  assert (exists l', for_each adjust_input l = (Ok tt, l') /\ Forall2 (fun i v => exists d0, v = PDict d0 /\ In (lit "satoshi_amount") (map fst d0)) (q_inputs q) l') as (l' & FE & FL).
  { clear - FI. induction FI as [|i v qi l (d0 & ->) FI IH]; [exists []; split; [reflexivity|constructor]|]. destruct IH as (l' & FE & FL).
    cbn [for_each adjust_input]. assert (FP : dict_find (lit "previous_output_index") (final_input d0 i) = Some (PInt (ia_index i))).
    { unfold final_input. rewrite set_other by discriminate. unfold adjusted_input. apply find_set_same. }
    rewrite FP. cbn [py_int]. rewrite FE. eexists. split; [reflexivity|]. constructor; auto. eexists. split; [reflexivity|].
    rewrite (keys_set_present _ _ _ _ FP). eapply find_in. unfold final_input. apply find_set_same. }
  rewrite FE. cbn [bind]. destruct FL as [|i v qi l2 (d0 & -> & I) FL]; [congruence|].
  assert (VE : validate_inputs (PList (PDict d0 :: l2)) = Err ValueError).
  { unfold validate_inputs. cbn [validate_list bind as_list iterM]. unfold validate_input at 1. cbn [as_dict bind]. unfold dict_keys.
    rewrite identical_err; [reflexivity|]. intros P. apply (Permutation_in _ P) in I. cbn [map In] in I.
    repeat (destruct I as [I|I]; [discriminate|]). exact I. }
  rewrite VE. reflexivity.
Qed.

(** C48.  Distinct available outpoints give distinct spent outpoints. *)
Lemma c48_distinct_outpoints : HashOk E -> ZeroAddressOk E -> UniOk E -> forall a q t,
  asked a q -> fst (create_transaction a) = Ok t ->
  NoDup (map (fun i => (ia_txid i, ia_index i)) (q_inputs q)) ->
  NoDup (map (fun x => (ti_txid x, as_int (ti_previous_output_index_int x))) (tx_inputs t)).
Proof.
  intros HH HZ HU a q t A H ND. destruct (c38_selection HH HZ HU a q t A H) as (s & sel & f & _ & SF & SC & FI).
  assert (B : Forall (fun i => bytes (ia_txid i)) (q_inputs q)).
  { destruct A as (l & d & _ & F & _). clear - F. induction F as [|v i l li (d0 & vi & s0 & _ & _ & _ & _ & _ & X & _) F IH]; constructor; auto. }
  assert (PS : exists rest, s = sel ++ rest).
  { destruct SC as [[_ ->]|(_ & _ & fi & la & re & _ & -> & _)]; [exists []; rewrite app_nil_r; auto|eauto]. }
  destruct PS as [rest ->].
  assert (ND2 : NoDup (map (fun i => (ia_txid i, ia_index i)) sel)).
  { apply (Permutation_NoDup (l' := map (fun i => (ia_txid i, ia_index i)) (sel ++ rest))) in ND; [|apply Permutation_map, SF].
    rewrite map_app in ND. apply NoDup_app_l in ND. auto. }
  assert (B2 : Forall (fun i => bytes (ia_txid i)) sel).
  { eapply Permutation_Forall in B; [|apply SF]. apply Forall_app in B. apply B. }
  clear - FI ND2 B2. induction FI as [|i x li lx (T & I & _) FI IH]; [constructor|]. cbn [map] in *. inversion ND2 as [|? ? N1 N2]; subst. inversion B2 as [|? ? B1 B3]; subst.
  constructor; auto. intros IN. apply N1. clear IH N1 N2 ND2 B2. rewrite T, I in IN. clear T I.
  induction FI as [|j y lj ly (T & I & _) FI IH]; [destruct IN|]. cbn [map] in *. inversion B3 as [|? ? B4 B5]; subst. destruct IN as [Q|IN]; [left|right; auto].
  rewrite T, I in Q. injection Q as Q1 Q2. f_equal; auto. apply hex_of_inj; auto.
Qed.

(** C52.  The result depends only on these entries of the design. *)
Lemma c52_entries_read : HashOk E -> ZeroAddressOk E -> UniOk E -> forall a d d' t,
  ns_design a = Some (PDict d) ->
  (forall k, In k (map lit ["outputs"; "change_address"; "max_fee"; "max_spend_percentage"; "fee"; "fee_rate"; "input_selection_approaches"]%string) ->
     dict_find k d' = dict_find k d) ->
  (fst (create_transaction a) = Ok t <-> fst (create_transaction (set_ns_design a (PDict d'))) = Ok t).
Proof.
  assert (ONE : HashOk E -> ZeroAddressOk E -> UniOk E -> forall a d d' t, ns_design a = Some (PDict d) ->
    (forall k, In k (map lit ["outputs"; "change_address"; "max_fee"; "max_spend_percentage"; "fee"; "fee_rate"; "input_selection_approaches"]%string) ->
       dict_find k d' = dict_find k d) -> fst (create_transaction a) = Ok t -> fst (create_transaction (set_ns_design a (PDict d'))) = Ok t).
  { intros HH HZ HU a d d' t ND K H. apply (create_iff HH HZ HU) in H as (q & sel & outs & f & chg & A & PL & TX).
    apply (create_iff HH HZ HU). exists q, sel, outs, f, chg. split; auto. destruct A as (l & d0 & NI & FI & ND' & DA & OA & IA).
    rewrite ND in ND'. injection ND' as <-. exists l, d'. split; auto. split; auto. split; [reflexivity|]. split; [|split; auto].
    unfold design_arg in *. rewrite !K by (cbn [map In]; tauto). exact DA. }
  intros HH HZ HU a d d' t ND K. split; [eapply ONE; eauto|]. intros H.
  replace a with (set_ns_design (set_ns_design a (PDict d')) (PDict d)) by (destruct a; cbn in *; unfold set_ns_design; cbn; congruence).
  apply (ONE HH HZ HU _ d' d t); auto. intros k I. symmetry. auto.
Qed.
(** C52.  In particular an entry 'input_selection_approach', the documented spelling, has no influence. *)
Lemma c52_documented_key_ignored : HashOk E -> ZeroAddressOk E -> UniOk E -> forall a d v t,
  ns_design a = Some (PDict d) ->
  (fst (create_transaction a) = Ok t <->
   fst (create_transaction (set_ns_design a (PDict (dict_set (lit "input_selection_approach") v d)))) = Ok t).
Proof.
  intros HH HZ HU a d v t ND. apply c52_entries_read with (d := d); auto. intros k I. apply set_other.
  cbn [map In] in I. intros ->. repeat (destruct I as [I|I]; [discriminate|]). exact I.
Qed.
(** C52.  'input_selection_approaches' is read: the request's approach is the one it names, 'largest_first' by default. *)
Lemma c52_approaches_read : forall a q d, asked a q -> ns_design a = Some (PDict d) ->
  approach_arg (dict_find (lit "input_selection_approaches") d) (q_approach q).
Proof. intros a q d (l & d0 & _ & _ & ND & DA & _) N. rewrite ND in N. injection N as ->. apply DA. Qed.

End WithEnv.

(** Hypotheses met; the argument object of a successful call is used up. *)
Example ex47_second_call : @asked demo_env demo_ns demo_order /\ q_inputs demo_order <> [] /\ fst (@create_transaction demo_env demo_ns) = Ok created /\
  fst (@create_transaction demo_env (snd (@create_transaction demo_env demo_ns))) = Err ValueError.
Proof.
  split; [exact demo_asked|]. split; [discriminate|]. split; [exact created_ok|].
  apply (@c47_second_call demo_env demo_hash demo_zero_address demo_uni _ _ demo_asked). discriminate.
Qed.
(** The same outpoint can be spent twice by one transaction. *)
Example ex48_same_outpoint_refuted : fst (@create_transaction demo_env same_twice) = Ok same_twice_tx /\
  map (fun x => (ti_txid x, as_int (ti_previous_output_index_int x))) (tx_inputs same_twice_tx) =
  [(hex_of (repeat 205 32), Some 1); (hex_of (repeat 205 32), Some 1)].
Proof. split; vm_compute; reflexivity. Qed.
Example ex48_distinct : @asked demo_env demo_ns demo_order /\ NoDup (map (fun i => (ia_txid i, ia_index i)) (q_inputs demo_order)).
Proof.
  split; [exact demo_asked|]. cbn [demo_order order_of q_inputs demo_iargs map ia_txid ia_index].
  constructor; [|constructor; [intros []|constructor]]. intros [Q|[]]. vm_compute in Q. discriminate.
Qed.
(** The documented key does nothing, the other one does. *)
Example ex52_keys : fst (@create_transaction demo_env documented) = Ok documented_tx /\ map ti_satoshi_amount (tx_inputs documented_tx) = [Some 50000000] /\
  fst (@create_transaction demo_env working) = Ok working_tx /\ map ti_satoshi_amount (tx_inputs working_tx) = [Some 200000].
Proof. split; [|split; [|split]]; vm_compute; reflexivity. Qed.
