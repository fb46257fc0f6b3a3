(** C85: the percentage advised when more would be spent than the design permits. *)
From Coq Require Import String Floats.SpecFloat Permutation Sorted Lia.
From Verif Require Import PyBase Env PyNum Validate Basic Spec EnvOk TxInput TxOutput Tx Create Report TxSpec FloatSpec NumSpec CreateSpec RefuseSpec ReportSpec AdviceSpec Demo DemoTx DemoCreate DemoReport DemoAdvice.
From Verif Require Import NumLemmas HexProofs Base58Proofs AddrProofs AmountProofs ScriptProofs WireProofs MakeProofs NumProofs PrepProofs DesignProofs BuildProofs CreateProofs RefuseProofs OrderProofs ReportTextProofs ReportProofs ReportWalkProofs ReportMainProofs AdviceProofs DemoProofs DemoTxProofs DemoCreateProofs C_Create C_Report.
Open Scope Z_scope.

Section WithEnv.
Context {E : Env}.

Lemma overspent_amounts : UniOk E -> forall a q sel outs f chg limit, asked a q -> overspent q sel outs f chg limit ->
  0 < in_value sel - chg <= in_value (q_inputs q) /\ in_value (q_inputs q) <= max_money.
Proof.
  intros HU a q sel outs f chg limit A (RD & I0 & FD & FM & LE & (s & SF & CH) & SP & LM & LT). destruct RD as (_ & _ & _ & TI & _).
  pose proof (wf_values q (asked_wf HU _ _ A)) as [NI NO]. pose proof (out_value_nonneg _ NO) as NO'. destruct (sorted_for_facts _ _ _ SF NI) as [SV VS].
  pose proof (chosen_values _ _ _ _ CH VS ltac:(lia)) as CV. destruct (surplus_value _ _ _ _ _ _ SP NO ltac:(lia)) as (_ & CG & _). lia.
Qed.

(** C85.  Whenever more would be spent than permitted, the text of the refusal advises a percentage from 1 to 101; it is 101 exactly if
    everything available would be spent. *)
Lemma c85_advice : HashOk E -> ZeroAddressOk E -> UniOk E -> forall repr a q sel outs f chg limit, asked a q -> overspent q sel outs f chg limit ->
  exists advice, refused_with (create_transaction_says repr a) ValueError (spend_text q limit (in_value sel - chg) advice) /\
    1 <= advice <= 101 /\ (advice = 101 <-> in_value sel - chg = in_value (q_inputs q)).
Proof.
  intros HH HZ HU repr a q sel outs f chg limit A O. destruct (overspent_amounts HU _ _ _ _ _ _ _ A O) as [N M].
  destruct O as (RD & I0 & FD & FM & LE & (s & SF & CH) & SP & LM & LT). destruct (texts_exist HU repr a q A) as (ta & tb & mf & TX).
  destruct (c84_spend HH HZ HU repr a q ta tb mf s f sel outs chg limit A TX SF RD FD FM LE I0 CH SP LM LT) as (advice & AD & ->).
  exists advice. split; [reflexivity|]. destruct (advice_range _ _ _ N M AD) as (R & Q & _). auto.
Qed.

Lemma asked_percentage : UniOk E -> forall a q v p n, asked a q -> float_of_value v p -> truncates p n -> 0 <= n <= 100 ->
  asked (with_percentage a v) (mk_order (q_inputs q) (q_outputs q) (q_fee q) (q_change_address q) (q_max_fee q) p (q_approach q) (q_allow_duplicates q) (q_change_index q)).
Proof.
  intros HU a q v p n (l & d & NI & FI & ND & (D1 & D2 & D3 & D4 & D5 & D6) & OA & IA) V T N. unfold with_percentage. rewrite ND.
  exists l. eexists. cbn [ns_inputs ns_design ns_allow_duplicate_output_address ns_change_output_index q_inputs q_allow_duplicates q_change_index].
  split; [exact NI|]. split; [exact FI|]. split; [reflexivity|]. split; [|split; [exact OA|exact IA]].
  unfold design_arg. rewrite find_set_same. rewrite !set_other by (vm_compute; discriminate). cbn [q_inputs q_outputs q_fee q_change_address q_max_fee q_max_spend q_approach].
  split; [exact D1|]. split; [exact D2|]. split; [exact D3|]. split; [|split; [exact D5|exact D6]]. exists v, n. auto.
Qed.

Lemma permitted : HashOk E -> ZeroAddressOk E -> UniOk E -> forall a q sel outs f chg limit advice v, asked a q -> overspent q sel outs f chg limit ->
  (length outs <= 252)%nat -> advised q (in_value sel - chg) advice -> float_of_value v (float_of (Z.min advice 100)) ->
  exists t, fst (create_transaction (with_percentage a v)) = Ok t /\ tx_of sel outs (q_change_address q) t.
Proof.
  intros HH HZ HU a q sel outs f chg limit advice v A O L AD V. destruct (overspent_amounts HU _ _ _ _ _ _ _ A O) as [N M].
  destruct O as ((L1 & L2 & IX & TI & TO & ND) & I0 & FD & FM & LE & SC & SP & LM & LT). destruct (advice_range _ _ _ N M AD) as (R & _).
  destruct (advice_suffices _ _ _ N M AD) as (lim & SL & B).
  set (q' := mk_order (q_inputs q) (q_outputs q) (q_fee q) (q_change_address q) (q_max_fee q) (float_of (Z.min advice 100)) (q_approach q) (q_allow_duplicates q) (q_change_index q)).
  assert (A' : asked (with_percentage a v) q') by (eapply asked_percentage; eauto; [apply float_of_truncates; lia|lia]).
  assert (PL : plan q' sel outs f chg).
  { unfold plan, q'. cbn [q_inputs q_outputs q_fee q_change_address q_max_fee q_max_spend q_approach q_allow_duplicates q_change_index].
    repeat (split; [assumption || (split; assumption)|]). exists lim. split; [exact SL|]. split; lia. }
  destruct (texts_exist HU (fun _ => []) _ _ A') as (ta & tb & mf & TX). destruct SC as (s & SF & CH).
  destruct (c83_report HH HZ HU (fun _ => []) _ _ ta tb mf s f sel outs chg lim A' TX PL SF SL) as (t & T & C). exists t. split; [|exact T].
  rewrite <- (c83_erasure (fun _ => [])), C. reflexivity.
Qed.

(** C85.  The advice is sufficient: with the percentage raised to it, written as an int, a float or a str, the same request is answered by the
    transaction that was refused.  (If it does not exceed 100, and if the transaction has at most 252 outputs.) *)
Lemma c85_suffices : HashOk E -> ZeroAddressOk E -> UniOk E -> forall a q sel outs f chg limit advice v, asked a q -> overspent q sel outs f chg limit ->
  (length outs <= 252)%nat -> advised q (in_value sel - chg) advice -> advice <= 100 -> float_of_value v (float_of advice) ->
  exists t, fst (create_transaction (with_percentage a v)) = Ok t /\ tx_of sel outs (q_change_address q) t.
Proof. intros HH HZ HU a q sel outs f chg limit advice v A O L AD LE V. rewrite <- (Z.min_l advice 100) in V by auto. eapply permitted; eauto. Qed.

Lemma asked_not_percentage : HashOk E -> ZeroAddressOk E -> UniOk E -> forall a q v p n, asked a q -> Forall (fun i => ia_index i < 2 ^ 32) (q_inputs q) ->
  float_of_value v p -> truncates p n -> 100 < n -> fst (create_transaction (with_percentage a v)) = Err ValueError.
Proof.
  intros HH HZ HU a q v p n A IX V T N. pose proof (asked_pass HH HZ HU a q A IX) as AP. pose proof A as (l & d & NI & _ & ND & _).
  apply (refuse_argument HH HZ HU). unfold with_percentage. rewrite ND. unfold argument_checks in *. rewrite NI, ND in AP. cbn [ns_inputs ns_design]. rewrite NI.
  unfold all_pass in AP. rewrite !Forall_app in AP. destruct AP as (A1 & A2 & A3 & A4 & _).
  assert (EN : forall k, lit k <> lit "max_spend_percentage" -> entry k (dict_set (lit "max_spend_percentage") v d) = entry k d).
  { intros k K. unfold entry. apply set_other. congruence. }
  assert (PC : forall g, percentage (dict_set (lit "max_spend_percentage") v d) g <-> g = p).
  { intros g. unfold percentage, entry. rewrite find_set_same. split; [|intros ->; eauto]. intros (v' & Q & G). injection Q as <-. apply (py_float_iff HU) in V, G. congruence. }
  apply problem_app. right. split. { unfold all_pass, number_entry. rewrite !EN by (vm_compute; discriminate). exact A1. }
  apply problem_app. right. split; [exact A2|]. apply problem_app. right. split; [exact A3|]. apply problem_app. left.
  unfold design_checks in *. rewrite !EN by (vm_compute; discriminate).
  inversion A4 as [|? ? B1 A5]; subst. inversion A5 as [|? ? B2 A6]; subst. inversion A6 as [|? ? B3 A7]; subst. cbn [fst] in *.
  assert (KP : exists w, dict_find (lit "max_spend_percentage") d = Some w). { inversion A7 as [|? ? B4 _]; subst. cbn [fst] in B4. destruct B4 as (g & w & Q & _). eauto. }
  destruct KP as [w KP].
  apply fails_later. { intros k K. change (In k (dict_keys (dict_set (lit "max_spend_percentage") v d))). rewrite (keys_set_present _ _ _ _ KP). apply B1, K. }
  apply fails_later; [exact B2|]. apply fails_later; [exact B3|].
  unfold entry at 1. rewrite find_set_same.
  apply fails_later; [exists p; apply PC; reflexivity|].
  apply fails_later. { rewrite PC. intros Q. destruct T as [F _]. rewrite <- Q in F. discriminate. }
  apply fails_later. { intros b. rewrite PC. intros Q. destruct T as [F _]. rewrite <- Q in F. discriminate. }
  apply fails_here. intros (g & m & G & TG & R). apply PC in G. subst g. destruct T as [_ ->], TG as [_ ->]. lia.
Qed.

(** C85.  Where everything available would be spent, following the advice is refused, whatever the form of the number; 100 would do. *)
Lemma c85_everything_refuted : HashOk E -> ZeroAddressOk E -> UniOk E -> forall a q sel outs f chg limit advice, asked a q -> overspent q sel outs f chg limit ->
  in_value sel - chg = in_value (q_inputs q) -> advised q (in_value sel - chg) advice ->
  advice = 101 /\
  (forall v, float_of_value v (float_of advice) -> fst (create_transaction (with_percentage a v)) = Err ValueError) /\
  (forall v, (length outs <= 252)%nat -> float_of_value v (float_of 100) ->
   exists t, fst (create_transaction (with_percentage a v)) = Ok t /\ tx_of sel outs (q_change_address q) t).
Proof.
  intros HH HZ HU a q sel outs f chg limit advice A O EV AD. destruct (overspent_amounts HU _ _ _ _ _ _ _ A O) as [N M].
  destruct (advice_range _ _ _ N M AD) as (R & Q & _). assert (advice = 101) as -> by (apply Q; exact EV). split; [reflexivity|]. split.
  - intros v V. apply (asked_not_percentage HH HZ HU a q v (float_of 101) 101 A); auto; [|apply float_of_truncates; lia|lia]. apply O.
  - intros v L V. exact (permitted HH HZ HU a q sel outs f chg limit 101 v A O L AD V).
Qed.
End WithEnv.

(** Hypotheses met: the request of C35 with 50 percent, of which 50,110,000 of 50,200,000 satoshi would be spent. *)
Lemma half_overspent : overspent half_order (rev demo_iargs) [mk_oarg addr1 90000; mk_oarg addr3 50100000] 10000 90000 25100000.
Proof.
  pose proof demo_plan as (L1 & L2 & L3 & IX & TI & ND & FD & F0 & TT & SC & SP & _).
  split; [apply ready_one; unfold max_money; cbn [oa_value]; lia|]. split; [reflexivity|]. split; [exact FD|]. split; [exact F0|]. split; [exact TT|]. split; [exact SC|]. split; [exact SP|].
  split; [apply spend_limit_iff; [split; vm_compute; discriminate|vm_compute; reflexivity]|]. split; [lia|reflexivity].
Qed.
Example ex85_suffices : exists t, fst (@create_transaction demo_env (with_percentage half (PInt 100))) = Ok t /\
  @tx_of demo_env (rev demo_iargs) [mk_oarg addr1 90000; mk_oarg addr3 50100000] addr1 t.
Proof.
  refine (@c85_suffices demo_env demo_hash demo_zero_address demo_uni half half_order _ _ 10000 90000 25100000 100 (PInt 100) half_asked half_overspent _ _ _ _).
  - cbn. lia. - apply py_trunc_iff. vm_compute. reflexivity. - lia. - apply (py_float_iff demo_uni (PInt 100)). vm_compute. reflexivity.
Qed.
(** Everything is spent: 50,190,000 and a fee of 10,000. *)
Lemma everything_asked : @asked demo_env everything everything_order.
Proof.
  unfold everything, everything_order. eapply (@asked_percentage demo_env demo_uni _ (order_of demo_iargs [mk_oarg addr3 50190000] (FixedFee 10000) 250000 hundred)).
  - apply fixed_request; try lia; [exact demo_inputs_ok|apply out3; vm_compute; reflexivity].
  - apply (py_float_iff demo_uni (PStr (lit "50"))). vm_compute. reflexivity.
  - apply py_trunc_iff. vm_compute. reflexivity.
  - lia.
Qed.
Lemma everything_overspent : overspent everything_order (rev demo_iargs) [mk_oarg addr3 50190000] 10000 0 25100000.
Proof.
  split; [apply ready_one; unfold max_money; cbn [oa_value]; lia|]. split; [reflexivity|]. split; [reflexivity|]. split; [cbn; lia|]. split; [vm_compute; discriminate|].
  split; [exists (rev demo_iargs); split; [exact demo_sorted|]; left; split; [right; reflexivity|reflexivity]|]. split; [left; split; [reflexivity|split; reflexivity]|].
  split; [apply spend_limit_iff; [split; vm_compute; discriminate|vm_compute; reflexivity]|]. split; [lia|reflexivity].
Qed.
Example ex85_everything : advised everything_order 50200000 101 /\
  (forall v, @float_of_value demo_env v (float_of 101) -> fst (@create_transaction demo_env (with_percentage everything v)) = Err ValueError) /\
  exists t, fst (@create_transaction demo_env (with_percentage everything (PInt 100))) = Ok t /\ @tx_of demo_env (rev demo_iargs) [mk_oarg addr3 50190000] addr1 t.
Proof.
  assert (AD : advised everything_order 50200000 101) by (apply py_trunc_iff; vm_compute; reflexivity). split; [exact AD|].
  destruct (@c85_everything_refuted demo_env demo_hash demo_zero_address demo_uni _ _ _ _ _ _ _ 101 everything_asked everything_overspent eq_refl AD) as (_ & H1 & H2).
  split; [exact H1|]. apply H2; [cbn; lia|]. apply (py_float_iff demo_uni (PInt 100)). vm_compute. reflexivity.
Qed.
