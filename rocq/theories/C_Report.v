(** C83, C84: what create_transaction logs, and the texts of its refusals. *)
From Coq Require Import String Floats.SpecFloat Permutation Sorted Lia.
From Verif Require Import PyBase Env PyNum Validate Basic Spec EnvOk TxInput TxOutput Tx Create Report TxSpec FloatSpec NumSpec CreateSpec RefuseSpec ReportSpec Demo DemoTx DemoCreate DemoReport.
From Verif Require Import NumLemmas HexProofs Base58Proofs AddrProofs AmountProofs ScriptProofs WireProofs MakeProofs NumProofs PrepProofs DesignProofs BuildProofs CreateProofs RefuseProofs OrderProofs ReportTextProofs ReportProofs ReportWalkProofs ReportMainProofs DemoProofs DemoTxProofs DemoCreateProofs C_Create.
Open Scope Z_scope.

Section WithEnv.
Context {E : Env}.

(** C83.  Logging changes nothing: with what is logged left out, the call is the one of C20-C38. *)
Lemma c83_erasure : forall repr a, result (create_transaction_says repr a) = fst (create_transaction a).
Proof. exact says_erase. Qed.

(** C83.  Any request has the texts that the report shows. *)
Lemma c83_texts : UniOk E -> forall repr a q, asked a q -> exists ta tb mf, texts repr a q ta tb mf.
Proof. intros HU repr a q A. apply texts_exist; auto. Qed.

(** C83.  The report of a successful call, from the first line to the last. *)
Lemma c83_report : HashOk E -> ZeroAddressOk E -> UniOk E -> forall repr a q ta tb mf s f sel outs chg limit,
  asked a q -> texts repr a q ta tb mf -> plan q sel outs f chg -> sorted_for (q_approach q) (q_inputs q) s ->
  spend_limit (q_max_spend q) (in_value (q_inputs q)) limit ->
  exists t, tx_of sel outs (q_change_address q) t /\
    create_transaction_says repr a = (whole_report repr a q ta tb s f mf sel outs chg limit, Done t).
Proof.
  intros HH HZ HU repr a q ta tb mf s f sel outs chg limit A TX PL SF LM.
  assert (exists t, fst (create_transaction a) = Ok t /\ tx_of sel outs (q_change_address q) t) as (t & CT & TO).
  { pose proof PL as PL'. destruct (create_build HH HZ HU a q A) as (p & P & CB). rewrite CB.
    destruct PL as (L1 & L2 & L3 & IX & TI & ND & FD & F0 & TT & (s' & SF' & CH) & SP & (l' & LM' & LR & LE)).
    assert (exists t, tx_of sel outs (q_change_address q) t) as [t TO].
    { pose proof (asked_wf HU _ _ A) as W. pose proof (wf_values q W) as [NI NO]. pose proof (out_value_nonneg _ NO) as NO'.
      pose proof (sorted_for_unique _ _ _ SF') as SQ. assert (VS : Forall (fun i => 0 <= ia_value i) s') by (subst s'; apply isort_Forall; auto).
      assert (SV : in_value s' = in_value (q_inputs q)) by (subst s'; apply isort_value).
      destruct (ready_made HU q W IX) as (xs & ys & X & Y). pose proof (sort_made (q_approach q) _ _ X) as SX. rewrite <- SQ in SX.
      apply chosen_iff in CH; [|auto|lia].
      assert (SR : out_value (q_outputs q) + f <= in_value sel <= in_value (q_inputs q)).
      { subst sel. rewrite SV. destruct (Z.eqb_spec (in_value (q_inputs q)) (out_value (q_outputs q) + f)); [lia|]. split; [apply iselect_reach; auto; lia|rewrite <- SV; apply iselect_value; auto]. }
      assert (exists sx, Forall2 imade sel sx) as [sx SM].
      { subst sel. destruct (in_value s' =? out_value (q_outputs q) + f); [eauto|]. eexists. apply select_made. eauto. }
      destruct (omade_exists_all HU q _ _ _ _ W SP ltac:(lia) ltac:(lia)) as [ys' Y']. eexists. exists sx, ys'. split; [exact SM|]. split; [exact Y'|]. reflexivity. }
    exists t. split; auto. apply (build_iff HH HZ HU p q t P (asked_wf HU _ _ A)). exists sel, outs, f, chg. auto. }
  exists t. split; [exact TO|]. pose proof (says_erase repr a) as ER. rewrite CT in ER.
  destruct PL as (L1 & L2 & L3 & IX & TI & ND & FD & F0 & TT & (s' & SF' & CH) & SP & (l' & LM' & LR & LE)).
  assert (s' = s) by (rewrite (sorted_for_unique _ _ _ SF), (sorted_for_unique _ _ _ SF'); auto). subst s'.
  assert (l' = limit). { apply spend_limit_iff in LM, LM'; try lia. congruence. } subst l'.
  pose proof (wf_values q (asked_wf HU _ _ A)) as [NI NO]. pose proof (out_value_nonneg _ NO) as NO'.
  assert (RD : ready q). { repeat (split; [assumption || lia|]). assumption. }
  destruct (says_to_change HH HZ HU repr a q ta tb mf s f sel A TX SF RD FD F0 ltac:(unfold target; lia) CH) as (p & sx & ys & P & W & SM & Y & SR & T0 & CS).
  destruct (change_says HH HZ HU repr p q f sel sx ys outs chg (in_value (q_inputs q)) W Y ltac:(lia) ltac:(lia) T0 SP) as (ys' & Y' & CR & CE).
  rewrite CE, pre_pre in CS. destruct P as (_ & _ & _ & _ & _ & MS & _). rewrite MS in CS.
  assert (exists n, truncates (q_max_spend q) n) as [n TR]. { destruct A as (l & d & _ & _ & _ & (_ & _ & _ & (v & n & _ & _ & T & N) & _) & _). eauto. }
  destruct (spend_says HU q limit (in_value sel - chg) n TR TI ltac:(lia) LM ltac:(lia) ltac:(lia)) as [SS _]. rewrite (SS LE), bind_pre, bind_ok, pre_pre in CS.
  rewrite CS in ER |- *. destruct (tx_create sx ys') as [t'|e]; [|discriminate]. rewrite bind_ok, bind_say, pre_pre in ER |- *. unfold result, pre in ER |- *. cbn [snd fst quiet] in ER |- *. injection ER as ->.
  f_equal. unfold whole_report, until_spent, until_change, closing_part. rewrite app_nil_r, <- !app_assoc. reflexivity.
Qed.

(** C83.  The report says that the input value is at most the output value whenever it is at least the output value. *)
Lemma c83_comparison_refuted : HashOk E -> ZeroAddressOk E -> UniOk E -> forall repr a q sel outs f chg,
  asked a q -> plan q sel outs f chg -> 0 < f ->
  out_value (q_outputs q) < in_value (q_inputs q) /\
  In (lit "Total available input value is less than or equal to total output value.") (fst (create_transaction_says repr a)).
Proof.
  intros HH HZ HU repr a q sel outs f chg A PL F. pose proof PL as (_ & _ & _ & _ & _ & _ & _ & _ & TT & (s & SF & _) & _ & (limit & LM & _)). split; [lia|].
  destruct (texts_exist HU repr a q A) as (ta & tb & mf & TX). destruct (c83_report HH HZ HU repr a q ta tb mf s f sel outs chg limit A TX PL SF LM) as (t & _ & ->). cbn [fst].
  unfold whole_report, until_spent, until_change, until_fee_covered, target_part. do 3 (apply in_or_app; left). apply in_or_app. right. left. reflexivity.
Qed.
(** C83.  If the inputs match exactly, the report says that none is selected, although all are. *)
Lemma c83_selected_refuted : HashOk E -> ZeroAddressOk E -> UniOk E -> forall repr a q sel outs f chg,
  asked a q -> plan q sel outs f chg -> in_value (q_inputs q) = out_value (q_outputs q) + f ->
  length sel = length (q_inputs q) /\ sel <> [] /\ In (lit "Selected inputs: 0") (fst (create_transaction_says repr a)).
Proof.
  intros HH HZ HU repr a q sel outs f chg A PL EQ. pose proof PL as (_ & _ & _ & _ & TI & _ & _ & _ & TT & (s & SF & CH) & _ & (limit & LM & _)).
  pose proof (wf_values q (asked_wf HU _ _ A)) as [NI NO]. pose proof (out_value_nonneg _ NO) as NO'. pose proof (sorted_for_unique _ _ _ SF) as SQ.
  assert (SE : sel = s). { apply chosen_iff in CH; [|subst s; apply isort_Forall; auto|subst s; rewrite isort_value; lia]. subst sel s. rewrite isort_value, EQ, Z.eqb_refl. reflexivity. }
  split; [subst sel s; apply isort_length|]. split. { intros N. rewrite <- SE, N in SQ. assert (V : in_value (isort (q_approach q) (q_inputs q)) = in_value (q_inputs q)) by apply isort_value. rewrite <- SQ in V. cbn in V. lia. }
  destruct (texts_exist HU repr a q A) as (ta & tb & mf & TX). destruct (c83_report HH HZ HU repr a q ta tb mf s f sel outs chg limit A TX PL SF LM) as (t & _ & ->). cbn [fst].
  unfold whole_report, until_spent, until_change, selection_part, target. rewrite EQ, Z.eqb_refl. apply in_or_app. left. apply in_or_app. left. apply in_or_app. right. apply in_or_app. left. right. left. reflexivity.
Qed.

(** C84.  Several outputs pay one address, which is not allowed: the text names the first such address and the number of outputs. *)
Lemma c84_duplicate : HashOk E -> ZeroAddressOk E -> UniOk E -> forall repr a q ta tb mf s l1 o l2,
  asked a q -> texts repr a q ta tb mf -> sorted_for (q_approach q) (q_inputs q) s ->
  Forall (fun i => ia_index i < 2 ^ 32) (q_inputs q) -> in_value (q_inputs q) <= max_money -> out_value (q_outputs q) <= max_money ->
  q_allow_duplicates q = false -> q_outputs q = l1 ++ o :: l2 ->
  (forall o', In o' l1 -> length (filter (pays (oa_address o')) (q_outputs q)) = 1%nat) -> (1 < length (filter (pays (oa_address o)) (q_outputs q)))%nat ->
  create_transaction_says repr a =
  (until_duplicates repr a q ta tb s, Raised DuplicateOutputAddressError (Some (duplicate_text q (oa_address o)))).
Proof.
  intros HH HZ HU repr a q ta tb mf s l1 o l2 A TX SF IX TI TO AL EQ F L.
  destruct (says_front HH HZ HU repr a q ta tb mf s A TX SF IX TI TO) as (p & xs & ys & P & W & SX & Y & SQ & AP & MF & ->).
  destruct (distinct_first (map oa_address l1) (oa_address o) (map oa_address l2)) as (r & D).
  { intros I. apply in_map_iff in I as (o' & Q & I). rewrite <- Q in L. rewrite (F _ I) in L. lia. }
  assert (DM : distinct (map oa_address (q_outputs q)) = distinct (map oa_address l1) ++ oa_address o :: r) by (rewrite EQ, map_app; exact D).
  rewrite DM, AL, (duplicates_bad ys q _ _ _ Y), bind_raise; [apply pre_raise| |exact L].
  intros b B. apply distinct_in, in_map_iff in B as (o' & <- & I). rewrite (F _ I). lia.
Qed.
(** C84.  The fee exceeds the maximum. *)
Lemma c84_fee : HashOk E -> ZeroAddressOk E -> UniOk E -> forall repr a q ta tb mf s f,
  asked a q -> texts repr a q ta tb mf -> sorted_for (q_approach q) (q_inputs q) s -> ready q -> fee_due q f -> f <= max_money -> q_max_fee q < f ->
  create_transaction_says repr a = (until_max_fee repr a q ta tb s f mf, Raised ValueError (Some (max_fee_text f mf))).
Proof.
  intros HH HZ HU repr a q ta tb mf s f A TX SF RD FD FM LT.
  assert (M0 : 0 <= q_max_fee q). { destruct (create_build HH HZ HU a q A) as (p & (_ & _ & _ & _ & WM & _) & _). eapply whole_nonneg; eauto. }
  destruct (says_to_fee HH HZ HU repr a q ta tb mf s f A TX SF RD FD ltac:(lia)) as (p & sxs & ys & P & W & X & Y & SQ & AP & ->).
  rewrite (proj2 (Z.ltb_lt _ _)) by auto. apply pre_raise.
Qed.
(** C84.  The inputs do not cover the outputs: the text names what is missing. *)
Lemma c84_outputs : HashOk E -> ZeroAddressOk E -> UniOk E -> forall repr a q ta tb mf s f,
  asked a q -> texts repr a q ta tb mf -> sorted_for (q_approach q) (q_inputs q) s -> ready q -> fee_due q f -> 0 <= f <= q_max_fee q -> f <= max_money ->
  in_value (q_inputs q) < out_value (q_outputs q) ->
  create_transaction_says repr a = (until_outputs_covered repr a q ta tb s f mf,
    Raised OutputValueNotCovered (Some (shortfall_text "output" (out_value (q_outputs q) - in_value (q_inputs q))))).
Proof.
  intros HH HZ HU repr a q ta tb mf s f A TX SF RD FD FM F LT.
  destruct (says_to_fee HH HZ HU repr a q ta tb mf s f A TX SF RD FD ltac:(lia)) as (p & sxs & ys & P & W & X & Y & SQ & AP & ->).
  destruct (made_totals q s sxs ys W SQ X Y) as (T1 & T2 & T3 & T4). destruct RD as (_ & _ & _ & TI & TO & _).
  rewrite (proj2 (Z.ltb_ge _ _)) by lia. rewrite (totals_short HU repr p q sxs ys f T1 T2) by lia. unfold until_outputs_covered. rewrite pre_pre. apply pre_raise.
Qed.
(** C84.  They cover the outputs but not the fee. *)
Lemma c84_outputs_and_fee : HashOk E -> ZeroAddressOk E -> UniOk E -> forall repr a q ta tb mf s f,
  asked a q -> texts repr a q ta tb mf -> sorted_for (q_approach q) (q_inputs q) s -> ready q -> fee_due q f -> 0 <= f <= q_max_fee q ->
  out_value (q_outputs q) <= in_value (q_inputs q) < out_value (q_outputs q) + f -> out_value (q_outputs q) + f <= max_money ->
  create_transaction_says repr a = (until_fee_covered repr a q ta tb s f mf,
    Raised OutputAndFeeValueNotCovered (Some (shortfall_text "output + fee" (out_value (q_outputs q) + f - in_value (q_inputs q))))).
Proof.
  intros HH HZ HU repr a q ta tb mf s f A TX SF RD FD FM LT TM.
  destruct (says_to_target HH HZ HU repr a q ta tb mf s f A TX SF RD FD FM ltac:(lia) ltac:(unfold target; lia)) as (p & sxs & ys & P & W & X & Y & SQ & AP & N0 & ->).
  rewrite (selection_short HU repr _ q sxs f) by (unfold target; lia). rewrite bind_raise. apply pre_raise.
Qed.
(** C84.  There is change, several outputs pay the change address, and no index, or too large an index, says which of them is meant. *)
Lemma c84_change : HashOk E -> ZeroAddressOk E -> UniOk E -> forall repr a q ta tb mf s f sel,
  asked a q -> texts repr a q ta tb mf -> sorted_for (q_approach q) (q_inputs q) s -> ready q -> fee_due q f -> 0 <= f <= q_max_fee q ->
  out_value (q_outputs q) + f <= in_value (q_inputs q) -> chosen (q_approach q) (out_value (q_outputs q) + f) s sel ->
  in_value sel <> out_value (q_outputs q) + f -> (1 < length (filter (pays (q_change_address q)) (q_outputs q)))%nat ->
  (q_change_index q = PNone ->
   create_transaction_says repr a = (until_change repr a q ta tb s f mf sel, Raised ValueError (Some (ambiguous_text q)))) /\
  (forall z, whole (q_change_index q) z -> Z.of_nat (length (filter (pays (q_change_address q)) (q_outputs q))) <= z ->
   create_transaction_says repr a = (until_change repr a q ta tb s f mf sel, Raised ValueError (Some (index_text repr q)))).
Proof.
  intros HH HZ HU repr a q ta tb mf s f sel A TX SF RD FD FM LE CH NE L. pose proof RD as (_ & _ & _ & TI & _).
  destruct (says_to_change HH HZ HU repr a q ta tb mf s f sel A TX SF RD FD FM ltac:(unfold target; lia) CH) as (p & sx & ys & P & W & SM & Y & SR & T0 & ->).
  assert (TD : target q f = out_value (q_outputs q) + f) by reflexivity. unfold until_change. split.
  - intros IX. rewrite (change_bad HU repr q f sel ys W Y) by (auto; lia). rewrite IX, bind_pre, bind_raise, pre_pre, <- app_assoc. apply pre_raise.
  - intros z WZ LZ. rewrite (change_bad HU repr q f sel ys W Y); [|lia|lia|lia|right; eauto]. rewrite bind_pre, bind_raise, pre_pre, <- app_assoc.
    destruct (q_change_index q) eqn:Q; try apply pre_raise. destruct WZ as [[WZ _]|[(b & WZ & _)|(b & WZ & _)]]; discriminate.
Qed.
(** C84.  More would be spent than the design permits: the text names both amounts and advises a percentage. *)
Lemma c84_spend : HashOk E -> ZeroAddressOk E -> UniOk E -> forall repr a q ta tb mf s f sel outs chg limit,
  asked a q -> texts repr a q ta tb mf -> sorted_for (q_approach q) (q_inputs q) s -> ready q -> fee_due q f -> 0 <= f <= q_max_fee q ->
  out_value (q_outputs q) + f <= in_value (q_inputs q) -> 0 < in_value (q_inputs q) -> chosen (q_approach q) (out_value (q_outputs q) + f) s sel ->
  surplus_paid (q_change_address q) (q_change_index q) (q_outputs q) (in_value sel - (out_value (q_outputs q) + f)) outs chg ->
  spend_limit (q_max_spend q) (in_value (q_inputs q)) limit -> 0 <= limit < in_value sel - chg ->
  exists advice, advised q (in_value sel - chg) advice /\
    create_transaction_says repr a = (until_spent repr a q ta tb s f mf sel outs chg limit, Raised ValueError (Some (spend_text q limit (in_value sel - chg) advice))).
Proof.
  intros HH HZ HU repr a q ta tb mf s f sel outs chg limit A TX SF RD FD FM LE I0 CH SP LM LT. pose proof RD as (_ & _ & _ & TI & _).
  destruct (says_to_change HH HZ HU repr a q ta tb mf s f sel A TX SF RD FD FM ltac:(unfold target; lia) CH) as (p & sx & ys & P & W & SM & Y & SR & T0 & CS).
  destruct (change_says HH HZ HU repr p q f sel sx ys outs chg (in_value (q_inputs q)) W Y ltac:(lia) ltac:(lia) T0 SP) as (ys' & Y' & CR & CE).
  rewrite CE, pre_pre in CS. destruct P as (_ & _ & _ & _ & _ & MS & _). rewrite MS in CS.
  assert (exists n, truncates (q_max_spend q) n) as [n TR]. { destruct A as (l & d & _ & _ & _ & (_ & _ & _ & (v & n & _ & _ & T & N) & _) & _). eauto. }
  destruct (spend_says HU q limit (in_value sel - chg) n TR ltac:(lia) ltac:(lia) LM ltac:(lia) ltac:(lia)) as [_ SS]. destruct SS as (advice & AD & SS); [lia|].
  exists advice. split; [exact AD|]. rewrite CS, SS, bind_pre, bind_raise, pre_pre. unfold until_spent, until_change. rewrite <- !app_assoc. apply pre_raise.
Qed.

(** C84.  The design names both a fee and a fee rate, or neither. *)
Lemma c84_fee_choice : HashOk E -> ZeroAddressOk E -> UniOk E -> forall repr a l d lo,
  ns_inputs a = Some (PList l) -> ns_design a = Some (PDict d) -> entry "outputs" d = Some (PList lo) -> all_pass (checks_before_fees l d lo) ->
  (~ no_fee (entry "fee" d) /\ ~ no_rate (entry "fee_rate" d)) \/ (absent (entry "fee" d) /\ absent (entry "fee_rate" d)) ->
  create_transaction_says repr a = ([], Raised ValueError (Some fee_choice_text)).
Proof.
  intros HH HZ HU repr a l d lo NI ND GO PA BAD. destruct (before_fees HH HZ HU repr a l d lo NI ND GO PA) as (f1 & AF & ->).
  pose proof (fee_truthy HU (entry "fee" d) f1 AF) as TF. pose proof (rate_truthy (entry "fee_rate" d)) as TR. unfold says_fees.
  assert (B : truthy (oget f1) && truthy (oget (adjusted_rate (entry "fee_rate" d))) || is_none (oget f1) && is_none (oget (adjusted_rate (entry "fee_rate" d))) = true).
  { destruct BAD as [[N1 N2]|[[A1|A1] [A2|A2]]].
    - rewrite <- TF in N1. rewrite <- TR in N2. apply not_false_is_true in N1, N2. rewrite N1, N2. reflexivity.
    - rewrite A1 in AF. injection AF as <-. rewrite A2. reflexivity.
    - rewrite A1 in AF. injection AF as <-. rewrite A2. reflexivity.
    - rewrite A1 in AF. injection AF as <-. rewrite A2. reflexivity.
    - rewrite A1 in AF. injection AF as <-. rewrite A2. reflexivity. }
  rewrite B, !bind_raise. reflexivity.
Qed.
(** C84.  The design names two approaches that exclude each other: the text names the first such pair. *)
Lemma c84_conflict : HashOk E -> ZeroAddressOk E -> UniOk E -> forall repr a l d lo la before x y after,
  ns_inputs a = Some (PList l) -> ns_design a = Some (PDict d) -> entry "outputs" d = Some (PList lo) -> all_pass (checks_before_fees l d lo) ->
  all_pass (fee_checks (entry "fee" d) (entry "fee_rate" d)) ->
  entry "input_selection_approaches" d = Some (PList la) -> (forall v, In v la -> exists n, v = PStr n /\ In n approach_names) -> ~ In (PStr (lit "all")) la ->
  conflicting = before ++ (x, y) :: after -> In (PStr (lit x)) la -> In (PStr (lit y)) la ->
  Forall (fun p => ~ (In (PStr (lit (fst p))) la /\ In (PStr (lit (snd p))) la)) before ->
  create_transaction_says repr a = ([repr (PList la)], Raised ValueError (Some (conflict_text x y))).
Proof.
  intros HH HZ HU repr a l d lo la before x y after NI ND GO PA PF GA KN NA CF IX IY NB. destruct (before_fees HH HZ HU repr a l d lo NI ND GO PA) as (f1 & AF & ->).
  destruct (checked_pass _ _ _ (fees_ck HU _ _ _ AF) PF) as ([] & VF).
  assert (FEE : says_fees (oget f1) (oget (adjusted_rate (entry "fee_rate" d))) = quiet (Ok tt)).
  { unfold validate_fees in VF. unfold says_fees. destruct (_ || _); [discriminate|]. rewrite VF. reflexivity. }
  rewrite FEE, bind_ok, GA. cbn [oget]. unfold says_approaches. assert (T : truthy (PList la) = true) by (destruct la; [destruct IX|reflexivity]). rewrite T. cbn [negb]. rewrite bind_say, !bind_pre.
  cbn [validate_list bind as_list]. rewrite bind_ok.
  assert (EX : existsb (fun v => negb (existsb (py_eq_str v) available_approaches)) la = false).
  { destruct (existsb _ la) eqn:X; auto. apply existsb_exists in X as (v & I & X). rewrite (proj2 (known_iff v)) in X by auto. discriminate. }
  rewrite EX. assert (AL : in_approaches "all" la = false) by (apply not_true_is_false; rewrite in_approaches_iff; auto). rewrite AL. cbn [andb].
  change [("largest_first", "smallest_first"); ("any_address", "one_address_at_a_time"); ("largest_address_first", "smallest_address_first")]%string with conflicting. rewrite CF, conflicts_says, !bind_raise; [reflexivity| |].
  - eapply Forall_impl; [|exact NB]. intros [u v] N. cbn [fst snd] in *. rewrite <- !in_approaches_iff in N. destruct (in_approaches u la), (in_approaches v la); auto. elim N. auto.
  - rewrite !(proj2 (in_approaches_iff _ _)) by auto. reflexivity.
Qed.

End WithEnv.

(** Hypotheses met: the request of C35, its plan, and lines of its report. *)
Lemma demo_plan : plan demo_order (rev demo_iargs) [mk_oarg addr1 90000; mk_oarg addr3 50100000] 10000 90000.
Proof.
  split; [cbn; lia|]. split; [cbn; lia|]. split; [cbn; lia|]. split; [repeat constructor|]. split; [split; [reflexivity|vm_compute; discriminate]|].
  split; [intros _; constructor; [intros []|constructor]|]. split; [reflexivity|]. split; [cbn; lia|]. split; [vm_compute; discriminate|].
  split; [exists (rev demo_iargs); split; [exact demo_sorted|]; right; split; [discriminate|]; split; [vm_compute; discriminate|]; exists [mk_iarg addr1 (repeat 205 32) 1 50000000], (mk_iarg addr2 (repeat 171 32) 7 200000), []; split; [reflexivity|]; split; [reflexivity|]; split; [right; reflexivity|vm_compute; discriminate]|].
  split; [right; left; split; [vm_compute; discriminate|]; split; [intros o [<-|[]]; vm_compute; discriminate|]; split; reflexivity|].
  exists 50200000. split; [apply spend_limit_iff; [split; vm_compute; discriminate|vm_compute; reflexivity]|]. split; [split; [reflexivity|vm_compute; discriminate]|vm_compute; discriminate].
Qed.
Example ex83_report : forall repr, exists t, @tx_of demo_env (rev demo_iargs) [mk_oarg addr1 90000; mk_oarg addr3 50100000] addr1 t /\
  exists log, @create_transaction_says demo_env repr demo_ns = (log, Done t) /\ In (lit "Change amount: 0.00090000 bitcoin (90000 satoshi)") log.
Proof.
  intros repr. destruct (@texts_exist demo_env demo_uni repr demo_ns demo_order demo_asked) as (ta & tb & mf & TX).
  destruct (@c83_report demo_env demo_hash demo_zero_address demo_uni repr demo_ns demo_order ta tb mf (rev demo_iargs) 10000 (rev demo_iargs) [mk_oarg addr1 90000; mk_oarg addr3 50100000] 90000 50200000 demo_asked TX demo_plan demo_sorted) as (t & T & ->).
  { apply spend_limit_iff; [split; vm_compute; discriminate|vm_compute; reflexivity]. }
  exists t. split; [exact T|]. eexists. split; [reflexivity|]. unfold whole_report, until_spent. apply in_or_app. left. apply in_or_app. right. apply in_or_app. left.
  unfold change_part. apply in_or_app. right. left. vm_compute. reflexivity.
Qed.
Example ex83_comparison : forall repr, In (lit "Total available input value is less than or equal to total output value.") (fst (@create_transaction_says demo_env repr demo_ns)) /\
  (out_value (q_outputs demo_order), in_value (q_inputs demo_order)) = (50100000, 50200000).
Proof. intros repr. split; [|vm_compute; reflexivity]. eapply (@c83_comparison_refuted demo_env demo_hash demo_zero_address demo_uni repr _ _ _ _ _ _ demo_asked demo_plan). lia. Qed.
Example ex83_selected : forall repr a, a = request demo_inputs [demo_output addr3 (lit "0.50190000")] (fixed 10000) 250000 (lit "100.00") None None ->
  In (lit "Selected inputs: 0") (fst (@create_transaction_says demo_env repr a)).
Proof.
  intros repr a ->. refine (proj2 (proj2 (@c83_selected_refuted demo_env demo_hash demo_zero_address demo_uni repr _ (order_of demo_iargs [mk_oarg addr3 50190000] (FixedFee 10000) 250000 hundred) (rev demo_iargs) [mk_oarg addr3 50190000] 10000 0 _ _ _))).
  - apply fixed_request; try lia; [exact demo_inputs_ok|apply out3; vm_compute; reflexivity].
  - split; [cbn; lia|]. split; [cbn; lia|]. split; [cbn; lia|]. split; [repeat constructor|]. split; [split; [reflexivity|vm_compute; discriminate]|].
    split; [intros _; constructor; [intros []|constructor]|]. split; [reflexivity|]. split; [cbn; lia|]. split; [vm_compute; discriminate|].
    split; [exists (rev demo_iargs); split; [exact demo_sorted|]; left; split; [right; reflexivity|reflexivity]|].
    split; [left; split; [reflexivity|split; reflexivity]|].
    exists 50200000. split; [apply spend_limit_iff; [split; vm_compute; discriminate|vm_compute; reflexivity]|]. split; [split; [reflexivity|vm_compute; discriminate]|vm_compute; discriminate].
  - reflexivity.
Qed.
Example ex84_duplicate : forall repr, exists log, @create_transaction_says demo_env repr repeated =
  (log, Raised DuplicateOutputAddressError (Some (lit "Multiple outputs (2) send to this address: " ++ addr3))).
Proof.
  intros repr. destruct (@texts_exist demo_env demo_uni repr _ _ repeated_asked) as (ta & tb & mf & TX). eexists.
  rewrite (@c84_duplicate demo_env demo_hash demo_zero_address demo_uni repr _ _ ta tb mf (rev demo_iargs) [] (mk_oarg addr3 10000000) [mk_oarg addr3 20000000] repeated_asked TX demo_sorted); try reflexivity.
  - repeat constructor. - vm_compute. discriminate. - vm_compute. discriminate. - intros o' []. - vm_compute. lia.
Qed.
Example ex84_fee : forall repr a, a = request demo_inputs [demo_output addr3 (lit "0.501")] (fixed 10000) 9999 (lit "100.00") None None ->
  exists log mf, @create_transaction_says demo_env repr a = (log, Raised ValueError (Some (lit "The fee (10000 satoshi) is greater than the specified maximum fee (" ++ mf ++ lit " satoshi)."))).
Proof.
  intros repr a ->.
  assert (A : @asked demo_env (request demo_inputs [demo_output addr3 (lit "0.501")] (fixed 10000) 9999 (lit "100.00") None None) (order_of demo_iargs [mk_oarg addr3 50100000] (FixedFee 10000) 9999 hundred)).
  { apply fixed_request; try lia; [exact demo_inputs_ok|apply out3; vm_compute; reflexivity]. }
  destruct (@texts_exist demo_env demo_uni repr _ _ A) as (ta & tb & mf & TX). eexists. exists mf.
  rewrite (@c84_fee demo_env demo_hash demo_zero_address demo_uni repr _ _ ta tb mf (rev demo_iargs) 10000 A TX demo_sorted); try reflexivity.
  - apply ready_one; unfold max_money; cbn [oa_value]; lia. - unfold max_money; lia.
Qed.
Example ex84_outputs : forall repr a, a = request demo_inputs [demo_output addr3 (lit "0.50200001")] (fixed 10000) 250000 (lit "100.00") None None ->
  exists log, @create_transaction_says demo_env repr a = (log, Raised OutputValueNotCovered (Some (lines
    [lit "Total available input value is less than total output value."; lit "- Shortfall: 0.00000001 bitcoin (1 satoshi)"]))).
Proof.
  intros repr a ->.
  assert (A : @asked demo_env (request demo_inputs [demo_output addr3 (lit "0.50200001")] (fixed 10000) 250000 (lit "100.00") None None) (order_of demo_iargs [mk_oarg addr3 50200001] (FixedFee 10000) 250000 hundred)).
  { apply fixed_request; try lia; [exact demo_inputs_ok|apply out3; vm_compute; reflexivity]. }
  destruct (@texts_exist demo_env demo_uni repr _ _ A) as (ta & tb & mf & TX). eexists.
  rewrite (@c84_outputs demo_env demo_hash demo_zero_address demo_uni repr _ _ ta tb mf (rev demo_iargs) 10000 A TX demo_sorted); try reflexivity.
  - apply ready_one; unfold max_money; cbn [oa_value]; lia. - cbn; lia. - unfold max_money; lia.
Qed.
Example ex84_outputs_and_fee : forall repr a, a = request demo_inputs [demo_output addr3 (lit "0.50190001")] (fixed 10000) 250000 (lit "100.00") None None ->
  exists log, @create_transaction_says demo_env repr a = (log, Raised OutputAndFeeValueNotCovered (Some (lines
    [lit "Total available input value is less than total output + fee value."; lit "- Shortfall: 0.00000001 bitcoin (1 satoshi)"]))).
Proof.
  intros repr a ->.
  assert (A : @asked demo_env (request demo_inputs [demo_output addr3 (lit "0.50190001")] (fixed 10000) 250000 (lit "100.00") None None) (order_of demo_iargs [mk_oarg addr3 50190001] (FixedFee 10000) 250000 hundred)).
  { apply fixed_request; try lia; [exact demo_inputs_ok|apply out3; vm_compute; reflexivity]. }
  destruct (@texts_exist demo_env demo_uni repr _ _ A) as (ta & tb & mf & TX). eexists.
  rewrite (@c84_outputs_and_fee demo_env demo_hash demo_zero_address demo_uni repr _ _ ta tb mf (rev demo_iargs) 10000 A TX demo_sorted); try reflexivity.
  - apply ready_one; unfold max_money; cbn [oa_value]; lia. - cbn; lia. - split; [vm_compute; discriminate|reflexivity]. - vm_compute; discriminate.
Qed.
Example ex84_change : forall repr, exists log, @create_transaction_says demo_env repr ambiguous =
  (log, Raised ValueError (Some (lit "Multiple outputs (2) send to the change address: " ++ addr1))).
Proof.
  intros repr. destruct (@texts_exist demo_env demo_uni repr _ _ ambiguous_asked) as (ta & tb & mf & TX). eexists.
  apply (@c84_change demo_env demo_hash demo_zero_address demo_uni repr _ _ ta tb mf (rev demo_iargs) 10000 [mk_iarg addr1 (repeat 205 32) 1 50000000] ambiguous_asked TX demo_sorted).
  - split; [cbn; lia|]. split; [cbn; lia|]. split; [repeat constructor|]. split; [vm_compute; discriminate|]. split; [vm_compute; discriminate|]. intros Q. discriminate.
  - reflexivity. - cbn; lia. - vm_compute. discriminate.
  - right. split; [discriminate|]. split; [vm_compute; discriminate|]. exists [], (mk_iarg addr1 (repeat 205 32) 1 50000000), [mk_iarg addr2 (repeat 171 32) 7 200000].
    split; [reflexivity|]. split; [reflexivity|]. split; [left; reflexivity|]. vm_compute. discriminate.
  - vm_compute. discriminate. - vm_compute. lia. - reflexivity.
Qed.
Example ex84_spend : forall repr, exists log, @create_transaction_says demo_env repr half =
  (log, Raised ValueError (Some (lit "Spend amount (0.50110000 bitcoin) is greater than the maximum permitted spend amount (0.25100000 bitcoin). To spend this amount, you will need to increase the --max-spend-percentage value from 50 to 100."))).
Proof.
  intros repr. destruct (@texts_exist demo_env demo_uni repr _ _ half_asked) as (ta & tb & mf & TX).
  pose proof demo_plan as (L1 & L2 & L3 & IX & TI & ND & FD & F0 & TT & (s & SF & CH) & SP & _).
  assert (s = rev demo_iargs) by (rewrite (sorted_for_unique _ _ _ SF), (sorted_for_unique _ _ _ demo_sorted); reflexivity). subst s.
  destruct (@c84_spend demo_env demo_hash demo_zero_address demo_uni repr _ _ ta tb mf (rev demo_iargs) 10000 (rev demo_iargs) [mk_oarg addr1 90000; mk_oarg addr3 50100000] 90000 25100000 half_asked TX demo_sorted) as (adv & AD & ->); auto.
  - apply ready_one; unfold max_money; cbn [oa_value]; lia.
  - reflexivity.
  - apply spend_limit_iff; [split; vm_compute; discriminate|vm_compute; reflexivity].
  - split; [lia|reflexivity].
  - eexists. f_equal. f_equal. f_equal. assert (adv = 100) as ->.
    { unfold advised in AD. apply py_trunc_iff in AD. match type of AD with ?l = _ => assert (PT : l = Ok 99) by (vm_compute; reflexivity) end. rewrite PT in AD. injection AD as AD. lia. }
    unfold spend_text. rewrite <- fixed_ok by reflexivity. vm_compute. reflexivity.
Qed.
Lemma before_demo : forall d, all_pass [@number_entry demo_env "fee" d; @number_entry demo_env "max_fee" d] ->
  (forall k, In k (map lit ["change_address"; "max_fee"; "max_spend_percentage"; "outputs"]%string) -> In k (map fst d)) ->
  Forall (fun k => entry k d = entry k no_fee_design) ["change_address"; "max_fee"; "max_spend_percentage"; "outputs"]%string ->
  all_pass (@checks_before_fees demo_env demo_inputs d [demo_output addr3 (lit "0.501")]).
Proof.
  intros d H K O. assert (A : all_pass (@argument_checks demo_env demo_ns)).
  { apply (@asked_pass demo_env demo_hash demo_zero_address demo_uni demo_ns demo_order demo_asked). repeat constructor. }
  unfold argument_checks, demo_ns in A. cbn [ns_inputs ns_design] in A. unfold all_pass in *. rewrite !Forall_app in A. destruct A as (_ & A2 & A3 & A4 & A5 & _).
  unfold checks_before_fees. rewrite !Forall_app. split; [exact H|]. split; [exact A2|]. split; [exact A3|]. split; [|exact A5].
  inversion O as [|? ? O1 OT]; subst. inversion OT as [|? ? O2 OU]; subst. inversion OU as [|? ? O3 OV]; subst. inversion OV as [|? ? O4 _]; subst.
  unfold design_checks, percentage in *. rewrite O1, O2, O3, O4. inversion A4 as [|? ? _ B]; subst. constructor; [exact K|exact B].
Qed.
Example ex84_fee_choice : forall repr, @create_transaction_says demo_env repr no_fee_ns = ([], Raised ValueError (Some fee_choice_text)).
Proof.
  intros repr. apply (@c84_fee_choice demo_env demo_hash demo_zero_address demo_uni repr no_fee_ns demo_inputs no_fee_design [demo_output addr3 (lit "0.501")]); try reflexivity.
  - apply before_demo.
    + constructor; [intros s H; discriminate|]. constructor; [intros s H; discriminate|constructor].
    + intros k H. cbn [map In fst no_fee_design] in H |- *. tauto.
    + repeat constructor.
  - right. split; left; reflexivity.
Qed.
Example ex84_conflict : forall repr, exists log, @create_transaction_says demo_env repr conflict_ns =
  (log, Raised ValueError (Some (lit "In the input selection approach list, cannot use both 'any_address' and 'one_address_at_a_time' together."))).
Proof.
  intros repr. eexists. erewrite (@c84_conflict demo_env demo_hash demo_zero_address demo_uni repr conflict_ns demo_inputs conflict_design [demo_output addr3 (lit "0.501")]
    [PStr (lit "one_address_at_a_time"); PStr (lit "any_address")] [("largest_first", "smallest_first")]%string "any_address" "one_address_at_a_time" [("largest_address_first", "smallest_address_first")]%string); try reflexivity.
  - apply before_demo.
    + constructor; [intros s H; discriminate|]. constructor; [intros s H; discriminate|constructor].
    + intros k H. cbn [map In fst conflict_design] in H |- *. tauto.
    + repeat constructor.
  - assert (A : all_pass (@argument_checks demo_env demo_ns)).
    { apply (@asked_pass demo_env demo_hash demo_zero_address demo_uni demo_ns demo_order demo_asked). repeat constructor. }
    unfold argument_checks, demo_ns in A. cbn [ns_inputs ns_design] in A. unfold all_pass in *. rewrite !Forall_app in A. apply A.
  - intros v [<-|[<-|[]]]; eexists; (split; [reflexivity|]); cbn; tauto.
  - intros [H|[H|[]]]; discriminate.
  - right. left. reflexivity.
  - left. reflexivity.
  - constructor; [|constructor]. intros [[H|[H|[]]] _]; discriminate.
Qed.
