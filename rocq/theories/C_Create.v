(** C35-C48, C52: create_transaction. *)
From Coq Require Import String Floats.SpecFloat Permutation Sorted Reals Lra Lia.
From Verif Require Import PyBase Env PyNum Validate Basic Spec EnvOk TxInput TxOutput Tx Create TxSpec SignSpec FloatSpec NumSpec CreateSpec Demo DemoTx DemoCreate.
From Verif Require Import NumLemmas HexProofs Base58Proofs AddrProofs FloatProofs RateProofs AmountProofs ScriptProofs WireProofs MakeProofs NumProofs PrepProofs DesignProofs BuildProofs CreateProofs DemoProofs DemoTxProofs DemoCreateProofs.
Open Scope Z_scope.

Section WithEnv.
Context {E : Env}.

(** C35.  create_transaction returns t exactly when its argument describes a request q and t is the transaction of a plan
    for q (CreateSpec.v). *)
Lemma c35_created_iff : HashOk E -> ZeroAddressOk E -> UniOk E -> forall a t,
  fst (create_transaction a) = Ok t <->
  exists q sel outs f chg, asked a q /\ plan q sel outs f chg /\ tx_of sel outs (q_change_address q) t.
Proof. exact create_iff. Qed.

(** C35.  An argument object describes at most one request. *)
Lemma c35_request_unique : UniOk E -> forall a q q', asked a q -> asked a q' -> q = q'.
Proof. exact asked_fun. Qed.

Lemma created_plan : HashOk E -> ZeroAddressOk E -> UniOk E -> forall a q t, asked a q -> fst (create_transaction a) = Ok t ->
  exists sel outs f chg, plan q sel outs f chg /\ tx_of sel outs (q_change_address q) t.
Proof.
  intros HH HZ HU a q t A H. apply (create_iff HH HZ HU) in H as (q' & sel & outs & f & chg & A' & PL & TX).
  rewrite (asked_fun HU _ _ _ A A'). eauto 6.
Qed.

Lemma tx_of_totals : forall sel outs ca t, tx_of sel outs ca t ->
  total_input t = Some (in_value sel) /\ total_output t = out_value outs /\ fee t = Some (in_value sel - out_value outs).
Proof.
  intros sel outs ca t (ins & os & FI & FO & ->).
  assert (TI : total_input (mk_tx (hex_of (le_bytes 4 1)) (hex_of [Z.of_nat (length ins)]) ins (hex_of [Z.of_nat (length os)]) os (hex_of (le_bytes 4 0)) (hex_of (le_bytes 4 1)) (hex_of [1]) (Some ca)) = Some (in_value sel)).
  { unfold total_input, input_values_known. cbn [tx_inputs]. assert (K : forallb (fun x => match ti_satoshi_amount x with Some _ => true | None => false end) ins = true).
    { apply forallb_forall. intros x I. clear - FI I. induction FI as [|i y l ys M FI IH]; [destruct I|]. destruct I as [<-|I]; auto. rewrite (imade_known _ _ M). auto. }
    rewrite K. cbn [negb]. f_equal. apply in_value_made. auto. }
  assert (TO : total_output (mk_tx (hex_of (le_bytes 4 1)) (hex_of [Z.of_nat (length ins)]) ins (hex_of [Z.of_nat (length os)]) os (hex_of (le_bytes 4 0)) (hex_of (le_bytes 4 1)) (hex_of [1]) (Some ca)) = out_value outs).
  { unfold total_output. cbn [tx_outputs]. apply out_value_made. auto. }
  split; auto. split; auto. unfold fee. rewrite TI, TO. auto.
Qed.

Lemma chosen_values : forall ap target l sel, chosen ap target l sel -> Forall (fun i => 0 <= ia_value i) l -> 0 <= target <= in_value l -> target <= in_value sel <= in_value l.
Proof.
  intros ap target l sel C F T. apply chosen_iff in C; auto. subst. destruct (Z.eqb_spec (in_value l) target); [lia|]. split.
  - apply iselect_reach; auto. - apply iselect_value; auto.
Qed.
Lemma sorted_for_facts : forall ap l s, sorted_for ap l s -> Forall (fun i => 0 <= ia_value i) l -> in_value s = in_value l /\ Forall (fun i => 0 <= ia_value i) s.
Proof. intros ap l s (P & _) F. split; [symmetry; apply Zsum_perm, Permutation_map; auto|]. eapply Permutation_Forall; eauto. Qed.

Lemma plan_facts : forall q sel outs f chg, wf q -> plan q sel outs f chg ->
  out_value (q_outputs q) + f <= in_value sel <= in_value (q_inputs q) /\ in_value sel = out_value outs + f /\ 0 <= chg <= out_value outs.
Proof.
  intros q sel outs f chg W (L1 & L2 & L3 & IX & TI & ND & FD & F & TT & (s & SF & SC) & SP & _).
  pose proof (wf_values q W) as [VI VO]. destruct (sorted_for_facts _ _ _ SF VI) as [SV VS]. pose proof (out_value_nonneg _ VO).
  pose proof (chosen_values _ _ _ _ SC VS ltac:(lia)). destruct (surplus_value _ _ _ _ _ _ SP VO ltac:(lia)) as (A & B & _). lia.
Qed.

(** C35.  Value is conserved: what the transaction spends is what it pays plus the fee, and the fee is the requested one. *)
Lemma c35_value_conservation : HashOk E -> ZeroAddressOk E -> UniOk E -> forall a q t,
  asked a q -> fst (create_transaction a) = Ok t ->
  exists f, fee_due q f /\ fee t = Some f /\ total_input t = Some (total_output t + f).
Proof.
  intros HH HZ HU a q t A H. destruct (created_plan HH HZ HU _ _ _ A H) as (sel & outs & f & chg & PL & TX).
  destruct (plan_facts _ _ _ _ _ (asked_wf HU _ _ A) PL) as (_ & EQ & _). destruct (tx_of_totals _ _ _ _ TX) as (T1 & T2 & T3).
  exists f. split; [apply PL|]. rewrite T1, T2, T3. split; f_equal; lia.
Qed.

(** C36.  The fee never exceeds max_fee. *)
Lemma c36_fee_limit : HashOk E -> ZeroAddressOk E -> UniOk E -> forall a q t,
  asked a q -> fst (create_transaction a) = Ok t -> exists f, fee t = Some f /\ 0 <= f <= q_max_fee q.
Proof.
  intros HH HZ HU a q t A H. destruct (created_plan HH HZ HU _ _ _ A H) as (sel & outs & f & chg & PL & TX).
  destruct (plan_facts _ _ _ _ _ (asked_wf HU _ _ A) PL) as (_ & EQ & _). destruct (tx_of_totals _ _ _ _ TX) as (T1 & T2 & T3).
  exists f. split; [rewrite T3; f_equal; lia|apply PL].
Qed.

(** C36.  A request that passes the earlier checks and whose fee exceeds max_fee is refused. *)
Lemma c36_fee_too_high : HashOk E -> ZeroAddressOk E -> UniOk E -> forall a q f,
  asked a q -> ready q -> fee_due q f -> f <= max_money -> q_max_fee q < f -> fst (create_transaction a) = Err ValueError.
Proof. exact err_fee. Qed.

(** C37.  The transaction as bytes: it spends the outpoints of sel and pays outs, and nothing else (so the theorems about
    signing, verifying and serialising apply to every created transaction). *)
Lemma c37_wire : HashOk E -> ZeroAddressOk E -> UniOk E -> forall a q t,
  asked a q -> fst (create_transaction a) = Ok t ->
  exists sel outs f chg ws, plan q sel outs f chg /\
    Forall2 (fun o w => exists h, is_address h (oa_address o) /\ w = mk_soutput (oa_value o) (p2pkh h)) outs ws /\
    tx_body t (map (fun i => mk_sinput (ia_txid i) (ia_index i) []) sel) ws /\
    Forall in_unsigned (tx_inputs t) /\ Forall2 (fun i x => in_worth x (ia_value i)) sel (tx_inputs t).
Proof.
  intros HH HZ HU a q t A H. destruct (created_plan HH HZ HU _ _ _ A H) as (sel & outs & f & chg & PL & TX).
  destruct TX as (ins & os & FI & FO & ->).
  assert (W : exists ws, Forall2 (fun o w => exists h, is_address h (oa_address o) /\ w = mk_soutput (oa_value o) (p2pkh h)) outs ws /\ Forall2 out_wire os ws).
  { clear - FO. induction FO as [|o y l ys M FO IH]; [exists []; split; constructor|]. destruct IH as (ws & I1 & I2).
    destruct (made_output_facts _ _ _ M) as (h & IA & OP & _). exists (mk_soutput (oa_value o) (p2pkh h) :: ws). split; constructor; eauto. }
  destruct W as (ws & W1 & W2). exists sel, outs, f, chg, ws. split; auto. split; auto. cbn [tx_inputs].
  assert (LI : length ins = length sel) by (symmetry; eapply F2_len; eauto). assert (LO : length os = length outs) by (symmetry; eapply F2_len; eauto).
  assert (LS : (length sel <= length (q_inputs q))%nat).
  { destruct PL as (_ & _ & _ & _ & _ & _ & _ & F & TT & (s & SF & SC) & _). pose proof (wf_values q (asked_wf HU _ _ A)) as [VI VO]. destruct (sorted_for_facts _ _ _ SF VI) as [SV VS].
    pose proof (out_value_nonneg _ VO). apply chosen_iff in SC; auto; [|lia]. subst sel. assert (L : length s = length (q_inputs q)) by (symmetry; apply Permutation_length, SF).
    destruct (_ =? _); [lia|]. rewrite <- L. apply iselect_length. }
  destruct PL as (L1 & L2 & L3 & _). split; [|split].
  - split; [|split; [|split]]; cbn [tx_inputs tx_outputs]; auto.
    + repeat split; cbn; lia.
    + clear - FI. induction FI as [|i x l xs M FI IH]; cbn [map]; constructor; auto. destruct (made_input_facts _ _ _ _ _ M) as [(idx & h & I & O & _) _].
      injection I as <-. exact O.
    + clear - FI. induction FI as [|i x l xs M FI IH]; constructor; auto. destruct (made_input_facts _ _ _ _ _ M) as [(idx & h & I & O & _ & OW) _]. eauto.
  - clear - FI. induction FI as [|i x l xs M FI IH]; constructor; auto. apply (made_input_facts _ _ _ _ _ M).
  - clear - FI. induction FI as [|i x l xs M FI IH]; constructor; auto. apply (made_input_facts _ _ _ _ _ M).
Qed.

Lemma pays_self : forall ca o, oa_address o = ca -> pays ca o = true.
Proof. intros ca o <-. apply str_eqb_refl. Qed.
Lemma surplus_others : forall ca idx outs surplus outs' chg, surplus_paid ca idx outs surplus outs' chg ->
  filter (fun o => negb (pays ca o)) outs' = filter (fun o => negb (pays ca o)) outs.
Proof.
  intros ca idx outs surplus outs' chg [(_ & -> & _)|[(_ & _ & -> & _)|(_ & pre & o & post & -> & A & -> & _)]]; auto.
  - cbn [filter]. unfold pays at 1. cbn [oa_address]. rewrite str_eqb_refl. auto.
  - rewrite !filter_app. cbn [filter]. rewrite (pays_self ca o A), (pays_self ca (mk_oarg ca (oa_value o + surplus)) eq_refl). auto.
Qed.
Lemma surplus_mine : forall ca idx outs surplus outs' chg, surplus_paid ca idx outs surplus outs' chg ->
  out_value (filter (pays ca) outs') = out_value (filter (pays ca) outs) + surplus.
Proof.
  intros ca idx outs surplus outs' chg [(-> & -> & _)|[(_ & _ & -> & _)|(_ & pre & o & post & -> & A & -> & _)]]; [lia| |].
  - cbn [filter]. unfold pays at 1. cbn [oa_address]. rewrite str_eqb_refl. rewrite out_value_cons. cbn [oa_value]. lia.
  - rewrite !filter_app. cbn [filter]. rewrite (pays_self ca o A), (pays_self ca (mk_oarg ca (oa_value o + surplus)) eq_refl). rewrite !out_value_app, !out_value_cons. cbn [oa_value]. lia.
Qed.

(** C37.  The payments to addresses other than the change address are exactly those asked for, in order and amount; the
    change address receives, beyond what was asked for, exactly the surplus of the selected inputs over payments and fee. *)
Lemma c37_payments : HashOk E -> ZeroAddressOk E -> UniOk E -> forall a q t,
  asked a q -> fst (create_transaction a) = Ok t ->
  exists f surplus, fee t = Some f /\ 0 <= surplus /\ total_input t = Some (out_value (q_outputs q) + f + surplus) /\
    map (fun y => mk_oarg (to_address y) (to_satoshi_amount y)) (filter (fun y => negb (str_eqb (to_address y) (q_change_address q))) (tx_outputs t))
      = filter (fun o => negb (str_eqb (oa_address o) (q_change_address q))) (q_outputs q) /\
    Zsum (map to_satoshi_amount (filter (fun y => str_eqb (to_address y) (q_change_address q)) (tx_outputs t)))
      = out_value (filter (fun o => str_eqb (oa_address o) (q_change_address q)) (q_outputs q)) + surplus.
Proof.
  intros HH HZ HU a q t A H. destruct (created_plan HH HZ HU _ _ _ A H) as (sel & outs & f & chg & PL & TX).
  destruct (plan_facts _ _ _ _ _ (asked_wf HU _ _ A) PL) as (R & EQ & _). destruct (tx_of_totals _ _ _ _ TX) as (T1 & T2 & T3).
  exists f, (in_value sel - (out_value (q_outputs q) + f)). split; [rewrite T3; f_equal; lia|]. split; [lia|]. split; [rewrite T1; f_equal; lia|].
  destruct PL as (_ & _ & _ & _ & _ & _ & _ & _ & _ & _ & SP & _). pose proof (surplus_others _ _ _ _ _ _ SP) as O1. pose proof (surplus_mine _ _ _ _ _ _ SP) as O2.
  destruct TX as (ins & os & FI & FO & ->). cbn [tx_outputs].
  split.
  - etransitivity; [|exact O1]. clear - FO. induction FO as [|o y l ys M FO IH]; auto. cbn [filter]. unfold pays at 1. rewrite <- (omade_address _ _ M).
    destruct (str_eqb _ _); cbn [negb map]; auto. rewrite IH. f_equal. rewrite <- (omade_address _ _ M), <- (omade_sat _ _ M). destruct o; auto.
  - etransitivity; [|exact O2]. clear - FO. unfold out_value. f_equal. induction FO as [|o y l ys M FO IH]; auto. cbn [filter]. unfold pays at 1. rewrite <- (omade_address _ _ M).
    destruct (str_eqb _ _); auto. cbn [map]. rewrite IH. f_equal. symmetry. apply (omade_sat _ _ M).
Qed.

(** C37.  Where the surplus goes: one output, among those paying the change address. *)
Lemma c37_change_output : HashOk E -> ZeroAddressOk E -> UniOk E -> forall a q t,
  asked a q -> fst (create_transaction a) = Ok t ->
  exists outs surplus chg, surplus_paid (q_change_address q) (q_change_index q) (q_outputs q) surplus outs chg /\
    Forall2 (fun o y => made_output (oa_address o) (oa_value o) y) outs (tx_outputs t) /\
    exists f, fee t = Some f /\ total_input t = Some (out_value (q_outputs q) + f + surplus).
Proof.
  intros HH HZ HU a q t A H. destruct (created_plan HH HZ HU _ _ _ A H) as (sel & outs & f & chg & PL & TX).
  destruct (plan_facts _ _ _ _ _ (asked_wf HU _ _ A) PL) as (R & EQ & _). destruct (tx_of_totals _ _ _ _ TX) as (T1 & T2 & T3).
  exists outs, (in_value sel - (out_value (q_outputs q) + f)), chg. split; [apply PL|]. split; [destruct TX as (ins & os & FI & FO & ->); exact FO|].
  exists f. split; [rewrite T3; f_equal; lia|rewrite T1; f_equal; lia].
Qed.

(** C37.  Several outputs pay the change address, there is a surplus, and change_output_index is missing or too large: refused. *)
Lemma c37_ambiguous_change : HashOk E -> ZeroAddressOk E -> UniOk E -> forall a q f s sel,
  asked a q -> ready q -> fee_due q f -> 0 <= f <= q_max_fee q -> out_value (q_outputs q) + f <= in_value (q_inputs q) ->
  sorted_for (q_approach q) (q_inputs q) s -> chosen (q_approach q) (out_value (q_outputs q) + f) s sel ->
  in_value sel <> out_value (q_outputs q) + f ->
  (1 < length (filter (pays (q_change_address q)) (q_outputs q)))%nat ->
  (q_change_index q = PNone \/ exists z, whole (q_change_index q) z /\ Z.of_nat (length (filter (pays (q_change_address q)) (q_outputs q))) <= z) ->
  fst (create_transaction a) = Err ValueError.
Proof. exact err_change. Qed.

(** C38.  The inputs spent: an initial segment of the available inputs, sorted by value with ties in the given order. *)
Lemma c38_selection : HashOk E -> ZeroAddressOk E -> UniOk E -> forall a q t,
  asked a q -> fst (create_transaction a) = Ok t ->
  exists s sel f, fee t = Some f /\ sorted_for (q_approach q) (q_inputs q) s /\
    chosen (q_approach q) (out_value (q_outputs q) + f) s sel /\
    Forall2 (fun i x => ti_txid x = hex_of (ia_txid i) /\ as_int (ti_previous_output_index_int x) = Some (ia_index i) /\
                        ti_address x = ia_address i /\ ti_satoshi_amount x = Some (ia_value i)) sel (tx_inputs t).
Proof.
  intros HH HZ HU a q t A H. destruct (created_plan HH HZ HU _ _ _ A H) as (sel & outs & f & chg & PL & TX).
  destruct (plan_facts _ _ _ _ _ (asked_wf HU _ _ A) PL) as (R & EQ & _). destruct (tx_of_totals _ _ _ _ TX) as (T1 & T2 & T3).
  destruct PL as (_ & _ & _ & _ & _ & _ & _ & _ & _ & (s & SF & SC) & _). exists s, sel, f. split; [rewrite T3; f_equal; lia|]. split; auto. split; auto.
  destruct TX as (ins & os & FI & _ & ->). cbn [tx_inputs]. eapply F2_impl; [|exact FI].
  intros i x (h & idx & st & _ & _ & _ & I & _ & _ & _ & ->). cbn in *. auto.
Qed.

(** C38.  A sorted order exists and is unique. *)
Lemma c38_sorted_unique : forall ap l, exists s, sorted_for ap l s /\ forall s', sorted_for ap l s' -> s' = s.
Proof.
  intros ap l. exists (isort ap l). split; [apply isort_for|]. intros s' H. apply sorted_for_unique. auto.
Qed.

(** C38.  'all' spends every available input. *)
Lemma c38_all : HashOk E -> ZeroAddressOk E -> UniOk E -> forall a q t,
  asked a q -> q_approach q = All -> fst (create_transaction a) = Ok t ->
  Permutation (map (fun i => (hex_of (ia_txid i), Some (ia_index i))) (q_inputs q))
              (map (fun x => (ti_txid x, as_int (ti_previous_output_index_int x))) (tx_inputs t)).
Proof.
  intros HH HZ HU a q t A AL H. destruct (c38_selection HH HZ HU a q t A H) as (s & sel & f & _ & SF & SC & FI).
  assert (sel = s) by (destruct SC as [[_ SC]|(N & _)]; congruence). subst sel.
  rewrite (Permutation_map _ (proj1 SF)). apply Permutation_refl'. eapply F2_map; [exact FI|]. intros i x (-> & -> & _). auto.
Qed.

(** C39.  largest_first spends as few inputs as possible: any collection of available inputs that covers payments and fee
    has at least as many members, unless the available inputs match them exactly. *)
Lemma c39_fewest_inputs : HashOk E -> ZeroAddressOk E -> UniOk E -> forall a q t f,
  asked a q -> q_approach q = LargestFirst -> fst (create_transaction a) = Ok t -> fee t = Some f ->
  0 < out_value (q_outputs q) + f < in_value (q_inputs q) ->
  forall some others, Permutation (some ++ others) (q_inputs q) -> out_value (q_outputs q) + f <= in_value some ->
  (length (tx_inputs t) <= length some)%nat.
Proof.
  assert (TOP : forall s, StronglySorted (in_order LargestFirst) s -> forall some others, Permutation (some ++ others) s ->
    in_value some <= in_value (firstn (length some) s)).
  { induction 1 as [|x s HS IH HF]; intros some others P.
    - apply Permutation_sym, Permutation_nil in P. destruct some; [|discriminate]. cbn. lia.
    - destruct some as [|y some]; [cbn; lia|]. cbn [length firstn]. rewrite (in_value_cons x).
      assert (IX : In x ((y :: some) ++ others)) by (eapply Permutation_in; [apply Permutation_sym; eauto|left; auto]).
      apply in_app_or in IX as [IX|IX].
      + (* x is among them: remove it *)
        apply in_split in IX as (l1 & l2 & Q). rewrite Q in P.
        assert (P' : Permutation ((l1 ++ l2) ++ others) s).
        { apply (Permutation_cons_inv (a := x)). rewrite <- P. rewrite <- !app_assoc. cbn [app]. apply Permutation_middle. }
        specialize (IH _ _ P'). assert (L : length some = length (l1 ++ l2)).
        { assert (length (y :: some) = length (l1 ++ x :: l2)) by congruence. rewrite app_length in *. cbn [length] in *. lia. }
        rewrite L. rewrite Q, in_value_app, in_value_cons. rewrite in_value_app in IH. lia.
      + (* x is not among them: swap it for y *)
        apply in_split in IX as (l1 & l2 & ->).
        assert (P' : Permutation (some ++ (y :: l1 ++ l2)) s).
        { apply (Permutation_cons_inv (a := x)). rewrite <- P. cbn [app].
          rewrite <- (Permutation_middle some). rewrite perm_swap. constructor. rewrite !app_assoc. apply Permutation_middle. }
        specialize (IH _ _ P').
        assert (IY : In y s).
        { assert (I : In y (x :: s)) by (eapply Permutation_in; [exact P|left; auto]). destruct I as [->|I]; auto.
          eapply Permutation_in; [exact P'|]. apply in_or_app. right. left. auto. }
        rewrite Forall_forall in HF. specialize (HF y IY). cbn [in_order] in HF. rewrite (in_value_cons y). lia. }
  intros HH HZ HU a q t f A AL H FE T some others P C.
  destruct (c38_selection HH HZ HU a q t A H) as (s & sel & f' & FE' & SF & SC & FI). rewrite FE in FE'. injection FE' as <-.
  rewrite <- (F2_len _ _ _ _ _ FI). destruct (sorted_for_facts _ _ _ SF (proj1 (wf_values q (asked_wf HU _ _ A)))) as [SV VS].
  destruct SC as [[[Q|Q] _]|(_ & _ & first & last & rest & -> & -> & B & D)]; [congruence|lia|].
  destruct (le_lt_dec (length (first ++ [last])) (length some)) as [|LT]; auto. exfalso.
  rewrite app_length in LT. cbn [length] in LT.
  assert (P' : Permutation (some ++ others) ((first ++ [last]) ++ rest)) by (rewrite P; apply SF).
  destruct SF as (_ & SS & _). rewrite AL in SS. specialize (TOP _ SS _ _ P').
  assert (K : in_value (firstn (length some) ((first ++ [last]) ++ rest)) <= in_value first).
  { rewrite <- app_assoc. rewrite firstn_app. replace (length some - length first)%nat with 0%nat by lia. cbn [firstn]. rewrite app_nil_r.
    rewrite <- (firstn_skipn (length some) first) at 2. rewrite in_value_app.
    assert (0 <= in_value (skipn (length some) first)).
    { apply in_value_nonneg. rewrite <- app_assoc in VS. apply Forall_app in VS as [VS _]. rewrite <- (firstn_skipn (length some) first) in VS. apply Forall_app in VS as [_ VS]. auto. }
    lia. }
  destruct B as [->|B]; [change (in_value []) with 0 in K; lia|lia].
Qed.

(** C40.  Outputs not covered. *)
Lemma c40_outputs_not_covered : HashOk E -> ZeroAddressOk E -> UniOk E -> forall a q f,
  asked a q -> ready q -> fee_due q f -> 0 <= f <= q_max_fee q -> f <= max_money ->
  in_value (q_inputs q) < out_value (q_outputs q) -> fst (create_transaction a) = Err OutputValueNotCovered.
Proof. exact err_outputs. Qed.
(** C40.  Outputs covered, but not outputs and fee. *)
Lemma c40_fee_not_covered : HashOk E -> ZeroAddressOk E -> UniOk E -> forall a q f,
  asked a q -> ready q -> fee_due q f -> 0 <= f <= q_max_fee q ->
  out_value (q_outputs q) <= in_value (q_inputs q) < out_value (q_outputs q) + f -> out_value (q_outputs q) + f <= max_money ->
  fst (create_transaction a) = Err OutputAndFeeValueNotCovered.
Proof. exact err_total. Qed.
(** C40.  When funds suffice neither is raised. *)
Lemma c40_covered : HashOk E -> ZeroAddressOk E -> UniOk E -> forall a q f,
  asked a q -> ready q -> fee_due q f -> 0 <= f <= q_max_fee q -> out_value (q_outputs q) + f <= in_value (q_inputs q) ->
  fst (create_transaction a) <> Err OutputValueNotCovered /\ fst (create_transaction a) <> Err OutputAndFeeValueNotCovered.
Proof.
  intros HH HZ HU a q f A RD FD F T. destruct (create_funded HH HZ HU a q f A RD FD F T) as (sel & sx & ys & s & _ & _ & SM & Y & W & SR & SL & ->).
  set (fine := fun e => e <> OutputValueNotCovered /\ e <> OutputAndFeeValueNotCovered).
  assert (FV : fine ValueError) by (split; discriminate). assert (FT : fine TypeError) by (split; discriminate).
  assert (FO : fine OverflowError) by (split; discriminate). assert (FZ : fine ZeroDivisionError) by (split; discriminate). 
  assert (GOOD : forall r : res tx, (forall e, r = Err e -> fine e) -> r <> Err OutputValueNotCovered /\ r <> Err OutputAndFeeValueNotCovered).
  { intros r K. split; intros ->; destruct (K _ eq_refl); congruence. }
  apply GOOD. clear GOOD.
  assert (SAT : forall n e, satoshi_to_bitcoin (PInt n) = Err e -> fine e).
  { intros n e H. destruct (Z_le_dec 0 n) as [L1|L1]; [destruct (Z_le_dec n max_money) as [L2|L2]|]; [destruct (sat_ok HU n (conj L1 L2)) as [z Q]; congruence| |];
    (rewrite satoshi_to_bitcoin_bad in H by (unfold max_money in *; lia); injection H as <-; auto). }
  assert (BI : forall A B (x : res A) (k : A -> res B), (forall e, x = Err e -> fine e) -> (forall v, x = Ok v -> forall e, k v = Err e -> fine e) -> forall e, bind x k = Err e -> fine e).
  { intros A0 B0 [v|e0] k K1 K2 e1 Q; cbn [bind] in Q; [eapply K2; eauto|]. injection Q as <-. auto. }
  assert (PF : forall n e, py_float_int n = Err e -> fine e).
  { intros n e. unfold py_float_int. destruct (binary_normalize _ _ _ _ _); try discriminate. intros [= <-]. auto. }
  assert (DV : forall x y e, fdiv x y = Err e -> fine e).
  { intros x y e. unfold fdiv. destruct y; try discriminate. intros [= <-]. auto. }
  assert (CL : forall x e, py_ceil x = Err e -> fine e).
  { intros x e. destruct x; cbn; try discriminate; intros [= <-]; auto. }
  apply BI; [|intros [outs chg] HC; cbv zeta; apply BI; [|intros [] _; destruct (negb _); [intros e [= <-]; auto|apply BI; [apply SAT|intros ? _; apply BI; [|intros [] _; apply BI; [|discriminate]]]]]].
  - (* handle_change *)
    unfold handle_change. destruct (Z.eqb_spec (in_value sel) (out_value (q_outputs q) + f)) as [EQ|NE]; [discriminate|]. apply BI; [apply SAT|]. intros s1 _.
    rewrite (made_filter _ _ _ Y). set (n := length (filter (pays (q_change_address q)) (q_outputs q))). set (sp := in_value sel - (out_value (q_outputs q) + f)) in *.
    destruct RD as (_ & _ & _ & TI & _). pose proof (wf_values q W) as [VI VO].
    assert (UP : forall k e, (k < n)%nat -> update_change (q_change_address q) k sp ys = Err e -> False).
    { intros k e K H. assert (exists pre o post, q_outputs q = pre ++ o :: post /\ oa_address o = q_change_address q /\ length (filter (pays (q_change_address q)) pre) = k) as (pre & o & post & Q1 & Q2 & Q3).
      { clear - K. unfold n in K. revert k K. induction (q_outputs q) as [|o l IH]; intros k K; cbn [filter] in K; [cbn in K; lia|].
        unfold pays in K at 1. destruct (str_eqb (oa_address o) (q_change_address q)) eqn:PO.
        - destruct k as [|k]. { exists [], o, l. repeat split. apply str_eqb_eq; auto. }
          cbn [length] in K. destruct (IH k ltac:(lia)) as (pre & o1 & post & -> & Q2 & Q3). exists (o :: pre), o1, post. repeat split; auto.
          cbn [filter]. unfold pays at 1. rewrite PO. cbn [length]. lia.
        - destruct (IH k K) as (pre & o1 & post & -> & Q2 & Q3). exists (o :: pre), o1, post. repeat split; auto.
          cbn [filter]. unfold pays at 1. rewrite PO. auto. }
      assert (SP : surplus_paid (q_change_address q) (PInt (Z.of_nat k)) (q_outputs q) sp (pre ++ mk_oarg (q_change_address q) (oa_value o + sp) :: post) (oa_value o + sp)).
      { right. right. split; [unfold sp; lia|]. exists pre, o, post. repeat split; auto. right. cbn. rewrite Q3. auto. }
      destruct (omade_exists_all HU q _ _ _ _ W SP) as [ys' YS]; [unfold sp; lia|unfold sp; lia|].
      pose proof YS as YS2. apply Forall2_app_inv_l in YS2 as (l1 & l2 & _ & F2 & _). inversion F2 as [|? y' ? ? M' _]; subst.
      assert (X : update_change (q_change_address q) (length (filter (pays (q_change_address q)) pre)) sp ys = Ok (ys', y')).
      { apply (update_iff HH HZ HU _ _ _ _ _ _ _ Y). exists pre, o, post. repeat (split; auto).
        rewrite Q1 in VO. apply Forall_app in VO as [_ VO]. inversion VO; subst. unfold sp in *. lia. }
      congruence. }
    destruct (Nat.ltb_spec 1 n) as [N1|N1]; [|destruct (Nat.eqb_spec n 1) as [N2|N2]].
    + apply BI.
      * intros e H. assert (W4 : q_change_index q = PNone \/ exists z, whole (q_change_index q) z) by apply W.
        destruct W4 as [WQ|(z & [[WZ Z0]|[[b [WZ WB]]|[b [WZ WB]]]])]; rewrite ?WQ, ?WZ in H; unfold change_position in H; cbn [as_int bind] in H.
        -- injection H as <-. auto.
        -- rewrite (proj2 (Z.ltb_ge z 0)) in H by lia. destruct (negb _); [injection H as <-; auto|discriminate].
        -- replace (b2z b <? 0) with false in H by (destruct b; auto). destruct (negb _); [injection H as <-; auto|discriminate].
        -- destruct (negb _); injection H as <-; auto.
      * intros k PK. apply position_iff in PK as [_ PK]; [|apply W]. apply BI; [|intros [] _; discriminate]. intros e H. elim (UP k e PK H).
    + apply BI; [|intros [] _; discriminate]. intros e H. elim (UP 0%nat e ltac:(lia) H).
    + apply BI; [|discriminate]. intros e H. exfalso. destruct (make_output_exists HU (mk_oarg (q_change_address q) sp)) as [y M].
      { split; [apply W|]. cbn. pose proof (out_value_nonneg _ VO). unfold sp in *. lia. }
      assert (X : txout_create (PStr (q_change_address q)) sp = Ok y) by (apply (txout_create_iff HH HZ HU); eauto). congruence.
  - destruct (_ =? _); [discriminate|]. apply BI; [apply SAT|]. intros ? _. apply BI; [apply SAT|discriminate].
  - unfold check_spend. apply BI; [apply PF|]. intros ? _. apply BI; [apply DV|]. intros ? _. apply BI; [apply PF|]. intros ? _. apply BI; [apply CL|]. intros ? _.
    apply BI; [apply SAT|]. intros ? _. apply BI; [apply SAT|]. intros ? _. apply BI; [apply PF|]. intros ? _. apply BI; [apply DV|]. intros ? _.
    destruct (_ <=? _); [|intros e [= <-]; auto]. apply BI; [apply PF|]. intros ? _. apply BI; [apply DV|discriminate].
  - intros e H. unfold tx_create in H. revert e H. assert (VI : forall n e, int_to_var_int (PInt (Z.of_nat n)) = Err e -> fine e).
    { intros n e H. destruct (le_lt_dec n 252); [rewrite int_to_var_int_ok in H by lia; discriminate|]. rewrite int_to_var_int_bad in H by lia. injection H as <-. auto. }
    apply BI; [apply VI|]. intros ? _. apply BI; [apply VI|discriminate].
Qed.

(** C41.  No output address is repeated, unless that is allowed. *)
Lemma c41_distinct_addresses : HashOk E -> ZeroAddressOk E -> UniOk E -> forall a q t,
  asked a q -> q_allow_duplicates q = false -> fst (create_transaction a) = Ok t ->
  NoDup (map to_address (tx_outputs t)).
Proof.
  intros HH HZ HU a q t A AD H. destruct (created_plan HH HZ HU _ _ _ A H) as (sel & outs & f & chg & PL & (ins & os & _ & FO & ->)).
  cbn [tx_outputs]. replace (map to_address os) with (map oa_address outs).
  2: { clear - FO. induction FO as [|o y l ys M FO IH]; auto. cbn [map]. rewrite (omade_address _ _ M), IH. auto. }
  destruct PL as (_ & _ & _ & _ & _ & ND & _ & _ & _ & _ & SP & _). specialize (ND AD).
  destruct SP as [(_ & -> & _)|[(_ & N & -> & _)|(_ & pre & o & post & Q & OA & -> & _)]]; auto.
  - cbn [map oa_address]. constructor; auto. intros I. apply in_map_iff in I as (o & O & I). elim (N o I O).
  - rewrite Q in ND. rewrite map_app in *. cbn [map oa_address] in *. rewrite <- OA. auto.
Qed.
(** C41.  A request with a repeated output address is refused. *)
Lemma c41_repeated_address : HashOk E -> ZeroAddressOk E -> UniOk E -> forall a q,
  asked a q -> Forall (fun i => ia_index i < 2 ^ 32) (q_inputs q) ->
  in_value (q_inputs q) <= max_money -> out_value (q_outputs q) <= max_money ->
  q_allow_duplicates q = false -> ~ NoDup (map oa_address (q_outputs q)) ->
  fst (create_transaction a) = Err DuplicateOutputAddressError.
Proof. exact err_duplicate. Qed.

(** Hypotheses met: a request, the transaction made for it, and its totals. *)
Example ex35_created : @asked demo_env demo_ns demo_order /\ fst (@create_transaction demo_env demo_ns) = Ok created /\
  fee created = Some 10000 /\ total_input created = Some 50200000 /\ total_output created = 50190000.
Proof. split; [exact demo_asked|]. split; [exact created_ok|]. vm_compute. repeat split. Qed.
Example ex36_fee_too_high : forall a, a = request demo_inputs [demo_output addr3 (lit "0.501")] (fixed 10000) 9999 (lit "100.00") None None ->
  exists q, @asked demo_env a q /\ ready q /\ fee_due q 10000 /\ q_max_fee q = 9999 /\ fst (@create_transaction demo_env a) = Err ValueError.
Proof.
  intros a ->. exists (order_of demo_iargs [mk_oarg addr3 50100000] (FixedFee 10000) 9999 hundred).
  assert (A : @asked demo_env (request demo_inputs [demo_output addr3 (lit "0.501")] (fixed 10000) 9999 (lit "100.00") None None) (order_of demo_iargs [mk_oarg addr3 50100000] (FixedFee 10000) 9999 hundred)).
  { apply fixed_request; try lia; [exact demo_inputs_ok|apply out3; vm_compute; reflexivity]. }
  assert (R : ready (order_of demo_iargs [mk_oarg addr3 50100000] (FixedFee 10000) 9999 hundred)) by (apply ready_one; unfold max_money; cbn [oa_value]; lia).
  split; [exact A|]. split; [exact R|]. split; [reflexivity|]. split; [reflexivity|].
  apply (@err_fee demo_env demo_hash demo_zero_address demo_uni _ _ 10000 A R); [reflexivity|unfold max_money; lia|cbn; lia].
Qed.
Example ex37_change : map (fun y => (to_address y, to_satoshi_amount y)) (tx_outputs created) = [(addr1, 90000); (addr3, 50100000)].
Proof. vm_compute. reflexivity. Qed.
Example ex37_ambiguous : @asked demo_env ambiguous ambiguous_order /\ fst (@create_transaction demo_env ambiguous) = Err ValueError.
Proof.
  split; [exact ambiguous_asked|]. apply (@err_change demo_env demo_hash demo_zero_address demo_uni _ _ 10000 (rev demo_iargs) [mk_iarg addr1 (repeat 205 32) 1 50000000] ambiguous_asked).
  - split; [cbn; lia|]. split; [cbn; lia|]. split; [repeat constructor|]. split; [vm_compute; discriminate|]. split; [vm_compute; discriminate|]. intros Q. discriminate.
  - reflexivity. - cbn; lia. - vm_compute. discriminate. - exact demo_sorted.
  - right. split; [discriminate|]. split; [vm_compute; discriminate|]. exists [], (mk_iarg addr1 (repeat 205 32) 1 50000000), [mk_iarg addr2 (repeat 171 32) 7 200000].
    split; [reflexivity|]. split; [reflexivity|]. split; [left; reflexivity|]. vm_compute. discriminate.
  - vm_compute. discriminate. - vm_compute. lia. - left. reflexivity.
Qed.
Example ex38_order : map (fun x => (ti_address x, ti_satoshi_amount x)) (tx_inputs created) = [(addr1, Some 50000000); (addr2, Some 200000)]
  /\ map (fun i => (ia_address i, ia_value i)) (q_inputs demo_order) = [(addr2, 200000); (addr1, 50000000)].
Proof. split; vm_compute; reflexivity. Qed.
Example ex39_strict : q_approach demo_order = LargestFirst /\ fee created = Some 10000 /\
  0 < out_value (q_outputs demo_order) + 10000 < in_value (q_inputs demo_order).
Proof. split; [reflexivity|]. split; [reflexivity|]. vm_compute. split; reflexivity. Qed.
Example ex40_outputs : exists a q, @asked demo_env a q /\ ready q /\ fee_due q 10000 /\ in_value (q_inputs q) < out_value (q_outputs q) /\
  fst (@create_transaction demo_env a) = Err OutputValueNotCovered.
Proof.
  exists (request demo_inputs [demo_output addr3 (lit "0.50200001")] (fixed 10000) 250000 (lit "100.00") None None),
    (order_of demo_iargs [mk_oarg addr3 50200001] (FixedFee 10000) 250000 hundred).
  match goal with |- ?A /\ ?R /\ _ => assert (HA : A); [|assert (HR : R)] end.
  - apply fixed_request; try lia; [exact demo_inputs_ok|apply out3; vm_compute; reflexivity].
  - apply ready_one; unfold max_money; cbn [oa_value]; lia.
  - split; [exact HA|]. split; [exact HR|]. split; [reflexivity|]. assert (L : in_value demo_iargs < out_value [mk_oarg addr3 50200001]) by reflexivity.
    split; [exact L|]. apply (@err_outputs demo_env demo_hash demo_zero_address demo_uni _ _ 10000 HA HR); [reflexivity|cbn; lia|unfold max_money; lia|exact L].
Qed.
Example ex40_fee : exists a q, @asked demo_env a q /\ ready q /\ fee_due q 10000 /\
  out_value (q_outputs q) <= in_value (q_inputs q) < out_value (q_outputs q) + 10000 /\
  fst (@create_transaction demo_env a) = Err OutputAndFeeValueNotCovered.
Proof.
  exists (request demo_inputs [demo_output addr3 (lit "0.50190001")] (fixed 10000) 250000 (lit "100.00") None None),
    (order_of demo_iargs [mk_oarg addr3 50190001] (FixedFee 10000) 250000 hundred).
  match goal with |- ?A /\ ?R /\ _ => assert (HA : A); [|assert (HR : R)] end.
  - apply fixed_request; try lia; [exact demo_inputs_ok|apply out3; vm_compute; reflexivity].
  - apply ready_one; unfold max_money; cbn [oa_value]; lia.
  - split; [exact HA|]. split; [exact HR|]. split; [reflexivity|].
    assert (L : out_value [mk_oarg addr3 50190001] <= in_value demo_iargs < out_value [mk_oarg addr3 50190001] + 10000) by (split; [vm_compute; discriminate|reflexivity]).
    split; [exact L|]. apply (@err_total demo_env demo_hash demo_zero_address demo_uni _ _ 10000 HA HR); [reflexivity|cbn; lia|exact L|vm_compute; discriminate].
Qed.
Example ex41_repeated : @asked demo_env repeated repeated_order /\ ~ NoDup (map oa_address (q_outputs repeated_order)) /\
  fst (@create_transaction demo_env repeated) = Err DuplicateOutputAddressError.
Proof.
  assert (ND : ~ NoDup (map oa_address (q_outputs repeated_order))).
  { cbn [repeated_order order_of q_outputs map oa_address]. intros H. inversion H as [|? ? N _]; subst. apply N. left. reflexivity. }
  split; [exact repeated_asked|]. split; [exact ND|]. apply (@err_duplicate demo_env demo_hash demo_zero_address demo_uni _ _ repeated_asked); auto.
  - repeat constructor. - vm_compute. discriminate. - vm_compute. discriminate.
Qed.

End WithEnv.
