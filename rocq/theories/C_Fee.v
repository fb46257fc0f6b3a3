(** C42-C46: spending limit and fee. *)
From Coq Require Import String Floats.SpecFloat Permutation Sorted Reals Lra Lia.
From Verif Require Import PyBase Env PyNum Validate Basic Spec EnvOk TxInput TxOutput Tx Create TxSpec SignSpec FloatSpec NumSpec CreateSpec Demo DemoTx DemoCreate.
From Flocq Require Import Core BinarySingleNaN.
From Verif Require Import NumLemmas HexProofs Base58Proofs AddrProofs FloatProofs RateProofs AmountProofs ScriptProofs WireProofs MakeProofs NumProofs PrepProofs DesignProofs BuildProofs CreateProofs DemoProofs DemoTxProofs DemoCreateProofs C_Create.
Open Scope Z_scope.

Section WithEnv.
Context {E : Env}.

Lemma limit_upper : forall p total limit, double p -> 0 < total <= max_money -> 0 < limit -> spend_limit p total limit ->
  (0 < float_value p)%R /\ (IZR limit < float_value p / 100 * IZR total * (1 + / 2251799813685248) + 1)%R.
Proof.
  intros p total limit D T L H. rewrite value_s2r. apply spend_limit_iff in H; [|lia]. unfold spend_res in H. destruct (py_float_int_small 100 ltac:(lia)) as (f100 & F1 & V1 & N1 & S1).
  assert (TS : Z.abs total <= 2 ^ 53) by (unfold max_money in *; lia).
  destruct (py_float_int_small total TS) as (ft & F2 & V2 & N2 & S2). rewrite F1, F2 in H. cbn [bind] in H.
  apply bind_ok_inv in H. destruct H as (x & DX & H). cbn [bind] in H. apply ceil_ok in H as [F C].
  destruct (fmul_finite_args _ _ F) as [FX _].
  assert (FP : is_finite_SF p = true).
  { destruct p; auto; destruct f100; try discriminate; injection DX as <-; discriminate. }
  destruct (RateProofs.fdiv_ok p f100 x D V1 FP N1 DX) as [VX SX]. specialize (SX FX).
  pose proof (fmul_ok x ft VX V2 FX N2 F) as M. rewrite M, S2, SX, S1 in C. set (P := s2r p) in *.
  assert (L0 : (1 <= IZR limit)%R) by (apply IZR_le; lia). assert (T0 : (1 <= IZR total)%R) by (apply IZR_le; lia).
  assert (T1 : (IZR total <= 9007199254740992)%R) by (apply IZR_le; unfold max_money in *; lia).
  assert (PP : (0 < P)%R).
  { destruct (Rlt_or_le 0 P) as [|N]; auto. exfalso. assert (RZ : rnd 0 = 0%R) by (unfold rnd; apply round_0; auto with typeclass_instances).
    assert (R0 : (rnd (P / 100) <= 0)%R).
    { rewrite <- RZ. apply rnd_le. lra. }
    assert (R1 : (rnd (rnd (P / 100) * IZR total) <= 0)%R).
    { rewrite <- RZ. apply rnd_le. rewrite <- (Rmult_0_l (IZR total)). apply Rmult_le_compat_r; lra. }
    lra. }
  split; auto. rewrite (Rmult_comm (P / 100) (IZR total)). apply product_upper; [lra|lra|].
  rewrite (Rmult_comm (IZR total)). lra.
Qed.

Lemma Zsum_cons : forall x l, Zsum (x :: l) = x + Zsum l.
Proof. reflexivity. Qed.
Lemma others_value : forall ca idx outs surplus outs' chg, surplus_paid ca idx outs surplus outs' chg ->
  Forall (fun o => 0 <= oa_value o) outs' -> Zsum (map oa_value (filter (fun o => negb (pays ca o)) outs')) <= out_value outs' - chg.
Proof.
  assert (K : forall ca l, Forall (fun o => 0 <= oa_value o) l -> Zsum (map oa_value (filter (fun o => negb (pays ca o)) l)) <= out_value l).
  { intros ca l. unfold out_value. induction 1 as [|o l O F IH]; [cbn; lia|]. cbn [filter]. destruct (negb _); cbn [map]; rewrite ?Zsum_cons; lia. }
  intros ca idx outs surplus outs' chg SP F. destruct SP as [(_ & -> & ->)|[(_ & N & -> & ->)|(_ & pre & o & post & Q & OA & -> & -> & _)]].
  - pose proof (K ca _ F). lia.
  - cbn [filter]. rewrite pays_self by auto. cbn [negb]. inversion F; subst. pose proof (K ca outs ltac:(auto)). rewrite out_value_cons. cbn [oa_value]. lia.
  - rewrite filter_app. cbn [filter]. rewrite pays_self by auto. cbn [negb]. rewrite map_app, Zsum_app, out_value_app, out_value_cons. cbn [oa_value].
    apply Forall_app in F as [F1 F2]. pose proof (K ca pre ltac:(auto)). pose proof (K ca post (Forall_inv_tail F2)). lia.
Qed.

(** C42.  Fee and payments to other addresses stay below the given percentage of the available value, up to less than one
    satoshi and a relative rounding error of 2^-51. *)
Lemma c42_spend_limit : HashOk E -> ZeroAddressOk E -> UniOk E -> forall a q t,
  asked a q -> double (q_max_spend q) -> fst (create_transaction a) = Ok t ->
  exists f, fee t = Some f /\
    (IZR (f + Zsum (map to_satoshi_amount (filter (fun o => negb (str_eqb (to_address o) (q_change_address q))) (tx_outputs t))))
     < float_value (q_max_spend q) / 100 * IZR (in_value (q_inputs q)) * (1 + / IZR (2 ^ 51)) + 1)%R.
Proof.
  intros HH HZ HU a q t A D H. destruct (created_plan HH HZ HU _ _ _ A H) as (sel & outs & f & chg & PL & TX).
  pose proof (asked_wf HU _ _ A) as W. destruct (plan_facts _ _ _ _ _ W PL) as (_ & EQ & _). destruct (tx_of_totals _ _ _ _ TX) as (T1 & T2 & T3).
  exists f. split; [rewrite T3; f_equal; lia|].
  destruct PL as (_ & _ & _ & _ & TI & _ & _ & F & TT & (s & SF & SC) & SP & lim & SL & LB & LE).
  destruct (limit_upper _ _ _ D TI (proj1 LB) SL) as [_ UB]. change (IZR (2 ^ 51)) with 2251799813685248%R.
  eapply Rle_lt_trans; [|exact UB]. apply IZR_le.
  pose proof (wf_values q W) as [VI VO]. destruct (sorted_for_facts _ _ _ SF VI) as [SV VS]. pose proof (out_value_nonneg _ VO).
  pose proof (chosen_values _ _ _ _ SC VS ltac:(lia)).
  assert (VO' : Forall (fun o => 0 <= oa_value o) outs).
  { destruct SP as [(_ & -> & _)|[(_ & N & -> & _)|(_ & pre & o & post & Q & OA & -> & _)]]; auto.
    - constructor; auto. cbn. lia.
    - rewrite Q in VO. apply Forall_app in VO as [V1 V2]. inversion V2; subst. apply Forall_app. split; auto. constructor; auto. cbn. lia. }
  pose proof (others_value _ _ _ _ _ _ SP VO') as OV.
  destruct TX as (ins & os & _ & FO & ->). cbn [tx_outputs].
  assert (M : Zsum (map to_satoshi_amount (filter (fun o => negb (str_eqb (to_address o) (q_change_address q))) os)) =
              Zsum (map oa_value (filter (fun o => negb (pays (q_change_address q) o)) outs))).
  { clear - FO. induction FO as [|o y l ys M FO IH]; auto. cbn [filter]. unfold pays at 1. rewrite (omade_address _ _ M).
    destruct (negb _); auto. cbn [map]. rewrite !Zsum_cons, IH. f_equal. symmetry. apply (omade_sat _ _ M). }
  rewrite M. lia.
Qed.
(** C42.  A request that would spend more than the limit is refused. *)
Lemma c42_too_much : HashOk E -> ZeroAddressOk E -> UniOk E -> forall a q f s sel outs chg limit,
  asked a q -> ready q -> fee_due q f -> 0 <= f <= q_max_fee q ->
  out_value (q_outputs q) + f <= in_value (q_inputs q) -> 0 < in_value (q_inputs q) ->
  sorted_for (q_approach q) (q_inputs q) s -> chosen (q_approach q) (out_value (q_outputs q) + f) s sel ->
  surplus_paid (q_change_address q) (q_change_index q) (q_outputs q) (in_value sel - (out_value (q_outputs q) + f)) outs chg ->
  spend_limit (q_max_spend q) (in_value (q_inputs q)) limit -> limit < in_value sel - chg ->
  fst (create_transaction a) = Err ValueError.
Proof. exact err_spend. Qed.

(** int(f) rounds towards zero. *)
Lemma trunc_ok : forall f n, py_trunc f = Ok n -> is_finite_SF f = true /\
  ((0 <= s2r f)%R -> (IZR n <= s2r f < IZR n + 1)%R) /\ ((s2r f <= 0)%R -> (IZR n - 1 < s2r f <= IZR n)%R).
Proof.
  intros [b|b| |s m e] n H; try discriminate; cbn [py_trunc] in H; injection H as <-; split; auto; unfold s2r; cbn [SF2R]; [lra|].
  replace (cond_Zopp s (Z.pos m)) with (if s then Z.neg m else Z.pos m) by (destruct s; auto). set (v := if s then Z.neg m else Z.pos m).
  unfold F2R. cbn [Fnum Fexp]. destruct (Z.leb_spec 0 e) as [L|L].
  - rewrite mult_IZR. change (IZR (2 ^ e)) with (IZR (Zpower radix2 e)). rewrite IZR_Zpower by auto. lra.
  - assert (P : 0 < 2 ^ (- e)) by (apply Z.pow_pos_nonneg; lia).
    assert (B : bpow radix2 e = (/ IZR (2 ^ (- e)))%R).
    { change (IZR (2 ^ (- e))) with (IZR (Zpower radix2 (- e))). rewrite IZR_Zpower by lia. rewrite bpow_opp. rewrite Rinv_inv. auto. }
    rewrite B. set (d := 2 ^ (- e)) in *. pose proof (Z.quot_rem v d ltac:(lia)) as DM.
    assert (D0 : (0 < IZR d)%R) by (apply IZR_lt; auto). set (qq := Z.quot v d) in *. set (mm := Z.rem v d) in *.
    assert (VR : (IZR v = IZR d * IZR qq + IZR mm)%R) by (rewrite <- mult_IZR, <- plus_IZR; f_equal; lia).
    assert (VV : (IZR v * / IZR d = IZR qq + IZR mm / IZR d)%R) by (rewrite VR; field; lra).
    assert (INV : (0 < / IZR d)%R) by (apply Rinv_0_lt_compat; auto).
    assert (DIV : forall k, (IZR k < IZR d)%R -> (IZR k / IZR d < 1)%R).
    { intros k K. apply Rmult_lt_reg_r with (IZR d); auto. unfold Rdiv. rewrite Rmult_assoc, Rinv_l, Rmult_1_r by lra. lra. }
    assert (DIV0 : forall k, (0 <= IZR k)%R -> (0 <= IZR k / IZR d)%R) by (intros k K; apply Rmult_le_pos; lra).
    split; intros S.
    + assert (V0 : 0 <= v).
      { apply le_IZR. apply Rmult_le_reg_r with (/ IZR d)%R; auto. rewrite Rmult_0_l. auto. }
      pose proof (Z.rem_bound_pos v d V0 P) as RB. rewrite VV. pose proof (DIV mm ltac:(apply IZR_lt; lia)). pose proof (DIV0 mm ltac:(apply IZR_le; lia)). lra.
    + assert (V0 : v <= 0).
      { apply le_IZR. apply Rmult_le_reg_r with (/ IZR d)%R; auto. rewrite Rmult_0_l. auto. }
      pose proof (Z.rem_bound_pos (- v) d ltac:(lia) P) as RB. rewrite Z.rem_opp_l in RB by lia. fold mm in RB. rewrite VV.
      pose proof (DIV (- mm) ltac:(apply IZR_lt; lia)) as D1. pose proof (DIV0 (- mm) ltac:(apply IZR_le; lia)) as D2. rewrite opp_IZR in D1, D2.
      unfold Rdiv in *. rewrite Ropp_mult_distr_l_reverse in D1, D2. lra.
Qed.
Lemma trunc_range : forall p, (exists n, py_trunc p = Ok n /\ 0 <= n <= 100) <-> is_finite_SF p = true /\ (-1 < float_value p < 101)%R.
Proof.
  intros p. rewrite value_s2r. split.
  - intros (n & H & N). apply trunc_ok in H as (F & P1 & P2). split; auto.
    assert (0 <= IZR n <= 100)%R by (split; apply IZR_le; lia).
    destruct (Rle_or_lt 0 (s2r p)) as [S|S]; [specialize (P1 S)|specialize (P2 (Rlt_le _ _ S))]; lra.
  - intros (F & R). assert (exists n, py_trunc p = Ok n) as [n H] by (destruct p; try discriminate; eexists; reflexivity).
    exists n. split; auto. apply trunc_ok in H as (_ & P1 & P2).
    destruct (Rle_or_lt 0 (s2r p)) as [S|S]; [specialize (P1 S)|specialize (P2 (Rlt_le _ _ S))].
    + assert (-1 < n) by (apply lt_IZR; lra). assert (n < 101) by (apply lt_IZR; lra). lia.
    + assert (-1 < n) by (apply lt_IZR; lra). assert (n < 101) by (apply lt_IZR; lra). lia.
Qed.

(** C43.  Which percentages pass validation: those strictly between -1 and 101. *)
Lemma c43_percentage_range : forall a q d p, asked a q -> ns_design a = Some (PDict d) ->
  ((exists q', asked (set_ns_design a (PDict (dict_set (lit "max_spend_percentage") (PFloat p) d))) q') <->
   is_finite_SF p = true /\ (-1 < float_value p < 101)%R).
Proof.
  intros a q d p (l & d0 & NI & FI & ND & DA & OA & IA) N. rewrite ND in N. injection N as ->. rewrite <- trunc_range.
  destruct DA as (D1 & D2 & D3 & D4 & D5 & D6). split.
  - intros (q' & l' & d' & _ & _ & ND' & DA' & _). unfold set_ns_design in ND'. cbn in ND'. injection ND' as <-.
    destruct DA' as (_ & _ & _ & (v & n & V & PF & TR & R) & _). rewrite find_set_same in V. injection V as <-. cbn [float_of_value] in PF. subst. apply py_trunc_iff in TR. eauto.
  - intros (n & TR & R). exists (mk_order (q_inputs q) (q_outputs q) (q_fee q) (q_change_address q) (q_max_fee q) p (q_approach q) (q_allow_duplicates q) (q_change_index q)).
    exists l. eexists. split; [exact NI|]. split; [exact FI|]. split; [reflexivity|]. split; [|split; [exact OA|exact IA]].
    unfold design_arg. rewrite find_set_same. rewrite !set_other by (vm_compute; discriminate). cbn [q_inputs q_outputs q_fee q_change_address q_max_fee q_max_spend q_approach].
    split; [exact D1|]. split; [exact D2|]. split; [exact D3|]. split; [|split; [exact D5|exact D6]].
    exists (PFloat p), n. split; [reflexivity|]. split; [reflexivity|]. split; [apply py_trunc_iff; exact TR|exact R].
Qed.
(** C43.  Negative and zero percentages are never usable, although they pass validation. *)
Lemma c43_usable : HashOk E -> ZeroAddressOk E -> UniOk E -> forall a q t,
  asked a q -> double (q_max_spend q) -> fst (create_transaction a) = Ok t -> (0 < float_value (q_max_spend q) < 101)%R.
Proof.
  intros HH HZ HU a q t A D H. destruct (created_plan HH HZ HU _ _ _ A H) as (sel & outs & f & chg & PL & TX).
  destruct PL as (_ & _ & _ & _ & TI & _ & _ & F & TT & _ & SP & lim & SL & LB & LE).
  destruct (limit_upper _ _ _ D TI (proj1 LB) SL) as [P _].
  destruct A as (l & d & _ & _ & _ & DA & _). destruct DA as (_ & _ & _ & (v & n & V & PF & TR & R) & _).
  assert (X : exists n, py_trunc (q_max_spend q) = Ok n /\ 0 <= n <= 100) by (apply py_trunc_iff in TR; eauto). apply trunc_range in X. lra.
Qed.

(** C44.  A zero fee without a rate is never accepted. *)
Lemma c44_zero_fee : HashOk E -> ZeroAddressOk E -> UniOk E -> forall a d t,
  ns_design a = Some (PDict d) -> no_fee (dict_find (lit "fee") d) ->
  (dict_find (lit "fee_rate") d = None \/ dict_find (lit "fee_rate") d = Some PNone \/ dict_find (lit "fee_rate") d = Some (PStr [])) ->
  fst (create_transaction a) <> Ok t.
Proof.
  intros HH HZ HU a d t N NF R H. apply (create_iff HH HZ HU) in H as (q & sel & outs & f & chg & A & _).
  destruct A as (l & d0 & _ & _ & ND & DA & _). rewrite ND in N. injection N as ->. destruct DA as (_ & _ & _ & _ & FA & _).
  destruct (q_fee q) as [n|r]; cbn [fee_arg] in FA.
  - destruct FA as (P & _ & [Q|(s & Q & Q2)]); rewrite Q in NF; cbn [no_fee] in NF.
    + apply falsy_iff in NF. cbn in NF. destruct n; try lia; discriminate. + apply (int_text_iff HU) in Q2, NF. rewrite Q2 in NF. injection NF as ->. lia.
  - destruct FA as (_ & v & V & RA). destruct R as [R|[R|R]]; rewrite R in V; try discriminate; injection V as <-;
      destruct RA as [(z & Q & _)|[(s & ip & fp & Q & RT & _)|(b & Q & _)]]; try discriminate.
    injection Q as <-. apply rate_text_ne in RT. congruence.
Qed.
(** C44.  Nor are a fee and a rate together, unless one of them is zero or empty. *)
Lemma c44_both : HashOk E -> ZeroAddressOk E -> UniOk E -> forall a d n v t,
  ns_design a = Some (PDict d) -> dict_find (lit "fee") d = Some (PInt n) -> n <> 0 ->
  dict_find (lit "fee_rate") d = Some v -> ~ counts_as_false v -> fst (create_transaction a) <> Ok t.
Proof.
  intros HH HZ HU a d n v t N NF NZ R TV H. apply (create_iff HH HZ HU) in H as (q & sel & outs & f & chg & A & _).
  destruct A as (l & d0 & _ & _ & ND & DA & _). rewrite ND in N. injection N as ->. destruct DA as (_ & _ & _ & _ & FA & _).
  rewrite NF, R in FA. destruct (q_fee q) as [m|r]; cbn [fee_arg] in FA.
  - destruct FA as (_ & NR & _). cbn [no_rate] in NR. destruct NR. contradiction.
  - destruct FA as (Q & _). cbn [no_fee] in Q. apply falsy_iff in Q. cbn in Q. destruct n; [congruence|discriminate|discriminate].
Qed.
(** C44.  A zero fee together with a rate is accepted, and the rate is used. *)
Lemma c44_zero_fee_with_rate : HashOk E -> ZeroAddressOk E -> UniOk E -> forall a d v t,
  ns_design a = Some (PDict d) -> dict_find (lit "fee") d = Some (PInt 0) -> dict_find (lit "fee_rate") d = Some v ->
  fst (create_transaction a) = Ok t -> exists q r f, asked a q /\ q_fee q = FeeRate r /\ rate_arg v r /\ fee t = Some f /\
    rate_fee r (estimated_size (length (q_inputs q)) (length (q_outputs q))) f.
Proof.
  intros HH HZ HU a d v t N NF R H. pose proof H as H2. apply (create_iff HH HZ HU) in H as (q & sel & outs & f & chg & A & _).
  destruct (c35_value_conservation HH HZ HU a q t A H2) as (f' & FD & FE & _).
  pose proof A as A2. destruct A as (l & d0 & _ & _ & ND & DA & _). rewrite ND in N. injection N as ->. destruct DA as (_ & _ & _ & _ & FA & _).
  rewrite NF, R in FA. unfold fee_due in FD. destruct (q_fee q) as [m|r] eqn:QF; cbn [fee_arg] in FA.
  - destruct FA as (P & _ & [Q|(s & Q & _)]); [injection Q as <-; lia|discriminate].
  - destruct FA as (_ & w & W & RA). injection W as <-. exists q, r, f'. auto.
Qed.

Lemma dec_digits : UniOk E -> forall s ds, Forall2 dec_char s ds -> Forall (fun d => 0 <= d < 10) ds.
Proof. intros HU s ds F. induction F as [|x y l l' K F IH]; constructor; auto. pose proof (dec_char_digit HU _ _ K). lia. Qed.
(** The fee of a rate. *)
Lemma rate_fee_bounds : forall r x size f, double r -> (is_finite_SF r = true -> s2r r = rnd x) -> (0 <= x)%R -> 10 <= size <= 100000 -> rate_fee r size f ->
  is_finite_SF r = true /\ s2r r = rnd x /\ (IZR f - 1 < rnd (IZR size * rnd x) <= IZR f)%R.
Proof.
  intros r x size f D SR X S H. apply rate_fee_iff in H; [|lia]. unfold rate_res in H. destruct (py_float_int_small size ltac:(lia)) as (fs & F1 & V1 & N1 & S1).
  rewrite F1 in H. cbn [bind] in H. apply ceil_ok in H as [F C]. destruct (fmul_finite_args _ _ F) as [_ FR].
  rewrite (fmul_ok fs r V1 D N1 FR F), S1, (SR FR) in C. auto.
Qed.
Lemma size_bounds : forall n m, (n <= 252)%nat -> (m <= 252)%nat -> 10 <= estimated_size n m <= 100000.
Proof. intros. unfold estimated_size. lia. Qed.

Lemma whole_fee : forall z size f, 0 <= z -> 10 <= size <= 100000 -> f <= max_money -> rate_fee (float_of_dec false z 0) size f -> f = z * size.
Proof.
  intros z size f Z0 S FM H. destruct (float_of_dec_fin z 0 Z0) as [V SR].
  assert (DR : dec_real z 0 = IZR z) by (unfold dec_real; cbn; f_equal; lia). rewrite DR in SR.
  destruct (rate_fee_bounds _ _ _ _ V SR ltac:(apply IZR_le; auto) S H) as (_ & _ & C).
  assert (B : z * size <= 2 ^ 53).
  { destruct (Z_le_dec (z * size) (2 ^ 53)) as [|N]; auto. exfalso.
    assert (RZ : (IZR (Z.min z (2 ^ 53)) <= rnd (IZR z))%R).
    { rewrite <- (rnd_IZR (Z.min z (2 ^ 53))) by lia. apply rnd_le, IZR_le. lia. }
    assert (RB : (IZR (2 ^ 53) <= rnd (IZR size * rnd (IZR z)))%R).
    { rewrite <- (rnd_IZR (2 ^ 53)) by lia. apply rnd_le.
      destruct (Z_le_dec z (2 ^ 53)) as [L|L].
      - rewrite (rnd_IZR z) by lia. rewrite <- mult_IZR. apply IZR_le. lia.
      - rewrite Z.min_r in RZ by lia. assert (1 <= IZR size)%R by (apply IZR_le; lia).
        assert (0 < IZR (2 ^ 53))%R by (apply IZR_lt; reflexivity).
        rewrite <- (Rmult_1_l (IZR (2 ^ 53))). apply Rmult_le_compat; lra. }
    assert (IZR (2 ^ 53) <= IZR f)%R by lra. apply le_IZR in H0. unfold max_money in FM. lia. }
  rewrite (rnd_IZR z) in C by nia. rewrite <- mult_IZR in C. rewrite rnd_IZR in C by nia. rewrite <- minus_IZR in C.
  destruct C as [C1 C2]. apply lt_IZR in C1. apply le_IZR in C2. lia.
Qed.

Lemma plan_fee_small : forall q sel outs f chg, wf q -> plan q sel outs f chg -> f <= max_money /\ (length (q_inputs q) <= 252)%nat /\ (length (q_outputs q) <= 252)%nat /\ fee_due q f.
Proof.
  intros q sel outs f chg W (L1 & L2 & L3 & IX & TI & ND & FD & F & TT & _). pose proof (wf_values q W) as [VI VO]. pose proof (out_value_nonneg _ VO). repeat split; auto. lia.
Qed.
Lemma created_rate : HashOk E -> ZeroAddressOk E -> UniOk E -> forall a q d v t,
  asked a q -> ns_design a = Some (PDict d) -> dict_find (lit "fee_rate") d = Some v -> (~ counts_as_false v \/ as_int v <> None) ->
  fst (create_transaction a) = Ok t ->
  exists r f, rate_arg v r /\ q_fee q = FeeRate r /\ fee t = Some f /\ f <= max_money /\
    10 <= estimated_size (length (q_inputs q)) (length (q_outputs q)) <= 100000 /\
    rate_fee r (estimated_size (length (q_inputs q)) (length (q_outputs q))) f.
Proof.
  intros HH HZ HU a q d v t A N R TV H. destruct (created_plan HH HZ HU _ _ _ A H) as (sel & outs & f & chg & PL & TX).
  pose proof (asked_wf HU _ _ A) as W. destruct (plan_fee_small _ _ _ _ _ W PL) as (FM & L1 & L2 & FD).
  destruct (plan_facts _ _ _ _ _ W PL) as (_ & EQ & _). destruct (tx_of_totals _ _ _ _ TX) as (T1 & T2 & T3).
  destruct A as (l & d0 & _ & _ & ND & DA & _). rewrite ND in N. injection N as ->. destruct DA as (_ & _ & _ & _ & FA & _).
  rewrite R in FA. unfold fee_due in FD. destruct (q_fee q) as [m|r] eqn:QF; cbn [fee_arg] in FA.
  - destruct FA as (P & [NR1 NR2] & _). destruct TV; [contradiction|congruence].
  - destruct FA as (_ & w & Q & RA). injection Q as <-. exists r, f. split; auto. split; auto. split; [rewrite T3; f_equal; lia|]. split; auto. split; auto. apply size_bounds; auto.
Qed.

(** C45.  With a whole-number rate the fee is exactly rate times estimated size. *)
Lemma c45_whole_rate : HashOk E -> ZeroAddressOk E -> UniOk E -> forall a q d v z t,
  asked a q -> ns_design a = Some (PDict d) -> dict_find (lit "fee_rate") d = Some v ->
  (v = PInt z \/ exists s ip, v = PStr s /\ Forall2 dec_char s ip /\ ip <> [] /\ z = val 10 ip) ->
  fst (create_transaction a) = Ok t ->
  fee t = Some (z * estimated_size (length (q_inputs q)) (length (q_outputs q))).
Proof.
  intros HH HZ HU a q d v z t A N R V H.
  assert (TV : ~ counts_as_false v \/ as_int v <> None).
  { destruct V as [->|(s & ip & -> & F & NE & _)]; [right; cbn; discriminate|left]. destruct F; [congruence|]. rewrite <- falsy_iff. discriminate. }
  destruct (created_rate HH HZ HU a q d v t A N R TV H) as (r & f & RA & _ & FE & FM & SB & RF).
  assert (Q : r = float_of_dec false z 0 /\ 0 <= z).
  { destruct V as [->|(s & ip & -> & F & NE & ->)].
    - destruct RA as [(z' & Q & Z0 & RA)|[(s & ip & fp & Q & _)|(b & Q & _)]]; try discriminate. injection Q as <-. apply rounds_int in RA; auto.
    - assert (RA' : rate_arg (PStr s) (float_of_dec false (val 10 ip) 0)).
      { right. left. exists s, ip, []. split; auto. split; [left; auto|]. apply rounds_decimal; rewrite app_nil_r; auto. apply val_bounds; [lia|]. eapply dec_digits; eauto. }
      split; [eapply rate_arg_fun; eauto|]. apply val_bounds; [lia|]. eapply dec_digits; eauto. }
  destruct Q as [-> Z0]. rewrite FE. f_equal. apply whole_fee; auto.
Qed.

(** C45.  With a decimal rate the fee is the product rounded up, up to floating-point error. *)
Lemma c45_decimal_rate : HashOk E -> ZeroAddressOk E -> UniOk E -> forall a q d s ip fp t,
  asked a q -> ns_design a = Some (PDict d) -> dict_find (lit "fee_rate") d = Some (PStr s) -> rate_text s ip fp ->
  fst (create_transaction a) = Ok t ->
  exists f, fee t = Some f /\
    let exact := (IZR (estimated_size (length (q_inputs q)) (length (q_outputs q))) * decimal ip fp)%R in
    (exact * (1 - / IZR (2 ^ 52)) - powerRZ 2 (-900) <= IZR f < exact * (1 + / IZR (2 ^ 51)) + 1)%R.
Proof.
  intros HH HZ HU a q d s ip fp t A N R RT H.
  assert (TV : ~ counts_as_false (PStr s) \/ as_int (PStr s) <> None).
  { left. apply rate_text_ne in RT. destruct s; [congruence|rewrite <- falsy_iff; discriminate]. }
  destruct (created_rate HH HZ HU a q d _ t A N R TV H) as (r & f & RA & _ & FE & FM & SB & RF). exists f. split; auto. cbv zeta.
  assert (RA' : rate_arg (PStr s) (float_of_dec false (val 10 (ip ++ fp)) (- Z.of_nat (length fp)))).
  { right; left. exists s, ip, fp. split; auto. split; auto. apply rounds_decimal; auto. eapply (rate_text_val HU); eauto. }
  rewrite (rate_arg_fun HU _ _ _ RA RA') in RF. set (m := val 10 (ip ++ fp)) in *.
  assert (M0 : 0 <= m).
  { apply val_bounds; [lia|]. assert (K : forall a b, Forall2 dec_char a b -> Forall (fun x => 0 <= x < 10) b).
    { intros ? ? ?. eapply dec_digits; eauto. }
    apply Forall_app. destruct RT as [(F & -> & _)|(s1 & s2 & _ & F1 & F2 & _)]; split; eauto. }
  destruct (float_of_dec_fin m (- Z.of_nat (length fp)) M0) as [V SR]. rewrite dec_real_div in SR by lia.
  change (IZR m / IZR (10 ^ Z.of_nat (length fp)))%R with (decimal ip fp) in SR. set (x := decimal ip fp) in *.
  assert (X0 : (0 <= x)%R).
  { unfold x, decimal. apply Rmult_le_pos; [apply IZR_le; auto|]. apply Rlt_le, Rinv_0_lt_compat, IZR_lt. apply Z.pow_pos_nonneg; lia. }
  destruct (rate_fee_bounds _ _ _ _ V SR X0 SB RF) as (_ & _ & C). set (sz := estimated_size _ _) in *.
  assert (S1 : (1 <= IZR sz <= 9007199254740992)%R) by (split; apply IZR_le; lia).
  split.
  - pose proof (product_lower x (IZR sz) X0 S1) as PL. rewrite bpow_powerRZ in PL. change (IZR (2 ^ 52)) with 4503599627370496%R. cbn [radix_val radix2] in PL. lra.
  - change (IZR (2 ^ 51)) with 2251799813685248%R. destruct (Rle_lt_or_eq_dec 0 x X0) as [XP|XE].
    + apply product_upper; auto. lra.
    + rewrite <- XE in *. assert (RZ : rnd 0 = 0%R) by (unfold rnd; apply round_0; auto with typeclass_instances).
      rewrite RZ, Rmult_0_r, RZ in C. rewrite Rmult_0_r, Rmult_0_l. lra.
Qed.

(** C46.  The size used for the fee is not the size of the resulting transaction: unused inputs are counted, and an added
    change output is not. *)
Lemma c46_estimate : HashOk E -> ZeroAddressOk E -> UniOk E -> forall a q r t,
  asked a q -> q_fee q = FeeRate r -> fst (create_transaction a) = Ok t ->
  exists f unused added, fee t = Some f /\ rate_fee r (estimated_size (length (q_inputs q)) (length (q_outputs q))) f /\
    length (q_inputs q) = (length (tx_inputs t) + unused)%nat /\ length (tx_outputs t) = (length (q_outputs q) + added)%nat /\
    (added = 1%nat <-> (exists o, hd_error (tx_outputs t) = Some o /\ to_address o = q_change_address q) /\
       (forall o, In o (q_outputs q) -> oa_address o <> q_change_address q)) /\ (added <= 1)%nat /\
    estimated_size (length (tx_inputs t)) (length (tx_outputs t)) =
      estimated_size (length (q_inputs q)) (length (q_outputs q)) - 179 * Z.of_nat unused + 34 * Z.of_nat added.
Proof.
  intros HH HZ HU a q r t A QF H. destruct (created_plan HH HZ HU _ _ _ A H) as (sel & outs & f & chg & PL & TX).
  pose proof (asked_wf HU _ _ A) as W. destruct (plan_fee_small _ _ _ _ _ W PL) as (FM & L1 & L2 & FD).
  destruct (plan_facts _ _ _ _ _ W PL) as (_ & EQ & _). destruct (tx_of_totals _ _ _ _ TX) as (T1 & T2 & T3).
  unfold fee_due in FD. rewrite QF in FD.
  destruct PL as (_ & _ & _ & _ & _ & _ & _ & _ & _ & (s & SF & SC) & SP & _).
  assert (LS : (length sel <= length (q_inputs q))%nat).
  { rewrite (Permutation_length (proj1 SF)). destruct SC as [[_ ->]|(_ & _ & fi & la & re & _ & -> & _)]; [lia|]. rewrite app_length. lia. }
  destruct TX as (ins & os & FI & FO & ->). cbn [tx_inputs tx_outputs] in *.
  pose proof (F2_len _ _ _ _ _ FI) as LI. pose proof (F2_len _ _ _ _ _ FO) as LO.
  exists f, (length (q_inputs q) - length ins)%nat, (length outs - length (q_outputs q))%nat.
  split; [rewrite T3; f_equal; lia|]. split; auto. split; [lia|].
  assert (CASES : (length outs = length (q_outputs q) /\ (outs = q_outputs q \/ exists o, In o (q_outputs q) /\ oa_address o = q_change_address q)) \/
                  (length outs = S (length (q_outputs q)) /\ (forall o, In o (q_outputs q) -> oa_address o <> q_change_address q) /\ exists v r, outs = mk_oarg (q_change_address q) v :: r)).
  { destruct SP as [(_ & -> & _)|[(_ & N & -> & _)|(_ & pre & o & post & Q & OA & -> & _)]]; auto.
    - right. split; auto. split; auto. eauto.
    - left. split; [rewrite Q, !app_length; auto|]. right. exists o. split; auto. rewrite Q. apply in_or_app. right. left. auto. }
  destruct CASES as [[L C]|(L & N & v & rr & ->)].
  - split; [lia|]. split; [|split; [lia|unfold estimated_size; lia]]. split; [lia|]. intros [(o & HO & OA) N]. exfalso.
    destruct C as [->|(o' & I & Q)]; [|elim (N o' I Q)].
    destruct FO as [|o1 y l ys M FO]; [discriminate|]. injection HO as ->. apply (N o1); [left; auto|]. rewrite (omade_address _ _ M). auto.
  - split; [lia|]. split; [|split; [lia|unfold estimated_size; lia]]. split; [|lia]. intros _. split; auto.
    inversion FO as [|? y ? ys M FO']; subst. exists y. split; auto. rewrite <- (omade_address _ _ M). auto.
Qed.

(** Hypotheses met. *)
Example ex42_limit : @asked demo_env demo_ns demo_order /\ double (q_max_spend demo_order) /\ fst (@create_transaction demo_env demo_ns) = Ok created.
Proof. split; [exact demo_asked|]. split; [vm_compute; reflexivity|exact created_ok]. Qed.
Example ex42_too_much : @asked demo_env half half_order /\ spend_limit (q_max_spend half_order) (in_value (q_inputs half_order)) 25100000 /\
  fst (@create_transaction demo_env half) = Err ValueError.
Proof.
  assert (L : spend_limit (q_max_spend half_order) (in_value (q_inputs half_order)) 25100000) by (apply spend_limit_iff; [vm_compute; split; discriminate|vm_compute; reflexivity]).
  split; [exact half_asked|]. split; [exact L|].
  apply (@err_spend demo_env demo_hash demo_zero_address demo_uni _ _ 10000 (rev demo_iargs) (rev demo_iargs) [mk_oarg addr1 90000; mk_oarg addr3 50100000] 90000 25100000 half_asked).
  - apply ready_one. unfold max_money. cbn [oa_value]. lia.
  - reflexivity. - cbn; lia. - vm_compute. discriminate. - reflexivity. - exact demo_sorted.
  - right. split; [discriminate|]. split; [vm_compute; discriminate|]. exists [mk_iarg addr1 (repeat 205 32) 1 50000000], (mk_iarg addr2 (repeat 171 32) 7 200000), [].
    split; [reflexivity|]. split; [reflexivity|]. split; [right; reflexivity|]. vm_compute. discriminate.
  - right. left. split; [vm_compute; discriminate|]. split; [|split; reflexivity]. intros o [<-|[]] Q. vm_compute in Q. discriminate.
  - exact L.
  - reflexivity.
Qed.
(** 100.9 is accepted as a percentage. *)
Example ex43_above_100 : fst (@create_transaction demo_env over_100) = Ok created.
Proof. vm_compute. reflexivity. Qed.
(** A zero fee raises TypeError; with a rate, the rate is used. *)
Example ex44_zero_fee : fst (@create_transaction demo_env zero_fee) = Err TypeError.
Proof. vm_compute. reflexivity. Qed.
Example ex44_zero_and_rate : fst (@create_transaction demo_env zero_and_rate) = Ok rate_tx /\ fee rate_tx = Some (2 * estimated_size 2 1).
Proof. split; vm_compute; reflexivity. Qed.
(** The fee can exceed the exact product rounded up: 325 bytes at 0.28 is 91 exactly, but 92 is paid. *)
Example ex45_rounding : @asked demo_env round_up round_up_order /\ fst (@create_transaction demo_env round_up) = Ok round_up_tx /\
  rate_text (lit "0.28") [0] [2; 8] /\ fee round_up_tx = Some 92 /\ (IZR (estimated_size 1 4) * decimal [0]%Z [2; 8]%Z = 91)%R.
Proof.
  split; [exact round_up_asked|]. split; [vm_compute; reflexivity|]. split; [|split; [vm_compute; reflexivity|unfold decimal, estimated_size; cbn; lra]].
  right. exists [48], [50; 56]. split; [reflexivity|].
  split; [constructor; [left; lia|constructor]|]. split; [constructor; [left; lia|constructor; [left; lia|constructor]]|]. split; discriminate.
Qed.
(** At a rate of 2, less than twice the estimated size of the result is paid, or more. *)
Example ex46_below : fst (@create_transaction demo_env below) = Ok below_tx /\ fee below_tx = Some 446 /\
  2 * estimated_size (length (tx_inputs below_tx)) (length (tx_outputs below_tx)) = 514.
Proof. split; [|split]; vm_compute; reflexivity. Qed.
Example ex46_above : fst (@create_transaction demo_env above) = Ok above_tx /\ fee above_tx = Some 804 /\
  2 * estimated_size (length (tx_inputs above_tx)) (length (tx_outputs above_tx)) = 514.
Proof. split; [|split]; vm_compute; reflexivity. Qed.

End WithEnv.
