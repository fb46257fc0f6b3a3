(** create_transaction as a whole, and its errors. *)
From Coq Require Import String Floats.SpecFloat Permutation Sorted Lia.
From Verif Require Import PyBase Env PyNum Validate Basic Spec EnvOk TxInput TxOutput Tx Create TxSpec FloatSpec NumSpec CreateSpec.
From Verif Require Import NumLemmas HexProofs Base58Proofs AddrProofs FloatProofs AmountProofs ScriptProofs WireProofs MakeProofs NumProofs PrepProofs DesignProofs BuildProofs.
Open Scope Z_scope.

Section WithEnv.
Context {E : Env}.
Hypothesis HH : HashOk E.
Hypothesis HZ : ZeroAddressOk E.
Hypothesis HU : UniOk E.

Lemma create_iff : forall a t, fst (create_transaction a) = Ok t <->
  exists q sel outs f chg, asked a q /\ plan q sel outs f chg /\ tx_of sel outs (q_change_address q) t.
Proof.
  intros a t. split.
  - intros H. unfold create_transaction in H. destruct (prepare a) as [[p|e] a'] eqn:P; cbn [fst] in H; [|discriminate].
    assert (exists q, asked a q /\ prep p q) as (q & A & PR).
    { pose proof H as H'. unfold build in H. inv_bind H xs X. inv_bind H ys Y. inv_bind H ap AP.
      eapply (prepare_inv HH HZ HU); eauto. intros FB.
      inv_bind H r1 RS1. inv_bind H r2 RS2. inv_bind H r3 RS3. apply bind_ok_inv in H. destruct H as (f & FE & _).
      unfold manage_fee in FE. inv_bind FE size SZ. inv_bind FE ff FF. rewrite FB in FF.
      destruct (p_fee_rate p) as [r|] eqn:FR.
      - (* a rate is only used when fee is falsy *) 
        exfalso. clear - P FB FR. unfold prepare in P.
        destruct (ns_inputs a) as [vin|]; [|discriminate]. destruct (ns_design a) as [[| | | | | |d]|]; try discriminate.
        destruct (adjust_design d) as [o1 d1]. destruct o1 as [[]|e]; [|discriminate].
        destruct vin as [| | | | |l|]; try discriminate. destruct (for_each adjust_input l) as [o2 l2].
        destruct (o2 ;;; validate_inputs (PList l2)) as [[]|e]; [|discriminate].
        destruct (validate_design d1) as [o3 d3].
        match type of P with (match ?x with _ => _ end) = _ => destruct x as [[u lo]|e] eqn:U end; [|discriminate].
        destruct (for_each add_satoshi_amount l2) as [o4 l4]. destruct o4 as [[]|e]; [|discriminate].
        destruct (for_each add_satoshi_amount lo) as [o5 lo5]. destruct o5 as [[]|e]; [|discriminate].
        destruct u as [[[[[msp rate] fe] ca] mf] aps]. injection P as <- _. cbn in FB, FR. subst.
        inv_bind U u1 U1. inv_bind U u2 U2. inv_bind U u3 U3. inv_bind U u4 U4. inv_bind U u5 U5. injection U as -> ->.
        unfold unpack in U3. inv_bind U3 v1 V1. inv_bind U3 v2 V2. inv_bind U3 v3 V3. inv_bind U3 v4 V4. inv_bind U3 v5 V5.
        injection U3 as <- -> E1 <- <- <-. rewrite E1 in V5. discriminate.
      - cbn [compute_fee] in FF. injection FF as <-. inv_bind FE x1 E1. inv_bind FE x2 E2. inv_bind FE x3 E3.
        rewrite satoshi_to_bitcoin_bool in FE. discriminate. }
    destruct (proj1 (build_iff HH HZ HU p q t PR (asked_wf HU _ _ A)) H) as (sel & outs & f & chg & PL & TX).
    exists q, sel, outs, f, chg. auto.
  - intros (q & sel & outs & f & chg & A & PL & TX). destruct (prepare_ok HH HZ HU a q A) as (p & a' & P & PR & _).
    unfold create_transaction. rewrite P. cbn [fst]. apply (build_iff HH HZ HU p q t PR (asked_wf HU _ _ A)). eauto 10.
Qed.

Lemma F2_fun_r : forall A B (R : A -> B -> Prop) l l1 l2, (forall a b b', R a b -> R a b' -> b = b') -> Forall2 R l l1 -> Forall2 R l l2 -> l1 = l2.
Proof. intros A B R l l1 l2 F H. revert l2. induction H; intros l2 H'; inversion H'; subst; f_equal; eauto. Qed.

Lemma input_arg_fun : forall v i j, input_arg v i -> input_arg v j -> i = j.
Proof.
  intros v [a1 t1 x1 v1] [a2 t2 x2 v2] (d & vi & s & -> & _ & A & _ & T & B & _ & I & PI & _ & S & AA) (d' & vi' & s' & Q & _ & A' & _ & T' & B' & _ & I' & PI' & _ & S' & AA').
  cbn [ia_address ia_txid ia_index ia_value] in *. injection Q as <-. rewrite A in A'. injection A' as ->. rewrite T in T'. injection T' as T'. apply hex_of_inj in T'; auto.
  rewrite I in I'. injection I' as <-. apply (py_int_iff HU) in PI, PI'. rewrite PI in PI'. injection PI' as ->. rewrite S in S'. injection S' as <-.
  rewrite (amount_arg_fun HU _ _ _ AA AA'). subst. auto.
Qed.
Lemma output_arg_fun : forall v i j, output_arg v i -> output_arg v j -> i = j.
Proof.
  intros v [a1 v1] [a2 v2] (d & s & -> & _ & A & _ & S & AA) (d' & s' & Q & _ & A' & _ & S' & AA').
  cbn [oa_address oa_value] in *. injection Q as <-. rewrite A in A'. injection A' as ->. rewrite S in S'. injection S' as <-.
  rewrite (amount_arg_fun HU _ _ _ AA AA'). auto.
Qed.
Lemma rate_text_ne : forall s ip fp, rate_text s ip fp -> s <> [].
Proof.
  intros s ip fp [(D & _ & N)|(a & b & -> & _)].
  - inversion D; subst; congruence. - destruct a; discriminate.
Qed.
Lemma rate_arg_fun : forall v r r', rate_arg v r -> rate_arg v r' -> r = r'.
Proof.
  intros v r r' [(z & -> & Z1 & R1)|[(s & ip & fp & -> & RT & R1)|(b & -> & ->)]] [(z' & Q & _ & R2)|[(s' & ip' & fp' & Q & RT' & R2)|(b' & Q & ->)]]; try discriminate; try (injection Q as <-); auto.
  - eapply rounds_fun; eauto.
  - apply rounds_decimal in R1; [|eapply (rate_text_val HU); eauto]. apply rounds_decimal in R2; [|eapply (rate_text_val HU); eauto]. subst.
    destruct (proj2 (rate_str_iff HU s _ (rate_text_ne _ _ _ RT)) (ex_intro _ ip (ex_intro _ fp (conj RT eq_refl)))) as [_ F1].
    destruct (proj2 (rate_str_iff HU s _ (rate_text_ne _ _ _ RT)) (ex_intro _ ip' (ex_intro _ fp' (conj RT' eq_refl)))) as [_ F2]. congruence.
Qed.
Lemma fee_arg_fun : forall fo ro c c', fee_arg fo ro c -> fee_arg fo ro c' -> c = c'.
Proof.
  assert (X : forall fo n ro r, 0 < n -> (fo = Some (PInt n) \/ exists s, fo = Some (PStr s) /\ int_text s n) -> fee_arg fo ro (FeeRate r) -> False).
  { intros fo n ro r N [->|(s & -> & P)] [F _]; cbn [no_fee] in F.
    - apply falsy_iff in F. cbn in F. destruct n; try lia; discriminate.
    - apply (int_text_iff HU) in P, F. rewrite P in F. injection F as ->. lia. }
  intros fo ro [n|r] [n'|r'] F F'.
  - destruct F as (N & _ & [->|(s & -> & P)]), F' as (N' & _ & [Q|(s' & Q & P')]); try discriminate; injection Q as <-; try congruence. apply (int_text_iff HU) in P, P'. congruence.
  - destruct F as (N & _ & F). elim (X _ _ _ _ N F F').
  - destruct F' as (N & _ & F'). elim (X _ _ _ _ N F' F).
  - destruct F as (_ & v & -> & R), F' as (_ & v' & Q & R'). injection Q as <-. f_equal. eapply rate_arg_fun; eauto.
Qed.
Lemma whole_arg_fun : forall v z z', whole_arg v z -> whole_arg v z' -> z = z'.
Proof.
  intros v z z' [W|(s & -> & P & _)] [W'|(s' & Q & P' & _)].
  - eapply whole_fun; eauto.
  - subst. destruct W as [[? _]|[[b [? _]]|[b [? _]]]]; discriminate.
  - destruct W' as [[? _]|[[b [? _]]|[b [? _]]]]; discriminate.
  - injection Q as <-. apply (int_text_iff HU) in P, P'. congruence.
Qed.
Lemma asked_fun : forall a q q', asked a q -> asked a q' -> q = q'.
Proof.
  intros a q q' (l & d & NI & FI & ND & ((lo & GO & FO) & (GC & CA) & (mv & GM & WM) & (pv & n & GP & PF & PT & PN) & FA & AA) & OA & IA)
    (l' & d' & NI' & FI' & ND' & ((lo' & GO' & FO') & (GC' & CA') & (mv' & GM' & WM') & (pv' & n' & GP' & PF' & PT' & PN') & FA' & AA') & OA' & IA').
  rewrite NI in NI'. injection NI' as <-. rewrite ND in ND'. injection ND' as <-. rewrite GO in GO'. injection GO' as <-.
  rewrite GC in GC'. injection GC' as GC'. rewrite GM in GM'. injection GM' as <-. rewrite GP in GP'. injection GP' as <-.
  pose proof (F2_fun_r _ _ _ _ _ _ input_arg_fun FI FI') as E1. pose proof (F2_fun_r _ _ _ _ _ _ output_arg_fun FO FO') as E2.
  pose proof (whole_arg_fun _ _ _ WM WM') as E3. pose proof (fee_arg_fun _ _ _ _ FA FA') as E4.
  assert (E5 : q_max_spend q = q_max_spend q') by (apply (py_float_iff HU) in PF, PF'; congruence).
  assert (E6 : q_approach q = q_approach q').
  { destruct AA as [[A B]|A], AA' as [[A' B']|A']; try congruence. rewrite A in A'. injection A' as A'. destruct (q_approach q), (q_approach q'); cbn in A'; congruence. }
  assert (E7 : q_allow_duplicates q = q_allow_duplicates q').
  { destruct OA as [[[A|A] B]|A], OA' as [[[A'|A'] B']|A']; congruence. }
  assert (E8 : q_change_index q = q_change_index q').
  { destruct IA as [[[A|A] B]|[A [z B]]], IA' as [[[A'|A'] B']|[A' [z' B']]]; congruence. }
  destruct q, q'; cbn in *. congruence.
Qed.

(** ** Errors. *)
Lemma ready_made : forall q, wf q -> Forall (fun i => ia_index i < 2 ^ 32) (q_inputs q) ->
  exists xs ys, Forall2 imade (q_inputs q) xs /\ Forall2 omade (q_outputs q) ys.
Proof.
  intros q W IX.
  assert (exists xs, Forall2 imade (q_inputs q) xs) as [xs X].
  { apply F2_choose. destruct W as (W & _). apply Forall_forall. intros i I. rewrite Forall_forall in W, IX. apply (make_input_exists HU); auto. }
  assert (exists ys, Forall2 omade (q_outputs q) ys) as [ys Y].
  { apply F2_choose. destruct W as (_ & W & _). apply Forall_forall. intros i I. rewrite Forall_forall in W. apply (make_output_exists HU); auto. }
  eauto.
Qed.

Lemma create_build : forall a q, asked a q -> exists p, prep p q /\ fst (create_transaction a) = build p.
Proof.
  intros a q A. destruct (prepare_ok HH HZ HU a q A) as (p & a' & P & PR & _). exists p. split; auto. unfold create_transaction. rewrite P. reflexivity.
Qed.

Lemma err_duplicate : forall a q, asked a q -> Forall (fun i => ia_index i < 2 ^ 32) (q_inputs q) ->
  in_value (q_inputs q) <= max_money -> out_value (q_outputs q) <= max_money ->
  q_allow_duplicates q = false -> ~ NoDup (map oa_address (q_outputs q)) ->
  fst (create_transaction a) = Err DuplicateOutputAddressError.
Proof.
  intros a q A IX TI TO AD ND. destruct (create_build a q A) as (p & P & ->). pose proof (asked_wf HU _ _ A) as W.
  destruct (ready_made q W IX) as (xs & ys & X & Y). rewrite (build_front HH HZ HU p q xs ys P W X Y) by lia.
  destruct (made_pairs_out _ _ Y) as (MP1 & MP2 & MP3).
  destruct (dup_iff (p_allow_duplicate p) ys (map fst (per_address (map (fun x => (to_address x, to_satoshi_amount x)) ys)))) as [D1 D2].
  { rewrite <- MP2. apply per_address_facts. rewrite MP1. apply Forall_map. apply (wf_values q W). }
  rewrite D2; [reflexivity|]. intros Q. apply ND. rewrite <- MP3. apply D1; auto. replace (p_allow_duplicate p) with (q_allow_duplicates q) by (symmetry; apply P). auto.
Qed.

Lemma create_rest : forall a q, asked a q -> Forall (fun i => ia_index i < 2 ^ 32) (q_inputs q) ->
  in_value (q_inputs q) <= max_money -> out_value (q_outputs q) <= max_money ->
  (q_allow_duplicates q = false -> NoDup (map oa_address (q_outputs q))) ->
  exists p xs ys, prep p q /\ wf q /\ Forall2 imade (q_inputs q) xs /\ Forall2 omade (q_outputs q) ys /\
    fst (create_transaction a) = build_rest p (q_approach q) (length (q_inputs q)) (sort_inputs (q_approach q) xs) ys /\
    length ys = length (q_outputs q) /\
    Forall2 imade (isort (q_approach q) (q_inputs q)) (sort_inputs (q_approach q) xs) /\
    Zsum (map ti_sat (sort_inputs (q_approach q) xs)) = in_value (q_inputs q) /\
    Zsum (map to_satoshi_amount ys) = out_value (q_outputs q).
Proof.
  intros a q A IX TI TO ND. destruct (create_build a q A) as (p & P & ->). pose proof (asked_wf HU _ _ A) as W.
  destruct (ready_made q W IX) as (xs & ys & X & Y). exists p, xs, ys. repeat (split; [assumption|]). split.
  - rewrite (build_front HH HZ HU p q xs ys P W X Y) by lia.
    destruct (made_pairs_out _ _ Y) as (MP1 & MP2 & MP3).
    assert (DU : check_duplicates (p_allow_duplicate p) ys (map fst (per_address (map (fun x => (to_address x, to_satoshi_amount x)) ys))) = Ok tt).
    { apply dup_iff; [|rewrite MP3; replace (p_allow_duplicate p) with (q_allow_duplicates q) by (symmetry; apply P); auto].
      rewrite <- MP2. apply per_address_facts. rewrite MP1. apply Forall_map. apply (wf_values q W). }
    rewrite DU. cbn [bind]. rewrite (F2_len _ _ _ _ _ X). reflexivity.
  - split; [rewrite (F2_len _ _ _ _ _ Y); auto|]. split; [apply sort_made; auto|]. split; [rewrite (in_value_made _ _ (sort_made _ _ _ X)), isort_value; auto|apply out_value_made; auto].
Qed.

Lemma fee_err : forall p q f, prep p q -> (length (q_inputs q) <= 252)%nat -> (length (q_outputs q) <= 252)%nat ->
  fee_due q f -> 0 <= f <= max_money -> q_max_fee q < f ->
  manage_fee p (length (q_inputs q)) (length (q_outputs q)) = Err ValueError.
Proof.
  intros p q f (_ & _ & PF & _ & WM & _) L1 L2 FD F FM. unfold manage_fee. rewrite estimate_ok by auto. cbn [bind].
  set (size := estimated_size (length (q_inputs q)) (length (q_outputs q))) in *.
  assert (SZ : 0 < size < 2 ^ 20). { unfold size, estimated_size. change (2 ^ 20) with 1048576. lia. }
  destruct (py_float_int_small size) as (fs & FS & _). { change (2 ^ 53) with 9007199254740992. change (2 ^ 20) with 1048576 in SZ. lia. }
  destruct (py_float_int_small f (money_small f ltac:(lia))) as (ff & FF & _).
  assert (C : compute_fee (p_fee p) (p_fee_rate p) size = Ok (PInt f)).
  { unfold fee_due in FD. fold size in FD. destruct (q_fee q) as [m|r].
    - destruct PF as [P1 P2]. subst. rewrite P2. cbn [compute_fee]. congruence.
    - rewrite PF. cbn [compute_fee]. apply rate_fee_iff in FD; [|apply size_small; auto]. unfold rate_res in FD. inv_bind FD f1 F1. rewrite F1. cbn [bind]. rewrite FD. reflexivity. }
  rewrite C. cbn [bind py_float]. rewrite FF. cbn [bind]. rewrite FS. cbn [bind].
  destruct (fdiv_ok ff size fs FS) as [r R]. { change (2 ^ 53) with 9007199254740992. change (2 ^ 20) with 1048576 in SZ. lia. }
  rewrite R. cbn [bind]. destruct (sat_ok HU f ltac:(lia)) as [s ->]. cbn [bind as_int]. rewrite (int_gt_whole f _ _ WM). cbn [bind].
  rewrite (proj2 (Z.ltb_lt _ _)) by lia. reflexivity.
Qed.

Lemma err_fee : forall a q f, asked a q -> ready q -> fee_due q f -> f <= max_money -> q_max_fee q < f ->
  fst (create_transaction a) = Err ValueError.
Proof.
  intros a q f A (L1 & L2 & IX & TI & TO & ND) FD FM F. destruct (create_rest a q A IX TI TO ND) as (p & xs & ys & P & W & X & Y & -> & LY & _).
  unfold build_rest. rewrite LY.
  assert (M0 : 0 <= q_max_fee q). { destruct P as (_ & _ & _ & _ & WM & _). eapply whole_nonneg; eauto. }
  rewrite (fee_err p q f P L1 L2 FD ltac:(lia) F). reflexivity.
Qed.

Lemma fee_ok : forall p q f, prep p q -> (length (q_inputs q) <= 252)%nat -> (length (q_outputs q) <= 252)%nat -> fee_due q f -> 0 <= f <= q_max_fee q -> f <= max_money ->
  manage_fee p (length (q_inputs q)) (length (q_outputs q)) = Ok f.
Proof. intros. apply (fee_iff HU); auto. Qed.

Lemma err_outputs : forall a q f, asked a q -> ready q -> fee_due q f -> 0 <= f <= q_max_fee q -> f <= max_money ->
  in_value (q_inputs q) < out_value (q_outputs q) -> fst (create_transaction a) = Err OutputValueNotCovered.
Proof.
  intros a q f A (L1 & L2 & IX & TI & TO & ND) FD FM F LT. destruct (create_rest a q A IX TI TO ND) as (p & xs & ys & P & W & X & Y & -> & LY & SX & VI & VO).
  unfold build_rest. rewrite LY, (fee_ok p q f), VI, VO by auto. cbn [bind].
  pose proof (wf_values q W) as [NI NO]. apply in_value_nonneg in NI. apply out_value_nonneg in NO.
  destruct (sat_ok HU (in_value (q_inputs q)) ltac:(lia)) as [s1 ->]. destruct (sat_ok HU (out_value (q_outputs q)) ltac:(lia)) as [s2 ->]. cbn [bind].
  rewrite (proj2 (Z.ltb_lt _ _)) by lia. destruct (sat_ok HU (out_value (q_outputs q) - in_value (q_inputs q)) ltac:(lia)) as [s3 ->]. reflexivity.
Qed.

Lemma err_total : forall a q f, asked a q -> ready q -> fee_due q f -> 0 <= f <= q_max_fee q ->
  out_value (q_outputs q) <= in_value (q_inputs q) < out_value (q_outputs q) + f -> out_value (q_outputs q) + f <= max_money ->
  fst (create_transaction a) = Err OutputAndFeeValueNotCovered.
Proof.
  intros a q f A (L1 & L2 & IX & TI & TO & ND) FD FM LT TM. destruct (create_rest a q A IX TI TO ND) as (p & xs & ys & P & W & X & Y & -> & LY & SX & VI & VO).
  pose proof (wf_values q W) as [NI NO]. apply in_value_nonneg in NI. apply out_value_nonneg in NO.
  unfold build_rest. rewrite LY, (fee_ok p q f), VI, VO by (auto; lia). cbn [bind].
  destruct (sat_ok HU (in_value (q_inputs q)) ltac:(lia)) as [s1 ->]. destruct (sat_ok HU (out_value (q_outputs q)) ltac:(lia)) as [s2 ->]. cbn [bind].
  rewrite (proj2 (Z.ltb_ge _ _)) by lia. cbn [bind]. destruct (sat_ok HU (out_value (q_outputs q) + f) ltac:(lia)) as [s3 ->]. cbn [bind].
  unfold select_inputs. rewrite (proj2 (Z.ltb_lt _ _)) by lia. destruct (sat_ok HU (out_value (q_outputs q) + f - in_value (q_inputs q)) ltac:(lia)) as [s4 ->]. reflexivity.
Qed.

(** Funds suffice: what is left is the change and the spending limit. *)
Lemma create_funded : forall a q f, asked a q -> ready q -> fee_due q f -> 0 <= f <= q_max_fee q ->
  out_value (q_outputs q) + f <= in_value (q_inputs q) ->
  exists sel sx ys s, sorted_for (q_approach q) (q_inputs q) s /\ chosen (q_approach q) (out_value (q_outputs q) + f) s sel /\
    Forall2 imade sel sx /\ Forall2 omade (q_outputs q) ys /\ wf q /\
    out_value (q_outputs q) + f <= in_value sel <= in_value (q_inputs q) /\ (length sel <= length (q_inputs q))%nat /\
    fst (create_transaction a) = (
      '(outputs, change) <- handle_change (q_change_address q) (q_change_index q) ys (in_value sel) (out_value (q_outputs q) + f) ;;
      let total_out := Zsum (map to_satoshi_amount outputs) in
      (if in_value sel =? out_value (q_outputs q) + f then Ok tt
       else satoshi_to_bitcoin (PInt total_out) ;;;
            satoshi_to_bitcoin (PInt (total_out + f)) ;;; Ok tt) ;;;
      if negb (in_value sel =? total_out + f) then Err ValueError
      else
        satoshi_to_bitcoin (PInt change) ;;;
        check_spend (q_max_spend q) (in_value (q_inputs q)) (in_value sel - change) ;;;
        t <- tx_create sx outputs ;;
        Ok (set_change_address t (Some (q_change_address q)))).
Proof.
  intros a q f A (L1 & L2 & IX & TI & TO & ND) FD FM TT. destruct (create_rest a q A IX TI TO ND) as (p & xs & ys & P & W & X & Y & CR & LY & SX & VI & VO).
  pose proof (wf_values q W) as [NI NO]. pose proof (in_value_nonneg _ NI) as NI'. apply out_value_nonneg in NO.
  set (s := isort (q_approach q) (q_inputs q)) in *. set (target := out_value (q_outputs q) + f) in *.
  set (sel := if in_value s =? target then s else iselect (match q_approach q with All => true | _ => false end) target 0 s).
  assert (VS : Forall (fun i => 0 <= ia_value i) s) by (apply isort_Forall; auto).
  assert (SV : in_value s = in_value (q_inputs q)) by apply isort_value.
  assert (CH : chosen (q_approach q) target s sel) by (apply chosen_iff; auto; unfold target in *; lia).
  assert (SI : exists sx, select_inputs (q_approach q) (sort_inputs (q_approach q) xs) (in_value (q_inputs q)) target = Ok sx /\ Forall2 imade sel sx).
  { unfold select_inputs. rewrite (proj2 (Z.ltb_ge _ _)) by (unfold target; lia). unfold sel. rewrite SV. destruct (in_value (q_inputs q) =? target); [eauto|].
    destruct (sat_ok HU (in_value (q_inputs q) - target) ltac:(unfold target; lia)) as [s1 ->]. cbn [bind]. eexists. split; [reflexivity|]. apply select_made. auto. }
  destruct SI as (sx & SI & SM).
  assert (SR : target <= in_value sel <= in_value (q_inputs q)).
  { unfold sel. rewrite SV. destruct (Z.eqb_spec (in_value (q_inputs q)) target); [lia|]. split.
    - apply iselect_reach; auto. unfold target in *. lia. - rewrite <- SV. apply iselect_value; auto. }
  assert (SL : (length sel <= length (q_inputs q))%nat).
  { unfold sel. assert (LS : length s = length (q_inputs q)) by apply isort_length. destruct (in_value s =? target); [lia|]. rewrite <- LS. apply iselect_length. }
  exists sel, sx, ys, s. split; [apply isort_for|]. split; [exact CH|]. split; [exact SM|]. split; [exact Y|]. split; [exact W|]. split; [exact SR|]. split; [exact SL|]. rewrite CR.
  unfold build_rest. rewrite LY, (fee_ok p q f), VI, VO by (auto; lia). cbn [bind].
  destruct (sat_ok HU (in_value (q_inputs q)) ltac:(lia)) as [s1 ->]. destruct (sat_ok HU (out_value (q_outputs q)) ltac:(lia)) as [s2 ->]. cbn [bind].
  rewrite (proj2 (Z.ltb_ge _ _)) by lia. cbn [bind]. fold target. destruct (sat_ok HU target ltac:(unfold target in *; lia)) as [s3 ->]. cbn [bind].
  rewrite SI. cbn [bind]. rewrite (in_value_made _ _ SM). destruct (sat_ok HU (in_value sel) ltac:(unfold target in *; lia)) as [s4 ->]. cbn [bind].
  destruct P as (_ & _ & _ & -> & _ & -> & _ & _ & ->). reflexivity.
Qed.

Lemma chosen_fun : forall ap target l l' sel, Forall (fun i => 0 <= ia_value i) l -> 0 <= target <= in_value l -> chosen ap target l sel -> chosen ap target l l' -> l' = sel.
Proof. intros ap target l l' sel F T A B. apply chosen_iff in A, B; auto. congruence. Qed.

Lemma position_none : forall idx n, (idx = PNone \/ exists z, whole idx z /\ Z.of_nat n <= z) -> change_position idx n = Err ValueError.
Proof.
  intros idx n [->|(z & [[-> Z0]|[[b [-> ->]]|[b [-> ->]]]] & L)]; unfold change_position; cbn [as_int bind float_cmp_int]; auto.
  - rewrite (proj2 (Z.ltb_ge _ _)) by lia. auto.
  - rewrite (proj2 (Z.ltb_ge _ _)) by lia. auto.
  - replace (Z.of_nat n) with 0 by lia. reflexivity.
Qed.

Lemma err_change : forall a q f s sel, asked a q -> ready q -> fee_due q f -> 0 <= f <= q_max_fee q ->
  out_value (q_outputs q) + f <= in_value (q_inputs q) ->
  sorted_for (q_approach q) (q_inputs q) s -> chosen (q_approach q) (out_value (q_outputs q) + f) s sel ->
  in_value sel <> out_value (q_outputs q) + f ->
  (1 < length (filter (pays (q_change_address q)) (q_outputs q)))%nat ->
  (q_change_index q = PNone \/ exists z, whole (q_change_index q) z /\ Z.of_nat (length (filter (pays (q_change_address q)) (q_outputs q))) <= z) ->
  fst (create_transaction a) = Err ValueError.
Proof.
  intros a q f s sel A RD FD FM TT SF CH NE L1 IX. destruct (create_funded a q f A RD FD FM TT) as (sel' & sx & ys & s' & SF' & CH' & SM & Y & W & SR & SL & ->).
  destruct RD as (_ & _ & _ & TI & _).
  pose proof (wf_values q W) as [NI NO]. apply out_value_nonneg in NO. assert (SV : in_value s = in_value (q_inputs q)) by (rewrite (sorted_for_unique _ _ _ SF); apply isort_value).
  assert (s' = s) by (rewrite (sorted_for_unique _ _ _ SF), (sorted_for_unique _ _ _ SF'); auto). subst s'.
  assert (sel' = sel). { apply (chosen_fun _ _ s sel' sel) with (4 := CH') (3 := CH); [|lia]. rewrite (sorted_for_unique _ _ _ SF). apply isort_Forall; auto. } subst sel'.
  unfold handle_change. rewrite (proj2 (Z.eqb_neq _ _)) by auto. destruct (sat_ok HU (in_value sel - (out_value (q_outputs q) + f)) ltac:(lia)) as [s1 ->]. cbn [bind].
  rewrite (made_filter _ _ _ Y). rewrite (proj2 (Nat.ltb_lt _ _)) by auto. rewrite position_none by auto. reflexivity.
Qed.

Lemma omade_exists_all : forall q surplus outs' chg idx, wf q -> surplus_paid (q_change_address q) idx (q_outputs q) surplus outs' chg -> 0 <= surplus ->
  out_value (q_outputs q) + surplus <= max_money -> exists ys', Forall2 omade outs' ys'.
Proof.
  intros q surplus outs' chg idx W SP S0 SM. pose proof (wf_values q W) as [_ NO]. destruct (surplus_value _ _ _ _ _ _ SP NO S0) as (SV & _ & NO').
  apply F2_choose. apply Forall_forall. intros o I. apply (make_output_exists HU).
  assert (R : 0 <= oa_value o <= max_money).
  { rewrite Forall_forall in NO'. split; auto. assert (I' : In (oa_value o) (map oa_value outs')) by (apply in_map; auto).
    pose proof (Zsum_ge (map oa_value outs') (oa_value o) (proj2 (Forall_map oa_value _ outs') (proj2 (Forall_forall (fun o => 0 <= oa_value o) outs') NO')) I').
    unfold out_value in *. lia. }
  split; auto. destruct W as (_ & WO & WC & _). rewrite Forall_forall in WO.
  destruct SP as [(_ & -> & _)|[(_ & _ & -> & _)|(_ & pre & o1 & post & Q & A & -> & _)]].
  - apply WO; auto.
  - destruct I as [<-|I]; auto. apply WO; auto.
  - apply in_app_or in I as [I|[<-|I]]; auto; apply WO; rewrite Q; apply in_or_app; [left|right; right]; auto.
Qed.

Lemma err_spend : forall a q f s sel outs chg limit, asked a q -> ready q -> fee_due q f -> 0 <= f <= q_max_fee q ->
  out_value (q_outputs q) + f <= in_value (q_inputs q) -> 0 < in_value (q_inputs q) ->
  sorted_for (q_approach q) (q_inputs q) s -> chosen (q_approach q) (out_value (q_outputs q) + f) s sel ->
  surplus_paid (q_change_address q) (q_change_index q) (q_outputs q) (in_value sel - (out_value (q_outputs q) + f)) outs chg ->
  spend_limit (q_max_spend q) (in_value (q_inputs q)) limit -> limit < in_value sel - chg ->
  fst (create_transaction a) = Err ValueError.
Proof.
  intros a q f s sel outs chg lim A RD FD FM TT T0 SF CH SP LM LT. destruct (create_funded a q f A RD FD FM TT) as (sel' & sx & ys & s' & SF' & CH' & SM & Y & W & SR & SL & ->).
  destruct RD as (_ & _ & _ & TI & _).
  pose proof (wf_values q W) as [NI NO]. pose proof (out_value_nonneg _ NO) as NO'. assert (SV : in_value s = in_value (q_inputs q)) by (rewrite (sorted_for_unique _ _ _ SF); apply isort_value).
  assert (s' = s) by (rewrite (sorted_for_unique _ _ _ SF), (sorted_for_unique _ _ _ SF'); auto). subst s'.
  assert (sel' = sel). { apply (chosen_fun _ _ s sel' sel) with (4 := CH') (3 := CH); [|lia]. rewrite (sorted_for_unique _ _ _ SF). apply isort_Forall; auto. } subst sel'.
  destruct (surplus_value _ _ _ _ _ _ SP NO ltac:(lia)) as (SVA & SVB & SVC).
  destruct (omade_exists_all q _ _ _ _ W SP ltac:(lia) ltac:(lia)) as [ys' Y'].
  assert (HC : handle_change (q_change_address q) (q_change_index q) ys (in_value sel) (out_value (q_outputs q) + f) = Ok (ys', chg)).
  { apply (handle_iff HH HZ HU _ _ _ _ _ _ _ _ Y); [apply W|apply W|lia|]. exists outs. auto. }
  rewrite HC. cbn [bind]. rewrite (out_value_made _ _ Y').
  assert (OK1 : (if in_value sel =? out_value (q_outputs q) + f then Ok tt else satoshi_to_bitcoin (PInt (out_value outs)) ;;; satoshi_to_bitcoin (PInt (out_value outs + f)) ;;; Ok tt) = Ok tt).
  { destruct (in_value sel =? out_value (q_outputs q) + f); auto. destruct (sat_ok HU (out_value outs) ltac:(lia)) as [z1 ->]. destruct (sat_ok HU (out_value outs + f) ltac:(lia)) as [z2 ->]. reflexivity. }
  rewrite OK1. cbn [bind]. rewrite (proj2 (Z.eqb_eq _ _)) by lia. cbn [negb].
  destruct (sat_ok HU chg ltac:(lia)) as [s5 ->]. cbn [bind].
  assert (CS : check_spend (q_max_spend q) (in_value (q_inputs q)) (in_value sel - chg) = Err ValueError).
  { apply spend_limit_iff in LM; [|lia]. unfold spend_res in LM. unfold check_spend. inv_bind LM f100 F1. rewrite F1. cbn [bind]. inv_bind LM x X1. rewrite X1. cbn [bind]. inv_bind LM ft FT. rewrite FT. cbn [bind].
    rewrite LM. cbn [bind]. assert (LOK : forall A (k : pystr -> res A), (forall s, k s = Err ValueError) -> (s <- satoshi_to_bitcoin (PInt lim) ;; k s) = Err ValueError).
    { intros B k K. destruct (Z_le_dec 0 lim); [destruct (sat_ok HU lim ltac:(lia)) as [z ->]; apply K|]. rewrite satoshi_to_bitcoin_bad by lia. reflexivity. }
    apply LOK. intros _. destruct (sat_ok HU (in_value sel - chg) ltac:(lia)) as [z ->]. cbn [bind].
    destruct (py_float_int_small (in_value sel - chg) (money_small (in_value sel - chg) ltac:(lia))) as (fs & FS & _). rewrite FS. cbn [bind].
    destruct (fdiv_ok fs _ ft FT) as [r R]. { pose proof (money_small (in_value (q_inputs q)) ltac:(lia)). lia. }
    rewrite R. cbn [bind]. rewrite (proj2 (Z.leb_gt _ _)) by lia. reflexivity. }
  rewrite CS. reflexivity.
Qed.

End WithEnv.
