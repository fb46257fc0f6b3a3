(** Correctness of the modelled float operations, from Flocq's theorems about correctly rounded IEEE binary64
    arithmetic.  Real numbers (and their standard-library axioms) appear only here and in files that need
    rounding-error bounds. *)
From Coq Require Import String Reals Lra Lia.
From Coq Require Import Floats.SpecFloat.
From Flocq Require Import Core BinarySingleNaN.
From Verif Require Import PyBase Env PyNum.
Open Scope Z_scope.

Definition fexp64 : Z -> Z := SpecFloat.fexp prec emax.
Definition rnd (x : R) : R := round radix2 fexp64 ZnearestE x.
Definition s2r (f : spec_float) : R := SF2R radix2 f.
Definition big : R := bpow radix2 1024.

#[global] Instance Hprec : FLX.Prec_gt_0 prec := eq_refl _.
#[global] Instance Hmax : Prec_lt_emax prec emax := eq_refl _.
#[global] Instance Hvalid : Valid_exp fexp64 := fexp_correct prec emax Hprec.
#[global] Instance Hmono : Monotone_exp fexp64 := fexp_monotone prec emax.

Lemma round_nearest_even_equiv s m l : round_nearest_even m l = choice_mode mode_NE s m l.
Proof.
  case l; [reflexivity|intro c].
  case c; [ | reflexivity..].
  now simpl; unfold Round.cond_incr; case Z.even.
Qed.

Lemma binary_round_aux_equiv sx mx ex lx :
  SpecFloat.binary_round_aux prec emax sx mx ex lx = binary_round_aux prec emax mode_NE sx mx ex lx.
Proof.
  unfold SpecFloat.binary_round_aux, binary_round_aux.
  set (mrse' := shr_fexp _ _ _). case mrse'; intros mrs' e'; simpl.
  now rewrite (round_nearest_even_equiv sx).
Qed.

Lemma binary_round_equiv s m e :
  SpecFloat.binary_round prec emax s m e = binary_round prec emax mode_NE s m e.
Proof.
  unfold SpecFloat.binary_round, binary_round, shl_align_fexp.
  set (mez := shl_align _ _ _); case mez as [mz ez].
  apply binary_round_aux_equiv.
Qed.

(** z is the correctly rounded value of x. *)
Definition rounds_to (x : R) (neg : bool) (z : spec_float) : Prop :=
  valid_binary prec emax z = true /\
  if Rlt_bool (Rabs (rnd x)) big then s2r z = rnd x /\ is_finite_SF z = true /\ sign_SF z = neg
  else z = S754_infinity neg.

Lemma binary_round_ok : forall neg m e,
  rounds_to (F2R (Float radix2 (cond_Zopp neg (Z.pos m)) e)) neg (SpecFloat.binary_round prec emax neg m e).
Proof.
  intros neg m e. rewrite binary_round_equiv. unfold rounds_to, rnd, s2r, big, fexp64.
  generalize (binary_round_correct prec emax Hprec Hmax mode_NE neg m e). cbv zeta. intros [A B]. split; [exact A|].
  change (round_mode mode_NE) with ZnearestE in B. change 1024 with emax. exact B.
Qed.

Lemma binary_div_ok : forall sx mx ex sy my ey,
  rounds_to (F2R (Float radix2 (cond_Zopp sx (Z.pos mx)) ex) / F2R (Float radix2 (cond_Zopp sy (Z.pos my)) ey)) (xorb sx sy)
    (let '(q, e, l) := SFdiv_core_binary prec emax (Z.pos mx) ex (Z.pos my) ey in
     SpecFloat.binary_round_aux prec emax (xorb sx sy) q e l).
Proof.
  intros. generalize (Bdiv_correct_aux prec emax Hprec Hmax mode_NE sx mx ex sy my ey). cbv zeta.
  destruct (SFdiv_core_binary prec emax (Z.pos mx) ex (Z.pos my) ey) as [[q e] l].
  rewrite binary_round_aux_equiv. unfold rounds_to, rnd, s2r, big, fexp64.
  intros [A B]. split; [exact A|]. change (round_mode mode_NE) with ZnearestE in B. change 1024 with emax. exact B.
Qed.

Lemma F2R0 : forall m, F2R (Float radix2 m 0) = IZR m.
Proof. intros. unfold F2R. simpl. lra. Qed.

(** Decimal literal. *)
Definition dec_real (m k : Z) : R := if 0 <=? k then IZR (m * 10 ^ k) else (IZR m / IZR (10 ^ (- k)))%R.

Lemma float_of_dec_ok : forall m k, 0 < m -> rounds_to (dec_real m k) false (float_of_dec false m k).
Proof.
  intros m k Hm. destruct m as [|p|p]; try lia. unfold float_of_dec, dec_real.
  destruct (0 <=? k) eqn:Ek.
  - apply Z.leb_le in Ek. set (n := Z.pos p * 10 ^ k). assert (0 < n) by (unfold n; apply Z.mul_pos_pos; [lia|apply Z.pow_pos_nonneg; lia]).
    destruct n as [|n|n]; try lia. simpl Z.to_pos. generalize (binary_round_ok false n 0). rewrite F2R0. auto.
  - apply Z.leb_gt in Ek. assert (0 < 10 ^ (- k)) by (apply Z.pow_pos_nonneg; lia).
    destruct (10 ^ (- k)) as [|d|d]; try lia.
    generalize (binary_div_ok false p 0 false d 0). rewrite !F2R0. cbn [cond_Zopp xorb]. auto.
Qed.

(** Comparison with a finite float. *)
Lemma SFltb_real : forall f g, valid_binary prec emax f = true -> valid_binary prec emax g = true ->
  is_finite_SF f = true -> is_finite_SF g = true -> SFltb f g = Rlt_bool (s2r f) (s2r g).
Proof.
  intros f g Vf Vg Ff Fg. generalize (Bltb_correct prec emax (SF2B f Vf) (SF2B g Vg)).
  rewrite !is_finite_SF2B, !B2R_SF2B. intros H. unfold s2r. rewrite <- (H Ff Fg).
  unfold Bltb. rewrite !B2SF_SF2B. reflexivity.
Qed.

Lemma rounds_nonneg : forall x z, (0 <= x)%R -> rounds_to x false z -> SFltb z (S754_zero false) = false.
Proof.
  intros x z Hx [V H]. destruct (Rlt_bool (Rabs (rnd x)) big).
  - destruct H as [A [B C]]. rewrite SFltb_real by auto. apply Rlt_bool_false. simpl. rewrite A.
    unfold rnd. rewrite <- (round_0 radix2 fexp64 ZnearestE). apply round_le; auto with typeclass_instances.
  - subst. reflexivity.
Qed.

Lemma generic_IZR : forall n, Z.abs n <= 2 ^ 53 -> generic_format radix2 fexp64 (IZR n).
Proof.
  intros n H. rewrite <- F2R0. destruct (Z.eq_dec n 0) as [->|Hn]. { rewrite F2R0. apply generic_format_0. }
  destruct (Z.eq_dec (Z.abs n) (2 ^ 53)) as [E|E].
  - assert (A : generic_format radix2 fexp64 (bpow radix2 53)). { apply generic_format_bpow. vm_compute. discriminate. }
    rewrite F2R0. change (bpow radix2 53) with (IZR (2 ^ 53)) in A.
    destruct (Z.abs_eq_or_opp n) as [B|B]; rewrite B in E.
    + rewrite E. exact A.
    + replace n with (- (2 ^ 53)) by lia. rewrite opp_IZR. apply generic_format_opp. exact A.
  - apply generic_format_F2R. intros _. unfold cexp, fexp64, SpecFloat.fexp, SpecFloat.emin, prec, emax.
    assert (mag radix2 (F2R (Float radix2 n 0)) <= 53)%Z.
    { apply mag_le_bpow. { rewrite F2R0. intros A. apply eq_IZR in A. lia. }
      rewrite F2R0, <- abs_IZR. change (bpow radix2 53) with (IZR (2 ^ 53)). apply IZR_lt. lia. }
    lia.
Qed.

Lemma rnd_IZR : forall n, Z.abs n <= 2 ^ 53 -> rnd (IZR n) = IZR n.
Proof. intros. apply round_generic; auto with typeclass_instances. now apply generic_IZR. Qed.

(** Conversion of an int. *)
Lemma binary_normalize_ok : forall n, n <> 0 -> rounds_to (IZR n) (n <? 0) (SpecFloat.binary_normalize prec emax n 0 false).
Proof.
  intros n Hn. unfold SpecFloat.binary_normalize. destruct n as [|p|p]; [lia| |].
  - generalize (binary_round_ok false p 0). rewrite F2R0. auto.
  - generalize (binary_round_ok true p 0). rewrite F2R0. auto.
Qed.

Lemma small_lt_big : forall n, Z.abs n <= 2 ^ 53 -> (Rabs (IZR n) < big)%R.
Proof.
  intros n H. rewrite <- abs_IZR. apply Rle_lt_trans with (IZR (2 ^ 53)). apply IZR_le; lia.
  unfold big. change (IZR (2 ^ 53)) with (bpow radix2 53). apply bpow_lt. lia.
Qed.

Lemma py_float_int_small : forall n, Z.abs n <= 2 ^ 53 ->
  exists f, py_float_int n = Ok f /\ valid_binary prec emax f = true /\ is_finite_SF f = true /\ s2r f = IZR n.
Proof.
  intros n H. unfold py_float_int. destruct (Z.eq_dec n 0) as [->|Hn].
  - simpl. eexists. split; [reflexivity|]. repeat split.
  - generalize (binary_normalize_ok n Hn). intros [V A]. rewrite rnd_IZR in A by auto.
    rewrite Rlt_bool_true in A by (apply small_lt_big; auto). destruct A as [A [B C]].
    destruct (SpecFloat.binary_normalize prec emax n 0 false) eqn:E; try discriminate; eexists; split; try reflexivity; auto.
Qed.

(** 21,000,000 plus one unit in the last place (2^-28) is a float. *)
Lemma generic_next : generic_format radix2 fexp64 (F2R (Float radix2 (21000000 * 2 ^ 28 + 1) (-28))).
Proof.
  apply generic_format_F2R. intros _. unfold cexp, fexp64, SpecFloat.fexp, SpecFloat.emin, prec, emax.
  assert (mag radix2 (F2R (Float radix2 (21000000 * 2 ^ 28 + 1) (-28))) <= 25)%Z.
  { apply mag_le_bpow. { unfold F2R. simpl. lra. }
    unfold F2R. simpl. rewrite Rabs_pos_eq by lra. lra. }
  lia.
Qed.

Lemma dec_real_div : forall m k, 0 <= k -> dec_real m (- k) = (IZR m / IZR (10 ^ k))%R.
Proof.
  intros m k H. unfold dec_real. destruct (0 <=? - k) eqn:E.
  - apply Z.leb_le in E. assert (k = 0) by lia. subst. simpl. rewrite Z.mul_1_r. field.
  - now rewrite Z.opp_involutive.
Qed.

(** The float comparison of validate_bitcoin_amount is exact on numerals with at most 8 decimals. *)
Lemma amount_compare : forall m k fmax, 0 <= m -> 0 <= k <= 8 -> py_float_int 21000000 = Ok fmax ->
  SFltb fmax (float_of_dec false m (- k)) = (21000000 * 10 ^ k <? m) /\
  SFltb (float_of_dec false m (- k)) (S754_zero false) = false.
Proof.
  intros m k fmax Hm Hk Hf.
  destruct (py_float_int_small 21000000) as [f [F1 [F2 [F3 F4]]]]; [lia|].
  rewrite F1 in Hf. injection Hf as <-.
  assert (HP : 0 < 10 ^ k) by (apply Z.pow_pos_nonneg; lia).
  assert (HPR : (0 < IZR (10 ^ k))%R) by (apply IZR_lt; auto).
  destruct (Z.eq_dec m 0) as [->|Hn].
  { simpl float_of_dec. split; [|reflexivity].
    rewrite SFltb_real by auto. rewrite F4. simpl s2r.
    replace (21000000 * 10 ^ k <? 0) with false by (symmetry; apply Z.ltb_ge; lia).
    apply Rlt_bool_false. lra. }
  generalize (float_of_dec_ok m (- k) ltac:(lia)). rewrite dec_real_div by lia. intros R.
  assert (NN : (0 <= IZR m / IZR (10 ^ k))%R).
  { apply Rmult_le_pos. apply IZR_le; lia. left; apply Rinv_0_lt_compat; auto. }
  split; [|apply (rounds_nonneg _ _ NN R)].
  assert (MAX : rnd (IZR 21000000) = IZR 21000000) by (apply rnd_IZR; lia).
  destruct R as [V R]. destruct (21000000 * 10 ^ k <? m) eqn:E.
  - apply Z.ltb_lt in E.
    assert (GE : (IZR 21000000 + bpow radix2 (-28) <= IZR m / IZR (10 ^ k))%R).
    { apply Rmult_le_reg_r with (IZR (10 ^ k)); auto.
      unfold Rdiv. rewrite Rmult_assoc, Rinv_l, Rmult_1_r by lra. rewrite Rmult_plus_distr_r, <- mult_IZR.
      apply Rle_trans with (IZR (21000000 * 10 ^ k) + 1)%R.
      - apply Rplus_le_compat_l. apply Rle_trans with (bpow radix2 (-28) * IZR (10 ^ 8))%R.
        + apply Rmult_le_compat_l. apply bpow_ge_0. apply IZR_le. apply Z.pow_le_mono_r; lia.
        + simpl. lra.
      - rewrite <- plus_IZR. apply IZR_le. lia. }
    assert (GR : (IZR 21000000 < rnd (IZR m / IZR (10 ^ k)))%R).
    { apply Rlt_le_trans with (rnd (F2R (Float radix2 (21000000 * 2 ^ 28 + 1) (-28)))).
      - unfold rnd. rewrite round_generic by (auto with typeclass_instances; apply generic_next). unfold F2R; simpl; lra.
      - unfold rnd. apply round_le; auto with typeclass_instances. eapply Rle_trans; [|exact GE].
        unfold F2R; simpl; lra. }
    destruct (Rlt_bool (Rabs (rnd (IZR m / IZR (10 ^ k)))) big).
    + destruct R as [A [B C]]. rewrite SFltb_real by auto. rewrite F4, A. now apply Rlt_bool_true.
    + rewrite R. destruct f; simpl in F3; try discriminate; try reflexivity.
  - apply Z.ltb_ge in E.
    assert (LE : (rnd (IZR m / IZR (10 ^ k)) <= IZR 21000000)%R).
    { rewrite <- MAX. unfold rnd. apply round_le; auto with typeclass_instances.
      apply Rmult_le_reg_r with (IZR (10 ^ k)); auto.
      unfold Rdiv. rewrite Rmult_assoc, Rinv_l, Rmult_1_r by lra. rewrite <- mult_IZR. now apply IZR_le. }
    assert (GE : (0 <= rnd (IZR m / IZR (10 ^ k)))%R).
    { unfold rnd. rewrite <- (round_0 radix2 fexp64 ZnearestE). apply round_le; auto with typeclass_instances. }
    rewrite Rlt_bool_true in R.
    + destruct R as [A [B C]]. rewrite SFltb_real by auto. rewrite F4, A. now apply Rlt_bool_false.
    + rewrite Rabs_pos_eq by auto. eapply Rle_lt_trans; [exact LE|]. generalize (small_lt_big 21000000 ltac:(lia)).
      rewrite Rabs_pos_eq; auto. lra.
Qed.
