(** The percentage that a refused create_transaction advises, in real numbers. *)
From Coq Require Import String Reals Lra Lia.
From Coq Require Import Floats.SpecFloat.
From Flocq Require Import Core BinarySingleNaN.
From Verif Require Import PyBase Env Spec PyNum FloatSpec NumSpec CreateSpec ReportSpec FloatProofs RateProofs NumProofs BuildProofs OrderProofs.
Open Scope Z_scope.

Lemma float_of_small : forall n, 0 < n <= 2 ^ 53 -> exists m e, float_of n = S754_finite false m e /\ double (float_of n) /\ s2r (float_of n) = IZR n.
Proof.
  intros n H. destruct (binary_normalize_ok n ltac:(lia)) as [V A]. rewrite rnd_IZR in A by lia. rewrite Rlt_bool_true in A by (apply small_lt_big; lia).
  destruct A as (A & B & S). rewrite (proj2 (Z.ltb_ge _ _)) in S by lia. change (SpecFloat.binary_normalize prec emax n 0 false) with (float_of n) in *.
  destruct (float_of n) as [b|b| |s m e] eqn:Q; try discriminate.
  - unfold s2r in A. cbn in A. assert (IZR 0 < IZR n)%R by (apply IZR_lt; lia). lra.
  - cbn in S. subst s. exists m, e. split; auto.
Qed.
Lemma rounds_real : forall x neg z k, rounds_to x neg z -> 0 <= k < 1024 -> (Rabs x <= bpow radix2 k)%R -> double z /\ is_finite_SF z = true /\ s2r z = rnd x.
Proof.
  intros x neg z k R K X. destruct (rounds_bounded x neg z k R K X) as [F _]. destruct R as [V H]. split; [exact V|]. split; [exact F|].
  destruct (Rlt_bool _ _); [apply H|]. subst z. discriminate.
Qed.
Lemma rnd_le : forall x y, (x <= y)%R -> (rnd x <= rnd y)%R.
Proof. intros. apply round_le; auto with typeclass_instances. Qed.
Lemma rnd_rnd : forall x, rnd (rnd x) = rnd x.
Proof. intros. apply round_generic; auto with typeclass_instances. apply generic_format_round; auto with typeclass_instances. Qed.
(** Multiples of a power of two with at most 53 digits. *)
Lemma rnd_scaled : forall n e, Z.abs n <= 2 ^ 53 -> -1000 <= e <= 0 -> rnd (IZR n * bpow radix2 e) = (IZR n * bpow radix2 e)%R.
Proof.
  intros n e H K. apply round_generic; auto with typeclass_instances. destruct (Z.eq_dec n 0) as [->|N0]. { rewrite Rmult_0_l. apply generic_format_0. }
  destruct (Z.eq_dec (Z.abs n) (2 ^ 53)) as [Q|Q].
  - assert (G : generic_format radix2 fexp64 (bpow radix2 (53 + e))). { apply generic_format_bpow. unfold fexp64, SpecFloat.fexp, SpecFloat.emin, prec, emax. lia. }
    destruct (Z.abs_eq_or_opp n) as [B|B]; rewrite B in Q.
    + rewrite Q. rewrite bpow_plus in G. exact G.
    + replace n with (- (2 ^ 53)) by lia. rewrite opp_IZR, <- Ropp_mult_distr_l. apply generic_format_opp. rewrite bpow_plus in G. exact G.
  - change (IZR n * bpow radix2 e)%R with (F2R (Float radix2 n e)). apply generic_format_F2R. intros _. unfold cexp, fexp64, SpecFloat.fexp, SpecFloat.emin, prec, emax.
    assert (mag radix2 (F2R (Float radix2 n e)) <= 53 + e)%Z; [|lia].
    apply mag_le_bpow. { intros A. apply eq_0_F2R in A. lia. }
    rewrite <- F2R_Zabs. unfold F2R. cbn [Fnum Fexp]. rewrite bpow_plus. apply Rmult_lt_compat_r; [apply bpow_gt_0|]. change (bpow radix2 53) with (IZR (2 ^ 53)). apply IZR_lt. lia.
Qed.

(** n / m and x * k as floats, for 0 < n <= m and 0 < x <= 1. *)
Lemma ratio_real : forall n m, 0 < n <= m -> m <= 2 ^ 53 -> double (ratio n m) /\ is_finite_SF (ratio n m) = true /\ s2r (ratio n m) = rnd (IZR n / IZR m).
Proof.
  intros n m N M. destruct (float_of_small n ltac:(lia)) as (a & e & A & _ & RA). destruct (float_of_small m ltac:(lia)) as (b & x & B & _ & RB).
  unfold ratio. rewrite A, B in *. rewrite <- RA, <- RB. apply (rounds_real _ _ _ 0 (div_rounds false a e false b x) ltac:(lia)). rewrite RA, RB.
  assert (0 < IZR n)%R by (apply IZR_lt; lia). assert (0 < IZR m)%R by (apply IZR_lt; lia). assert (IZR n <= IZR m)%R by (apply IZR_le; lia).
  rewrite Rabs_pos_eq by (apply Rlt_le, Rdiv_lt_0_compat; auto). change (bpow radix2 0) with 1%R. apply (Rmult_le_reg_r (IZR m)); auto. unfold Rdiv. rewrite Rmult_assoc, Rinv_l; lra.
Qed.
Lemma times_real : forall x k, double x -> is_finite_SF x = true -> (0 <= s2r x <= 1)%R -> 0 < k <= 2 ^ 53 ->
  is_finite_SF (SFmul 53 1024 x (float_of k)) = true /\ s2r (SFmul 53 1024 x (float_of k)) = rnd (s2r x * IZR k).
Proof.
  intros x k V F B K. destruct (float_of_small k K) as (b & e & Q & W & R). rewrite Q in *. destruct x as [z|z| |s a t]; try discriminate.
  - cbn. split; auto. unfold s2r. cbn. rewrite Rmult_0_l. unfold rnd. rewrite round_0; auto with typeclass_instances.
  - rewrite <- R. apply (rounds_real _ _ _ 53 (mul_rounds s a t false b e V W) ltac:(lia)).
    rewrite R. rewrite Rabs_mult, (Rabs_pos_eq (s2r _)) by lra. rewrite <- abs_IZR. rewrite Z.abs_eq by lia. change (bpow radix2 53) with (IZR (2 ^ 53)).
    assert (IZR 0 < IZR k)%R by (apply IZR_lt; lia). apply Rle_trans with (1 * IZR k)%R; [apply Rmult_le_compat_r; lra|]. rewrite Rmult_1_l. apply IZR_le. lia.
Qed.
Lemma unit_ratio : forall n m, 0 < n <= m -> m <= 2 ^ 53 -> (0 < IZR n / IZR m <= 1)%R.
Proof.
  intros n m N M. assert (0 < IZR n)%R by (apply IZR_lt; lia). assert (0 < IZR m)%R by (apply IZR_lt; lia). assert (IZR n <= IZR m)%R by (apply IZR_le; lia).
  split; [apply Rdiv_lt_0_compat; auto|]. apply (Rmult_le_reg_r (IZR m)); auto. unfold Rdiv. rewrite Rmult_assoc, Rinv_l; lra.
Qed.
Lemma rnd_unit : forall x, (0 <= x <= 1)%R -> (0 <= rnd x <= 1)%R.
Proof.
  intros x [A B]. split.
  - replace 0%R with (rnd 0) by (unfold rnd; apply round_0; auto with typeclass_instances). apply rnd_le, A.
  - change 1%R with (IZR 1). rewrite <- (rnd_IZR 1) by lia. apply rnd_le, B.
Qed.

Lemma percent_real : forall n m, 0 < n <= m -> m <= 2 ^ 53 ->
  is_finite_SF (percent n m) = true /\ float_value (percent n m) = rnd (rnd (IZR n / IZR m) * 100).
Proof.
  intros n m N M. destruct (ratio_real n m N M) as (V & F & R). unfold percent. rewrite value_s2r. destruct (times_real (ratio n m) 100 V F) as [F' R'].
  - rewrite R. apply rnd_unit. pose proof (unit_ratio n m N M). lra.
  - lia.
  - rewrite R in R'. auto.
Qed.

(** The advice is between 1 and 101, and 101 only if everything is spent. *)
Lemma advice_range : forall n m a, 0 < n <= m -> m <= max_money -> truncates (percent n m) (a - 1) ->
  1 <= a <= 101 /\ (a = 101 <-> n = m) /\ (IZR a - 1 <= rnd (rnd (IZR n / IZR m) * 100) < IZR a)%R.
Proof.
  intros n m a N M [_ T]. assert (M' : m <= 2 ^ 51) by (unfold max_money in M; change (2 ^ 51) with 2251799813685248; lia).
  assert (M2 : m <= 2 ^ 53) by (change (2 ^ 51) with 2251799813685248 in M'; change (2 ^ 53) with 9007199254740992; lia).
  destruct (percent_real n m N M2) as [_ P]. rewrite P in T. set (y := rnd (rnd (IZR n / IZR m) * 100)) in *.
  pose proof (unit_ratio n m N M2) as U. pose proof (rnd_unit (IZR n / IZR m) ltac:(lra)) as U'.
  assert (Y0 : (0 <= y)%R). { unfold y. replace 0%R with (rnd 0) by (unfold rnd; apply round_0; auto with typeclass_instances). apply rnd_le. lra. }
  assert (Y1 : (y <= 100)%R). { unfold y. apply Rle_trans with (rnd (IZR 100)); [apply rnd_le; lra|rewrite rnd_IZR by lia; lra]. }
  rewrite Ztrunc_floor in T by auto. pose proof (Zfloor_lb y) as FL. pose proof (Zfloor_ub y) as FU. rewrite <- T in FL, FU. rewrite minus_IZR in FL, FU.
  assert (A1 : 1 <= a). { assert (0 < a); [|lia]. apply lt_IZR. lra. }
  assert (A2 : a <= 101). { apply le_IZR. lra. }
  split; [lia|]. split; [|lra]. split.
  - intros ->. destruct (Z.eq_dec n m) as [|NE]; auto. exfalso.
    assert (L : (IZR n / IZR m <= IZR (2 ^ 51 - 1) * bpow radix2 (-51))%R).
    { assert (PM : (0 < IZR m)%R) by (apply IZR_lt; lia). change (bpow radix2 (-51)) with (/ IZR (2 ^ 51))%R. change (IZR (2 ^ 51 - 1) * / IZR (2 ^ 51))%R with (IZR (2 ^ 51 - 1) / IZR (2 ^ 51))%R.
      assert (PB : (0 < IZR (2 ^ 51))%R) by (apply IZR_lt; reflexivity).
      apply (Rmult_le_reg_r (IZR m)); auto. unfold Rdiv. rewrite Rmult_assoc, Rinv_l, Rmult_1_r by lra.
      apply (Rmult_le_reg_r (IZR (2 ^ 51))); auto. replace (IZR (2 ^ 51 - 1) * / IZR (2 ^ 51) * IZR m * IZR (2 ^ 51))%R with (IZR (2 ^ 51 - 1) * IZR m)%R by (field; lra).
      rewrite <- !mult_IZR. apply IZR_le. nia. }
    apply rnd_le in L. rewrite rnd_scaled in L by (vm_compute; intuition discriminate).
    assert (LL : (rnd (IZR n / IZR m) * 100 <= IZR (100 * 2 ^ 46 - 1) * bpow radix2 (-46))%R).
    { eapply Rle_trans; [apply Rmult_le_compat_r; [lra|exact L]|]. change (bpow radix2 (-51)) with (/ IZR (2 ^ 51))%R. change (bpow radix2 (-46)) with (/ IZR (2 ^ 46))%R.
      change (2 ^ 51 - 1) with 2251799813685247. change (2 ^ 51) with 2251799813685248. change (100 * 2 ^ 46 - 1) with 7036874417766399. change (2 ^ 46) with 70368744177664. lra. }
    apply rnd_le in LL. fold y in LL. rewrite rnd_scaled in LL by (vm_compute; intuition discriminate).
    change (bpow radix2 (-46)) with (/ IZR (2 ^ 46))%R in LL. change (100 * 2 ^ 46 - 1) with 7036874417766399 in LL. change (2 ^ 46) with 70368744177664 in LL. lra.
  - intros ->. assert (Q : (IZR m / IZR m = IZR 1)%R). { unfold Rdiv. apply Rinv_r. apply not_0_IZR. lia. }
    unfold y in *. rewrite Q, (rnd_IZR 1), Rmult_1_l in * by lia. rewrite (rnd_IZR 100) in * by lia. assert (100 < a); [|lia]. apply lt_IZR. lra.
Qed.

(** A whole percentage that is not exceeded by n / m permits n. *)
Lemma percent_permits : forall n m a, 0 < n <= m -> m <= max_money -> 1 <= a <= 100 -> (rnd (IZR n / IZR m) * 100 <= IZR a)%R ->
  exists limit, spend_limit (float_of a) m limit /\ n <= limit <= m.
Proof.
  intros n m a N M A LT.
  assert (M' : m <= 2 ^ 51) by (unfold max_money in M; change (2 ^ 51) with 2251799813685248; lia).
  assert (M2 : m <= 2 ^ 53) by (change (2 ^ 51) with 2251799813685248 in M'; change (2 ^ 53) with 9007199254740992; lia).
  pose proof (unit_ratio n m N M2) as U. pose proof (unit_ratio a 100 ltac:(lia) ltac:(lia)) as UA.
  destruct (ratio_real a 100 ltac:(lia) ltac:(lia)) as (VR & FR & RR). pose proof (rnd_unit (IZR a / IZR 100) ltac:(lra)) as UR. rewrite <- RR in UR.
  destruct (times_real (ratio a 100) m VR FR UR ltac:(lia)) as [FT RT]. set (z := SFmul 53 1024 (ratio a 100) (float_of m)) in *.
  assert (PM : (0 < IZR m)%R) by (apply IZR_lt; lia).
  assert (LE : (rnd (IZR n / IZR m) <= s2r (ratio a 100))%R).
  { rewrite RR, <- rnd_rnd. apply rnd_le. apply (Rmult_le_reg_r 100); [lra|]. unfold Rdiv. rewrite Rmult_assoc, Rinv_l; lra. }
  assert (ER : (IZR n / IZR m - bpow radix2 (-53) <= rnd (IZR n / IZR m))%R).
  { pose proof (error_le_half_ulp radix2 fexp64 (fun x => negb (Z.even x)) (IZR n / IZR m)) as H. change (round radix2 fexp64 ZnearestE (IZR n / IZR m)) with (rnd (IZR n / IZR m)) in H.
    assert (UL : (ulp radix2 fexp64 (IZR n / IZR m) <= bpow radix2 (-52))%R).
    { replace (bpow radix2 (-52)) with (ulp radix2 fexp64 (bpow radix2 0)). - apply ulp_le; auto with typeclass_instances. change (bpow radix2 0) with 1%R. rewrite !Rabs_pos_eq by lra. lra.
      - rewrite ulp_bpow. reflexivity. }
    assert (HB : (/ 2 * bpow radix2 (-52) = bpow radix2 (-53))%R). { change (bpow radix2 (-52)) with (/ IZR (2 ^ 52))%R. change (bpow radix2 (-53)) with (/ IZR (2 ^ 53))%R. change (2 ^ 52) with 4503599627370496. change (2 ^ 53) with 9007199254740992. lra. }
    apply Rabs_le_inv in H. lra. }
  assert (LO : (IZR (2 * n - 1) * bpow radix2 (-1) <= s2r (ratio a 100) * IZR m)%R).
  { change (bpow radix2 (-1)) with (/ 2)%R. rewrite minus_IZR, mult_IZR.
    apply Rle_trans with ((IZR n / IZR m - bpow radix2 (-53)) * IZR m)%R; [|apply Rmult_le_compat_r; lra].
    replace ((IZR n / IZR m - bpow radix2 (-53)) * IZR m)%R with (IZR n - bpow radix2 (-53) * IZR m)%R by (field; lra).
    assert (bpow radix2 (-53) * IZR m <= / 4)%R; [|set (w := (bpow radix2 (-53) * IZR m)%R) in *; set (N2 := IZR n); lra]. change (bpow radix2 (-53)) with (/ IZR (2 ^ 53))%R. change (2 ^ 53) with 9007199254740992.
    assert (IZR m <= IZR (2 ^ 51))%R as MR by (apply IZR_le; auto). change (2 ^ 51) with 2251799813685248 in MR. lra. }
  apply rnd_le in LO. rewrite <- RT in LO.
  rewrite rnd_scaled in LO; [|change (2 ^ 53) with 9007199254740992; change (2 ^ 51) with 2251799813685248 in M'; lia|lia].
  assert (HI : (s2r z <= IZR m)%R). { rewrite RT. apply Rle_trans with (rnd (IZR m)); [|rewrite rnd_IZR by lia; lra]. apply rnd_le. apply Rle_trans with (1 * IZR m)%R; [apply Rmult_le_compat_r; lra|lra]. }
  exists (Zceil (float_value z)). split.
  - exists (float_of 100), (float_of m).
    assert (RN : forall k, 0 < k <= 2 ^ 53 -> rounds (IZR k) false (float_of k)).
    { intros k K. apply rounds_small; [lia|]. unfold py_float_int. destruct (float_of_small k K) as (b & e & Q & _). change (SpecFloat.binary_normalize prec emax k 0 false) with (float_of k). rewrite Q. reflexivity. }
    split; [apply RN; lia|]. split; [apply RN; lia|]. split; [exact FT|reflexivity].
  - rewrite value_s2r. split.
    + assert (n - 1 < Zceil (s2r z)); [|lia]. apply lt_IZR. rewrite minus_IZR. pose proof (Zceil_ub (s2r z)). change (bpow radix2 (-1)) with (/ 2)%R in LO. rewrite minus_IZR, mult_IZR in LO. lra.
    + apply Zceil_glb. exact HI.
Qed.

(** With the advised percentage, if it is one, what was to be spent is permitted; and with 100, if everything was to be spent. *)
Lemma advice_suffices : forall n m a, 0 < n <= m -> m <= max_money -> truncates (percent n m) (a - 1) ->
  exists limit, spend_limit (float_of (Z.min a 100)) m limit /\ n <= limit <= m.
Proof.
  intros n m a N M T. destruct (advice_range n m a N M T) as (A1 & A2 & Y). apply percent_permits; auto; [lia|].
  destruct (Z.eq_dec a 101) as [Q|Q].
  - rewrite Q. rewrite (proj1 A2 Q). unfold Rdiv. rewrite Rinv_r by (apply not_0_IZR; lia). rewrite (rnd_IZR 1) by lia. change (Z.min 101 100) with 100. lra.
  - rewrite Z.min_l by lia. destruct (Rle_lt_dec (rnd (IZR n / IZR m) * 100) (IZR a)) as [|G]; auto. apply Rlt_le, rnd_le in G. rewrite rnd_IZR in G by lia. lra.
Qed.
Lemma float_of_truncates : forall n, 0 < n <= 2 ^ 53 -> truncates (float_of n) n.
Proof. intros n N. destruct (float_of_small n N) as (m & e & Q & _ & R). split; [rewrite Q; reflexivity|]. rewrite value_s2r, R. symmetry. apply Ztrunc_IZR. Qed.
