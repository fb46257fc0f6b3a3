(** Rounding-error bounds for the fee computed from a rate and for the spending limit. *)
From Coq Require Import String Reals Lra Lia.
From Coq Require Import Floats.SpecFloat.
From Flocq Require Import Core BinarySingleNaN Relative.
From Verif Require Import PyBase Env PyNum Spec FloatSpec FloatProofs.
Open Scope Z_scope.

Lemma value_s2r : forall f, float_value f = s2r f.
Proof.
  intros [b|b| |s m e]; unfold s2r; cbn [float_value SF2R]; auto. unfold F2R. cbn [Fnum Fexp]. rewrite bpow_powerRZ. destruct s; reflexivity.
Qed.

Definition tiny : R := bpow radix2 (-1075).
Lemma tiny_pos : (0 < tiny)%R.
Proof. apply bpow_gt_0. Qed.
Lemma tiny_small : (tiny * 36028797018963968 * 9007199254740992 <= bpow radix2 (-900))%R.
Proof.
  replace 36028797018963968%R with (bpow radix2 55) by (cbn; lra). replace 9007199254740992%R with (bpow radix2 53) by (cbn; lra). unfold tiny.
  rewrite <- !bpow_plus. apply bpow_le. lia.
Qed.

Lemma rnd_error : forall x, exists eps eta, (Rabs eps <= / 9007199254740992)%R /\ (Rabs eta <= tiny)%R /\ rnd x = (x * (1 + eps) + eta)%R.
Proof.
  intros x. unfold rnd, fexp64. destruct (Rle_or_lt (bpow radix2 (-1022)) (Rabs x)) as [H|H].
  - destruct (relative_error_N_FLT_ex radix2 (-1074) 53 eq_refl (fun x => negb (Z.even x)) x H) as (eps & E1 & E2).
    exists eps, 0%R. split; [|split].
    + eapply Rle_trans; [exact E1|]. cbn. lra.
    + rewrite Rabs_R0. apply Rlt_le, tiny_pos.
    + rewrite Rplus_0_r. exact E2.
  - exists 0%R, (round radix2 (SpecFloat.fexp prec emax) ZnearestE x - x)%R. split; [|split].
    + rewrite Rabs_R0. lra.
    + eapply Rle_trans; [apply error_le_half_ulp; auto with typeclass_instances|].
      assert (U : ulp radix2 (SpecFloat.fexp prec emax) x = bpow radix2 (-1074)).
      { apply (ulp_FLT_small radix2 (-1074) 53). eapply Rlt_trans; [exact H|]. apply bpow_lt. lia. }
      rewrite U. unfold tiny. replace (/ 2)%R with (bpow radix2 (-1)) by (cbn; lra). rewrite <- bpow_plus. apply bpow_le. lia.
    + lra.
Qed.

Lemma rnd_nonneg : forall x, (0 <= x)%R -> (0 <= rnd x)%R.
Proof. intros x H. unfold rnd. rewrite <- (round_0 radix2 fexp64 ZnearestE). apply round_le; auto with typeclass_instances. Qed.
Lemma rnd_le : forall x y, (x <= y)%R -> (rnd x <= rnd y)%R.
Proof. intros x y H. unfold rnd. apply round_le; auto with typeclass_instances. Qed.

(** Upper bound: the ceiling of the computed product is less than one above the exact product, up to a relative 2^-51. *)
Lemma product_upper : forall x s n, (0 < x)%R -> (1 <= s <= 9007199254740992)%R ->
  (IZR n < rnd (s * rnd x) + 1)%R -> (IZR n < s * x * (1 + / 2251799813685248) + 1)%R.
Proof.
  intros x s n X S N. assert (SX : (0 < s * x)%R) by (apply Rmult_lt_0_compat; lra).
  destruct (Z_le_dec n 1) as [L|L].
  { apply IZR_le in L. assert (0 < s * x * (1 + / 2251799813685248))%R by (apply Rmult_lt_0_compat; lra). lra. }
  assert (L2 : (2 <= IZR n)%R) by (apply IZR_le; lia).
  destruct (rnd_error x) as (e1 & h1 & E1 & H1 & R1). destruct (rnd_error (s * rnd x)) as (e2 & h2 & E2 & H2 & R2).
  pose proof tiny_pos as TP. pose proof tiny_small as TS.
  assert (T9 : (bpow radix2 (-900) <= / 36028797018963968)%R).
  { replace (/ 36028797018963968)%R with (bpow radix2 (-55)) by (cbn; lra). apply bpow_le. lia. }
  assert (T9p : (0 < bpow radix2 (-900))%R) by apply bpow_gt_0.
  set (t9 := bpow radix2 (-900)) in *. set (r := rnd x) in *. apply Rabs_le_inv in E1, H1, E2, H2.
  assert (Rp : (0 <= r)%R) by (apply rnd_nonneg; lra).
  set (y := rnd (s * r)) in *. assert (Y1 : (1 < y)%R) by lra.
  assert (SR : (0 <= s * r)%R) by (apply Rmult_le_pos; lra).
  (* s*r is not small *)
  assert (SRb : (/ 2 <= s * r)%R).
  { rewrite R2 in Y1. assert (s * r * (1 + e2) <= s * r * (1 + / 9007199254740992))%R by (apply Rmult_le_compat_l; lra). lra. }
  assert (YU : (y <= s * r * (1 + / 9007199254740992 + / 36028797018963968))%R).
  { rewrite R2. assert (s * r * (1 + e2) <= s * r * (1 + / 9007199254740992))%R by (apply Rmult_le_compat_l; lra).
    assert (tiny <= s * r * / 36028797018963968)%R by lra. lra. }
  assert (XB : (/ 36028797018963968 <= x)%R).
  { destruct (Rle_or_lt (/ 36028797018963968) x) as [|XL]; auto. exfalso.
    assert (r <= / 18014398509481984 * (3 / 4))%R.
    { rewrite R1. assert (x * (1 + e1) <= x * (1 + / 9007199254740992))%R by (apply Rmult_le_compat_l; lra). lra. }
    assert (s * r <= 9007199254740992 * (/ 18014398509481984 * (3 / 4)))%R by (apply Rmult_le_compat; lra). lra. }
  assert (RU : (r <= x * (1 + / 9007199254740992 + / 36028797018963968))%R).
  { rewrite R1. assert (x * (1 + e1) <= x * (1 + / 9007199254740992))%R by (apply Rmult_le_compat_l; lra).
    assert (tiny <= / 36028797018963968 * / 36028797018963968)%R.
    { assert (tiny * 36028797018963968 * 9007199254740992 <= / 36028797018963968)%R by lra. lra. }
    assert (/ 36028797018963968 * / 36028797018963968 <= x * / 36028797018963968)%R by (apply Rmult_le_compat_r; lra). lra. }
  set (k := (1 + / 9007199254740992 + / 36028797018963968)%R) in *.
  assert (s * r <= s * (x * k))%R by (apply Rmult_le_compat_l; lra).
  assert (s * r * k <= s * (x * k) * k)%R by (apply Rmult_le_compat_r; [unfold k; lra|auto]).
  assert (KK : (k * k <= 1 + / 2251799813685248)%R) by (unfold k; lra).
  assert (s * x * (k * k) <= s * x * (1 + / 2251799813685248))%R by (apply Rmult_le_compat_l; lra). lra.
Qed.

(** Lower bound. *)
Lemma product_lower : forall x s, (0 <= x)%R -> (1 <= s <= 9007199254740992)%R ->
  (s * x * (1 - / 4503599627370496) - bpow radix2 (-900) <= rnd (s * rnd x))%R.
Proof.
  intros x s X S. destruct (rnd_error x) as (e1 & h1 & E1 & H1 & R1). destruct (rnd_error (s * rnd x)) as (e2 & h2 & E2 & H2 & R2).
  pose proof tiny_pos as TP. pose proof tiny_small as TS. rewrite R2. clear R2. rewrite R1. clear R1.
  set (t9 := bpow radix2 (-900)) in *. apply Rabs_le_inv in E1, H1, E2, H2. set (u := (/ 9007199254740992)%R) in *.
  assert (U : (u <= 1 / 4)%R) by (unfold u; lra). assert (Up : (0 < u)%R) by (unfold u; lra).
  assert (A1 : (x * (1 - u) - tiny <= x * (1 + e1) + h1)%R).
  { assert (x * (1 - u) <= x * (1 + e1))%R by (apply Rmult_le_compat_l; lra). lra. }
  assert (A2 : (s * (x * (1 - u) - tiny) <= s * (x * (1 + e1) + h1))%R) by (apply Rmult_le_compat_l; lra).
  set (w := (s * (x * (1 + e1) + h1))%R) in *.
  assert (ST : (s * tiny <= 9007199254740992 * tiny)%R) by (apply Rmult_le_compat_r; lra).
  assert (SX : (0 <= s * x)%R) by (apply Rmult_le_pos; lra).
  assert (A3 : (w * (1 - u) - 9007199254740992 * tiny * 2 <= w * (1 + e2))%R).
  { destruct (Rle_or_lt 0 w) as [W|W].
    - assert (w * (1 - u) <= w * (1 + e2))%R by (apply Rmult_le_compat_l; lra). lra.
    - assert (- (9007199254740992 * tiny) <= w)%R.
      { assert (0 <= s * x * (1 - u))%R by (apply Rmult_le_pos; lra). lra. }
      assert ((- w) * (1 + e2) <= (- w) * 2)%R by (apply Rmult_le_compat_l; lra).
      assert (w * (1 - u) <= 0)%R by (rewrite <- (Rmult_0_l (1 - u)); apply Rmult_le_compat_r; lra). lra. }
  assert (A4 : ((s * (x * (1 - u) - tiny)) * (1 - u) <= w * (1 - u))%R) by (apply Rmult_le_compat_r; lra).
  assert (A5 : (s * x * (1 - / 4503599627370496) <= s * x * ((1 - u) * (1 - u)))%R) by (apply Rmult_le_compat_l; unfold u; lra).
  assert (A6 : (s * tiny * (1 - u) <= s * tiny * 1)%R) by (apply Rmult_le_compat_l; [apply Rmult_le_pos; lra|lra]).
  lra.
Qed.

(** Multiplication of valid floats. *)
Lemma fmul_ok : forall x y, valid_binary prec emax x = true -> valid_binary prec emax y = true -> is_finite_SF x = true -> is_finite_SF y = true ->
  is_finite_SF (fmul x y) = true -> s2r (fmul x y) = rnd (s2r x * s2r y)%R.
Proof.
  intros x y Vx Vy Fx Fy F. destruct x as [bx|bx| |sx mx ex]; try discriminate; destruct y as [by_|by_| |sy my ey]; try discriminate;
    try (unfold fmul, s2r; cbn [SFmul SF2R]; rewrite ?Rmult_0_l, ?Rmult_0_r; unfold rnd; rewrite round_0; auto with typeclass_instances; fail).
  cbn [valid_binary] in Vx, Vy. unfold fmul in *. cbn [SFmul] in *. rewrite binary_round_aux_equiv in *.
  destruct (Bmult_correct_aux prec emax Hprec Hmax mode_NE sx mx ex Vx sy my ey Vy) as [V H].
  unfold s2r, rnd. cbn [SF2R]. destruct (Rlt_bool _ _) in H; [apply H|]. rewrite H in F. cbn in F. discriminate.
Qed.
Lemma fdiv_ok : forall x y q, valid_binary prec emax x = true -> valid_binary prec emax y = true -> is_finite_SF x = true -> is_finite_SF y = true ->
  fdiv x y = Ok q -> valid_binary prec emax q = true /\ (is_finite_SF q = true -> s2r q = rnd (s2r x / s2r y)%R).
Proof.
  intros x y q Vx Vy Fx Fy H. destruct y as [by_|by_| |sy my ey]; try discriminate. injection H as <-.
  destruct x as [bx|bx| |sx mx ex]; try discriminate.
  - cbn [SFdiv]. split; auto. intros _. unfold s2r, Rdiv. cbn [SF2R]. rewrite Rmult_0_l. unfold rnd. rewrite round_0; auto with typeclass_instances.
  - cbn [SFdiv]. destruct (binary_div_ok sx mx ex sy my ey) as [V K].
    destruct (SFdiv_core_binary prec emax (Z.pos mx) ex (Z.pos my) ey) as [[qq e] l]. split; auto. intros F.
    unfold s2r in *. cbn [SF2R]. destruct (Rlt_bool _ _) in K; [apply K|]. rewrite K in F. discriminate.
Qed.

(** math.ceil *)
Lemma ceil_ok : forall f n, py_ceil f = Ok n -> is_finite_SF f = true /\ (IZR n - 1 < s2r f <= IZR n)%R.
Proof.
  intros [b|b| |s m e] n H; try discriminate; cbn [py_ceil] in H; injection H as <-; split; auto; unfold s2r; cbn [SF2R]; [lra|].
  replace (cond_Zopp s (Z.pos m)) with (if s then Z.neg m else Z.pos m) by (destruct s; auto). set (v := if s then Z.neg m else Z.pos m).
  unfold F2R. cbn [Fnum Fexp]. destruct (Z.leb_spec 0 e) as [L|L].
  - rewrite mult_IZR. change (IZR (2 ^ e)) with (IZR (Zpower radix2 e)). rewrite IZR_Zpower by auto. lra.
  - assert (P : 0 < 2 ^ (- e)) by (apply Z.pow_pos_nonneg; lia).
    assert (B : bpow radix2 e = (/ IZR (2 ^ (- e)))%R).
    { change (IZR (2 ^ (- e))) with (IZR (Zpower radix2 (- e))). rewrite IZR_Zpower by lia. rewrite bpow_opp. rewrite Rinv_inv. auto. }
    rewrite B. pose proof (Z.div_mod (- v) (2 ^ (- e)) ltac:(lia)) as DM. pose proof (Z.mod_pos_bound (- v) (2 ^ (- e)) P) as MB.
    set (q := (- v) / 2 ^ (- e)) in *. set (d := 2 ^ (- e)) in *. assert (V : v = - (d * q) - (- v) mod d) by lia.
    assert (D0 : (0 < IZR d)%R) by (apply IZR_lt; auto).
    assert (VR : (IZR v = - (IZR d * IZR q) - IZR ((- v) mod d))%R) by (rewrite <- mult_IZR, <- opp_IZR, <- minus_IZR; f_equal; lia).
    assert (M1 : (0 <= IZR ((- v) mod d) < IZR d)%R) by (split; [apply IZR_le|apply IZR_lt]; lia).
    rewrite opp_IZR. rewrite VR. set (mm := IZR ((- v) mod d)) in *.
    replace ((- (IZR d * IZR q) - mm) * / IZR d)%R with (- IZR q - mm / IZR d)%R by (field; lra).
    assert (0 <= mm / IZR d)%R by (apply Rmult_le_pos; [lra|apply Rlt_le, Rinv_0_lt_compat; auto]).
    assert (mm / IZR d < 1)%R by (apply Rmult_lt_reg_r with (IZR d); auto; unfold Rdiv; rewrite Rmult_assoc, Rinv_l, Rmult_1_r by lra; lra). lra.
Qed.

Lemma float_of_dec_fin : forall m k, 0 <= m -> valid_binary prec emax (float_of_dec false m k) = true /\
  (is_finite_SF (float_of_dec false m k) = true -> s2r (float_of_dec false m k) = rnd (dec_real m k)).
Proof.
  intros m k H. destruct (Z.eq_dec m 0) as [->|].
  - split; auto. intros _. assert (D : dec_real 0 k = 0%R).
    { unfold dec_real. destruct (0 <=? k); [f_equal; lia|unfold Rdiv; apply Rmult_0_l]. }
    rewrite D. unfold rnd. rewrite round_0; auto with typeclass_instances.
  - destruct (float_of_dec_ok m k ltac:(lia)) as [V K]. split; auto. intros F. destruct (Rlt_bool _ _) in K; [apply K|]. rewrite K in F. discriminate.
Qed.
Lemma fmul_finite_args : forall x y, is_finite_SF (fmul x y) = true -> is_finite_SF x = true /\ is_finite_SF y = true.
Proof. intros [b|b| |s m e] [b'|b'| |s' m' e'] H; auto; discriminate. Qed.
