(** Arithmetic of digit strings. *)
From Coq Require Import Lia.
From Verif Require Import PyBase Spec.

Lemma val_app_acc : forall b ds a,
  fold_left (fun acc d => acc * b + d) ds a = a * b ^ Z.of_nat (length ds) + val b ds.
Proof.
  intros b ds. unfold val. induction ds as [|d r IH]; intros a.
  - cbn. lia.
  - cbn [fold_left length]. rewrite IH. rewrite (IH (0 * b + d)).
    rewrite Nat2Z.inj_succ, Z.pow_succ_r by lia. lia.
Qed.

Lemma val_cons : forall b d ds, val b (d :: ds) = d * b ^ Z.of_nat (length ds) + val b ds.
Proof. intros. unfold val at 1. cbn [fold_left]. rewrite val_app_acc. lia. Qed.

Lemma val_nil : forall b, val b [] = 0.
Proof. reflexivity. Qed.

Lemma val_app : forall b xs ys, val b (xs ++ ys) = val b xs * b ^ Z.of_nat (length ys) + val b ys.
Proof. intros. unfold val at 1. rewrite fold_left_app. rewrite val_app_acc. reflexivity. Qed.

Lemma val_snoc : forall b xs d, val b (xs ++ [d]) = val b xs * b + d.
Proof. intros. rewrite val_app. cbn [length]. rewrite val_cons, val_nil. cbn [length]. change (Z.of_nat 1) with 1. change (Z.of_nat 0) with 0. rewrite Z.pow_1_r, Z.pow_0_r. lia. Qed.

Lemma val_bounds : forall b ds, 0 < b -> digits_in b ds -> 0 <= val b ds < b ^ Z.of_nat (length ds).
Proof.
  intros b ds Hb H. induction H as [|d r Hd Hr IH].
  - cbn. lia.
  - rewrite val_cons. cbn [length]. rewrite Nat2Z.inj_succ, Z.pow_succ_r by lia.
    pose proof (Z.pow_pos_nonneg b (Z.of_nat (length r)) Hb ltac:(lia)). nia.
Qed.

Lemma val_repeat0 : forall b n, val b (repeat 0 n) = 0.
Proof. induction n as [|n IH]; [reflexivity|]. cbn [repeat]. rewrite val_cons, IH. lia. Qed.

Lemma val_repeat0_app : forall b n ds, val b (repeat 0 n ++ ds) = val b ds.
Proof. intros. rewrite val_app, val_repeat0. lia. Qed.

Lemma val_inj_len : forall b xs ys, 0 < b -> digits_in b xs -> digits_in b ys ->
  length xs = length ys -> val b xs = val b ys -> xs = ys.
Proof.
  intros b xs ys Hb Hx. revert ys. induction Hx as [|d r Hd Hr IH]; intros ys Hy Hl Hv.
  - destruct ys; [reflexivity|discriminate].
  - destruct ys as [|e s]; [discriminate|]. inversion Hy; subst.
    rewrite !val_cons in Hv. cbn [length] in Hl. injection Hl as Hl. rewrite Hl in *.
    pose proof (val_bounds b r Hb Hr). pose proof (val_bounds b s Hb ltac:(assumption)).
    rewrite Hl in *. pose proof (Z.pow_pos_nonneg b (Z.of_nat (length s)) Hb ltac:(lia)).
    assert (d = e) by nia. subst e. f_equal. apply IH; [assumption|reflexivity|lia].
Qed.

Lemma val_lead_lower : forall b d r, 0 < b -> digits_in b (d :: r) -> d <> 0 ->
  b ^ Z.of_nat (length r) <= val b (d :: r).
Proof.
  intros b d r Hb H Hd. inversion H; subst. rewrite val_cons.
  pose proof (val_bounds b r Hb ltac:(assumption)).
  pose proof (Z.pow_pos_nonneg b (Z.of_nat (length r)) Hb ltac:(lia)). nia.
Qed.

Lemma no_lead0_cons : forall d r, no_lead0 (d :: r) <-> d <> 0.
Proof. intros d r. destruct d; cbn; split; intros; try tauto; try lia; try discriminate. Qed.

(** Representations without a leading zero are unique. *)
Lemma val_inj_lead : forall b xs ys, 1 < b -> digits_in b xs -> digits_in b ys ->
  no_lead0 xs -> no_lead0 ys -> val b xs = val b ys -> xs = ys.
Proof.
  intros b xs ys Hb Hx Hy Lx Ly Hv.
  apply (val_inj_len b); try assumption; try lia.
  destruct xs as [|d r], ys as [|e s]; cbn [length]; try reflexivity.
  - apply no_lead0_cons in Ly. pose proof (val_lead_lower b e s ltac:(lia) Hy Ly).
    rewrite val_nil in Hv. pose proof (Z.pow_pos_nonneg b (Z.of_nat (length s)) ltac:(lia) ltac:(lia)). lia.
  - apply no_lead0_cons in Lx. pose proof (val_lead_lower b d r ltac:(lia) Hx Lx).
    rewrite val_nil in Hv. pose proof (Z.pow_pos_nonneg b (Z.of_nat (length r)) ltac:(lia) ltac:(lia)). lia.
  - apply no_lead0_cons in Lx, Ly.
    pose proof (val_lead_lower b d r ltac:(lia) Hx Lx). pose proof (val_lead_lower b e s ltac:(lia) Hy Ly).
    pose proof (val_bounds b _ ltac:(lia) Hx). pose proof (val_bounds b _ ltac:(lia) Hy).
    cbn [length] in *.
    assert (Hlt1 : ~ (length r < length s)%nat).
    { intros L. assert (b ^ Z.of_nat (S (length r)) <= b ^ Z.of_nat (length s)) by (apply Z.pow_le_mono_r; lia). lia. }
    assert (Hlt2 : ~ (length s < length r)%nat).
    { intros L. assert (b ^ Z.of_nat (S (length s)) <= b ^ Z.of_nat (length r)) by (apply Z.pow_le_mono_r; lia). lia. }
    lia.
Qed.

(** Strip leading zeros. *)
Lemma lead_split : forall ds : list Z, exists n r, ds = repeat 0 n ++ r /\ no_lead0 r.
Proof.
  induction ds as [|d r IH].
  - exists O, []. split; [reflexivity|exact I].
  - destruct (Z.eq_dec d 0) as [->|Hd].
    + destruct IH as (n & s & -> & Hs). exists (S n), s. split; [reflexivity|exact Hs].
    + exists O, (d :: r). split; [reflexivity|]. apply no_lead0_cons. exact Hd.
Qed.

(** The model's [digits]: fuel suffices. *)
Lemma digits_fuel_spec : forall b, 1 < b -> forall f n acc, n < 2 ^ Z.of_nat f ->
  exists ds, digits_fuel f b n acc = ds ++ acc /\ digits_in b ds /\ no_lead0 ds /\ val b ds = Z.max 0 n.
Proof.
  intros b Hb f. induction f as [|f IH]; intros n acc Hn.
  - exists []. change (2 ^ Z.of_nat 0) with 1 in Hn. repeat split; try constructor. rewrite val_nil. lia.
  - cbn [digits_fuel]. destruct (Z.leb_spec n 0).
    + exists []. repeat split; try constructor. rewrite val_nil. lia.
    + destruct (IH (n / b) (n mod b :: acc)) as (ds & E1 & E2 & E3 & E4).
      { rewrite Nat2Z.inj_succ, Z.pow_succ_r in Hn by lia.
        apply Z.div_lt_upper_bound; [lia|]. nia. }
      exists (ds ++ [n mod b]). rewrite E1, <- app_assoc. repeat split.
      * apply Forall_app. split; [assumption|]. constructor; [|constructor]. apply Z.mod_pos_bound. lia.
      * destruct ds as [|d r]; cbn [app].
        -- apply no_lead0_cons. rewrite val_nil in E4. pose proof (Z.div_mod n b ltac:(lia)).
           assert (0 <= n / b) by (apply Z.div_pos; lia). nia.
        -- exact E3.
      * rewrite val_snoc, E4. assert (0 <= n / b) by (apply Z.div_pos; lia).
        pose proof (Z.div_mod n b ltac:(lia)). nia.
Qed.

Lemma log2_fuel : forall n, n < 2 ^ Z.of_nat (S (Z.to_nat (Z.log2 n))).
Proof.
  intros n. destruct (Z.leb_spec n 0).
  - pose proof (Z.pow_pos_nonneg 2 (Z.of_nat (S (Z.to_nat (Z.log2 n)))) ltac:(lia) ltac:(lia)). lia.
  - pose proof (Z.log2_nonneg n). rewrite Nat2Z.inj_succ, Z2Nat.id by lia.
    apply Z.log2_spec. lia.
Qed.

Lemma digits_spec : forall b n, 1 < b ->
  digits_in b (digits b n) /\ no_lead0 (digits b n) /\ val b (digits b n) = Z.max 0 n.
Proof.
  intros b n Hb. unfold digits.
  destruct (digits_fuel_spec b Hb _ n [] (log2_fuel n)) as (ds & E1 & E2 & E3 & E4).
  rewrite E1, app_nil_r. auto.
Qed.

Lemma digits_unique : forall b ds, 1 < b -> digits_in b ds -> no_lead0 ds -> digits b (val b ds) = ds.
Proof.
  intros b ds Hb Hd Hl. destruct (digits_spec b (val b ds) Hb) as (A & B & C).
  apply (val_inj_lead b); try assumption. rewrite C.
  pose proof (val_bounds b ds ltac:(lia) Hd). lia.
Qed.

Lemma digits_length : forall b n k, 1 < b -> 0 <= n -> n < b ^ Z.of_nat k -> (length (digits b n) <= k)%nat.
Proof.
  intros b n k Hb Hn Hk. destruct (digits_spec b n Hb) as (A & B & C).
  destruct (digits b n) as [|d r] eqn:Ed; [cbn; lia|].
  apply no_lead0_cons in B. pose proof (val_lead_lower b d r ltac:(lia) A B) as L.
  rewrite C in L. rewrite Z.max_r in L by lia.
  assert (~ (k <= length r)%nat).
  { intros L2. assert (b ^ Z.of_nat k <= b ^ Z.of_nat (length r)) by (apply Z.pow_le_mono_r; lia). lia. }
  cbn. lia.
Qed.

(** Little endian is big endian of the reversal. *)
Lemma le_val_rev : forall bs, le_val bs = be_val (rev bs).
Proof.
  unfold be_val. induction bs as [|b r IH]; [reflexivity|].
  cbn [le_val rev]. rewrite val_snoc, <- IH. lia.
Qed.
Lemma be_val_rev : forall bs, be_val bs = le_val (rev bs).
Proof. intros. rewrite le_val_rev, rev_involutive. reflexivity. Qed.

Lemma le_val_app_zeros : forall bs n, le_val (bs ++ repeat 0 n) = le_val bs.
Proof.
  induction bs as [|b r IH]; intros n; cbn [app le_val].
  - induction n as [|n IHn]; [reflexivity|]. cbn [repeat le_val]. lia.
  - rewrite IH. reflexivity.
Qed.

Lemma le_val_bounds : forall bs, bytes bs -> 0 <= le_val bs < 256 ^ Z.of_nat (length bs).
Proof.
  intros bs H. rewrite le_val_rev. replace (length bs) with (length (rev bs)) by apply rev_length.
  apply (val_bounds 256); [lia|]. apply Forall_rev. exact H.
Qed.

Lemma le_val_inj : forall xs ys, bytes xs -> bytes ys -> length xs = length ys -> le_val xs = le_val ys -> xs = ys.
Proof.
  intros xs ys Hx Hy Hl Hv. rewrite !le_val_rev in Hv.
  assert (rev xs = rev ys).
  { apply (val_inj_len 256); try lia.
    - apply Forall_rev; exact Hx.
    - apply Forall_rev; exact Hy.
    - rewrite !rev_length; exact Hl.
    - exact Hv. }
  rewrite <- (rev_involutive xs), <- (rev_involutive ys), H. reflexivity.
Qed.
