(** The second half of create_transaction raises what RefuseSpec.order_checks says. *)
From Coq Require Import String Floats.SpecFloat Permutation Sorted Reals Lra Lia.
From Flocq Require Import Core BinarySingleNaN.
From Verif Require Import PyBase Env PyNum Validate Basic Spec EnvOk TxInput TxOutput Tx Create TxSpec FloatSpec NumSpec ValidSpec CreateSpec RefuseSpec.
From Verif Require Import NumLemmas HexProofs Base58Proofs AddrProofs FloatProofs AmountProofs RateProofs NumProofs WireProofs MakeProofs PrepProofs DesignProofs BuildProofs CreateProofs RefuseProofs.
Open Scope Z_scope.

(** ** Float facts. *)
Lemma mul_rounds : forall sx mx ex sy my ey, double (S754_finite sx mx ex) -> double (S754_finite sy my ey) ->
  rounds_to (s2r (S754_finite sx mx ex) * s2r (S754_finite sy my ey)) (xorb sx sy) (fmul (S754_finite sx mx ex) (S754_finite sy my ey)).
Proof.
  intros sx mx ex sy my ey Vx Vy. unfold double in *. cbn [valid_binary] in Vx, Vy. unfold fmul. cbn [SFmul]. rewrite binary_round_aux_equiv.
  destruct (Bmult_correct_aux prec emax Hprec Hmax mode_NE sx mx ex Vx sy my ey Vy) as [V H]. unfold rounds_to. split; [exact V|].
  unfold s2r, rnd, big, fexp64. change 1024 with emax. change (round_mode mode_NE) with ZnearestE in H. exact H.
Qed.
Lemma div_rounds : forall sx mx ex sy my ey,
  rounds_to (s2r (S754_finite sx mx ex) / s2r (S754_finite sy my ey)) (xorb sx sy) (SFdiv prec emax (S754_finite sx mx ex) (S754_finite sy my ey)).
Proof. intros. cbn [SFdiv]. unfold s2r. cbn [SF2R]. apply binary_div_ok. Qed.
Lemma rounds_bounded : forall x neg z k, rounds_to x neg z -> 0 <= k < 1024 -> (Rabs x <= bpow radix2 k)%R -> is_finite_SF z = true /\ (Rabs (s2r z) <= bpow radix2 k)%R.
Proof.
  intros x neg z k [V H] N X.
  assert (G : generic_format radix2 fexp64 (bpow radix2 k)).
  { apply generic_format_bpow. unfold fexp64, SpecFloat.fexp, SpecFloat.emin, prec, emax. lia. }
  assert (R : (Rabs (rnd x) <= bpow radix2 k)%R).
  { unfold rnd. apply abs_round_le_generic; auto with typeclass_instances. }
  assert (B : (bpow radix2 k < big)%R) by (unfold big; apply bpow_lt; lia).
  rewrite Rlt_bool_true in H by lra. destruct H as (H & F & _). rewrite H. auto.
Qed.

(** The fee rate times a positive size. *)
Definition good_rate (r : spec_float) : Prop := double r /\ r <> S754_nan /\ (sign_SF r = false \/ exists b, r = S754_zero b).
Lemma rounds_good : forall x r, rounds x false r -> good_rate r.
Proof. intros x r [V [(_ & F & _ & S)|[_ ->]]]; (split; [exact V|]); split; auto; try discriminate. intros ->. discriminate. Qed.
Lemma small_float_shape : forall n f, 0 < n <= 2 ^ 53 -> py_float_int n = Ok f -> exists m e, f = S754_finite false m e /\ double f.
Proof.
  intros n f N H. pose proof (nonzero_float n f H ltac:(lia)) as NZ. apply float_int_iff in H as [H F]. rewrite (proj2 (Z.ltb_ge _ _)) in H by lia.
  destruct H as [V [(_ & _ & _ & S)|[_ ->]]]; [|discriminate]. destruct f as [b|b| |s m e]; try discriminate; [elim (NZ b); auto|]. cbn in S. subst s. eauto.
Qed.
Lemma rate_outcome : forall r size, good_rate r -> 0 < size <= 2 ^ 53 ->
  (exists f, rate_res r size = Ok f /\ 0 <= f) \/ rate_res r size = Err OverflowError.
Proof.
  intros r size (V & NN & SG) S. unfold rate_res. destruct (py_float_int_small size) as (fs & FS & _); [lia|]. rewrite FS. cbn [bind].
  destruct (small_float_shape _ _ S FS) as (m & e & -> & VF).
  destruct r as [b|b| |s' m' e']; [left; exists 0; split; [reflexivity|lia]|right; reflexivity|congruence|].
  destruct SG as [SG|[b SG]]; [|discriminate]. cbn in SG. subst s'.
  destruct (mul_rounds false m e false m' e' VF V) as [VV H]. set (x := (s2r (S754_finite false m e) * s2r (S754_finite false m' e'))%R) in *.
  assert (X0 : (0 <= x)%R). { unfold x, s2r. cbn [SF2R cond_Zopp]. apply Rmult_le_pos; apply F2R_ge_0; cbn; lia. }
  destruct (Rlt_bool _ _) in H.
  - destruct H as (H & F & _). left. destruct (py_ceil (fmul (S754_finite false m e) (S754_finite false m' e'))) as [n|er] eqn:C.
    + exists n. split; auto. apply ceil_ok in C as [_ C]. pose proof (rnd_nonneg x X0). rewrite H in C. apply le_IZR. lra.
    + exfalso. destruct (fmul _ _); try discriminate.
  - right. rewrite H. reflexivity.
Qed.
(** The spending limit exists for a percentage that is accepted. *)
Lemma trunc_bounds : forall x n, n = Ztrunc x -> 0 <= n <= 100 -> (Rabs x <= 101)%R.
Proof.
  intros x n -> H. unfold Ztrunc in H. destruct (Rlt_bool_spec x 0) as [L|L].
  - pose proof (Zceil_lb x). assert (IZR 0 <= IZR (Zceil x))%R by (apply IZR_le; lia). rewrite Rabs_left by auto. lra.
  - pose proof (Zfloor_ub x). assert (IZR (Zfloor x) <= IZR 100)%R by (apply IZR_le; lia). rewrite Rabs_pos_eq by auto. lra.
Qed.
Lemma spend_outcome : forall p n total, double p -> truncates p n -> 0 <= n <= 100 -> 0 <= total <= max_money -> exists l, spend_res p total = Ok l.
Proof.
  intros p n total V [F T] N M. unfold spend_res.
  assert (D : py_float_int 100 = Ok (S754_finite false 7036874417766400 (-46))) by reflexivity. rewrite D. cbn [bind fdiv].
  pose proof (money_small total M) as MS.
  destruct (py_float_int_small total MS) as (ft & FT & VF & FF & RF). rewrite FT. cbn [bind].
  assert (Q : forall q, double q -> is_finite_SF q = true -> (Rabs (s2r q) <= 2)%R -> exists l, py_ceil (fmul q ft) = Ok l).
  { intros q VQ FQ B. assert (C : is_finite_SF (fmul q ft) = true).
    { destruct q as [b|b| |sx mx ex]; try discriminate; destruct ft as [b'|b'| |sy my ey]; try discriminate; try reflexivity.
      destruct (rounds_bounded _ _ _ 54 (mul_rounds sx mx ex sy my ey VQ VF) ltac:(lia)) as [C _]; auto.
      rewrite RF. rewrite Rabs_mult. apply Rle_trans with (2 * IZR (2 ^ 53))%R; [|change (bpow radix2 54) with (IZR (2 ^ 54)); change (2 ^ 54) with (2 * 2 ^ 53); rewrite mult_IZR; lra].
      apply Rmult_le_compat; try apply Rabs_pos; auto. rewrite <- abs_IZR. apply IZR_le. lia. }
    destruct (fmul q ft); try discriminate; cbn; eauto. }
  assert (H100 : s2r (S754_finite false 7036874417766400 (-46)) = 100%R).
  { unfold s2r. cbn [SF2R cond_Zopp]. unfold F2R. cbn [Fnum Fexp]. change (bpow radix2 (-46)) with (/ IZR (2 ^ 46))%R. change (2 ^ 46) with 70368744177664. lra. }
  assert (QF : is_finite_SF (SFdiv prec emax p (S754_finite false 7036874417766400 (-46))) = true /\
               (Rabs (s2r (SFdiv prec emax p (S754_finite false 7036874417766400 (-46)))) <= 2)%R).
  { destruct p as [b|b| |sx mx ex]; try discriminate; [split; [reflexivity|]; unfold s2r; cbn [SFdiv SF2R]; rewrite Rabs_R0; lra|].
    change 2%R with (bpow radix2 1). apply (rounds_bounded _ _ _ 1 (div_rounds sx mx ex false 7036874417766400 (-46)) ltac:(lia)).
    rewrite H100. rewrite value_s2r in T. pose proof (trunc_bounds _ _ T N) as TB. unfold Rdiv. rewrite Rabs_mult, (Rabs_pos_eq (/ 100)) by lra. change (bpow radix2 1) with 2%R. lra. }
  apply Q; try apply QF.
  destruct p as [b|b| |sx mx ex]; try discriminate; [reflexivity|]. apply (div_rounds sx mx ex false 7036874417766400 (-46)).
Qed.

(** Sums per address. *)
Definition sum_for (k : pystr) (m : list (pystr * Z)) : Z := Zsum (map snd (filter (fun p => str_eqb (fst p) k) m)).
Lemma sum_for_cons : forall k x n m, sum_for k ((x, n) :: m) = (if str_eqb x k then n else 0) + sum_for k m.
Proof. intros. unfold sum_for. cbn [filter fst]. destruct (str_eqb x k); cbn [map snd Zsum fold_right]; unfold Zsum; lia. Qed.
Lemma sum_for_add : forall k x n m, sum_for k (add_amount x n m) = (if str_eqb x k then n else 0) + sum_for k m.
Proof.
  intros k x n. induction m as [|[y v] m IH]; cbn [add_amount]; [apply sum_for_cons|].
  destruct (str_eqb y x) eqn:Q; rewrite !sum_for_cons; [|rewrite IH; lia]. apply str_eqb_eq in Q. subst y. destruct (str_eqb x k); lia.
Qed.
Lemma add_amount_nodup : forall x n m, NoDup (map fst m) -> NoDup (map fst (add_amount x n m)).
Proof.
  intros x n. induction m as [|[y v] m IH]; cbn [add_amount map fst]; intros H; [constructor; [cbn; tauto|constructor]|]. inversion H; subst.
  destruct (str_eqb y x) eqn:Q; cbn [map fst]; constructor; auto. intros I. apply add_amount_keys in I as [->|I]; [|auto]. rewrite str_eqb_refl in Q. discriminate.
Qed.
Lemma nodup_sum : forall m k v, NoDup (map fst m) -> In (k, v) m -> sum_for k m = v.
Proof.
  assert (Z0 : forall k m, ~ In k (map fst m) -> sum_for k m = 0).
  { intros k. induction m as [|[y w] m IH]; intros H; [reflexivity|]. rewrite sum_for_cons. cbn [map fst In] in H.
    destruct (str_eqb y k) eqn:Q; [apply str_eqb_eq in Q; subst; tauto|]. rewrite IH; auto. }
  induction m as [|[y w] m IH]; intros k v N I; [destruct I|]. cbn [map fst] in N. inversion N; subst. rewrite sum_for_cons. destruct I as [I|I].
  - injection I as -> ->. rewrite str_eqb_refl, Z0 by auto. lia.
  - destruct (str_eqb y k) eqn:Q; [|rewrite (IH k v); auto]. apply str_eqb_eq in Q. subst y. elim H1. apply in_map_iff. exists (k, v). auto.
Qed.
Lemma per_address_sums : forall l k v, In (k, v) (per_address l) -> v = sum_for k l.
Proof.
  intros l k v. unfold per_address.
  assert (G : forall l m, NoDup (map fst m) -> let m' := fold_left (fun m p => add_amount (fst p) (snd p) m) l m in
    NoDup (map fst m') /\ forall k, sum_for k m' = sum_for k m + sum_for k l).
  { clear. induction l as [|[k n] l IH]; intros m F; cbn [fold_left fst snd]; cbv zeta.
    - split; auto. intros k. cbn. lia.
    - destruct (IH (add_amount k n m) (add_amount_nodup k n m F)) as [A B]. split; auto. intros k'. rewrite B, sum_for_add, sum_for_cons. lia. }
  destruct (G l [] ltac:(constructor)) as [A B]. intros I. rewrite <- (nodup_sum _ k v A I). rewrite B. reflexivity.
Qed.
Lemma sum_for_zero : forall k l, ~ In k (map fst l) -> sum_for k l = 0.
Proof.
  intros k. induction l as [|[y w] m IH]; intros H; [reflexivity|]. rewrite sum_for_cons. cbn [map fst In] in H.
  destruct (str_eqb y k) eqn:Q; [apply str_eqb_eq in Q; subst; tauto|]. rewrite IH; auto.
Qed.
Lemma sum_for_nonneg : forall k l, Forall (fun x => 0 <= x) (map snd l) -> 0 <= sum_for k l.
Proof.
  intros k. induction l as [|[y w] m IH]; intros H; [cbn; lia|]. rewrite sum_for_cons. inversion H; subst. cbn [snd] in *. specialize (IH H3). destruct (str_eqb y k); lia.
Qed.

(** The k-th output paying a. *)
Lemma nth_payer : forall a outs k, (k < length (filter (pays a) outs))%nat ->
  exists pre o post, outs = pre ++ o :: post /\ oa_address o = a /\ length (filter (pays a) pre) = k.
Proof.
  intros a outs. induction outs as [|o outs IH]; intros k L; [cbn in L; lia|]. cbn [filter] in L. destruct (pays a o) eqn:P.
  - destruct k as [|k]; [exists [], o, outs; repeat split; apply str_eqb_eq; exact P|]. cbn [length] in L.
    destruct (IH k ltac:(lia)) as (pre & o' & post & -> & A & K). exists (o :: pre), o', post. repeat split; auto. cbn [filter]. rewrite P. cbn. auto.
  - destruct (IH k L) as (pre & o' & post & -> & A & K). exists (o :: pre), o', post. repeat split; auto. cbn [filter]. rewrite P. auto.
Qed.

Section WithEnv.
Context {E : Env}.
Hypothesis HH : HashOk E.
Hypothesis HZ : ZeroAddressOk E.
Hypothesis HU : UniOk E.

Lemma fee_arg_good : forall fo ro r, fee_arg fo ro (FeeRate r) -> good_rate r.
Proof.
  intros fo ro r (_ & v & _ & [(z & _ & _ & H)|[(s & ip & fp & _ & _ & H)|(b & _ & ->)]]); try (eapply rounds_good; eauto; fail).
  split; [reflexivity|]. split; [discriminate|]. eauto.
Qed.


Lemma sat_ck : forall n P, 0 <= n -> (n <= max_money <-> P) -> checked (satoshi_to_bitcoin (PInt n)) [(P, ValueError)].
Proof.
  intros n P N H. apply ck_one.
  - rewrite <- H. split; [intros [s S]; apply (sat_inv HU) in S; lia|]. intros M. apply (sat_ok HU). lia.
  - intros NP. apply satoshi_to_bitcoin_bad. fold max_money. intros M. apply NP, H. lia.
Qed.
Lemma report_ck : forall l (P : Prop), Forall (fun x => 0 <= x) (map snd l) -> ((forall k, sum_for k l <= max_money) <-> P) ->
  checked (report_sums (per_address l)) [(P, ValueError)].
Proof.
  intros l P F H. destruct (per_address_facts l F) as (_ & NN & K). apply ck_unit.
  - rewrite <- H. unfold report_sums. rewrite iter_ok, Forall_forall. split.
    + intros R k. destruct (In_dec (list_eq_dec Z.eq_dec) k (map fst l)) as [I|I]; [|rewrite sum_for_zero by auto; unfold max_money; lia].
      apply K in I. apply in_map_iff in I as ([k' v] & Q & I). cbn in Q. subst k'. pose proof (R _ I) as R'. cbn [snd] in R'. inv_bind R' s SB. apply (sat_inv HU) in SB.
      rewrite (per_address_sums l k v I) in SB. lia.
    + intros R [k v] I. cbn [snd]. destruct (sat_ok HU v) as [s S]; [|rewrite S; reflexivity]. rewrite (per_address_sums l k v I). split; auto. apply sum_for_nonneg. auto.
  - intros N. unfold report_sums in *. clear - N HU. induction (per_address l) as [|[k v] m IH]; [elim N; reflexivity|]. cbn [iterM snd] in *.
    destruct (satoshi_to_bitcoin (PInt v)) as [s|e] eqn:S; cbn [bind] in *; auto. f_equal.
    destruct (Z_le_dec 0 v); [destruct (Z_le_dec v max_money)|].
    + destruct (sat_ok HU v ltac:(lia)) as [s' S']. congruence.
    + rewrite satoshi_to_bitcoin_bad in S by (fold max_money; lia). congruence.
    + rewrite satoshi_to_bitcoin_bad in S by lia. congruence.
Qed.

(** Fees. *)
Lemma estimate_ck : forall n m, checked (estimate_transaction_size n m) [((n <= 252)%nat, ValueError); ((m <= 252)%nat, ValueError)].
Proof.
  intros n m. unfold estimate_transaction_size. apply ck_seq.
  - destruct (le_lt_dec n 252) as [L|L].
    + rewrite int_to_var_int_ok by lia. apply ck_one; [split; eauto|]. tauto.
    + rewrite int_to_var_int_bad by lia. apply ck_one; [split; [intros [x H]; discriminate|intros; lia]|]. auto.
  - intros ic IC. destruct (le_lt_dec n 252) as [L|L]; [|rewrite int_to_var_int_bad in IC by lia; discriminate].
    rewrite int_to_var_int_ok in IC by lia. assert (IC' : ic = hex_of [Z.of_nat n]) by congruence. subst ic. rewrite hex_len_ok by (apply bytes1; unfold byte; lia). cbn [bind].
    destruct (le_lt_dec m 252) as [L'|L'].
    + rewrite int_to_var_int_ok by lia. cbn [bind]. rewrite hex_len_ok by (apply bytes1; unfold byte; lia). cbn [bind]. apply ck_one; [split; eauto|]. tauto.
    + rewrite int_to_var_int_bad by lia. apply ck_one; [split; [intros [x H]; discriminate|intros; lia]|]. auto.
Qed.
Lemma asked_fee : forall a q, asked a q -> match q_fee q with FixedFee n => 0 < n | FeeRate r => good_rate r end.
Proof.
  intros a q (l & d & _ & _ & _ & (_ & _ & _ & _ & FA & _) & _). destruct (q_fee q) as [n|r]; [apply FA|]. eapply fee_arg_good; eauto.
Qed.
Lemma fee_due_fun : forall q f g, (length (q_inputs q) <= 252)%nat -> (length (q_outputs q) <= 252)%nat -> fee_due q f -> fee_due q g -> f = g.
Proof.
  intros q f g L1 L2 A B. unfold fee_due in *. destruct (q_fee q); [congruence|]. pose proof (size_small _ _ L1 L2) as S. apply rate_fee_iff in A, B; auto. congruence.
Qed.
Lemma due_iff : forall q f P, (length (q_inputs q) <= 252)%nat -> (length (q_outputs q) <= 252)%nat -> fee_due q f -> (due q P <-> P f).
Proof. intros q f P L1 L2 F. split; [intros H; apply H; auto|]. intros H g G. rewrite (fee_due_fun q g f); auto. Qed.

Lemma fee_ck : forall a p q, asked a q -> prep p q ->
  checked (manage_fee p (length (q_inputs q)) (length (q_outputs q)))
    [ ((length (q_inputs q) <= 252)%nat, ValueError); ((length (q_outputs q) <= 252)%nat, ValueError);
      (exists f, fee_due q f, OverflowError);
      (due q (fun f => exists g, rounds (IZR f) false g /\ is_finite_SF g = true), OverflowError);
      (due q (fun f => f <= max_money), ValueError);
      (due q (fun f => f <= q_max_fee q), ValueError) ].
Proof.
  intros a p q A (_ & _ & PF & _ & WM & _). pose proof (asked_fee a q A) as AF. unfold manage_fee.
  set (size := estimated_size (length (q_inputs q)) (length (q_outputs q))).
  match goal with |- checked _ (?c1 :: ?c2 :: ?r) => change (c1 :: c2 :: r) with ([c1; c2] ++ r) end. apply ck_bind; [apply estimate_ck|].
  intros z ES. destruct (estimate_bad _ _ _ ES) as [L1 L2]. rewrite estimate_ok in ES by auto. injection ES as <-. fold size.
  assert (SZ : 0 < size <= 2 ^ 53). { pose proof (size_small _ _ L1 L2). unfold size in *. unfold estimated_size in *. lia. }
  destruct (py_float_int_small size) as (fs & FS & _); [lia|].
  assert (C : (exists f, 0 <= f /\ fee_due q f /\ compute_fee (p_fee p) (p_fee_rate p) size = Ok (PInt f)) \/
              ((forall f, ~ fee_due q f) /\ compute_fee (p_fee p) (p_fee_rate p) size = Err OverflowError)).
  { unfold fee_due. destruct (q_fee q) as [m|r].
    - left. exists m. destruct PF as [P1 P2]. rewrite P1, P2. repeat split; auto. lia.
    - rewrite PF. cbn [compute_fee]. fold size. pose proof (size_small _ _ L1 L2) as SS. fold size in SS. destruct (rate_outcome r size AF SZ) as [(f & R & F0)|R].
      + left. exists f. split; auto. split; [apply rate_fee_iff; auto|]. unfold rate_res in R. rewrite FS in *. cbn [bind] in *. rewrite R. reflexivity.
      + right. split; [intros f H; apply rate_fee_iff in H; auto; congruence|]. unfold rate_res in R. rewrite FS in *. cbn [bind] in *. rewrite R. reflexivity. }
  destruct C as [(f & F0 & FD & C)|[N C]]; rewrite C.
  2: { apply ck_seq; [|discriminate]. apply ck_one; [split; [intros [x H]; discriminate|intros [f H]; elim (N f H)]|auto]. }
  apply ck_seq; [apply ck_one; [split; eauto|intros H; elim H; eauto]|]. intros ? [= <-]. cbn [py_float].
  pose proof (fun P => due_iff q f P L1 L2 FD) as DU.
  apply ck_seq.
  { apply ck_one.
    - rewrite DU. rewrite <- (Z.ltb_ge f 0) in F0. split; intros [g G]; exists g; apply float_int_iff in G || (apply float_int_iff); rewrite F0 in *; auto.
    - intros NG. destruct (py_float_int f) as [g|e] eqn:PFI.
      + elim NG. apply DU. exists g. apply float_int_iff in PFI. rewrite (proj2 (Z.ltb_ge f 0)) in PFI by auto. auto.
      + unfold py_float_int in PFI. cbv zeta in PFI. destruct (SpecFloat.binary_normalize prec emax f 0 false); congruence. }
  intros ff FF. rewrite FS. cbn [bind]. destruct (BuildProofs.fdiv_ok ff size fs FS) as [r R]; [lia|]. rewrite R. cbn [bind].
  apply ck_seq; [apply sat_ck; auto; rewrite DU; tauto|]. intros s SB. cbn [as_int bind]. rewrite (int_gt_whole f _ _ WM). cbn [bind].
  apply ck_one.
  - rewrite DU. destruct (Z.ltb_spec (q_max_fee q) f); split; eauto; try lia. intros [x X]. discriminate.
  - rewrite DU. destruct (Z.ltb_spec (q_max_fee q) f); auto. lia.
Qed.

(** Sums per address of the objects, in terms of the order. *)
Lemma sum_for_inputs : forall k l xs, Forall2 imade l xs -> sum_for k (map (fun x => (ti_address x, ti_sat x)) xs) = in_value (filter (at_address k) l).
Proof.
  intros k l xs H. induction H as [|i x l xs M H IH]; [reflexivity|]. cbn [map]. rewrite sum_for_cons, IH. cbn [filter]. unfold at_address at 2.
  rewrite <- (imade_address _ _ M), <- (imade_sat _ _ M). destruct (str_eqb (ia_address i) k); [rewrite in_value_cons|]; lia.
Qed.
Lemma sum_for_outputs : forall k l ys, Forall2 omade l ys -> sum_for k (map (fun x => (to_address x, to_satoshi_amount x)) ys) = out_value (filter (pays k) l).
Proof.
  intros k l ys H. induction H as [|i x l xs M H IH]; [reflexivity|]. cbn [map]. rewrite sum_for_cons, IH. cbn [filter]. unfold pays at 2.
  rewrite <- (omade_address _ _ M), <- (omade_sat _ _ M). destruct (str_eqb (oa_address i) k); [rewrite out_value_cons|]; lia.
Qed.
Lemma filter_perm : forall A (f : A -> bool) l l', Permutation l l' -> Permutation (filter f l) (filter f l').
Proof.
  intros A f l l' H. induction H; cbn [filter]; auto; try (destruct (f x); auto; fail).
  - destruct (f x), (f y); auto. apply perm_swap. - etransitivity; eauto.
Qed.
Lemma omade_inj : forall o o' y, omade o y -> omade o' y -> o = o'.
Proof.
  intros [a v] [a' v'] y H H'. pose proof (omade_sat _ _ H). pose proof (omade_sat _ _ H'). pose proof (omade_address _ _ H). pose proof (omade_address _ _ H'). cbn in *. congruence.
Qed.
Lemma F2_inj : forall A B (R : A -> B -> Prop) l1 l2 l, (forall a a' b, R a b -> R a' b -> a = a') -> Forall2 R l1 l -> Forall2 R l2 l -> l1 = l2.
Proof. intros A B R l1 l2 l F H. revert l2. induction H; intros l2 H'; inversion H'; subst; f_equal; eauto. Qed.

(** The change: where it cannot be paid, the error is that of the index. *)
Lemma handle_ck : forall a idx outs ys total target, Forall2 omade outs ys -> Forall (fun o => address (oa_address o) /\ 0 <= oa_value o) outs -> address a -> (idx = PNone \/ exists z, whole idx z) ->
  0 <= total - target -> out_value outs + (total - target) <= max_money ->
  checked (handle_change a idx ys total target)
    [(exists outs' chg, surplus_paid a idx outs (total - target) outs' chg, match idx with PFloat _ => TypeError | _ => ValueError end)].
Proof.
  intros a idx outs ys total target Y WO A I R M.
  assert (VO : Forall (fun o => 0 <= oa_value o) outs) by (eapply Forall_impl; [|exact WO]; cbn; tauto). pose proof (out_value_nonneg _ VO) as NO.
  assert (OK : (exists outs' chg, surplus_paid a idx outs (total - target) outs' chg) -> exists x, handle_change a idx ys total target = Ok x).
  { intros (outs' & chg & SP). destruct (surplus_value _ _ _ _ _ _ SP VO R) as (SV & _ & NO').
    assert (exists ys', Forall2 omade outs' ys') as [ys' Y'].
    { apply F2_choose. apply Forall_forall. intros o IO. apply (make_output_exists HU).
      assert (B : 0 <= oa_value o <= max_money).
      { rewrite Forall_forall in NO'. split; auto. assert (I' : In (oa_value o) (map oa_value outs')) by (apply in_map; auto).
        pose proof (Zsum_ge (map oa_value outs') (oa_value o) (proj2 (Forall_map oa_value _ outs') (proj2 (Forall_forall (fun o => 0 <= oa_value o) outs') NO')) I').
        unfold out_value in *. lia. }
      split; auto. rewrite Forall_forall in WO.
      destruct SP as [(_ & -> & _)|[(_ & _ & -> & _)|(_ & pre & o1 & post & Q & QA & -> & _)]].
      - apply WO; auto.
      - destruct IO as [<-|IO]; auto. apply WO; auto.
      - apply in_app_or in IO as [IO|[<-|IO]]; auto; apply WO; rewrite Q; apply in_or_app; [left|right; right]; auto. }
    exists (ys', chg). apply (handle_iff HH HZ HU _ _ _ _ _ _ _ _ Y); auto; [lia|]. eauto. }
  apply ck_one.
  - split; [|exact OK]. intros [[ys' chg] H]. apply (handle_iff HH HZ HU _ _ _ _ _ _ _ _ Y) in H as (outs' & SP & _); auto; [eauto|lia].
  - intros N. unfold handle_change. rewrite (made_filter a _ _ Y).
    destruct (Z.eqb_spec total target) as [Q|Q]; [elim N; exists outs, 0; left; repeat split; lia|].
    destruct (sat_ok HU (total - target)) as [s ->]; [lia|]. cbn [bind].
    destruct (Nat.ltb_spec 1 (length (filter (pays a) outs))) as [L1|L1].
    + set (n := length (filter (pays a) outs)) in *.
      assert (PE : change_position idx n = Err (match idx with PFloat _ => TypeError | _ => ValueError end)).
      { destruct I as [->|(z & W)]; [reflexivity|]. destruct (Z_lt_dec z (Z.of_nat n)) as [LT|GE].
        - destruct W as [[-> Z0]|[[b [-> ->]]|[b [-> ->]]]].
          3: { unfold change_position. cbn [as_int float_cmp_int bind]. rewrite (proj2 (Z.compare_lt_iff 0 (Z.of_nat n))) by lia. reflexivity. }
          all: exfalso; apply N.
          + destruct (nth_payer a outs (Z.to_nat z)) as (pre & o & post & Q1 & Q2 & Q3); [fold n; lia|]. eexists. eexists. right. right. split; [lia|].
            exists pre, o, post. repeat (split; [eauto; reflexivity|]). right. cbn [as_int]. f_equal. lia.
          + destruct (nth_payer a outs (Z.to_nat (b2z b))) as (pre & o & post & Q1 & Q2 & Q3); [fold n; lia|]. eexists. eexists. right. right. split; [lia|].
            exists pre, o, post. repeat (split; [eauto; reflexivity|]). right. cbn [as_int]. f_equal. destruct b; cbn in *; lia.
        - rewrite position_none; [|right; exists z; split; auto; lia]. destruct W as [[-> Z0]|[[b [-> ->]]|[b [-> ->]]]]; auto. lia. }
      rewrite PE. reflexivity.
    + exfalso. apply N. destruct (Nat.eqb_spec (length (filter (pays a) outs)) 1) as [L2|L2].
      * destruct (nth_payer a outs 0) as (pre & o & post & Q1 & Q2 & Q3); [lia|]. eexists. eexists. right. right. split; [lia|].
        exists pre, o, post. repeat (split; [eauto; reflexivity|]). left. auto.
      * eexists. eexists. right. left. split; [lia|]. split; [apply filter_none; lia|]. split; reflexivity.
Qed.

Lemma spend_ck : forall p n total spend, double p -> truncates p n -> 0 <= n <= 100 -> 0 <= total <= max_money -> 0 <= spend <= max_money ->
  checked (check_spend p total spend)
    [ (exists limit, spend_limit p total limit /\ 0 <= limit <= max_money, ValueError);
      (0 < total, ZeroDivisionError);
      ((forall limit, spend_limit p total limit -> spend <= limit), ValueError);
      ((forall limit, spend_limit p total limit -> 0 < limit), ZeroDivisionError) ].
Proof.
  intros p n total spend V T N M S. destruct (spend_outcome p n total V T N M) as [l L].
  assert (LI : forall limit, spend_limit p total limit <-> limit = l) by (intros limit; rewrite spend_limit_iff by auto; rewrite L; split; congruence).
  unfold check_spend. unfold spend_res in L. inv_bind L f100 F1. rewrite F1. cbn [bind]. inv_bind L x X. rewrite X. cbn [bind]. inv_bind L ft FT. rewrite FT. cbn [bind]. rewrite L. cbn [bind].
  apply ck_seq.
  { apply ck_one.
    - split; [intros [s SB]; apply (sat_inv HU) in SB; exists l; split; [apply LI|]; auto|]. intros (l' & Q & B). apply LI in Q. subst l'. apply (sat_ok HU). auto.
    - intros NB. apply satoshi_to_bitcoin_bad. intros B. apply NB. exists l. split; [apply LI; auto|]. exact B. }
  intros s1 SB1. apply (sat_inv HU) in SB1. destruct (sat_ok HU spend S) as [s2 ->]. cbn [bind].
  destruct (py_float_int_small spend (money_small spend S)) as (fs & FS & _). rewrite FS. cbn [bind].
  apply ck_seq.
  { destruct (Z.eq_dec total 0) as [->|NZ].
    - vm_compute in FT. injection FT as <-. apply ck_one; [split; [intros [y Y]; discriminate|lia]|]. auto.
    - destruct (BuildProofs.fdiv_ok fs total ft FT) as [r R]. { pose proof (money_small total M). lia. } rewrite R. apply ck_one; [split; eauto; lia|]. lia. }
  intros r R. destruct (Z.leb_spec spend l) as [LE|LE].
  - apply (ck_seq _ _ (Ok tt) (fun _ => fm <- py_float_int l ;; fdiv fs fm ;;; Ok tt)).
    { apply ck_one; [split; eauto; intros _ limit Q; apply LI in Q; lia|]. intros H. elim H. intros limit Q. apply LI in Q. lia. }
    intros _ _. destruct (Z.eq_dec l 0) as [->|NZ].
    + apply ck_one; [split; [intros [y Y]; cbn in Y; discriminate|intros H; specialize (H 0 (proj2 (LI 0) eq_refl)); lia]|]. reflexivity.
    + destruct (py_float_int_small l (money_small l SB1)) as (fl & FL & _). rewrite FL. cbn [bind].
      destruct (BuildProofs.fdiv_ok fs l fl FL) as [r' R']. { pose proof (money_small l SB1). lia. } rewrite R'. cbn [bind].
      apply ck_one; [split; eauto; intros _ limit Q; apply LI in Q; lia|]. intros H. elim H. intros limit Q. apply LI in Q. lia.
  - apply (ck_seq unit unit (Err ValueError) (fun _ => Ok tt)); [|discriminate].
    apply ck_one; [split; [intros [y Y]; discriminate|intros H; specialize (H l (proj2 (LI l) eq_refl)); lia]|]. auto.
Qed.

Lemma order_ck : forall a p q, asked a q -> prep p q -> double (q_max_spend q) -> Forall (fun i => ia_index i < 2 ^ 32) (q_inputs q) ->
  checked (build p) (order_checks q).
Proof.
  intros a p q A P DB IX. pose proof (asked_wf HU _ _ A) as W. destruct (ready_made HU q W IX) as (xs & ys & X & Y).
  assert (TR : exists n, truncates (q_max_spend q) n /\ 0 <= n <= 100).
  { destruct A as (l & d & _ & _ & _ & (_ & _ & _ & (v & n & _ & _ & T & N) & _) & _). eauto. }
  destruct TR as (n & TR & TN).
  pose proof (wf_values q W) as [VI VO]. pose proof (in_value_nonneg _ VI) as NI. pose proof (out_value_nonneg _ VO) as NO.
  pose proof (sort_made (q_approach q) _ _ X) as SX. pose proof (fee_ck a p q A P) as FC.
  assert (FI := fee_iff HU p q). specialize (fun f => FI f P).
  unfold build. rewrite (proj2 (make_inputs_iff HH HZ HU p q xs P W) X). cbn [bind].
  rewrite (proj2 (make_outputs_iff HH HZ HU p q ys P) Y). cbn [bind]. destruct P as (_ & _ & _ & CA & _ & CS & CH & AD & CI). rewrite CH. cbn [bind].
  set (sxs := sort_inputs (q_approach q) xs) in *. unfold order_checks. cbv zeta.
  rewrite <- (F2_len _ _ _ _ _ X), <- (F2_len _ _ _ _ _ Y).
  rewrite (in_value_made _ _ SX), (out_value_made _ _ Y), isort_value. rewrite CS, CA, CI, AD. cbn [as_str].
  (* sums per address *)
  apply ck_seq.
  { apply report_ck; [auto|..].
    - rewrite (made_pairs_in _ _ SX). apply Forall_map. apply isort_Forall. auto.
    - split; intros H k; specialize (H k); rewrite (sum_for_inputs k _ _ SX) in *;
        unfold in_value in *; rewrite (Zsum_perm _ _ (Permutation_map ia_value (filter_perm _ (at_address k) _ _ (isort_perm (q_approach q) (q_inputs q))))) in *; auto. }
  intros _ _. apply ck_seq.
  { apply report_ck; [auto|..].
    - rewrite (proj1 (made_pairs_out _ _ Y)). apply Forall_map. auto.
    - split; intros H k; specialize (H k); rewrite (sum_for_outputs k _ _ Y) in *; auto. }
  intros _ _. apply ck_seq.
  { destruct (made_pairs_out _ _ Y) as (MP1 & MP2 & MP3).
    destruct (dup_iff (q_allow_duplicates q) ys (map fst (per_address (map (fun x => (to_address x, to_satoshi_amount x)) ys)))) as [D1 D2].
    { rewrite <- MP2. apply per_address_facts. rewrite MP1. apply Forall_map. auto. }
    rewrite MP3 in D1. apply ck_unit; auto. }
  intros _ _.
  match goal with |- checked _ (?c1 :: ?c2 :: ?c3 :: ?c4 :: ?c5 :: ?c6 :: ?r) => change (c1 :: c2 :: c3 :: c4 :: c5 :: c6 :: r) with ([c1; c2; c3; c4; c5; c6] ++ r) end.
  apply ck_bind; [exact FC|]. intros f FF. apply FI in FF as (L1 & L2 & FD & F0 & FM).
  pose proof (fun P => due_iff q f P L1 L2 FD) as DU.
  set (ti := in_value (q_inputs q)) in *. set (to := out_value (q_outputs q)) in *.
  apply ck_seq; [apply sat_ck; auto; tauto|]. intros s1 S1. apply (sat_inv HU) in S1.
  apply ck_seq; [apply sat_ck; auto; tauto|]. intros s2 S2. apply (sat_inv HU) in S2.
  apply ck_seq.
  { destruct (Z.ltb_spec ti to) as [LT|LT].
    - destruct (sat_ok HU (to - ti)) as [s3 ->]; [lia|]. cbn [bind]. apply ck_one; [split; [intros [y Q]; discriminate|lia]|]. auto.
    - apply ck_one; [split; eauto|]. lia. }
  intros u1 U1. assert (TT : to <= ti).
  { destruct (Z.ltb_spec ti to) as [LT|LT]; auto. destruct (sat_ok HU (to - ti)) as [s3 Q]; [lia|]. rewrite Q in U1. discriminate. }
  apply ck_seq; [apply sat_ck; [lia|rewrite DU; tauto]|]. intros s3 S3. apply (sat_inv HU) in S3.
  (* selection *)
  unfold select_inputs. fold sxs.
  match goal with |- checked (bind ?r ?k) _ => set (kk := k) end.
  destruct (Z.ltb_spec ti (to + f)) as [LT|LT].
  { destruct (sat_ok HU (to + f - ti)) as [s4 ->]; [lia|]. cbn [bind].
    apply (ck_seq _ _ (Err OutputAndFeeValueNotCovered) kk); [|discriminate]. apply ck_one; [split; [intros [y Q]; discriminate|rewrite DU; lia]|]. auto. }
  set (s := isort (q_approach q) (q_inputs q)) in *. set (target := to + f) in *.
  set (sel := if in_value s =? target then s else iselect (match q_approach q with All => true | _ => false end) target 0 s).
  assert (VS : Forall (fun i => 0 <= ia_value i) s) by (apply isort_Forall; auto).
  assert (SV : in_value s = ti) by apply isort_value.
  assert (T0 : 0 <= target <= ti) by (unfold target; lia).
  assert (CHS : chosen (q_approach q) target s sel) by (apply chosen_iff; auto; lia).
  assert (SI : exists sx, (if ti =? target then Ok sxs else satoshi_to_bitcoin (PInt (ti - target)) ;;; Ok (select_loop (match q_approach q with All => true | _ => false end) target 0 sxs)) = Ok sx /\ Forall2 imade sel sx).
  { unfold sel. rewrite SV. destruct (ti =? target); [eauto|].
    destruct (sat_ok HU (ti - target) ltac:(lia)) as [s4 ->]. cbn [bind]. eexists. split; [reflexivity|]. apply select_made. auto. }
  destruct SI as (sx & SI & SM).
  assert (SR : target <= in_value sel <= ti).
  { unfold sel. rewrite SV. destruct (Z.eqb_spec ti target); [lia|]. split.
    - apply iselect_reach; auto. lia. - rewrite <- SV. apply iselect_value; auto. }
  assert (SL : (length sel <= length (q_inputs q))%nat).
  { unfold sel. assert (LS : length s = length (q_inputs q)) by apply isort_length. destruct (in_value s =? target); [lia|]. rewrite <- LS. apply iselect_length. }
  assert (SE : forall P, selected q P <-> P sel (in_value sel - target)).
  { intros P. split; [intros H; apply (H f s sel); auto; apply isort_for|]. intros H g s' sel' G SF SC. rewrite (fee_due_fun q g f L1 L2 G FD) in *. fold to in SC |- *. fold target in SC |- *.
    apply sorted_for_unique in SF. subst s'. fold s in SC. assert (EQ : sel' = sel) by (apply (chosen_fun (q_approach q) target s); auto; rewrite SV; exact T0). rewrite EQ. exact H. }
  rewrite SI. apply (ck_seq _ _ (Ok sx) kk).
  { assert (PF : due q (fun f0 => to + f0 <= ti)) by (apply (proj2 (DU (fun f0 => to + f0 <= ti))); exact (proj2 T0)). apply ck_one; [split; eauto|]. intros N. elim N. exact PF. }
  intros ? [= <-]. unfold kk. clear kk. rewrite (in_value_made _ _ SM). destruct (sat_ok HU (in_value sel)) as [s4 ->]; [lia|]. cbn [bind].
  (* change *)
  destruct W as (_ & WO & WC & WI).
  apply ck_seq.
  { eapply ck_conv; [|apply (handle_ck (q_change_address q) (q_change_index q) (q_outputs q) ys (in_value sel) target Y)].
    - constructor; [|constructor]. split; [|reflexivity]. cbn [fst]. rewrite SE. tauto.
    - eapply Forall_impl; [|exact WO]. cbn. intros o0. tauto.
    - exact WC.
    - exact WI.
    - lia.
    - fold to. unfold target in *. lia. }
  intros [ys' chg] HC. apply (handle_iff HH HZ HU _ _ _ _ _ _ _ _ Y) in HC as (outs' & SP & Y'); auto; [|lia].
  destruct (surplus_value _ _ _ _ _ _ SP VO ltac:(lia)) as (SVA & SVB & SVC). fold to in SVA.
  assert (CE : forall P, changed q P <-> P outs' (in_value sel - chg)).
  { intros P. unfold changed. rewrite SE. split; [intros H; apply H; auto|]. intros H outs2 chg2 SP2.
    destruct (surplus_value _ _ _ _ _ _ SP2 VO ltac:(lia)) as (SVA2 & SVB2 & SVC2). fold to in SVA2.
    destruct (omade_exists_all HU q _ _ _ _ (conj (proj1 (asked_wf HU _ _ A)) (conj WO (conj WC WI))) SP2 ltac:(lia) ltac:(fold to; unfold target in *; lia)) as [ys2 Y2].
    assert (H1 : handle_change (q_change_address q) (q_change_index q) ys (in_value sel) target = Ok (ys2, chg2)) by (apply (handle_iff HH HZ HU _ _ _ _ _ _ _ _ Y); auto; [lia|eauto]).
    assert (H2 : handle_change (q_change_address q) (q_change_index q) ys (in_value sel) target = Ok (ys', chg)) by (apply (handle_iff HH HZ HU _ _ _ _ _ _ _ _ Y); auto; [lia|eauto]).
    rewrite H1 in H2. injection H2 as -> ->. rewrite (F2_inj _ _ _ outs2 outs' ys' omade_inj Y2 Y'). auto. }
  rewrite (out_value_made _ _ Y').
  assert (OK1 : (if in_value sel =? target then Ok tt else satoshi_to_bitcoin (PInt (out_value outs')) ;;; satoshi_to_bitcoin (PInt (out_value outs' + f)) ;;; Ok tt) = Ok tt).
  { destruct (in_value sel =? target); auto. destruct (sat_ok HU (out_value outs') ltac:(unfold target in *; lia)) as [z1 ->]. destruct (sat_ok HU (out_value outs' + f) ltac:(unfold target in *; lia)) as [z2 ->]. reflexivity. }
  rewrite OK1. cbn [bind]. rewrite (proj2 (Z.eqb_eq _ _)) by (unfold target in *; lia). cbn [negb].
  destruct (sat_ok HU chg ltac:(unfold target in *; lia)) as [s5 ->]. cbn [bind].
  match goal with |- checked _ (?c1 :: ?c2 :: ?c3 :: ?c4 :: ?r) => change (c1 :: c2 :: c3 :: c4 :: r) with ([c1; c2; c3; c4] ++ r) end.
  apply ck_bind.
  { eapply ck_conv; [|apply (spend_ck (q_max_spend q) n ti (in_value sel - chg) DB TR TN); unfold target in *; lia].
    constructor; [split; cbn; tauto|]. constructor; [split; cbn; tauto|]. constructor; [|constructor; [split; cbn; tauto|constructor]].
    split; [|reflexivity]. cbn [fst]. rewrite CE. tauto. }
  intros _ _. destruct (le_lt_dec (length outs') 252) as [LO|LO].
  - rewrite tx_create_ok by (rewrite <- ?(F2_len _ _ _ _ _ SM), <- ?(F2_len _ _ _ _ _ Y'); lia). cbn [bind]. apply ck_one; [split; eauto; intros _; apply CE; auto|].
    intros N. elim N. apply CE. auto.
  - assert (TB : tx_create sx ys' = Err ValueError).
    { unfold tx_create. rewrite int_to_var_int_ok by (rewrite <- (F2_len _ _ _ _ _ SM); lia). cbn [bind]. rewrite int_to_var_int_bad by (rewrite <- (F2_len _ _ _ _ _ Y'); lia). reflexivity. }
    rewrite TB. cbn [bind]. apply ck_one; [split; [intros [y Q]; discriminate|intros H; apply CE in H; lia]|]. auto.
Qed.

End WithEnv.
