(** What create_transaction logs, and the texts of its refusals. *)
From Coq Require Import String Floats.SpecFloat Permutation Sorted Reals Lra Lia.
From Flocq Require Import Core BinarySingleNaN.
From Verif Require Import PyBase Env PyNum Validate Basic Spec EnvOk TxInput TxOutput Tx Create Report TxSpec FloatSpec NumSpec ValidSpec CreateSpec RefuseSpec JsonSpec ReportSpec.
From Verif Require Import NumLemmas HexProofs Base58Proofs AddrProofs FloatProofs AmountProofs RateProofs NumProofs WireProofs MakeProofs PrepProofs DesignProofs BuildProofs CreateProofs RefuseProofs OrderProofs JsonProofs ReportTextProofs.
Open Scope Z_scope.

(** ** Lists of lines *)
Lemma lines_cons : forall x y r, lines (x :: y :: r) = x ++ nl ++ lines (y :: r).
Proof. intros. reflexivity. Qed.
Lemma lines_one : forall x, lines [x] = x.
Proof. intros. unfold lines. cbn. apply app_nil_r. Qed.
Lemma enumerate_ext : forall A B (f : nat -> A -> pystr) (g : nat -> B -> pystr) l l', Forall2 (fun x v => forall i, f i x = g i v) l l' ->
  forall i, enumerate g i l' = enumerate f i l.
Proof. intros A B f g l l' H. induction H; intros i; cbn [enumerate]; auto. rewrite H, IHForall2. reflexivity. Qed.

(** ** The sums per address *)
Lemma str_eqb_sym : forall a b, str_eqb a b = str_eqb b a.
Proof.
  intros a b. destruct (str_eqb a b) eqn:Q; symmetry; [apply str_eqb_eq in Q; subst; apply str_eqb_refl|]. destruct (str_eqb b a) eqn:R; auto. apply str_eqb_eq in R. subst. rewrite str_eqb_refl in Q. discriminate.
Qed.
Lemma distinct_in : forall l x, In x (distinct l) <-> In x l.
Proof.
  induction l as [|a l IH]; intros x; [tauto|]. cbn [distinct In]. rewrite filter_In, IH. split; [tauto|]. intros [H|H]; auto.
  destruct (str_eqb x a) eqn:Q; [apply str_eqb_eq in Q; auto|]. right. split; auto.
Qed.
Lemma distinct_nodup : forall l, NoDup (distinct l).
Proof.
  induction l as [|a l IH]; cbn [distinct]; constructor; [|apply NoDup_filter; auto]. rewrite filter_In, str_eqb_refl. intros [_ H]. discriminate.
Qed.
Lemma distinct_snoc : forall l x, distinct (l ++ [x]) = if existsb (str_eqb x) l then distinct l else distinct l ++ [x].
Proof.
  induction l as [|a l IH]; intros x; [reflexivity|]. cbn [app distinct existsb]. rewrite IH. destruct (existsb (str_eqb x) l); [rewrite orb_true_r; reflexivity|].
  rewrite orb_false_r, filter_app. cbn [filter]. destruct (str_eqb x a); cbn [negb]; rewrite ?app_nil_r; reflexivity.
Qed.
Lemma add_amount_absent : forall k n m, ~ In k (map fst m) -> add_amount k n m = m ++ [(k, n)].
Proof.
  intros k n. induction m as [|[y v] m IH]; intros H; [reflexivity|]. cbn [add_amount]. cbn [map fst In] in H. rewrite (proj2 (str_eqb_neq y k)) by tauto. rewrite IH by tauto. reflexivity.
Qed.
Lemma add_amount_present : forall k n (g : pystr -> Z) D, NoDup D -> In k D ->
  add_amount k n (map (fun x => (x, g x)) D) = map (fun x => (x, (if str_eqb k x then n else 0) + g x)) D.
Proof.
  intros k n g. induction D as [|y D IH]; intros N I; [destruct I|]. inversion N; subst. cbn [map add_amount]. destruct (str_eqb y k) eqn:Q.
  - apply str_eqb_eq in Q. subst y. rewrite str_eqb_refl. f_equal; [f_equal; lia|]. apply map_ext_in. intros x X. rewrite (proj2 (str_eqb_neq k x)); [reflexivity|]. intros ->. auto.
  - rewrite (str_eqb_sym k y), Q. f_equal. apply IH; auto. destruct I as [->|I]; auto. rewrite str_eqb_refl in Q. discriminate.
Qed.
Lemma sum_for_app : forall k l m, sum_for k (l ++ m) = sum_for k l + sum_for k m.
Proof. intros k l m. unfold sum_for. rewrite filter_app, map_app, Zsum_app. reflexivity. Qed.
Lemma per_address_map : forall l, per_address l = map (fun k => (k, sum_for k l)) (distinct (map fst l)).
Proof.
  intros l. induction l as [|[k n] l IH] using rev_ind; [reflexivity|]. unfold per_address in *. rewrite fold_left_app, IH. cbn [fold_left fst snd].
  rewrite map_app. cbn [map fst]. rewrite distinct_snoc.
  assert (SF : forall x, sum_for x (l ++ [(k, n)]) = (if str_eqb k x then n else 0) + sum_for x l).
  { intros x. rewrite sum_for_app, sum_for_cons. change (sum_for x []) with 0. lia. }
  destruct (existsb (str_eqb k) (map fst l)) eqn:X.
  - apply existsb_exists in X as (y & Y & Q). apply str_eqb_eq in Q. subst y. rewrite (add_amount_present k n (fun x => sum_for x l)); [|apply distinct_nodup|apply distinct_in; auto].
    apply map_ext. intros x. rewrite SF. reflexivity.
  - assert (N : ~ In k (map fst l)). { intros I. rewrite <- not_true_iff_false in X. apply X. apply existsb_exists. exists k. split; auto. apply str_eqb_refl. }
    rewrite add_amount_absent.
    + rewrite map_app. cbn [map]. f_equal; [apply map_ext_in; intros x X'|].
      * rewrite SF. rewrite (proj2 (str_eqb_neq k x)); [reflexivity|]. intros ->. elim (N (proj1 (distinct_in _ _) X')).
      * rewrite SF, str_eqb_refl, sum_for_zero by auto. f_equal. f_equal. lia.
    + rewrite map_map. cbn [fst]. rewrite map_id, distinct_in. exact N.
Qed.

(** ** Finite floats *)
Lemma float_of_small : forall n, Z.abs n <= 2 ^ 53 -> py_float_int n = Ok (float_of n) /\ double (float_of n) /\ is_finite_SF (float_of n) = true /\ s2r (float_of n) = IZR n.
Proof.
  intros n N. destruct (py_float_int_small n N) as (f & H & V & F & R). assert (f = float_of n) as ->; auto.
  unfold py_float_int in H. cbv zeta in H. unfold float_of. change 53 with prec. change 1024 with emax. destruct (SpecFloat.binary_normalize prec emax n 0 false); congruence.
Qed.
Lemma float_of_shape : forall n, 0 < n <= 2 ^ 53 -> exists m e, float_of n = S754_finite false m e /\ double (float_of n).
Proof. intros n N. destruct (float_of_small n ltac:(lia)) as (H & _). destruct (small_float_shape n _ N H) as (m & e & Q & V). eauto. Qed.
(** Quotients and percentages of amounts. *)
Lemma ratio_ok : forall n m, 0 <= n <= 2 ^ 53 -> 0 < m <= 2 ^ 53 ->
  fdiv (float_of n) (float_of m) = Ok (ratio n m) /\ double (ratio n m) /\ is_finite_SF (ratio n m) = true /\ s2r (ratio n m) = rnd (IZR n / IZR m) /\ (0 <= s2r (ratio n m) <= bpow radix2 53)%R.
Proof.
  intros n m N M. destruct (float_of_shape m M) as (mm & em & QM & VM). destruct (float_of_small m ltac:(lia)) as (_ & _ & _ & RM). destruct (float_of_small n ltac:(lia)) as (_ & VN & FN & RN).
  unfold ratio. rewrite QM in *. split; [reflexivity|]. change (SFdiv 53 1024) with (SFdiv prec emax).
  assert (PM : (1 <= IZR m)%R) by (apply IZR_le; lia). assert (PN : (0 <= IZR n <= IZR (2 ^ 53))%R) by (split; apply IZR_le; lia).
  assert (B : (0 <= IZR n / IZR m <= bpow radix2 53)%R).
  { change (bpow radix2 53) with (IZR (2 ^ 53)). split; [apply Rmult_le_pos; [lra|left; apply Rinv_0_lt_compat; lra]|].
    apply (Rmult_le_reg_r (IZR m)); [lra|]. unfold Rdiv. rewrite Rmult_assoc, Rinv_l by lra. nra. }
  destruct (float_of n) as [b|b| |s mn en] eqn:QN; try discriminate.
  - change (s2r (S754_zero b)) with 0%R in RN. rewrite <- RN. unfold Rdiv. rewrite Rmult_0_l. unfold rnd. rewrite round_0 by auto with typeclass_instances.
    cbn [SFdiv]. change (s2r (S754_zero (xorb b false))) with 0%R. repeat split; auto; try lra; try apply bpow_ge_0.
  - pose proof (div_rounds s mn en false mm em) as D. rewrite RN, RM in D.
    destruct (rounds_bounded _ _ _ 53 D ltac:(lia)) as [F BB]; [rewrite Rabs_pos_eq; apply B|]. destruct D as [V D].
    rewrite Rlt_bool_true in D.
    + destruct D as (D & _ & _). split; [exact V|]. split; [exact F|]. split; [exact D|]. split; [rewrite D; apply rnd_nonneg; apply B|]. eapply Rle_trans; [apply Rle_abs|exact BB].
    + eapply Rle_lt_trans; [|unfold big; apply (bpow_lt radix2 53); lia]. unfold rnd. apply abs_round_le_generic; auto with typeclass_instances.
      * apply generic_format_bpow. unfold fexp64, SpecFloat.fexp, SpecFloat.emin, prec, emax. lia.
      * rewrite Rabs_pos_eq; apply B.
Qed.
Lemma percent_ok : forall n m, 0 <= n <= 2 ^ 53 -> 0 < m <= 2 ^ 53 ->
  fmul (ratio n m) (float_of 100) = percent n m /\ double (percent n m) /\ is_finite_SF (percent n m) = true /\ s2r (percent n m) = rnd (rnd (IZR n / IZR m) * 100).
Proof.
  intros n m N M. destruct (ratio_ok n m N M) as (_ & V & F & R & B). split; [reflexivity|]. unfold percent. set (x := ratio n m) in *. clearbody x.
  destruct (float_of_shape 100 ltac:(lia)) as (mh & eh & QH & VH). destruct (float_of_small 100 ltac:(lia)) as (_ & _ & _ & RH). rewrite QH in *. change (SFmul 53 1024) with (SFmul prec emax).
  change (SFmul prec emax x (S754_finite false mh eh)) with (fmul x (S754_finite false mh eh)).
  destruct x as [b|b| |s mx ex]; try discriminate.
  - cbn. rewrite <- R. change (s2r (S754_zero b)) with 0%R. rewrite Rmult_0_l. unfold rnd. rewrite round_0 by auto with typeclass_instances. repeat split; reflexivity.
  - pose proof (mul_rounds s mx ex false mh eh V VH) as D. rewrite RH in D. rewrite <- R.
    assert (BB : (Rabs (s2r (S754_finite s mx ex) * 100) <= bpow radix2 60)%R).
    { rewrite Rabs_pos_eq by lra. change (bpow radix2 60) with (IZR (2 ^ 7) * bpow radix2 53)%R || (replace (bpow radix2 60) with (bpow radix2 7 * bpow radix2 53)%R by (rewrite <- bpow_plus; reflexivity)). change (bpow radix2 7) with 128%R. lra. }
    destruct (rounds_bounded _ _ _ 60 D ltac:(lia) BB) as [F' B']. destruct D as [V' D]. rewrite Rlt_bool_true in D.
    + destruct D as (D & _ & _). auto.
    + eapply Rle_lt_trans; [|unfold big; apply (bpow_lt radix2 60); lia]. unfold rnd. apply abs_round_le_generic; auto with typeclass_instances.
      apply generic_format_bpow. unfold fexp64, SpecFloat.fexp, SpecFloat.emin, prec, emax. lia.
Qed.

Section WithEnv.
Context {E : Env}.
Hypothesis HH : HashOk E.
Hypothesis HZ : ZeroAddressOk E.
Hypothesis HU : UniOk E.
Context (repr : pyval -> pystr).

(** ** The supplied data *)
Lemma btc_ok : forall n, 0 <= n <= max_money -> satoshi_to_bitcoin (PInt n) = Ok (btc n).
Proof.
  intros n N. destruct (satoshi_to_bitcoin_ok HU n N) as (s & -> & B). f_equal. apply fixed_text_unique. exact B.
Qed.
Lemma btc_text_btc : forall s n, btc_text s n -> s = btc n.
Proof. intros s n B. apply fixed_text_unique. exact B. Qed.

Lemma ensure8_completed : forall s n t, amount_of s n -> ensure_8_decimal_places s = Ok t <-> completed s t.
Proof.
  intros s n t [ip [fp [N [L ->]]]].
  assert (G : exists x y, (s = x ++ lit "." ++ y \/ (s = x /\ y = [])) /\ ~ In 46 x /\ ~ In 46 y /\ (length y <= 8)%nat /\ ensure_8_decimal_places s = Ok (x ++ lit "." ++ y ++ repeat 48 (8 - length y))).
  { assert (RZ : forall k, rep_str k (lit "0") = repeat 48 k). { induction k as [|k IH]; [reflexivity|]. change (rep_str (S k) (lit "0")) with (48 :: rep_str k (lit "0")). rewrite IH. reflexivity. }
    destruct N as [[D [-> Hx]]|[a [b [-> [Da [Db Hx]]]]]].
    - destruct (dec_run HU s ip D) as [I1 [I2 [I3 [I4 I5]]]]. destruct (count_none s I4) as [C1 [C2 C3]]. exists s, []. split; [auto|]. split; [auto|]. split; [auto|]. split; [cbn; lia|].
      unfold ensure_8_decimal_places. rewrite C1. cbn [Nat.eqb]. change (s ++ lit ".") with (s ++ [46] ++ []). rewrite split_dot by auto. cbn [split_char length Nat.ltb Nat.leb Nat.sub].
      rewrite RZ, <- app_assoc. reflexivity.
    - destruct (dec_run HU a ip Da) as [I1 [I2 [I3 [I4 I5]]]]. destruct (dec_run HU b fp Db) as [J1 [J2 [J3 [J4 J5]]]].
      destruct (one_dot a b I4 J4) as [C1 [C2 C3]]. exists a, b. split; [auto|]. split; [auto|]. split; [auto|]. split; [lia|].
      unfold ensure_8_decimal_places. rewrite C1. cbn [Nat.eqb]. rewrite C3. rewrite (proj2 (Nat.ltb_ge _ _)) by lia. rewrite RZ, <- !app_assoc. reflexivity. }
  destruct G as (x & y & S & NX & NY & LY & ->). split.
  - intros [= <-]. exists x, y. auto.
  - intros (x' & y' & S' & NX' & NY' & _ & ->). f_equal. f_equal.
    assert (U : x = x' /\ y = y').
    { destruct S as [S|[S Y]], S' as [S'|[S' Y']]; subst.
      - clear - S' NX NX'. revert x' S' NX'. induction x as [|c x IH]; intros [|c' x'] S' NX'; cbn in S'.
        + injection S' as <-. auto.
        + injection S' as <- _. elim NX'. left. reflexivity.
        + injection S' as -> _. elim NX. left. reflexivity.
        + injection S' as -> S'. destruct (IH) with (x' := x') as [-> ->]; auto. { intros I. apply NX. right. auto. } intros I. apply NX'. right. auto.
      - elim NX'. apply in_or_app. right. left. reflexivity.
      - elim NX. apply in_or_app. right. left. reflexivity.
      - auto. }
    destruct U as [-> ->]. reflexivity.
Qed.

(** Entries as the report shows them. *)
Definition shown_input (p : iarg * pystr) (v : pyval) : Prop := forall k, input_entry k p = supplied_input_line repr k v.
Definition shown_output (p : oarg * pystr) (v : pyval) : Prop := forall k, output_entry k p = supplied_output_line repr k v.
Lemma input_line_ok : forall k a t i s v, input_line repr k (PStr a) (PStr t) (PInt i) (PStr s) (PInt v) =
  lines [ lit "Input " ++ number k ++ lit ":"; lit "- address: " ++ a; lit "- txid: " ++ t; lit "- previous_output_index: " ++ int_str i;
          lit "- bitcoin_amount: " ++ s ++ lit " (" ++ int_str v ++ lit " satoshi)" ].
Proof. intros. unfold input_line. cbn [show]. rewrite !lines_cons, lines_one. rewrite <- !app_assoc. reflexivity. Qed.
Lemma output_line_ok : forall k a s v, output_line repr k (PStr a) (PStr s) (PInt v) =
  lines [ lit "Output " ++ number k ++ lit ":"; lit "- address: " ++ a; lit "- bitcoin_amount: " ++ s ++ lit " (" ++ int_str v ++ lit " satoshi)" ].
Proof. intros. unfold output_line. cbn [show]. rewrite !lines_cons, lines_one. rewrite <- !app_assoc. reflexivity. Qed.
Lemma final_shown : forall d i s, input_arg (PDict d) i -> amount_entry (PDict d) s -> shown_input (i, s) (PDict (final_input d i)).
Proof.
  intros d i s (d0 & vi & s0 & [= <-] & P & F1 & _ & F2 & _ & _ & F3 & _ & _ & F4 & _) (d1 & [= <-] & A) k. unfold entry in A.
  unfold supplied_input_line, get_or_none, input_entry. cbv zeta. cbn [fst snd]. rewrite (find_final (lit "address")), (find_final (lit "transaction_id")), (find_final (lit "bitcoin_amount")) by discriminate.
  unfold final_input. rewrite find_set_same. rewrite (set_other (lit "previous_output_index")) by discriminate. unfold adjusted_input. rewrite find_set_same. rewrite F1, F2, A. rewrite input_line_ok. reflexivity.
Qed.
Lemma final_output_shown : forall d o t, output_arg (PDict d) o -> shown_output (o, t) (PDict (final_output d t (oa_value o))).
Proof.
  intros d o t (d0 & s0 & [= <-] & P & F1 & _ & F4 & _) k.
  unfold supplied_output_line, get_or_none, output_entry. cbv zeta. cbn [fst snd].
  unfold final_output. rewrite find_set_same. rewrite !(fun k0 => set_other (lit k0) (lit "satoshi_amount")) by discriminate. unfold adjusted_output. rewrite find_set_same, set_other by discriminate. rewrite F1, output_line_ok. reflexivity.
Qed.

Lemma F2_zip : forall A B C D (R : A -> B -> Prop) (S : A -> C -> Prop) (T : A -> D -> Prop) (U : B * C -> D -> Prop) l lb lc ld,
  (forall a b c d, R a b -> S a c -> T a d -> U (b, c) d) -> Forall2 R l lb -> Forall2 S l lc -> Forall2 T l ld -> Forall2 U (combine lb lc) ld.
Proof.
  intros A B C D R S T U l lb lc ld K H. revert lc ld. induction H as [|a b l lb Ha H IH]; intros lc ld H1 H2; inversion H1; subst; inversion H2; subst; cbn [combine]; constructor; eauto.
Qed.

Lemma output_steps_text : forall d o s t, output_arg (PDict d) o -> amount_entry (PDict d) s -> completed s t ->
  validate_output (PDict d) = (Ok tt, PDict (adjusted_output d t)) /\
  add_satoshi_amount (PDict (adjusted_output d t)) = (Ok tt, PDict (final_output d t (oa_value o))) /\
  make_output (PDict (final_output d t (oa_value o))) = txout_create (PStr (oa_address o)) (oa_value o).
Proof.
  intros d o s t O (d1 & [= <-] & A) C. unfold entry in A. pose proof O as (d0 & s0 & [= <-] & _ & _ & _ & F2 & (AA & _ & _)). assert (s0 = s) by congruence. subst s0.
  destruct (output_steps_ok HH HZ HU _ _ O) as (d2 & t' & [= <-] & S1 & S2 & S3). assert (t' = t); [|subst; auto].
  apply (ensure8_completed s (oa_value o) t AA) in C. unfold validate_output in S1. unfold dict_get in S1. rewrite A in S1.
  match type of S1 with (match ?m with _ => _ end = _) => destruct m as [x|e] eqn:V; [|discriminate] end.
  inv_bind V u1 V1. inv_bind V a1 V2. inv_bind V u2 V3. cbn [bind] in V. inv_bind V u3 V4. cbn [as_str bind] in V. rewrite C in V. injection V as <-. injection S1 as S1.
  apply (f_equal (dict_find (lit "bitcoin_amount"))) in S1. unfold adjusted_output in S1. rewrite !find_set_same in S1. congruence.
Qed.

(** The values the second half works with, and what was logged before. *)
Lemma prepare_says : forall a q ta tb mf, asked a q -> texts repr a q ta tb mf -> exists p a', prepare a = (Ok p, a') /\ prep p q /\
  Forall2 shown_input (combine (q_inputs q) ta) (p_inputs p) /\ Forall2 shown_output (combine (q_outputs q) tb) (p_outputs p) /\
  p_approaches p = PList [PStr (approach_name (q_approach q))] /\ show repr (p_max_fee p) = mf /\
  validation_says repr a = (validation_part repr a q, Done tt).
Proof.
  intros a q ta tb mf ASK TX. destruct (prepare_ok HH HZ HU a q ASK) as (p & a' & PR & PP & _). exists p, a'. split; [exact PR|]. split; [exact PP|].
  destruct ASK as (l & d & NI & FI & ND & (( lo & GO & FO) & (GC & (h & CA)) & (mv & GM & WM) & (pv & n & GP & PF & PT & PN) & FA & AA) & OA & IA).
  destruct TX as (l' & d' & lo' & sb & mv' & NI' & ND' & GO' & TA & SB & TB & GM' & MF). unfold entry in GO', GM'.
  assert (l' = l) by congruence. assert (d' = d) by congruence. subst l' d'. assert (lo' = lo) by congruence. assert (mv' = mv) by congruence. subst lo' mv'.
  apply (py_float_iff HU) in PF. apply py_trunc_iff in PT. unfold prepare in PR. unfold validation_says. rewrite NI, ND in *.
  destruct (fees_ok HU _ _ _ FA) as (f1 & AF & VF & FC). destruct (max_fee_ok HU _ _ WM) as (w & AM & WW).
  destruct (adjust_design_ok d f1 (Some w) AF) as [d1 AD]. { rewrite GM. auto. }
  rewrite AD in *. destruct (adjust_design_inv d d1 AD) as (D1 & D2 & D3 & D4). rewrite AF in D1. injection D1 as D1. rewrite GM, AM in D3. injection D3 as D3. symmetry in D1, D3.
  (* inputs *)
  destruct (F2_exists _ _ _ _ (fun v i c => exists d, v = PDict d /\
     adjust_input v = (Ok tt, c) /\ validate_input c = Ok tt /\ c = PDict (adjusted_input d i) /\
     add_satoshi_amount c = (Ok tt, PDict (final_input d i))) _ _ FI) as (l2 & L1 & L2).
  { intros v i Hi. destruct (input_steps_ok HH HZ HU v i Hi) as (d0 & -> & S1 & S2 & S3 & S4). exists (PDict (adjusted_input d0 i)), d0. auto. }
  assert (FE : for_each adjust_input l = (Ok tt, l2)).
  { apply for_each_ok. eapply F2_impl; [|exact L1]. intros x y (i & _ & d0 & _ & S1 & _). exact S1. }
  rewrite FE in *. cbn [set_ns_inputs set_ns_design ns_inputs ns_design] in PR.
  assert (VI : validate_inputs (PList l2) = Ok tt).
  { unfold validate_inputs. cbn [validate_list bind as_list]. apply iter_ok. clear - L2. induction L2 as [|i c li lc Hc H IH]; constructor; auto.
    destruct Hc as (v & _ & d0 & _ & _ & S2 & _). exact S2. }
  cbn [bind] in *. rewrite VI in *.
  (* outputs *)
  assert (OT : exists lo2 lo4, for_each validate_output lo = (Ok tt, lo2) /\ for_each add_satoshi_amount lo2 = (Ok tt, lo4) /\ Forall2 shown_output (combine (q_outputs q) tb) lo4).
  { clear - FO SB TB HH HZ HU. revert sb tb SB TB. induction FO as [|v o lo os Ho FO IH]; intros sb tb SB TB; inversion SB; subst; inversion TB; subst.
    - exists [], []. cbn. repeat split; constructor.
    - destruct (IH _ _ H3 H5) as (lo2 & lo4 & I1 & I2 & I3). pose proof H1 as (dd & -> & _).
      match goal with K : completed _ ?t |- _ => destruct (output_steps_text dd o y t Ho H1 K) as (S1 & S2 & S3); exists (PDict (adjusted_output dd t) :: lo2), (PDict (final_output dd t (oa_value o)) :: lo4) end.
      cbn [for_each combine]. rewrite S1, I1. cbn [for_each]. rewrite S2, I2. split; [reflexivity|]. split; [reflexivity|]. constructor; auto. apply final_output_shown. auto. }
  destruct OT as (lo2 & lo4 & FOE & FE3 & SO).
  assert (HE : validate_design_head d1 = Ok lo).
  { apply (head_ok HH HZ d1 (q_change_address q) w pv (q_max_spend q) n lo h); auto; try (rewrite D4 by discriminate; auto). eauto. }
  unfold validate_design in PR. rewrite HE in *. rewrite FOE in *. cbv zeta in PR. set (d3 := dict_set (lit "outputs") (PList lo2) d1) in *.
  assert (D5 : forall k, k <> lit "outputs" -> dict_find k d3 = dict_find k d1) by (intros; apply set_other; auto).
  assert (VF' : validate_fees (get_or_none (lit "fee") d1) (get_or_none (lit "fee_rate") d1) = Ok tt).
  { unfold get_or_none. rewrite D1, D2. exact VF. }
  assert (GA : get_or_none (lit "input_selection_approaches") d1 = oget (dict_find (lit "input_selection_approaches") d)).
  { unfold get_or_none. rewrite D4 by discriminate. reflexivity. }
  assert (VA : validate_approaches (get_or_none (lit "input_selection_approaches") d1) = Ok tt).
  { rewrite GA. eapply validate_approaches_ok; eauto. }
  destruct (options_ok a q OA IA) as (V1 & V2 & V3). rewrite VF', VA, V1 in PR. cbn [bind] in PR.
  assert (UN : exists rate, unpack a d3 = Ok (q_max_spend q, rate, oget f1, PStr (q_change_address q), w, default_approaches (dict_find (lit "input_selection_approaches") d))).
  { unfold unpack, dict_get, get_or_none. rewrite !D5 by discriminate. rewrite D1, D2, D3. rewrite !D4 by discriminate. rewrite GC, GP. cbn [bind]. rewrite PF. cbn [bind].
    change (match f1 with Some v => v | None => PNone end) with (oget f1).
    change (match adjusted_rate (dict_find (lit "fee_rate") d) with Some v => v | None => PNone end) with (oget (adjusted_rate (dict_find (lit "fee_rate") d))).
    destruct (q_fee q) as [m|r]; destruct FC as [C1 C2].
    - rewrite C2. cbn [bind]. eexists. reflexivity.
    - rewrite C1, C2. cbn [bind]. eexists. reflexivity. }
  destruct UN as (rate & UN). rewrite UN in PR. cbn [bind] in PR. unfold dict_get, d3 in PR. rewrite find_set_same in PR. cbn [bind as_list] in PR.
  (* satoshi amounts *)
  assert (IT : exists l4, for_each add_satoshi_amount l2 = (Ok tt, l4) /\ Forall2 shown_input (combine (q_inputs q) ta) l4).
  { clear - FI TA FE HH HZ HU. apply for_each_ok in FE. revert ta TA l2 FE. induction FI as [|v i l is Hi FI IH]; intros ta TA l2 FE; inversion TA; subst; inversion FE; subst.
    - exists []. cbn. repeat split; constructor.
    - destruct (IH _ H3 _ H5) as (l4 & I1 & I2). destruct (input_steps_ok HH HZ HU v i Hi) as (d0 & -> & S1 & S2 & S3 & S4). rewrite S1 in H2. injection H2 as <-.
      exists (PDict (final_input d0 i) :: l4). cbn [for_each combine]. rewrite S3, I1. split; [reflexivity|]. constructor; auto. apply final_shown; auto. }
  destruct IT as (l4 & FE2 & SI). rewrite FE2, FE3 in PR. injection PR as PR _. subst p. cbn [p_inputs p_outputs p_approaches p_max_fee].
  split; [exact SI|]. split; [exact SO|].
  assert (AP : default_approaches (dict_find (lit "input_selection_approaches") d) = PList [PStr (approach_name (q_approach q))]).
  { destruct AA as [[-> ->]| ->]; reflexivity. }
  split; [exact AP|]. split.
  { rewrite MF. clear - AM WM HU. destruct mv as [|b|z|x|s| |]; cbn in AM; try (injection AM as <-; reflexivity).
    - injection AM as <-. cbn [show]. destruct WM as [[[W _]|[(b & W & _)|(b & W & _)]]|(s & W & _)]; try discriminate. injection W as ->. reflexivity.
    - destruct (py_int_str 10 s) as [m|] eqn:PI; [|discriminate]. injection AM as <-. cbn [show].
      destruct WM as [[[W _]|[(b & W & _)|(b & W & _)]]|(s' & W & T & _)]; try discriminate. injection W as <-. apply (int_text_iff HU) in T. f_equal. congruence. }
  assert (FEE : says_fees (get_or_none (lit "fee") d1) (get_or_none (lit "fee_rate") d1) = quiet (Ok tt)).
  { pose proof VF' as VF2. unfold validate_fees in VF2. unfold says_fees. destruct (_ || _); [discriminate|]. rewrite VF2. reflexivity. }
  rewrite !bind_ok. rewrite FOE. cbn [fst]. rewrite FEE, !bind_ok. rewrite GA. unfold validation_part. rewrite ND. unfold entry.
  destruct AA as [[-> Q]| ->].
  - cbn [oget]. change (says_approaches repr PNone) with (quiet (Ok tt)). rewrite !bind_ok, V1, bind_ok. reflexivity.
  - cbn [oget]. assert (SA : says_approaches repr (PList [PStr (approach_name (q_approach q))]) = ([approaches_text repr (q_approach q)], Done tt)) by (destruct (q_approach q); reflexivity).
    rewrite SA, V1. reflexivity.
Qed.
End WithEnv.
