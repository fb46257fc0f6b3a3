(** Texts of numbers, and the calculus of logged computations. *)
From Coq Require Import String Floats.SpecFloat Permutation Sorted Reals Lra Lia.
From Flocq Require Import Core BinarySingleNaN.
From Verif Require Import PyBase Env PyNum Validate Basic Spec EnvOk TxInput TxOutput Tx Create Report TxSpec FloatSpec NumSpec CreateSpec RefuseSpec JsonSpec ReportSpec.
From Verif Require Import NumLemmas HexProofs Base58Proofs AddrProofs FloatProofs RateProofs AmountProofs NumProofs WireProofs MakeProofs JsonProofs.
Open Scope Z_scope.

(** ** Numerals *)
Lemma int_str_unique : forall ds, digits_in 10 ds -> ds = [0] \/ (ds <> [] /\ no_lead0 ds) -> int_str (val 10 ds) = text10 ds.
Proof.
  intros ds D L. pose proof (val_bounds 10 ds ltac:(lia) D) as B. unfold int_str. rewrite (proj2 (Z.ltb_ge _ _)) by lia.
  destruct (nat_text10 (val 10 ds) ltac:(lia)) as (es & -> & De & Ne & V & Le). f_equal.
  destruct L as [->|[N L]].
  - change (val 10 [0]) with 0 in V. destruct Le as [->|Le]; auto. destruct es as [|d r]; [congruence|]. apply no_lead0_cons in Le.
    pose proof (val_lead_lower 10 d r ltac:(lia) De Le). assert (0 < 10 ^ Z.of_nat (length r)) by (apply Z.pow_pos_nonneg; lia). lia.
  - destruct Le as [->|Le]; [|apply (val_inj_lead 10); auto; lia].
    change (val 10 [0]) with 0 in V. destruct ds as [|d r]; [congruence|]. apply no_lead0_cons in L.
    pose proof (val_lead_lower 10 d r ltac:(lia) D L). assert (0 < 10 ^ Z.of_nat (length r)) by (apply Z.pow_pos_nonneg; lia). lia.
Qed.
Lemma fixed_text_unique : forall k s n, fixed_text (S k) s n -> s = with_decimals (S k) n.
Proof.
  intros k s n (ip & fp & -> & D1 & D2 & L & LD & V). unfold with_decimals. rewrite val_app, L in V.
  pose proof (val_bounds 10 fp ltac:(lia) D2) as B. rewrite L in B. set (p := 10 ^ Z.of_nat (S k)) in *. assert (P : 0 < p) by (apply Z.pow_pos_nonneg; lia).
  assert (Q : n / p = val 10 ip) by (symmetry; apply (Z.div_unique n p _ (val 10 fp)); lia).
  assert (R : n mod p = val 10 fp) by (symmetry; apply (Z.mod_unique n p (val 10 ip)); lia).
  rewrite Q, R. rewrite int_str_unique by auto.
  assert (W : p + val 10 fp = val 10 (1 :: fp)) by (rewrite val_cons, L; fold p; lia).
  rewrite W, int_str_unique; [reflexivity| |right; split; [discriminate|apply no_lead0_cons; lia]]. constructor; [lia|exact D2].
Qed.
Lemma decimals_ok : forall k n, 0 <= n -> decimals k n = with_decimals k n.
Proof.
  intros [|k] n N; cbn [decimals].
  - unfold with_decimals. change (10 ^ Z.of_nat 0) with 1. rewrite Z.div_1_r, app_nil_r. reflexivity.
  - apply fixed_text_unique, dec_text_ok. auto.
Qed.

(** A float with k decimals. *)
Lemma rounded_nearest : forall a b u, 0 < b -> rounded a b u -> ZnearestE (IZR a / IZR b) = u.
Proof.
  intros a b u B [H1 H2]. assert (PB : (0 < IZR b)%R) by (apply IZR_lt; auto).
  assert (D : (IZR a / IZR b - IZR u = IZR (a - u * b) / IZR b)%R). { rewrite minus_IZR, mult_IZR. field. lra. }
  assert (AB : (Rabs (IZR a / IZR b - IZR u) * 2 = IZR (2 * Z.abs (u * b - a)) / IZR b)%R).
  { rewrite D. unfold Rdiv. rewrite Rabs_mult, <- abs_IZR, (Rabs_pos_eq (/ IZR b)) by (left; apply Rinv_0_lt_compat; lra).
    rewrite mult_IZR. replace (Z.abs (a - u * b)) with (Z.abs (u * b - a)) by lia. ring. }
  destruct (Z.eq_dec (2 * Z.abs (u * b - a)) b) as [Q|Q].
  - specialize (H2 Q). rewrite Q in AB. unfold Rdiv in AB at 2. rewrite Rinv_r in AB by lra.
    unfold ZnearestE. destruct (Z_le_gt_dec (u * b) a) as [LE|GT].
    + assert (X : (IZR a / IZR b = IZR u + / 2)%R).
      { rewrite Rabs_pos_eq in AB; [lra|]. rewrite D. apply Rmult_le_pos; [apply IZR_le; lia|left; apply Rinv_0_lt_compat; lra]. }
      unfold Znearest. assert (F : Zfloor (IZR a / IZR b) = u) by (apply Zfloor_imp; rewrite X, plus_IZR; lra).
      rewrite F. rewrite Rcompare_Eq by lra. rewrite (proj2 (Z.even_spec u) H2). reflexivity.
    + assert (X : (IZR a / IZR b = IZR (u - 1) + / 2)%R).
      { rewrite minus_IZR. rewrite Rabs_left1 in AB; [lra|]. rewrite D. unfold Rdiv. rewrite <- (Rmult_0_l (/ IZR b)). apply Rmult_le_compat_r; [left; apply Rinv_0_lt_compat; lra|]. apply (IZR_le (a - u * b) 0); lia. }
      unfold Znearest. assert (F : Zfloor (IZR a / IZR b) = u - 1) by (apply Zfloor_imp; rewrite X, plus_IZR; lra).
      rewrite F. rewrite Rcompare_Eq by lra.
      assert (EV : Z.even (u - 1) = false). { replace (u - 1) with (Z.pred u) by lia. rewrite Z.even_pred, <- Z.negb_even, (proj2 (Z.even_spec u) H2). reflexivity. }
      rewrite EV. cbn [negb]. rewrite Zceil_floor_neq; rewrite F; [lia|rewrite X; lra].
  - apply Znearest_imp. assert (S : 2 * Z.abs (u * b - a) + 1 <= b) by lia. apply IZR_le in S. rewrite plus_IZR in S.
    assert (T : (IZR (2 * Z.abs (u * b - a)) / IZR b < 1)%R). { apply (Rmult_lt_reg_r (IZR b)); auto. unfold Rdiv. rewrite Rmult_assoc, Rinv_l by lra. lra. } lra.
Qed.
Lemma near_IZR : forall n, ZnearestE (IZR n) = n.
Proof. intros n. apply Zrnd_IZR; auto with typeclass_instances. Qed.
Lemma fixed_ok : forall k x, is_finite_SF x = true -> fixed k x = to_places k x.
Proof.
  intros k x F. unfold to_places. assert (P10 : 0 < 10 ^ Z.of_nat k) by (apply Z.pow_pos_nonneg; lia).
  destruct x as [s|s| |s m e]; try discriminate; cbn [fixed sign_SF].
  - rewrite decimals_ok by lia. change (float_value (S754_zero s)) with 0%R. rewrite Rabs_R0, Rmult_0_l. rewrite (near_IZR 0). reflexivity.
  - assert (V : Rabs (float_value (S754_finite s m e)) = F2R (Float radix2 (Z.pos m) e)).
    { rewrite value_s2r. unfold s2r. cbn [SF2R]. rewrite <- F2R_Zabs. f_equal. destruct s; reflexivity. }
    rewrite V. unfold F2R. cbn [Fnum Fexp]. destruct (Z.leb_spec 0 e) as [L|L].
    + rewrite <- IZR_Zpower by auto. rewrite <- !mult_IZR, near_IZR. change (radix2 ^ e) with (2 ^ e). rewrite decimals_ok; [reflexivity|].
      apply Z.mul_nonneg_nonneg; [apply Z.mul_nonneg_nonneg; [lia|apply Z.pow_nonneg; lia]|lia].
    + assert (P2 : 0 < 2 ^ (- e)) by (apply Z.pow_pos_nonneg; lia).
      destruct (half_even_ok (Z.pos m * 10 ^ Z.of_nat k) (2 ^ (- e)) ltac:(apply Z.mul_nonneg_nonneg; lia) P2) as [R N]. rewrite decimals_ok by auto. f_equal. f_equal.
      rewrite <- (rounded_nearest _ _ _ P2 R). f_equal. rewrite mult_IZR. replace e with (- - e) at 2 by lia. rewrite bpow_opp, <- IZR_Zpower by lia.
      change (radix2 ^ (- e)) with (2 ^ (- e)). unfold Rdiv. ring.
Qed.

(** ** Logged computations *)
Definition pre {A : Type} (l : list pystr) (m : logged A) : logged A := (l ++ fst m, snd m).
Lemma pre_pre : forall A l l' (m : logged A), pre l (pre l' m) = pre (l ++ l') m.
Proof. intros. unfold pre. cbn [fst snd]. rewrite app_assoc. reflexivity. Qed.
Lemma pre_nil : forall A (m : logged A), pre [] m = m.
Proof. intros A [l o]. reflexivity. Qed.
Lemma bind_pre : forall A B l (m : logged A) (k : A -> logged B), lbind (pre l m) k = pre l (lbind m k).
Proof.
  intros A B l [l' [x|e t]] k; unfold pre; cbn [fst snd lbind]; auto. destruct (k x) as [l'' o]. cbn [fst snd]. rewrite app_assoc. reflexivity.
Qed.
Lemma bind_say : forall B s (k : unit -> logged B), lbind (say s) k = pre [s] (k tt).
Proof. intros B s k. unfold say, lbind, pre. destruct (k tt). reflexivity. Qed.
Lemma say_pre : forall s, say s = pre [s] (quiet (Ok tt)).
Proof. reflexivity. Qed.
Lemma bind_ok : forall A B (x : A) (k : A -> logged B), lbind (quiet (Ok x)) k = k x.
Proof. intros. unfold quiet, lbind. destruct (k x). reflexivity. Qed.
Lemma bind_err : forall A B e (k : A -> logged B), lbind (quiet (Err e)) k = quiet (Err e).
Proof. reflexivity. Qed.
Lemma bind_raise : forall A B e s (k : A -> logged B), lbind (raise_with e s) k = raise_with e s.
Proof. reflexivity. Qed.
Lemma say_all_pre : forall l, say_all l = pre l (quiet (Ok tt)).
Proof.
  induction l as [|s l IH]; [reflexivity|]. cbn [say_all]. rewrite bind_say, IH, pre_pre. reflexivity.
Qed.
Lemma enumerate_numbered : forall A (f : nat -> A -> pystr) l, enumerate f 0 l = numbered f l.
Proof.
  intros A f l. unfold numbered. generalize 0%nat. induction l as [|x l IH]; intros i; [reflexivity|]. cbn [enumerate length seq combine map fst snd]. rewrite IH. reflexivity.
Qed.

(** What remains without the log. *)
Lemma result_bind : forall A B (m : logged A) (k : A -> logged B), result (lbind m k) = (x <- result m ;; result (k x)).
Proof. intros A B [l [x|e t]] k; cbn; auto. unfold result. cbn. destruct (k x). reflexivity. Qed.
Lemma result_quiet : forall A (r : res A), result (quiet r) = r.
Proof. intros A [x|e]; reflexivity. Qed.
Lemma result_say : forall s, result (say s) = Ok tt.
Proof. reflexivity. Qed.
Lemma result_raise : forall A e s, result (raise_with e s : logged A) = Err e.
Proof. reflexivity. Qed.
Lemma result_all : forall l, result (say_all l) = Ok tt.
Proof. intros. rewrite say_all_pre. reflexivity. Qed.

Ltac erase := repeat (rewrite ?result_bind, ?result_quiet, ?result_say, ?result_raise, ?result_all; cbn [bind]).

Lemma bind_ext : forall A B (r : res A) (k k' : A -> res B), (forall x, k x = k' x) -> bind r k = bind r k'.
Proof. intros A B [x|e] k k' H; cbn; auto. Qed.

Section WithEnv.
Context {E : Env}.
Context (repr : pyval -> pystr).

Lemma input_sums_erase : forall B inputs m msg (k : pystr -> res B) (K : res B), (forall s, k s = K) -> bind (input_sums inputs m msg) k = (report_sums m ;;; K).
Proof.
  intros B inputs m. induction m as [|[a v] m IH]; intros msg k K H; [apply H|]. unfold report_sums in *. cbn [input_sums iterM snd].
  destruct (satoshi_to_bitcoin (PInt v)); cbn [bind]; auto.
Qed.
Lemma output_sums_erase : forall B m msg (k : pystr -> res B) (K : res B), (forall s, k s = K) -> bind (output_sums m msg) k = (report_sums m ;;; K).
Proof.
  intros B m. induction m as [|[a v] m IH]; intros msg k K H; [apply H|]. unfold report_sums in *. cbn [output_sums iterM snd].
  destruct (satoshi_to_bitcoin (PInt v)); cbn [bind]; auto.
Qed.
Lemma duplicates_erase : forall allow ys l, result (says_duplicates allow ys l) = check_duplicates allow ys l.
Proof.
  intros allow ys l. unfold check_duplicates. induction l as [|a l IH]; [reflexivity|]. cbn [says_duplicates iterM].
  destruct (_ && _); [reflexivity|]. cbn [bind]. exact IH.
Qed.
Lemma fee_erase : forall p n m, result (says_fee repr p n m) = manage_fee p n m.
Proof.
  intros p n m. unfold says_fee, manage_fee. erase. apply bind_ext. intros size. erase. apply bind_ext. intros ff. erase.
  destruct (py_float ff) as [x|e]; cbn [bind]; auto. destruct (py_float_int size) as [y|e]; cbn [bind]; auto. destruct (fdiv x y) as [r|e]; cbn [bind]; auto.
  destruct (p_fee_rate p); erase; apply bind_ext; intros s2; erase; apply bind_ext; intros z; erase; apply bind_ext; intros [|]; reflexivity.
Qed.
Lemma selection_erase : forall v ap l t g, result (says_selection repr v ap l t g) = select_inputs ap l t g.
Proof.
  intros v ap l t g. unfold says_selection, select_inputs. destruct (t <? g); [erase; reflexivity|]. destruct (t =? g); [reflexivity|]. erase. apply bind_ext. intros s. erase. reflexivity.
Qed.
Lemma position_erase : forall idx n a, result (says_position repr idx n a) = change_position idx n.
Proof.
  intros idx n a. unfold says_position. destruct (change_position idx n) as [k|e]; [destruct idx; reflexivity|]. destruct e; try (destruct idx; reflexivity).
Qed.
Lemma update_old : forall a k s ys ys' y, update_change a k s ys = Ok (ys', y) -> exists t, satoshi_to_bitcoin (PInt (old_amount a k ys)) = Ok t.
Proof.
  intros a k s ys. revert k. induction ys as [|o ys IH]; intros k ys' y H; [discriminate|]. cbn [update_change] in H. unfold old_amount. cbn [filter].
  destruct (str_eqb (to_address o) a) eqn:Q.
  - destruct k as [|k]; cbn [nth_error].
    + inv_bind H o' O'. inv_bind H t T. eauto.
    + inv_bind H ab U. destruct ab as [r' o']. eapply IH; eauto.
  - inv_bind H ab U. destruct ab as [r' o']. eapply IH; eauto.
Qed.
Lemma change_erase : forall a idx ys t g, result (says_change repr a idx ys t g) = handle_change a idx ys t g.
Proof.
  intros a idx ys t g. unfold says_change, handle_change. destruct (t =? g); [reflexivity|]. cbv zeta. erase. apply bind_ext. intros s. erase.
  destruct (Nat.ltb _ _).
  - erase. rewrite position_erase. apply bind_ext. intros k. erase. destruct (update_change _ _ _ _) as [[ys' y]|e] eqn:U; cbn [bind]; auto.
    destruct (update_old _ _ _ _ _ _ U) as [b ->]. reflexivity.
  - destruct (Nat.eqb _ _).
    + erase. destruct (update_change _ _ _ _) as [[ys' y]|e] eqn:U; cbn [bind]; auto. destruct (update_old _ _ _ _ _ _ U) as [b ->]. reflexivity.
    + erase. apply bind_ext. intros o. erase. reflexivity.
Qed.
Lemma spend_erase : forall p t sp, result (says_spend p t sp) = check_spend p t sp.
Proof.
  intros p t sp. unfold says_spend, check_spend. erase. apply bind_ext. intros f. erase. apply bind_ext. intros x. erase. apply bind_ext. intros ft. erase. apply bind_ext. intros m. erase.
  apply bind_ext. intros b. erase. apply bind_ext. intros c. erase. apply bind_ext. intros fsp. erase. apply bind_ext. intros r. cbv zeta. erase. destruct (sp <=? m); [|reflexivity]. erase. apply bind_ext. intros fm. erase. apply bind_ext. intros r2. reflexivity.
Qed.
Lemma build_erase : forall p, result (build_says repr p) = build p.
Proof.
  intros p. unfold build_says, build. erase. apply bind_ext. intros xs. erase. apply bind_ext. intros ys. erase. apply bind_ext. intros ap. erase.
  apply input_sums_erase. intros m1. erase. apply output_sums_erase. intros m2. erase. rewrite duplicates_erase. apply bind_ext. intros u3. erase.
  rewrite fee_erase. apply bind_ext. intros f. erase. apply bind_ext. intros b1. erase. apply bind_ext. intros b2. erase.
  replace (result (if Zsum (map ti_sat (sort_inputs ap xs)) <? Zsum (map to_satoshi_amount ys) then _ else _)) with
    (if Zsum (map ti_sat (sort_inputs ap xs)) <? Zsum (map to_satoshi_amount ys) then
       satoshi_to_bitcoin (PInt (Zsum (map to_satoshi_amount ys) - Zsum (map ti_sat (sort_inputs ap xs)))) ;;; Err OutputValueNotCovered else Ok tt)
    by (destruct (_ <? _); [erase; reflexivity|reflexivity]).
  apply bind_ext. intros u4. erase. apply bind_ext. intros b3. erase. rewrite selection_erase. apply bind_ext. intros sel. erase. apply bind_ext. intros b4. erase. apply bind_ext. intros ca. erase.
  rewrite change_erase. apply bind_ext. intros [ys' chg]. erase. destruct (_ =? _); erase.
  - destruct (negb _); erase; auto. apply bind_ext. intros b5. erase. rewrite spend_erase. apply bind_ext. intros u5. erase. apply bind_ext. intros t. erase. reflexivity.
  - destruct (satoshi_to_bitcoin (PInt (Zsum (map to_satoshi_amount ys')))) as [b6|e6]; cbn [bind]; auto. erase.
    destruct (satoshi_to_bitcoin (PInt (Zsum (map to_satoshi_amount ys') + f))) as [b7|e7]; cbn [bind]; auto. erase.
    destruct (negb _); erase; auto. apply bind_ext. intros b5. erase. rewrite spend_erase. apply bind_ext. intros u5. erase. apply bind_ext. intros t. erase. reflexivity.
Qed.

Lemma fees_erase : forall f r, result (says_fees f r) = validate_fees f r.
Proof. intros f r. unfold says_fees, validate_fees. destruct (_ || _); erase; reflexivity. Qed.
Lemma approaches_erase : forall v, result (says_approaches repr v) = validate_approaches v.
Proof.
  intros v. unfold says_approaches, validate_approaches. destruct (negb _); [reflexivity|]. erase. destruct (validate_list v) as [u|e]; cbn [bind]; auto. destruct (as_list v) as [l|e]; cbn [bind]; auto.
  destruct (existsb _ _); [reflexivity|]. destruct (_ && _); [reflexivity|]. cbn [says_conflicts].
  destruct (_ && _); [reflexivity|]. destruct (_ && _); [reflexivity|]. destruct (_ && _); reflexivity.
Qed.
Lemma validation_err : forall a e, result (validation_says repr a) = Err e -> fst (prepare a) = Err e.
Proof.
  intros a e H. unfold validation_says in H. unfold prepare. destruct (ns_inputs a) as [vin|]; [|injection H as <-; reflexivity]. destruct (ns_design a) as [vd|]; [|injection H as <-; reflexivity].
  destruct vd as [| | | | | |d]; try (injection H as <-; reflexivity). destruct (adjust_design d) as [o1 d1]. destruct o1 as [[]|e1]; [|injection H as <-; reflexivity]. rewrite bind_ok in H.
  destruct vin as [| | | | |l|]; try (injection H as <-; reflexivity). destruct (for_each adjust_input l) as [o2 l2]. rewrite result_bind, result_quiet in H.
  destruct (o2 ;;; validate_inputs (PList l2)) as [[]|e2]; [|injection H as <-; reflexivity]. cbn [bind] in H. unfold validate_design.
  rewrite result_bind, result_quiet in H. destruct (validate_design_head d1) as [lo|e3]; [|injection H as <-; reflexivity]. cbn [bind] in H.
  rewrite result_bind, result_quiet in H. destruct (for_each validate_output lo) as [o3 lo3]. cbn [fst] in H. destruct o3 as [[]|e4]; [|injection H as <-; reflexivity]. cbn [bind] in H.
  rewrite result_bind, fees_erase in H. destruct (validate_fees _ _) as [[]|e5]; [|injection H as <-; reflexivity]. cbn [bind] in *.
  rewrite result_bind, approaches_erase in H. destruct (validate_approaches _) as [[]|e6]; [|injection H as <-; reflexivity]. cbn [bind] in *.
  rewrite result_bind, result_quiet in H. destruct (validate_options a) as [[]|e7]; [|injection H as <-; reflexivity]. discriminate.
Qed.
Lemma says_erase : forall a, result (create_transaction_says repr a) = fst (create_transaction a).
Proof.
  intros a. unfold create_transaction_says, create_transaction. rewrite result_bind. destruct (result (validation_says repr a)) as [u|e] eqn:V; cbn [bind].
  - erase. destruct (prepare a) as [[p|e] a']; cbn [fst bind]; auto. apply build_erase.
  - apply validation_err in V. destruct (prepare a) as [[p|e'] a']; cbn [fst] in *; congruence.
Qed.
End WithEnv.
