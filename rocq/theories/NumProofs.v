(** int() and float() of text, against NumSpec. *)
From Coq Require Import String Floats.SpecFloat Reals Lra Lia.
From Flocq Require Import Core BinarySingleNaN.
From Verif Require Import PyBase Env PyNum Validate Basic Spec EnvOk FloatSpec NumSpec.
From Verif Require Import NumLemmas HexProofs FloatProofs AmountProofs RateProofs.
Open Scope Z_scope.

(** ** Rounding. *)
Lemma rounds_iff : forall x neg f, rounds x neg f <-> rounds_to x neg f.
Proof.
  intros x neg f. unfold rounds, rounds_to. change (nearest x) with (rnd x). change (bpow radix2 1024) with big. unfold double. change 53 with prec. change 1024 with emax. rewrite value_s2r.
  split; intros [V H]; (split; [exact V|]).
  - destruct H as [(L & F & Q & S)|(L & ->)]; [rewrite Rlt_bool_true by auto; auto|rewrite Rlt_bool_false by auto; auto].
  - destruct (Rlt_bool_spec (Rabs (rnd x)) big) as [L|L]; [left; destruct H as (? & ? & ?); auto|right; auto].
Qed.
Lemma double_inj : forall f g, double f -> double g -> is_finite_SF f = true -> is_finite_SF g = true -> float_value f = float_value g -> sign_SF f = sign_SF g -> f = g.
Proof.
  intros f g Vf Vg Ff Fg V S. rewrite !value_s2r in V. unfold s2r in V. unfold double in *.
  rewrite <- (B2SF_SF2B prec emax f Vf), <- (B2SF_SF2B prec emax g Vg). f_equal. apply B2R_Bsign_inj.
  - destruct f; auto.
  - destruct g; auto.
  - rewrite !B2R_SF2B. exact V.
  - destruct f, g; auto.
Qed.
Lemma rounds_fun : forall x neg f g, rounds x neg f -> rounds x neg g -> f = g.
Proof.
  intros x neg f g [Vf Hf] [Vg Hg]. destruct Hf as [(L & F & Q & S)|(L & ->)], Hg as [(L' & F' & Q' & S')|(L' & ->)]; auto; try lra. apply double_inj; auto; congruence.
Qed.
Lemma rounds_zero : forall neg, rounds 0 neg (S754_zero neg).
Proof.
  intros neg. split; [reflexivity|]. left. unfold nearest. rewrite round_0 by (apply valid_rnd_N). rewrite Rabs_R0. split; [apply bpow_gt_0|]. auto.
Qed.
Lemma powerRZ_10 : forall k, powerRZ 10 k = if 0 <=? k then IZR (10 ^ k) else (/ IZR (10 ^ (- k)))%R.
Proof.
  intros k. assert (N : forall n, powerRZ 10 (Z.of_nat n) = IZR (10 ^ Z.of_nat n)).
  { intros n. rewrite <- pow_powerRZ. rewrite <- pow_IZR. reflexivity. }
  destruct (Z.leb_spec 0 k) as [L|L].
  - rewrite <- (Z2Nat.id k) by auto. apply N.
  - rewrite <- (Z2Nat.id (- k)) by lia. rewrite <- N. rewrite Z2Nat.id by lia. rewrite <- powerRZ_neg'. f_equal. lia.
Qed.
Lemma signed_cond : forall neg n, signed neg n = cond_Zopp neg n.
Proof. intros [|] n; reflexivity. Qed.
Lemma float_of_dec_rounds : forall neg m k, 0 <= m -> rounds (IZR (signed neg m) * powerRZ 10 k) neg (float_of_dec neg m k).
Proof.
  intros neg m k Hm. destruct m as [|p|p]; [|clear Hm|lia].
  - replace (signed neg 0) with 0 by (destruct neg; reflexivity). rewrite Rmult_0_l. apply rounds_zero.
  - apply rounds_iff. rewrite powerRZ_10, signed_cond. unfold float_of_dec. destruct (Z.leb_spec 0 k) as [L|L].
    + rewrite <- mult_IZR. assert (P : 0 < Z.pos p * 10 ^ k) by (apply Z.mul_pos_pos; [lia|apply Z.pow_pos_nonneg; lia]).
      replace (cond_Zopp neg (Z.pos p) * 10 ^ k) with (cond_Zopp neg (Z.pos p * 10 ^ k)) by (destruct neg; cbn [cond_Zopp]; [rewrite Z.mul_opp_l|]; reflexivity).
      destruct (Z.pos p * 10 ^ k) as [|n|n]; try lia. generalize (binary_round_ok neg n 0). rewrite F2R0. auto.
    + assert (P : 0 < 10 ^ (- k)) by (apply Z.pow_pos_nonneg; lia). destruct (10 ^ (- k)) as [|d|d]; try lia.
      generalize (binary_div_ok neg p 0 false d 0). rewrite !F2R0. cbn [cond_Zopp]. rewrite Bool.xorb_false_r. auto.
Qed.
Lemma float_int_iff : forall n f, py_float_int n = Ok f <-> rounds (IZR n) (n <? 0) f /\ is_finite_SF f = true.
Proof.
  intros n f. assert (R : rounds (IZR n) (n <? 0) (SpecFloat.binary_normalize prec emax n 0 false)).
  { destruct (Z.eq_dec n 0) as [->|N]; [apply rounds_zero|apply rounds_iff; apply binary_normalize_ok; auto]. }
  unfold py_float_int. cbv zeta. set (g := SpecFloat.binary_normalize prec emax n 0 false) in *. assert (NN : g <> S754_nan).
  { intros Q. rewrite Q in R. destruct R as [_ [(_ & C & _)|(_ & C)]]; discriminate. }
  split.
  - intros H. assert (g = f /\ is_finite_SF g = true) as [-> F] by (destruct g; split; congruence || reflexivity || auto). auto.
  - intros [R' F]. rewrite (rounds_fun _ _ _ _ R' R) in *. destruct g; try discriminate; reflexivity.
Qed.
Lemma rounds_int : forall z r, 0 <= z -> (rounds (IZR z) false r <-> r = float_of_dec false z 0).
Proof.
  intros z r Z0. pose proof (float_of_dec_rounds false z 0 Z0) as R. cbn [signed powerRZ] in R. rewrite Rmult_1_r in R.
  split; [intros H; eapply rounds_fun; eauto|intros ->; auto].
Qed.
Lemma rounds_decimal : forall ip fp r, 0 <= val 10 (ip ++ fp) -> (rounds (decimal ip fp) false r <-> r = float_of_dec false (val 10 (ip ++ fp)) (- Z.of_nat (length fp))).
Proof.
  intros ip fp r V. pose proof (float_of_dec_rounds false _ (- Z.of_nat (length fp)) V) as R. cbn [signed] in R.
  assert (Q : (IZR (val 10 (ip ++ fp)) * powerRZ 10 (- Z.of_nat (length fp)))%R = decimal ip fp).
  { unfold decimal, Rdiv. f_equal. rewrite powerRZ_10. rewrite Z.opp_involutive. destruct (Z.leb_spec 0 (- Z.of_nat (length fp))); [|reflexivity].
    replace (Z.of_nat (length fp)) with 0 by lia. cbn. lra. }
  rewrite Q in R. split; [intros H; eapply rounds_fun; eauto|intros ->; auto].
Qed.
Lemma rounds_small : forall n f, 0 <= n <= 2 ^ 53 -> (rounds (IZR n) false f <-> py_float_int n = Ok f).
Proof.
  intros n f N. rewrite float_int_iff. replace (n <? 0) with false by (symmetry; apply Z.ltb_ge; lia).
  destruct (py_float_int_small n) as (g & G & _ & F & _); [lia|]. apply float_int_iff in G as [G _]. replace (n <? 0) with false in G by (symmetry; apply Z.ltb_ge; lia).
  split; [intros R; split; auto; rewrite (rounds_fun _ _ _ _ R G); auto|intros [R _]; auto].
Qed.
Lemma finite_value : forall s m e, float_value (S754_finite s m e) = (IZR (if s then Z.neg m else Z.pos m) * powerRZ 2 e)%R.
Proof. reflexivity. Qed.
Lemma py_trunc_iff : forall f n, py_trunc f = Ok n <-> truncates f n.
Proof.
  intros f n. unfold truncates. destruct f as [b|b| |s m e]; try (split; [discriminate|intros [? _]; discriminate]).
  - cbn [py_trunc is_finite_SF float_value]. rewrite Ztrunc_IZR. split; [intros [= <-]; auto|intros [_ ->]; auto].
  - cbn [py_trunc is_finite_SF]. rewrite value_s2r. unfold s2r. cbn [SF2R]. replace (cond_Zopp s (Z.pos m)) with (if s then Z.neg m else Z.pos m) by (destruct s; auto). set (v := if s then Z.neg m else Z.pos m).
    assert (Q : Ztrunc (F2R (Float radix2 v e)) = if 0 <=? e then v * 2 ^ e else Z.quot v (2 ^ (- e))).
    { unfold F2R. cbn [Fnum Fexp]. destruct (Z.leb_spec 0 e) as [L|L].
      - change (2 ^ e) with (Zpower radix2 e). rewrite <- IZR_Zpower by auto. rewrite <- mult_IZR. apply Ztrunc_IZR.
      - assert (P : 0 < 2 ^ (- e)) by (apply Z.pow_pos_nonneg; lia).
        assert (B : bpow radix2 e = (/ IZR (2 ^ (- e)))%R).
        { change (IZR (2 ^ (- e))) with (IZR (Zpower radix2 (- e))). rewrite IZR_Zpower by lia. rewrite bpow_opp. rewrite Rinv_inv. auto. }
        rewrite B. apply Ztrunc_div. lia. }
    rewrite Q. split; [intros [= <-]; auto|intros [_ ->]; auto].
Qed.
Lemma py_ceil_iff : forall f n, py_ceil f = Ok n <-> ceils f n.
Proof.
  intros f n. unfold ceils. split.
  - intros H. pose proof (ceil_ok f n H) as [F C]. split; auto. rewrite value_s2r. symmetry. apply Zceil_imp. rewrite minus_IZR. exact C.
  - intros [F ->]. destruct f as [b|b| |s m e]; try discriminate.
    + cbn [py_ceil float_value]. rewrite Zceil_IZR. reflexivity.
    + destruct (py_ceil (S754_finite s m e)) as [z|] eqn:H; [|discriminate]. pose proof (ceil_ok _ _ H) as [_ C]. f_equal. symmetry. rewrite value_s2r. apply Zceil_imp. rewrite minus_IZR. exact C.
Qed.

Section WithEnv.
Context {E : Env}.
Hypothesis HU : UniOk E.

(** Characters. *)
Lemma to_ascii_lt : forall c, to_ascii c < 128.
Proof.
  intros c. unfold to_ascii. destruct (Z.ltb_spec c 128); auto. destruct (uni_isspace c); [lia|]. destruct (uni_decimal c) eqn:D; [|lia].
  destruct HU as [U _]. apply U in D. lia.
Qed.
Lemma dec_ascii : forall c d, dec_char (to_ascii c) d <-> dec_char c d.
Proof.
  intros c d. pose proof (to_ascii_lt c) as L. split.
  - intros [[D Q]|[? _]]; [|lia]. unfold to_ascii in Q. destruct (Z.ltb_spec c 128); [left; lia|]. right. split; auto. destruct (uni_isspace c); [lia|].
    destruct (uni_decimal c) as [e|]; [|lia]. f_equal. lia.
  - intros H. destruct (dec_char_digit HU c d H) as (A & _ & -> & _). left. unfold dchar. lia.
Qed.
Lemma space_ascii : forall c, space (to_ascii c) <-> space c.
Proof.
  intros c. unfold space. pose proof (to_ascii_lt c) as L. unfold to_ascii in *. destruct (Z.ltb_spec c 128); [intuition lia|]. destruct (uni_isspace c) eqn:S.
  - split; intros; [right; right; auto|lia].
  - destruct (uni_decimal c) as [d|] eqn:D; [destruct HU as [U _]; apply U in D|]; split; intros [?|[?|[? ?]]]; try lia; discriminate.
Qed.
(** An ASCII character that is neither a space, a digit nor '?' comes from itself. *)
Lemma other_ascii : forall c k, to_ascii c = k -> (k < 48 \/ 57 < k) -> k <> 32 -> k <> 63 -> c = k.
Proof.
  intros c k <- R N1 N2. unfold to_ascii in *. destruct (Z.ltb_spec c 128); auto. destruct (uni_isspace c); [congruence|]. destruct (uni_decimal c) eqn:D; [|congruence].
  destruct HU as [U _]. apply U in D. lia.
Qed.
Lemma other_ascii_id : forall k, k < 128 -> to_ascii k = k.
Proof. intros k H. unfold to_ascii. destruct (Z.ltb_spec k 128); [auto|lia]. Qed.

(** The grammar does not see the difference. *)
Lemma digits_lift : forall s ds, digits_text (map to_ascii s) ds <-> digits_text s ds.
Proof.
  split.
  - intros H. remember (map to_ascii s) as t eqn:T. revert s T. induction H as [c d D|c d t ds D H IH|c d t ds D H IH]; intros s T.
    + destruct s as [|c' [|? ?]]; try discriminate. injection T as ->. constructor. apply dec_ascii; auto.
    + destruct s as [|c' s]; try discriminate. injection T as -> ->. apply next_digit; [apply dec_ascii; auto|apply IH; auto].
    + destruct s as [|c' [|u s]]; try discriminate. injection T as -> U ->. symmetry in U. apply other_ascii in U; try lia. subst u. apply underscore; [apply dec_ascii; auto|apply IH; auto].
  - induction 1; cbn [map]; [constructor|apply next_digit|rewrite (other_ascii_id 95) by lia; apply underscore]; auto; apply dec_ascii; auto.
Qed.
Lemma spaces_lift : forall s, Forall space (map to_ascii s) <-> Forall space s.
Proof. intros s. rewrite Forall_map. split; apply Forall_impl; intros; apply space_ascii; auto. Qed.
Lemma sign_lift : forall s n, sign_text (map to_ascii s) n <-> sign_text s n.
Proof.
  intros s n. split.
  - intros H. inversion H as [Q|Q|Q]; destruct s as [|c [|? ?]]; try discriminate; try constructor; injection Q as Q; symmetry in Q; apply other_ascii in Q; try lia; subst; constructor.
  - intros []; cbn [map]; rewrite ?(other_ascii_id 43), ?(other_ascii_id 45) by lia; constructor.
Qed.
Ltac split_map H := let a := fresh "s" in let b := fresh "s" in apply map_eq_app in H as (a & b & -> & <- & H).
Lemma int_lift : forall s n, int_text (map to_ascii s) n <-> int_text s n.
Proof.
  intros s n. split.
  - intros (w & sg & neg & b & ds & w' & Q & W & W' & S & D & N). split_map Q. split_map Q. split_map Q. subst w'. rewrite spaces_lift in W, W'. rewrite sign_lift in S. rewrite digits_lift in D.
    eexists _, _, neg, _, ds, _. split; [reflexivity|]. auto.
  - intros (w & sg & neg & b & ds & w' & -> & W & W' & S & D & N). rewrite !map_app. eexists _, _, neg, _, ds, _. split; [reflexivity|]. rewrite !spaces_lift, sign_lift, digits_lift. auto.
Qed.
Lemma maybe_lift : forall s ds, maybe_digits (map to_ascii s) ds <-> maybe_digits s ds.
Proof.
  intros s ds. unfold maybe_digits. rewrite digits_lift. split; (intros [[Q D]|D]; [left|right; auto]); [split; auto; destruct s; [auto|discriminate]|rewrite Q; auto].
Qed.
Lemma point_lift : forall s ip fp, point_text (map to_ascii s) ip fp <-> point_text s ip fp.
Proof.
  intros s ip fp. unfold point_text. rewrite digits_lift. split; (intros [D|(a & b & Q & A & B & N)]; [left; auto|right]).
  - apply map_eq_app in Q as (a' & r & -> & <- & Q). destruct r as [|c b']; [discriminate|]. injection Q as Q <-. apply other_ascii in Q; try lia. subst c.
    exists a', b'. rewrite maybe_lift in A, B. auto.
  - subst s. exists (map to_ascii a), (map to_ascii b). rewrite !map_app. cbn [map]. rewrite (other_ascii_id 46) by lia. rewrite !maybe_lift. auto.
Qed.
Lemma exponent_lift : forall s x, exponent_text (map to_ascii s) x <-> exponent_text s x.
Proof.
  intros s x. unfold exponent_text. split.
  - intros [[Q D]|(c & sg & neg & b & ds & Q & C & S & D & N)]; [left; destruct s; [auto|discriminate]|right].
    destruct s as [|c' s]; [discriminate|]. injection Q as C' Q. apply other_ascii in C'; try lia. subst c'. split_map Q. subst b. rewrite sign_lift in S. rewrite digits_lift in D.
    eexists c, _, neg, _, ds. split; [reflexivity|]. auto.
  - intros [[Q D]|(c & sg & neg & b & ds & Q & C & S & D & N)]; subst s; [left; auto|right]. exists c, (map to_ascii sg), neg, (map to_ascii b), ds. cbn [map]. rewrite map_app, other_ascii_id by lia.
    rewrite sign_lift, digits_lift. auto.
Qed.
Lemma word_lift : forall s w, Forall (fun l => 97 <= l <= 122) (lit w) -> (word (map to_ascii s) w <-> word s w).
Proof.
  intros s w. unfold word. generalize (lit w) as l. clear w. induction s as [|c s IH]; intros l F; split; intros H; inversion H as [|? k ? l' C H' Q1 Q2]; subst; try constructor.
  - apply Forall_cons_iff in F as [F1 F2]. destruct C as [C|C]; apply other_ascii in C; try lia; auto.
  - apply Forall_cons_iff in F as [F1 F2]. apply IH; auto.
  - apply Forall_cons_iff in F as [F1 F2]. rewrite other_ascii_id by lia. auto.
  - apply Forall_cons_iff in F as [F1 F2]. apply IH; auto.
Qed.
Lemma inf_letters : Forall (fun l => 97 <= l <= 122) (lit "inf"). Proof. repeat constructor; cbn; lia. Qed.
Lemma infinity_letters : Forall (fun l => 97 <= l <= 122) (lit "infinity"). Proof. repeat constructor; cbn; lia. Qed.
Lemma nan_letters : Forall (fun l => 97 <= l <= 122) (lit "nan"). Proof. repeat constructor; cbn; lia. Qed.
Lemma float_lift : forall s f, float_text (map to_ascii s) f <-> float_text s f.
Proof.
  intros s f. split.
  - intros (w & sg & neg & b & w' & Q & W & W' & S & R). split_map Q. split_map Q. split_map Q. subst w'. rewrite spaces_lift in W, W'. rewrite sign_lift in S.
    eexists _, _, neg, _, _. split; [reflexivity|]. split; [auto|]. split; [auto|]. split; [auto|].
    destruct R as [[R F]|[[R F]|(p & e & ip & fp & x & Q & P & X & F)]].
    + left. split; auto. rewrite !word_lift in R by (apply inf_letters || apply infinity_letters). auto.
    + right. left. split; auto. rewrite !word_lift in R by apply nan_letters. auto.
    + right. right. split_map Q. subst e. rewrite point_lift in P. rewrite exponent_lift in X. eexists _, _, ip, fp, x. split; [reflexivity|]. auto.
  - intros (w & sg & neg & b & w' & -> & W & W' & S & R). rewrite !map_app. eexists _, _, neg, _, _. split; [reflexivity|]. rewrite !spaces_lift, sign_lift. split; [auto|]. split; [auto|]. split; [auto|].
    rewrite !word_lift by (apply inf_letters || apply infinity_letters || apply nan_letters).
    destruct R as [R|[R|(p & e & ip & fp & x & -> & P & X & F)]]; [auto|auto|right; right]. rewrite map_app. eexists _, _, ip, fp, x. split; [reflexivity|]. rewrite point_lift, exponent_lift. auto.
Qed.
(** ** ASCII text. *)
Definition ascii (t : pystr) : Prop := Forall (fun c => c < 128) t.
Lemma ascii_map : forall s, ascii (map to_ascii s).
Proof. intros s. apply Forall_map. apply Forall_forall. intros. apply to_ascii_lt. Qed.
Lemma dec_lt : forall c d, c < 128 -> (dec_char c d <-> 0 <= d <= 9 /\ c = 48 + d).
Proof. intros c d L. unfold dec_char. intuition lia. Qed.
Lemma space_lt : forall c, c < 128 -> (space c <-> ascii_space c = true).
Proof. intros c L. unfold space, ascii_space. rewrite orb_true_iff, andb_true_iff, Z.eqb_eq, !Z.leb_le. intuition lia. Qed.
Lemma space_low : forall c, space c -> c < 128 -> c <= 32.
Proof. intros c [?|[?|?]] ?; lia. Qed.

(** The rest of the text does not start with a space. *)
Definition starts_plain (t : pystr) : Prop := match t with [] => True | c :: _ => ~ space c end.
Lemma skip_fwd : forall w t, ascii (w ++ t) -> Forall space w -> starts_plain t -> skip_spaces (w ++ t) = t.
Proof.
  intros w t A F P. induction F as [|c w C F IH]; cbn [app skip_spaces] in *.
  - destruct t as [|c t]; auto. cbn [skip_spaces]. apply Forall_cons_iff in A as [A _]. destruct (ascii_space c) eqn:S; auto. apply space_lt in S; auto. contradiction.
  - apply Forall_cons_iff in A as [A1 A2]. rewrite (proj1 (space_lt c A1) C). apply IH; auto.
Qed.
Lemma skip_inv : forall t, ascii t -> exists w, t = w ++ skip_spaces t /\ Forall space w /\ starts_plain (skip_spaces t).
Proof.
  induction 1 as [|c t C F (w & Q & W & P)]; [exists []; repeat constructor|]. cbn [skip_spaces]. destruct (ascii_space c) eqn:S.
  - exists (c :: w). split; [cbn [app]; congruence|]. split; auto. constructor; auto. apply space_lt; auto.
  - exists []. split; [reflexivity|]. split; [constructor|]. cbn [starts_plain]. intros X. apply space_lt in X; auto. congruence.
Qed.
Lemma all_spaces_iff : forall t, ascii t -> (all_spaces t = true <-> Forall space t).
Proof.
  intros t A. unfold all_spaces. destruct (skip_inv t A) as (w & Q & W & P). split.
  - destruct (skip_spaces t); [|discriminate]. rewrite app_nil_r in Q. congruence.
  - intros F. rewrite <- (app_nil_r t) at 1. rewrite <- (app_nil_r t) in A. rewrite skip_fwd; auto. exact I.
Qed.

Lemma digit10 : forall c d, digit_in 10 c = Some d <-> 0 <= d <= 9 /\ c = 48 + d.
Proof.
  intros c d. unfold digit_in, digit_val.
  destruct (Z.leb_spec 48 c), (Z.leb_spec c 57), (Z.leb_spec 97 c), (Z.leb_spec c 122), (Z.leb_spec 65 c), (Z.leb_spec c 90); cbn [andb]; try lia;
    repeat match goal with |- context [?x <? 10] => destruct (Z.ltb_spec x 10) end; try lia;
    (split; [first [intros [= <-]; lia|discriminate]|first [intros; f_equal; lia|lia]]).
Qed.
Definition stops (t : pystr) : Prop := match t with [] => True | c :: _ => digit_in 10 c = None /\ c <> 95 end.

Lemma val_grow : forall acc d ds, (acc * 10 + d) * 10 ^ Z.of_nat (length ds) + val 10 ds = acc * 10 ^ Z.of_nat (length (d :: ds)) + val 10 (d :: ds).
Proof. intros. rewrite val_cons. cbn [length]. rewrite Nat2Z.inj_succ, Z.pow_succ_r by lia. ring. Qed.

Lemma int_digits_fwd : forall b ds, digits_text b ds -> ascii b -> forall acc prev rest, stops rest ->
  int_digits 10 acc prev (b ++ rest) = Some (acc * 10 ^ Z.of_nat (length ds) + val 10 ds, rest).
Proof.
  induction 1 as [c d D|c d s ds D H IH|c d s ds D H IH]; intros A acc prev rest S.
  - apply Forall_cons_iff in A as [A _]. rewrite dec_lt in D by auto. apply digit10 in D. cbn [app int_digits]. rewrite D. destruct rest as [|x r].
    + cbn [int_digits]. rewrite <- val_grow. rewrite val_nil. change (10 ^ Z.of_nat (length (@nil Z))) with 1. replace ((acc * 10 + d) * 1 + 0) with (acc * 10 + d) by ring. reflexivity.
    + destruct S as [S1 S2]. cbn [int_digits]. rewrite S1. apply Z.eqb_neq in S2. rewrite S2. rewrite <- val_grow. rewrite val_nil. change (10 ^ Z.of_nat (length (@nil Z))) with 1. replace ((acc * 10 + d) * 1 + 0) with (acc * 10 + d) by ring. reflexivity.
  - apply Forall_cons_iff in A as [A A']. rewrite dec_lt in D by auto. apply digit10 in D. cbn [app int_digits]. rewrite D. rewrite IH by auto. rewrite val_grow. reflexivity.
  - apply Forall_cons_iff in A as [A A']. apply Forall_cons_iff in A' as [_ A']. rewrite dec_lt in D by auto. apply digit10 in D. cbn [app int_digits]. rewrite D.
    change (digit_in 10 95) with (@None Z). cbn [Z.eqb Pos.eqb]. rewrite IH by auto. rewrite val_grow. reflexivity.
Qed.
Lemma int_digits_inv : forall t acc prev v rest, ascii t -> int_digits 10 acc prev t = Some (v, rest) ->
  exists b ds, t = b ++ rest /\ v = acc * 10 ^ Z.of_nat (length ds) + val 10 ds /\
    ((prev = true /\ b = [] /\ ds = []) \/ digits_text b ds \/ (prev = true /\ exists b', b = 95 :: b' /\ digits_text b' ds)).
Proof.
  induction t as [|c t IH]; intros acc prev v rest A H; cbn [int_digits] in H.
  - destruct prev; [|discriminate]. injection H as <- <-. exists [], []. split; [reflexivity|]. split; [rewrite val_nil; change (10 ^ Z.of_nat (length (@nil Z))) with 1; ring|]. left. auto.
  - apply Forall_cons_iff in A as [A A']. destruct (digit_in 10 c) as [d|] eqn:D.
    + apply IH in H as (b & ds & -> & -> & C); auto. apply digit10 in D. exists (c :: b), (d :: ds). split; [reflexivity|]. split; [apply val_grow|]. right. left.
      assert (DC : dec_char c d) by (apply dec_lt; auto). destruct C as [(_ & -> & ->)|[C|(_ & b' & -> & C)]]; [apply one_digit|apply next_digit|apply underscore]; auto.
    + destruct (Z.eqb_spec c 95) as [->|N].
      * destruct prev; [|discriminate]. apply IH in H as (b & ds & -> & -> & C); auto. exists (95 :: b), ds. split; [reflexivity|]. split; [reflexivity|]. right. right. split; auto. exists b. split; auto.
        destruct C as [(X & _)|[C|(X & _)]]; auto; discriminate.
      * destruct prev; [|discriminate]. injection H as <- <-. exists [], []. split; [reflexivity|]. split; [rewrite val_nil; change (10 ^ Z.of_nat (length (@nil Z))) with 1; ring|]. left. auto.
Qed.

Lemma digits_head : forall b ds, digits_text b ds -> exists c d r, b = c :: r /\ dec_char c d.
Proof. intros b ds []; eauto 6. Qed.
Lemma spaces_stop : forall w, ascii w -> Forall space w -> stops w.
Proof.
  intros w A F. destruct F as [|c w C F]; [exact I|]. apply Forall_cons_iff in A as [A _]. pose proof (space_low c C A) as L. split; [|lia].
  destruct (digit_in 10 c) eqn:D; auto. apply digit10 in D. lia.
Qed.

Lemma int_text_iff : forall s n, py_int_str 10 s = Ok n <-> int_text s n.
Proof.
  intros s n. rewrite <- int_lift. unfold py_int_str. pose proof (ascii_map s) as A. set (t := map to_ascii s) in *. clearbody t. clear s. change (skip_prefix 10) with (fun s : pystr => s). cbv beta. split.
  - intros H. destruct (skip_inv t A) as (w & Q & W & P). set (s1 := skip_spaces t) in *. assert (A1 : ascii s1) by (rewrite Q in A; apply Forall_app in A; apply A).
    assert (SG : exists sg s2, s1 = sg ++ s2 /\ sign_text sg (fst (match s1 with c :: r => if c =? 45 then (true, r) else if c =? 43 then (false, r) else (false, s1) | [] => (false, s1) end)) /\
                 s2 = snd (match s1 with c :: r => if c =? 45 then (true, r) else if c =? 43 then (false, r) else (false, s1) | [] => (false, s1) end)).
    { destruct s1 as [|c r]; [exists [], []; repeat split; constructor|]. destruct (Z.eqb_spec c 45) as [->|]; [exists [45], r; repeat split; constructor|].
      destruct (Z.eqb_spec c 43) as [->|]; [exists [43], r; repeat split; constructor|]. exists [], (c :: r); repeat split; constructor. }
    destruct (match s1 with c :: r => if c =? 45 then (true, r) else if c =? 43 then (false, r) else (false, s1) | [] => (false, s1) end) as [neg s2]. cbn [fst snd] in SG.
    destruct SG as (sg & x & Q1 & S & ->). destruct (int_digits 10 0 false s2) as [[v rest]|] eqn:D; [|discriminate]. destruct (all_spaces rest) eqn:R; [|discriminate]. injection H as <-.
    rewrite Q1 in A1. apply Forall_app in A1 as [_ A2]. apply int_digits_inv in D as (b & ds & -> & -> & C); auto. apply Forall_app in A2 as [_ A3]. apply all_spaces_iff in R; auto.
    destruct C as [(X & _)|[C|(X & _)]]; try discriminate. exists w, sg, neg, b, ds, rest. rewrite Q, Q1. repeat (split; [auto|]). reflexivity.
  - intros (w & sg & neg & b & ds & w' & -> & W & W' & S & D & ->). destruct (digits_head _ _ D) as (c & d & r & B & DC).
    pose proof A as A0. apply Forall_app in A0 as [_ A1]. apply Forall_app in A1 as [Asg A2]. apply Forall_app in A2 as [Ab Aw].
    assert (Ac : c < 128) by (rewrite B in Ab; apply Forall_cons_iff in Ab; apply Ab). rewrite dec_lt in DC by auto. destruct DC as [D1 D2].
    rewrite skip_fwd; auto.
    + pose proof (int_digits_fwd _ _ D Ab 0 false w' (spaces_stop _ Aw W')) as I1. apply (all_spaces_iff _ Aw) in W'.
      destruct S; cbn [app]; [|change (43 =? 45) with false; change (43 =? 43) with true|change (45 =? 45) with true]; cbv iota.
      * rewrite B in *. cbn [app]. replace (c =? 45) with false by (symmetry; apply Z.eqb_neq; lia). replace (c =? 43) with false by (symmetry; apply Z.eqb_neq; lia). cbn [app] in I1. rewrite I1, W'. reflexivity.
      * rewrite I1, W'. reflexivity.
      * rewrite I1, W'. reflexivity.
    + destruct S; cbn [app starts_plain]; [rewrite B; cbn [app]|..]; intros X; apply space_low in X; lia.
Qed.
Lemma int_text_dec : forall s, (exists n, int_text s n) \/ py_int_str 10 s = Err ValueError.
Proof.
  intros s. destruct (py_int_str 10 s) as [n|e] eqn:H; [left; exists n; apply int_text_iff; auto|right]. unfold py_int_str in H.
  destruct (match skip_spaces (map to_ascii s) with c :: r => if c =? 45 then (true, r) else if c =? 43 then (false, r) else (false, skip_spaces (map to_ascii s)) | [] => (false, skip_spaces (map to_ascii s)) end) as [neg s2].
  destruct (int_digits 10 0 false (skip_prefix 10 s2)) as [[v rest]|]; [|congruence]. destruct (all_spaces rest); congruence.
Qed.

(** ** Floats. *)
Lemma is_dig_iff : forall c, is_dig c = true <-> exists d, 0 <= d <= 9 /\ c = 48 + d.
Proof. intros c. unfold is_dig. rewrite andb_true_iff, !Z.leb_le. split; [intros; exists (c - 48); lia|intros (d & ? & ->); lia]. Qed.
Definition nodig (t : pystr) : Prop := match t with [] => True | c :: _ => is_dig c = false end.
Definition no_under (t : pystr) : Prop := match t with [] => True | c :: _ => c <> 95 end.

Lemma take_fwd : forall ds rest, digits_in 10 ds -> nodig rest -> forall acc cnt,
  take_digits acc cnt (text10 ds ++ rest) = (acc * 10 ^ Z.of_nat (length ds) + val 10 ds, cnt + Z.of_nat (length ds), rest).
Proof.
  intros ds rest D N. induction D as [|d ds Hd D IH]; intros acc cnt; cbn [text10 map app].
  - rewrite val_nil. change (10 ^ Z.of_nat (length (@nil Z))) with 1. change (Z.of_nat (length (@nil Z))) with 0.
    replace (acc * 1 + 0) with acc by ring. replace (cnt + 0) with cnt by ring. destruct rest as [|c r]; [reflexivity|]. cbn [take_digits]. rewrite N. reflexivity.
  - cbn [take_digits]. replace (is_dig (48 + d)) with true by (symmetry; apply is_dig_iff; exists d; lia). replace (48 + d - 48) with d by ring. rewrite IH. rewrite val_grow.
    replace (cnt + 1 + Z.of_nat (length ds)) with (cnt + Z.of_nat (length (d :: ds))) by (cbn [length]; lia). reflexivity.
Qed.
Lemma take_split : forall t, exists ds rest, t = text10 ds ++ rest /\ digits_in 10 ds /\ nodig rest.
Proof.
  induction t as [|c t (ds & rest & -> & D & N)]; [exists [], []; repeat split; constructor|]. destruct (is_dig c) eqn:C.
  - apply is_dig_iff in C as (d & Hd & ->). exists (d :: ds), rest. split; [reflexivity|]. split; auto. constructor; auto. lia.
  - exists [], (c :: text10 ds ++ rest). split; [reflexivity|]. split; [constructor|]. exact C.
Qed.

(** Dropping underscores. *)
Lemma drop_prev : forall t, no_under t -> forall p q, drop_underscores p t = drop_underscores q t.
Proof. intros [|c t] N p q; [reflexivity|]. cbn [drop_underscores]. apply Z.eqb_neq in N. rewrite N. reflexivity. Qed.
Lemma drop_other : forall c t p, c <> 95 -> is_dig c = false -> drop_underscores p (c :: t) = match drop_underscores false t with Some u => Some (c :: u) | None => None end.
Proof. intros c t p N D. cbn [drop_underscores]. apply Z.eqb_neq in N. rewrite N, D. reflexivity. Qed.
Lemma digits_no_under : forall b ds q, digits_text b ds -> ascii b -> no_under (b ++ q) /\ exists c r, b ++ q = c :: r /\ is_dig c = true.
Proof.
  intros b ds q D A. destruct (digits_head _ _ D) as (c & d & r & -> & DC). apply Forall_cons_iff in A as [A _]. rewrite dec_lt in DC by auto. cbn [app]. split; [cbn; lia|].
  exists c, (r ++ q). split; auto. apply is_dig_iff. eauto.
Qed.
Lemma drop_fwd : forall b ds, digits_text b ds -> ascii b -> forall p q, no_under q ->
  drop_underscores p (b ++ q) = match drop_underscores true q with Some u => Some (text10 ds ++ u) | None => None end.
Proof.
  induction 1 as [c d D|c d s ds D H IH|c d s ds D H IH]; intros A p q N; apply Forall_cons_iff in A as [A A']; rewrite dec_lt in D by auto; destruct D as [D ->];
    (assert (DG : is_dig (48 + d) = true) by (apply is_dig_iff; eauto)); (assert (N95 : (48 + d =? 95) = false) by (apply Z.eqb_neq; lia)); cbn [app].
  - cbn [drop_underscores]. rewrite N95, DG. reflexivity.
  - cbn [drop_underscores]. rewrite N95, DG. rewrite IH by auto. destruct (drop_underscores true q); reflexivity.
  - apply Forall_cons_iff in A' as [_ A']. destruct (digits_no_under _ _ q H A') as (_ & c & r & Q & C).
    assert (X : drop_underscores true (95 :: s ++ q) = drop_underscores false (s ++ q)). { cbn [drop_underscores]. change (95 =? 95) with true. cbv iota. rewrite Q, C. reflexivity. }
    remember (95 :: s ++ q) as z. cbn [drop_underscores]. rewrite N95, DG, X. rewrite IH by auto. destruct (drop_underscores true q); reflexivity.
Qed.
Lemma drop_nil : forall t p, drop_underscores p t = Some [] -> t = [].
Proof.
  intros [|c t] p H; auto. cbn [drop_underscores] in H. destruct (c =? 95).
  - destruct t as [|d t]; [discriminate|]. destruct (p && is_dig d) eqn:B; [|discriminate]. apply andb_prop in B as [_ B]. cbn [drop_underscores] in H.
    destruct (d =? 95) eqn:D; [apply Z.eqb_eq in D; subst d; discriminate|]. destruct (drop_underscores (is_dig d) t); discriminate.
  - destruct (drop_underscores (is_dig c) t); discriminate.
Qed.
Lemma drop_cons_inv : forall t p c u, drop_underscores p t = Some (c :: u) ->
  exists t', c <> 95 /\ (t = c :: t' \/ (p = true /\ is_dig c = true /\ t = 95 :: c :: t')) /\ drop_underscores (is_dig c) t' = Some u.
Proof.
  intros [|x t] p c u H; [discriminate|]. cbn [drop_underscores] in H. destruct (Z.eqb_spec x 95) as [->|N].
  - destruct t as [|d t]; [discriminate|]. destruct (p && is_dig d) eqn:B; [|discriminate]. apply andb_prop in B as [-> B]. cbn [drop_underscores] in H.
    destruct (Z.eqb_spec d 95) as [->|N]; [discriminate|]. destruct (drop_underscores (is_dig d) t) eqn:R; [|discriminate]. injection H as -> ->. exists t. auto 7.
  - destruct (drop_underscores (is_dig x) t) eqn:R; [|discriminate]. injection H as -> ->. exists t. auto 7.
Qed.
Lemma drop_inv : forall ds t p u, ds <> [] -> digits_in 10 ds -> nodig u -> ascii t -> drop_underscores p t = Some (text10 ds ++ u) ->
  exists b q, (t = b ++ q \/ (p = true /\ t = 95 :: b ++ q)) /\ digits_text b ds /\ no_under q /\ drop_underscores true q = Some u.
Proof.
  induction ds as [|d ds IH]; intros t p u NE D N A H; [congruence|]. apply Forall_cons_iff in D as [Hd D]. cbn [text10 map app] in H. apply drop_cons_inv in H as (t' & _ & T & H).
  assert (DG : is_dig (48 + d) = true) by (apply is_dig_iff; exists d; lia). rewrite DG in H. assert (DC : dec_char (48 + d) d) by (left; lia).
  assert (A' : ascii t') by (destruct T as [->|(_ & _ & ->)]; repeat (apply Forall_cons_iff in A as [_ A]); auto).
  destruct ds as [|e ds].
  - exists [48 + d], t'. split; [cbn [app]; intuition auto|]. split; [constructor; auto|]. cbn [map app] in H. split; auto.
    destruct u as [|c u]; [apply drop_nil in H; subst; exact I|]. apply drop_cons_inv in H as (t'' & N95 & [->|(_ & C & _)] & _); [exact N95|]. cbn [nodig] in N. congruence.
  - apply IH in H as (b & q & T' & B & NU & H); auto; [|discriminate]. destruct T' as [->|(_ & ->)].
    + exists (48 + d :: b), q. cbn [app]. split; [intuition auto|]. split; [apply next_digit; auto|]. auto.
    + exists (48 + d :: 95 :: b), q. cbn [app]. split; [intuition auto|]. split; [apply underscore; auto|]. auto.
Qed.

(** Unsigned float text after the underscores are gone. *)
Definition clean_point (p : pystr) (ip fp : list Z) : Prop :=
  digits_in 10 ip /\ digits_in 10 fp /\ ip ++ fp <> [] /\ ((p = text10 ip /\ fp = []) \/ p = text10 ip ++ [46] ++ text10 fp).
Definition clean_exp (e : pystr) (x : Z) : Prop :=
  (e = [] /\ x = 0) \/ exists c sg neg ds, e = c :: sg ++ text10 ds /\ (c = 101 \/ c = 69) /\ sign_text sg neg /\ digits_in 10 ds /\ ds <> [] /\ x = signed neg (val 10 ds).

Lemma word_iff : forall b w, Forall (fun l => 97 <= l <= 122) (lit w) -> (word b w <-> str_eqb (map lower b) (lit w) = true).
Proof.
  intros b w. unfold word. rewrite str_eqb_eq. generalize (lit w) as l. clear w. induction b as [|c b IH]; intros l F; split; intros H.
  - inversion H; reflexivity.
  - cbn [map] in H. subst l. constructor.
  - inversion H as [|? k ? l' C H' Q1 Q2]; subst. apply Forall_cons_iff in F as [F1 F2]. cbn [map]. f_equal; [|apply IH; auto].
    unfold lower. destruct (Z.leb_spec 65 c), (Z.leb_spec c 90); cbn [andb]; lia.
  - cbn [map] in H. subst l. apply Forall_cons_iff in F as [F1 F2]. constructor; [|apply IH; auto].
    unfold lower in *. destruct (Z.leb_spec 65 c), (Z.leb_spec c 90); cbn [andb] in *; lia.
Qed.

Lemma text10_nil : forall ds, text10 ds = [] -> ds = []. Proof. intros [|] H; [auto|discriminate]. Qed.
Lemma exp_nodig : forall e x, clean_exp e x -> nodig e /\ (forall c r, e = c :: r -> c <> 46).
Proof. intros e x [[-> _]|(c & sg & neg & ds & -> & C & _)]; [split; [exact I|discriminate]|]. split; [cbn; destruct C as [-> | ->]; reflexivity|]. intros ? ? [= <- _]. lia. Qed.

Definition parse_exp (neg : bool) (m nf : Z) (s2 : pystr) : option spec_float :=
  match s2 with
  | [] => Some (float_of_dec neg m (- nf))
  | c :: r =>
      if (c =? 101) || (c =? 69) then
        let '(eneg, r1) :=
          match r with
          | d :: r' => if d =? 45 then (true, r') else if d =? 43 then (false, r') else (false, r)
          | [] => (false, r)
          end in
        let '(ev, ne, r2) := take_digits 0 0 r1 in
        if ne =? 0 then None
        else match r2 with
             | [] => Some (float_of_dec neg m ((if eneg : bool then - ev else ev) - nf))
             | _ => None
             end
      else None
  end.
Lemma parse_exp_iff : forall neg m nf e f, parse_exp neg m nf e = Some f <-> exists x, clean_exp e x /\ f = float_of_dec neg m (x - nf).
Proof.
  intros neg m nf e f. split.
  - destruct e as [|c r]; cbn [parse_exp]; [intros [= <-]; exists 0; split; [left; auto|reflexivity]|]. destruct ((c =? 101) || (c =? 69)) eqn:C; [|discriminate]. intros H.
    assert (SG : exists sg eneg r1, r = sg ++ r1 /\ sign_text sg eneg /\ match r with d :: r' => if d =? 45 then (true, r') else if d =? 43 then (false, r') else (false, r) | [] => (false, r) end = (eneg, r1)).
    { destruct r as [|d r]; [exists [], false, []; repeat split; constructor|]. destruct (Z.eqb_spec d 45) as [->|]; [exists [45], true, r; repeat split; constructor|].
      destruct (Z.eqb_spec d 43) as [->|]; [exists [43], false, r; repeat split; constructor|]. exists [], false, (d :: r); repeat split; constructor. }
    destruct SG as (sg & eneg & r1 & -> & S & Q). rewrite Q in H. destruct (take_split r1) as (ds & rest & -> & D & N). rewrite take_fwd in H by auto. cbn [Z.mul Z.add] in H.
    destruct (Z.eqb_spec (Z.of_nat (length ds)) 0) as [|NZ]; [discriminate|]. destruct rest; [|discriminate]. injection H as <-. rewrite app_nil_r.
    exists (signed eneg (val 10 ds)). split; [|reflexivity]. right. exists c, sg, eneg, ds. split; [reflexivity|]. split. { apply orb_true_iff in C. rewrite !Z.eqb_eq in C. auto. }
    split; auto. split; auto. split; auto. intros ->. apply NZ. reflexivity.
  - intros (x & [[-> ->]|(c & sg & eneg & ds & -> & C & S & D & NE & ->)] & ->); [reflexivity|]. cbn [parse_exp].
    replace ((c =? 101) || (c =? 69)) with true by (symmetry; apply orb_true_iff; rewrite !Z.eqb_eq; auto).
    assert (Q : match sg ++ text10 ds with d :: r' => if d =? 45 then (true, r') else if d =? 43 then (false, r') else (false, sg ++ text10 ds) | [] => (false, sg ++ text10 ds) end = (eneg, text10 ds)).
    { destruct S; cbn [app]; auto. destruct ds as [|d ds]; [congruence|]. apply Forall_cons_iff in D as [D _]. cbn [text10 map].
      replace (48 + d =? 45) with false by (symmetry; apply Z.eqb_neq; lia). replace (48 + d =? 43) with false by (symmetry; apply Z.eqb_neq; lia). reflexivity. }
    rewrite Q. pose proof (take_fwd ds [] D I 0 0) as T. rewrite app_nil_r in T. rewrite T. cbn [Z.mul Z.add].
    destruct (Z.eqb_spec (Z.of_nat (length ds)) 0) as [Z0|]; [destruct ds; [congruence|discriminate]|]. reflexivity.
Qed.

Lemma parse_iff : forall neg u f, parse_unsigned_float neg u = Some f <->
  ((word u "inf" \/ word u "infinity") /\ f = S754_infinity neg) \/ (word u "nan" /\ f = S754_nan) \/
  (exists p e ip fp x, u = p ++ e /\ clean_point p ip fp /\ clean_exp e x /\ f = float_of_dec neg (val 10 (ip ++ fp)) (x - Z.of_nat (length fp))).
Proof.
  intros neg u f. rewrite !word_iff by (apply inf_letters || apply infinity_letters || apply nan_letters). unfold parse_unsigned_float. cbv zeta.
  assert (NW : forall w p e ip fp, Forall (fun l => 97 <= l <= 122) (lit w) -> lit w <> [] -> u = p ++ e -> clean_point p ip fp -> str_eqb (map lower u) (lit w) = false).
  { intros w p e ip fp F NE -> (D1 & D2 & NN & P). apply Bool.not_true_iff_false. intros W. apply str_eqb_eq in W. destruct (lit w) as [|l lw]; [congruence|]. apply Forall_cons_iff in F as [F _].
    assert (HC : exists c r, p = c :: r /\ (c = 46 \/ 48 <= c <= 57)).
    { destruct ip as [|d ip].
      - cbn [text10 map app] in P. destruct P as [[P1 P2]|P]; [subst fp; elim NN; reflexivity|]. exists 46, (text10 fp). auto.
      - apply Forall_cons_iff in D1 as [D1 _]. destruct P as [[P1 P2]|P]; subst p; cbn [text10 map app]; eexists _, _; (split; [reflexivity|]); lia. }
    destruct HC as (c & r & -> & C). cbn [app map] in W. injection W as W _. unfold lower in W. destruct (Z.leb_spec 65 c), (Z.leb_spec c 90); cbn [andb] in W; lia. }
  assert (CORE : (let '(ip, ni, s1) := take_digits 0 0 u in
    let '(m, nf, s2) := match s1 with c :: r => if c =? 46 then take_digits ip 0 r else (ip, 0, s1) | [] => (ip, 0, s1) end in
    if ni + nf =? 0 then None else parse_exp neg m nf s2) = Some f <->
    (exists p e ip fp x, u = p ++ e /\ clean_point p ip fp /\ clean_exp e x /\ f = float_of_dec neg (val 10 (ip ++ fp)) (x - Z.of_nat (length fp)))).
  { split.
    - destruct (take_split u) as (ip & s1 & -> & D1 & N1). rewrite take_fwd by auto. cbn [Z.mul Z.add]. intros H.
      assert (X : exists p fp s2, text10 ip ++ s1 = p ++ s2 /\ digits_in 10 fp /\ ((p = text10 ip /\ fp = []) \/ p = text10 ip ++ [46] ++ text10 fp) /\
         match s1 with c :: r => if c =? 46 then take_digits (val 10 ip) 0 r else (val 10 ip, 0, s1) | [] => (val 10 ip, 0, s1) end = (val 10 (ip ++ fp), Z.of_nat (length fp), s2)).
      { assert (Y : (val 10 ip, 0, s1) = (val 10 (ip ++ []), Z.of_nat (length (@nil Z)), s1)) by (rewrite app_nil_r; reflexivity).
        destruct s1 as [|c r]; [exists (text10 ip), [], []; repeat split; auto; constructor|]. destruct (Z.eqb_spec c 46) as [->|].
        - destruct (take_split r) as (fp & s2 & -> & D2 & N2). rewrite take_fwd by auto. exists (text10 ip ++ [46] ++ text10 fp), fp, s2. split; [rewrite <- !app_assoc; reflexivity|].
          split; auto. split; [auto|]. rewrite val_app. reflexivity.
        - exists (text10 ip), [], (c :: r). repeat split; auto; constructor. }
      destruct X as (p & fp & s2 & Q & D2 & P & M). unfold pystr in M, H. rewrite M in H. destruct (Z.eqb_spec (Z.of_nat (length ip) + Z.of_nat (length fp)) 0) as [|NZ]; [discriminate|].
      apply parse_exp_iff in H as (x & CE & ->). exists p, s2, ip, fp, x. split; [auto|]. split; [|auto]. split; [auto|]. split; [auto|]. split; [|auto].
      intros C. apply app_eq_nil in C as [-> ->]. apply NZ. reflexivity.
    - intros (p & e & ip & fp & x & -> & (D1 & D2 & NN & P) & CE & ->). destruct (exp_nodig _ _ CE) as [ND N46].
      assert (X : (let '(ip', ni, s1) := take_digits 0 0 (p ++ e) in
        let '(m, nf, s2) := match s1 with c :: r => if c =? 46 then take_digits ip' 0 r else (ip', 0, s1) | [] => (ip', 0, s1) end in (ni, m, nf, s2)) =
        (Z.of_nat (length ip), val 10 (ip ++ fp), Z.of_nat (length fp), e)).
      { destruct P as [[-> ->]| ->].
        - rewrite take_fwd by auto. cbn [Z.mul Z.add]. rewrite app_nil_r. destruct e as [|c r]; [reflexivity|]. destruct (Z.eqb_spec c 46) as [->|]; [elim (N46 _ _ eq_refl); reflexivity|reflexivity].
        - rewrite <- !app_assoc. rewrite take_fwd by (first [assumption|reflexivity]). cbn [app Z.mul Z.add]. change (46 =? 46) with true. cbv iota. rewrite take_fwd by auto. rewrite val_app. reflexivity. }
      destruct (take_digits 0 0 (p ++ e)) as [[ip' ni] s1]. destruct (match s1 with c :: r => if c =? 46 then take_digits ip' 0 r else (ip', 0, s1) | [] => (ip', 0, s1) end) as [[m nf] s2].
      injection X as -> -> -> ->. destruct (Z.eqb_spec (Z.of_nat (length ip) + Z.of_nat (length fp)) 0) as [Z0|]; [|apply parse_exp_iff; eauto].
      elim NN. destruct ip; [|cbn [length] in Z0; lia]. destruct fp; [auto|cbn [length] in Z0; lia]. }
  fold parse_exp. change (lit "inf") with (lit "inf").
  destruct (str_eqb (map lower u) (lit "inf") || str_eqb (map lower u) (lit "infinity")) eqn:W1.
  { apply orb_true_iff in W1. split; [intros [= <-]; left; auto|]. intros [[_ ->]|[[W _]|(p & e & ip & fp & x & Q & CP & _)]]; [reflexivity|..].
    - exfalso. apply str_eqb_eq in W. rewrite W in W1. destruct W1 as [C|C]; vm_compute in C; discriminate.
    - exfalso. destruct W1 as [W1|W1]; [rewrite (NW _ _ _ _ _ inf_letters ltac:(discriminate) Q CP) in W1|rewrite (NW _ _ _ _ _ infinity_letters ltac:(discriminate) Q CP) in W1]; discriminate. }
  apply orb_false_iff in W1 as [Wa Wb]. rewrite Wa, Wb. destruct (str_eqb (map lower u) (lit "nan")) eqn:W2.
  { split; [intros [= <-]; right; left; auto|]. intros [[[C|C] _]|[[_ ->]|(p & e & ip & fp & x & Q & CP & _)]]; try discriminate; [reflexivity|].
    exfalso. rewrite (NW _ _ _ _ _ nan_letters ltac:(discriminate) Q CP) in W2. discriminate. }
  rewrite <- CORE. unfold parse_exp. split; [intros H; right; right; exact H|intros [[[C|C] _]|[[C _]|H]]; try discriminate; exact H].
Qed.

Lemma digits_facts : forall b ds, digits_text b ds -> ascii b -> digits_in 10 ds /\ ds <> [] /\ Forall (fun c => 32 < c) b.
Proof.
  induction 1 as [c d D|c d s ds D H IH|c d s ds D H IH]; intros A; apply Forall_cons_iff in A as [A A']; rewrite dec_lt in D by auto.
  - split; [repeat constructor; lia|]. split; [discriminate|]. repeat constructor. lia.
  - destruct (IH A') as (I1 & I2 & I3). split; [constructor; [lia|auto]|]. split; [discriminate|]. constructor; [lia|auto].
  - apply Forall_cons_iff in A' as [_ A']. destruct (IH A') as (I1 & I2 & I3). split; [constructor; [lia|auto]|]. split; [discriminate|]. constructor; [lia|]. constructor; [lia|auto].
Qed.
Lemma maybe_facts : forall b ds, maybe_digits b ds -> ascii b -> digits_in 10 ds /\ Forall (fun c => 32 < c) b.
Proof. intros b ds [[-> ->]|D] A; [split; constructor|]. destruct (digits_facts _ _ D A) as (? & _ & ?). auto. Qed.

Lemma drop_plain_inv : forall u t p, Forall (fun c => is_dig c = false) u -> drop_underscores p t = Some u -> t = u.
Proof.
  induction u as [|c u IH]; intros t p F H; [apply drop_nil in H; auto|]. apply Forall_cons_iff in F as [F1 F2]. apply drop_cons_inv in H as (t' & _ & [->|(_ & C & _)] & H); [|congruence]. f_equal. eapply IH; eauto.
Qed.
Lemma drop_plain : forall u p, Forall (fun c => is_dig c = false /\ c <> 95) u -> drop_underscores p u = Some u.
Proof. induction u as [|c u IH]; intros p F; [reflexivity|]. apply Forall_cons_iff in F as [[F1 F2] F]. rewrite drop_other by auto. rewrite IH by auto. reflexivity. Qed.
Lemma word_chars : forall b w, Forall (fun l => 97 <= l <= 122) (lit w) -> word b w -> Forall (fun c => is_dig c = false /\ c <> 95 /\ 32 < c) b.
Proof.
  intros b w F H. unfold word in H. induction H as [|c l b lw C H IH]; constructor.
  - apply Forall_cons_iff in F as [F _]. split; [|lia]. apply Bool.not_true_iff_false. intros X. apply is_dig_iff in X as (d & ? & ->). lia.
  - apply Forall_cons_iff in F as [_ F]. auto.
Qed.

Lemma exp_fwd : forall e x, exponent_text e x -> ascii e -> no_under e /\ Forall (fun c => 32 < c) e /\ forall p, exists e', drop_underscores p e = Some e' /\ clean_exp e' x.
Proof.
  intros e x [[-> ->]|(c & sg & neg & b & ds & -> & C & S & D & ->)] A.
  - split; [exact I|]. split; [constructor|]. intros p. exists []. split; [reflexivity|]. left. auto.
  - apply Forall_cons_iff in A as [A1 A]. apply Forall_app in A as [_ A]. destruct (digits_facts _ _ D A) as (F1 & F2 & F3).
    split; [cbn; lia|]. split; [constructor; [lia|]; apply Forall_app; split; auto; destruct S; repeat constructor; lia|]. intros p. exists (c :: sg ++ text10 ds).
    split; [|right; exists c, sg, neg, ds; repeat (split; [auto|]); reflexivity].
    pose proof (fun p => drop_fwd b ds D A p [] I) as Q. rewrite app_nil_r in Q. cbn [drop_underscores] in Q. rewrite app_nil_r in Q.
    rewrite drop_other; [|lia|destruct C as [-> | ->]; reflexivity]. destruct S; cbn [app]; [rewrite Q; reflexivity|rewrite drop_other by (lia || reflexivity); rewrite Q; reflexivity|rewrite drop_other by (lia || reflexivity); rewrite Q; reflexivity].
Qed.
Lemma exp_inv : forall e x t p, clean_exp e x -> ascii t -> drop_underscores p t = Some e -> exponent_text t x.
Proof.
  intros e x t p [[-> ->]|(c & sg & neg & ds & -> & C & S & D & NE & ->)] A H; [left; apply drop_nil in H; auto|]. right.
  apply drop_cons_inv in H as (t' & _ & T & H). assert (NC : is_dig c = false) by (destruct C as [-> | ->]; reflexivity). rewrite NC in *. destruct T as [->|(_ & X & _)]; [|discriminate].
  apply Forall_cons_iff in A as [_ A].
  assert (R : exists t2, t' = sg ++ t2 /\ drop_underscores false t2 = Some (text10 ds)).
  { destruct S; cbn [app] in *; [exists t'; auto|..]; apply drop_cons_inv in H as (t2 & _ & T & H); change (is_dig 43) with false in *; change (is_dig 45) with false in *;
      (destruct T as [->|(_ & X & _)]; [|discriminate]); exists t2; auto. }
  destruct R as (t2 & -> & R). apply Forall_app in A as [_ A]. rewrite <- (app_nil_r (text10 ds)) in R. apply drop_inv in R as (b & q & T & B & _ & Q); auto; [|exact I].
  apply drop_nil in Q. subst q. rewrite app_nil_r in T. destruct T as [->|(X & _)]; [|discriminate]. exists c, sg, neg, b, ds. auto.
Qed.
Lemma maybe_fwd : forall b ds, maybe_digits b ds -> ascii b -> forall q u p, no_under q -> (forall p, drop_underscores p q = Some u) -> drop_underscores p (b ++ q) = Some (text10 ds ++ u).
Proof. intros b ds [[-> ->]|D] A q u p N H; [apply H|]. rewrite (drop_fwd _ _ D A) by auto. rewrite H. reflexivity. Qed.
Lemma maybe_inv : forall ds t u, digits_in 10 ds -> nodig u -> ascii t -> drop_underscores false t = Some (text10 ds ++ u) ->
  exists b q p, t = b ++ q /\ maybe_digits b ds /\ drop_underscores p q = Some u.
Proof.
  intros ds t u D N A H. destruct ds as [|d ds]; [exists [], t, false; split; [reflexivity|]; split; [left; auto|exact H]|].
  apply drop_inv in H as (b & q & T & B & _ & Q); auto; [|discriminate]. destruct T as [->|(X & _)]; [|discriminate]. exists b, q, true. split; [reflexivity|]. split; [right; auto|auto].
Qed.

Lemma number_fwd : forall p e ip fp x, point_text p ip fp -> exponent_text e x -> ascii (p ++ e) ->
  Forall (fun c => 32 < c) (p ++ e) /\ exists p' e', drop_underscores false (p ++ e) = Some (p' ++ e') /\ clean_point p' ip fp /\ clean_exp e' x.
Proof.
  intros p e ip fp x P X A. apply Forall_app in A as [Ap Ae]. destruct (exp_fwd _ _ X Ae) as (N & G & DX). destruct (DX true) as (e' & De & CE).
  assert (Dp : forall p, drop_underscores p e = Some e') by (intros q; rewrite (drop_prev e N q true); exact De).
  destruct P as [[D ->]|(a & b & -> & MA & MB & NE)].
  - destruct (digits_facts _ _ D Ap) as (F1 & F2 & F3). split; [apply Forall_app; auto|]. exists (text10 ip), e'. split; [apply maybe_fwd; auto; right; auto|]. split; auto.
    split; auto. split; [constructor|]. split; [rewrite app_nil_r; auto|]. left. auto.
  - apply Forall_app in Ap as [Aa Ab]. apply Forall_cons_iff in Ab as [_ Ab]. destruct (maybe_facts _ _ MA Aa) as [F1 F2]. destruct (maybe_facts _ _ MB Ab) as [F3 F4].
    split; [repeat (apply Forall_app; split; auto); repeat constructor; lia|]. exists (text10 ip ++ [46] ++ text10 fp), e'. split; [|split; auto; split; auto].
    rewrite <- !app_assoc. apply maybe_fwd; auto; [cbn; lia|]. intros q. cbn [app]. rewrite drop_other by (lia || reflexivity). rewrite (maybe_fwd _ _ MB Ab e e') by auto. reflexivity.
Qed.
Lemma number_inv : forall t p e ip fp x, ascii t -> clean_point p ip fp -> clean_exp e x -> drop_underscores false t = Some (p ++ e) ->
  exists p' e', t = p' ++ e' /\ point_text p' ip fp /\ exponent_text e' x.
Proof.
  intros t p e ip fp x A (D1 & D2 & NE & P) X H. destruct (exp_nodig _ _ X) as [ND _]. destruct P as [[-> ->]| ->].
  - rewrite app_nil_r in NE. apply drop_inv in H as (b & q & T & B & _ & Q); auto. destruct T as [->|(C & _)]; [|discriminate]. apply Forall_app in A as [_ A].
    exists b, q. split; auto. split; [left; auto|]. eapply exp_inv; eauto.
  - rewrite <- !app_assoc in H. apply maybe_inv in H as (a & q & pr & -> & MA & Q); auto; [|reflexivity]. apply Forall_app in A as [_ A].
    cbn [app] in Q. apply drop_cons_inv in Q as (t' & _ & T & Q). change (is_dig 46) with false in *. destruct T as [->|(_ & C & _)]; [|discriminate]. apply Forall_cons_iff in A as [_ A].
    apply maybe_inv in Q as (b & r & pr' & -> & MB & R); auto. apply Forall_app in A as [_ A]. exists (a ++ [46] ++ b), r. split; [rewrite <- !app_assoc; reflexivity|].
    split; [right; exists a, b; auto|]. eapply exp_inv; eauto.
Qed.

(** Trailing spaces. *)
Lemma strip_inv : forall t, ascii t -> exists w, t = strip_end t ++ w /\ Forall space w.
Proof.
  induction 1 as [|c t C F (w & Q & W)]; [exists []; repeat constructor|]. cbn [strip_end]. destruct (strip_end t) as [|d r] eqn:S.
  - cbn [app] in Q. subst t. destruct (ascii_space c) eqn:SC; [exists (c :: w)|exists w]; (split; [reflexivity|]); auto. constructor; auto. apply space_lt; auto.
  - exists w. split; [rewrite Q at 1; reflexivity|auto].
Qed.
Lemma strip_fwd : forall x w, ascii (x ++ w) -> Forall (fun c => 32 < c) x -> Forall space w -> strip_end (x ++ w) = x.
Proof.
  intros x w A F W. induction F as [|c x C F IH]; cbn [app] in *.
  - induction W as [|c w C W IH]; [reflexivity|]. apply Forall_cons_iff in A as [A1 A]. cbn [strip_end]. rewrite IH by auto. apply space_lt in C; auto. rewrite C. reflexivity.
  - apply Forall_cons_iff in A as [A1 A]. cbn [strip_end]. rewrite IH by auto. destruct x; auto. destruct (ascii_space c) eqn:S; auto. apply space_lt in S; auto. apply space_low in S; auto. lia.
Qed.

(** What float() makes of the text, before rounding. *)
Definition float_parts (s : pystr) (f : spec_float) : Prop :=
  exists w sg neg b w', s = w ++ sg ++ b ++ w' /\ Forall space w /\ Forall space w' /\ sign_text sg neg /\
    (((word b "inf" \/ word b "infinity") /\ f = S754_infinity neg) \/
     (word b "nan" /\ f = S754_nan) \/
     (exists p e ip fp x, b = p ++ e /\ point_text p ip fp /\ exponent_text e x /\
        f = float_of_dec neg (val 10 (ip ++ fp)) (x - Z.of_nat (length fp)))).

Lemma body_fwd : forall b neg f, ascii b ->
  (((word b "inf" \/ word b "infinity") /\ f = S754_infinity neg) \/ (word b "nan" /\ f = S754_nan) \/
   (exists p e ip fp x, b = p ++ e /\ point_text p ip fp /\ exponent_text e x /\ f = float_of_dec neg (val 10 (ip ++ fp)) (x - Z.of_nat (length fp)))) ->
  Forall (fun c => 32 < c) b /\ no_under b /\ (forall c r, b = c :: r -> c <> 45 /\ c <> 43) /\ b <> [] /\ exists u, drop_underscores false b = Some u /\ parse_unsigned_float neg u = Some f /\ (forall c r, u = c :: r -> c <> 45 /\ c <> 43) /\ u <> [].
Proof.
  intros b neg f A H.
  assert (W : forall w, Forall (fun l => 97 <= l <= 122) (lit w) -> lit w <> [] -> word b w -> Forall (fun c => 32 < c) b /\ no_under b /\ (forall c r, b = c :: r -> c <> 45 /\ c <> 43) /\ b <> [] /\ drop_underscores false b = Some b).
  { intros w L NE Wd. pose proof (word_chars _ _ L Wd) as F. assert (B0 : b <> []) by (intros ->; inversion Wd; congruence).
    split; [eapply Forall_impl; [|exact F]; cbn; intuition lia|]. split; [destruct F as [|c b' C F]; [exact I|cbn; lia]|].
    split; [|split; auto; apply drop_plain; eapply Forall_impl; [|exact F]; cbn; intuition lia].
    intros c r ->. inversion Wd as [|? l ? lw C Wd' Q1 Q2]; subst. rewrite <- Q2 in L. apply Forall_cons_iff in L as [L _]. lia. }
  destruct H as [[Wd ->]|[[Wd ->]|(p & e & ip & fp & x & -> & P & X & ->)]].
  - assert (WW : Forall (fun c => 32 < c) b /\ no_under b /\ (forall c r, b = c :: r -> c <> 45 /\ c <> 43) /\ b <> [] /\ drop_underscores false b = Some b).
    { destruct Wd as [Wd|Wd]; [apply (W "inf"%string)|apply (W "infinity"%string)]; auto using inf_letters, infinity_letters; discriminate. }
    destruct WW as (W1 & W2 & W3 & W4 & W5). repeat (split; auto). exists b. split; auto. split; auto. apply parse_iff. left. auto.
  - destruct (W "nan"%string nan_letters ltac:(discriminate) Wd) as (W1 & W2 & W3 & W4 & W5). repeat (split; auto). exists b. split; auto. split; auto. apply parse_iff. right. left. auto.
  - destruct (number_fwd _ _ _ _ _ P X A) as (G & p' & e' & D & CP & CE).
    assert (HB : exists c r, p = c :: r /\ (c = 46 \/ 48 <= c <= 57)).
    { apply Forall_app in A as [Ap _]. assert (DD : forall b ds, digits_text b ds -> ascii b -> exists c r, b = c :: r /\ 48 <= c <= 57).
      { intros b ds Db Ab. destruct (digits_head _ _ Db) as (c & d & r & -> & DC). apply Forall_cons_iff in Ab as [Ab _]. apply dec_lt in DC; auto. exists c, r. split; auto. lia. }
      destruct P as [[Dp _]|(a & b & -> & MA & _ & _)]; [destruct (DD _ _ Dp Ap) as (c & r & ? & ?); eauto|].
      destruct MA as [[-> _]|Da]; [exists 46, b; auto|]. apply Forall_app in Ap as [Aa _]. destruct (DD _ _ Da Aa) as (c & r & -> & ?). cbn [app]. eauto. }
    assert (HB' : exists c r, p' = c :: r /\ (c = 46 \/ 48 <= c <= 57)).
    { destruct CP as (D1 & D2 & NN & Q). destruct ip as [|d ip].
      - cbn [text10 map app] in Q. destruct Q as [[P1 P2]|Q]; [subst fp; elim NN; reflexivity|]. exists 46, (text10 fp). auto.
      - apply Forall_cons_iff in D1 as [D1 _]. destruct Q as [[P1 P2]|Q]; subst p'; cbn [text10 map app]; eexists _, _; (split; [reflexivity|]); lia. }
    split; auto. destruct HB as (c & r & -> & C), HB' as (c' & r' & -> & C'). split; [cbn; lia|]. split; [intros ? ? [= <- _]; lia|]. split; [discriminate|].
    exists ((c' :: r') ++ e'). split; auto. split; [|split; [intros ? ? [= <- _]; lia|discriminate]]. apply parse_iff. right. right. exists (c' :: r'), e', ip, fp, x. auto.
Qed.

Lemma body_inv : forall b neg u f, ascii b -> drop_underscores false b = Some u -> parse_unsigned_float neg u = Some f ->
  ((word b "inf" \/ word b "infinity") /\ f = S754_infinity neg) \/ (word b "nan" /\ f = S754_nan) \/
   (exists p e ip fp x, b = p ++ e /\ point_text p ip fp /\ exponent_text e x /\ f = float_of_dec neg (val 10 (ip ++ fp)) (x - Z.of_nat (length fp))).
Proof.
  intros b neg u f A D H. apply parse_iff in H.
  assert (W : forall w, Forall (fun l => 97 <= l <= 122) (lit w) -> word u w -> word b w).
  { intros w L Wd. rewrite (drop_plain_inv u b false); auto. eapply Forall_impl; [|exact (word_chars _ _ L Wd)]. cbn. intuition. }
  destruct H as [[Wd ->]|[[Wd ->]|(p & e & ip & fp & x & -> & P & X & ->)]].
  - left. split; auto. destruct Wd; auto using inf_letters, infinity_letters.
  - right. left. auto using nan_letters.
  - right. right. destruct (number_inv _ _ _ _ _ _ A P X D) as (p' & e' & -> & P' & X'). exists p', e', ip, fp, x. auto.
Qed.

Lemma float_parts_iff : forall s f, py_float_str s = Ok f <-> float_parts (map to_ascii s) f.
Proof.
  intros s f. unfold py_float_str. pose proof (ascii_map s) as A. set (t := map to_ascii s) in *. clearbody t. clear s. cbv zeta. split.
  - intros H. destruct (skip_inv t A) as (w & Q & W & _). set (t1 := skip_spaces t) in *. assert (A1 : ascii t1) by (rewrite Q in A; apply Forall_app in A; apply A).
    destruct (strip_inv t1 A1) as (w' & Q' & W'). set (s1 := strip_end t1) in *. assert (A2 : ascii s1) by (rewrite Q' in A1; apply Forall_app in A1; apply A1).
    destruct (drop_underscores false s1) as [s2|] eqn:D; [|discriminate]. clearbody s1 t1.
    assert (R : exists sg neg b u, s1 = sg ++ b /\ sign_text sg neg /\ drop_underscores false b = Some u /\ parse_unsigned_float neg u = Some f).
    { destruct s2 as [|c t2]; [discriminate|]. destruct (Z.eqb_spec c 45) as [->|N1]; [|destruct (Z.eqb_spec c 43) as [->|N2]].
      - apply drop_cons_inv in D as (t' & _ & T & D). change (is_dig 45) with false in *. destruct T as [->|(_ & C & _)]; [|discriminate]. exists [45], true, t', t2.
        split; [reflexivity|]. split; [constructor|]. split; auto. destruct (parse_unsigned_float true t2); congruence.
      - apply drop_cons_inv in D as (t' & _ & T & D). change (is_dig 43) with false in *. destruct T as [->|(_ & C & _)]; [|discriminate]. exists [43], false, t', t2.
        split; [reflexivity|]. split; [constructor|]. split; auto. destruct (parse_unsigned_float false t2); congruence.
      - exists [], false, s1, (c :: t2). split; [reflexivity|]. split; [constructor|]. split; auto. destruct (parse_unsigned_float false (c :: t2)); congruence. }
    destruct R as (sg & neg & b & u & -> & S & D' & P). exists w, sg, neg, b, w'. rewrite Q, Q', <- app_assoc. repeat (split; [auto|]). apply Forall_app in A2 as [_ A2]. eapply body_inv; eauto.
  - intros (w & sg & neg & b & w' & -> & W & W' & S & R). pose proof A as A0. apply Forall_app in A0 as [_ A1]. pose proof A1 as A2. apply Forall_app in A2 as [Asg A2]. apply Forall_app in A2 as [Ab Aw].
    destruct (body_fwd _ _ _ Ab R) as (G & NU & NS & B0 & u & D & P & NS' & U0).
    assert (G' : Forall (fun c => 32 < c) (sg ++ b)) by (apply Forall_app; split; auto; destruct S; repeat constructor; lia).
    rewrite skip_fwd; auto.
    + rewrite app_assoc. rewrite strip_fwd; auto; [|rewrite <- app_assoc; auto].
      assert (DS : drop_underscores false (sg ++ b) = Some (sg ++ u)) by (destruct S; cbn [app]; [auto|rewrite drop_other by (lia || reflexivity); rewrite D; reflexivity|rewrite drop_other by (lia || reflexivity); rewrite D; reflexivity]).
      rewrite DS. destruct S; cbn [app]; [|change (43 =? 45) with false; change (43 =? 43) with true|change (45 =? 45) with true]; cbv iota; try (rewrite P; reflexivity).
      destruct u as [|c u]; [congruence|]. destruct (NS' _ _ eq_refl) as [n1 n2]. apply Z.eqb_neq in n1, n2. rewrite n1, n2, P. reflexivity.
    + rewrite app_assoc. destruct (sg ++ b) as [|c r] eqn:Q; [apply app_eq_nil in Q as [_ Q]; congruence|]. cbn [app starts_plain]. intros X. apply Forall_cons_iff in G' as [G1 _].
      assert (c < 128) by (rewrite app_assoc, Q in A1; apply Forall_cons_iff in A1; apply A1). apply space_low in X; auto. lia.
Qed.

Lemma point_digits : forall p ip fp, point_text p ip fp -> digits_in 10 (ip ++ fp).
Proof.
  assert (D : forall b ds, digits_text b ds -> digits_in 10 ds).
  { induction 1 as [c d D|c d s ds D H IH|c d s ds D H IH]; (destruct (dec_char_digit HU c d D) as [? _]); constructor; auto; try lia; constructor. }
  assert (M : forall b ds, maybe_digits b ds -> digits_in 10 ds) by (intros b ds [[_ ->]|H]; [constructor|eauto]).
  intros p ip fp [[H ->]|(a & b & _ & A & B & _)]; [rewrite app_nil_r; eauto|]. apply Forall_app. split; eapply M; eauto.
Qed.
Lemma float_text_iff : forall s f, py_float_str s = Ok f <-> float_text s f.
Proof.
  intros s f. rewrite float_parts_iff, <- float_lift. unfold float_parts, float_text.
  split; intros (w & sg & neg & b & w' & Q & W & W' & S & R); exists w, sg, neg, b, w'; (repeat (split; [assumption|])); (destruct R as [R|[R|(p & e & ip & fp & x & B & P & X & F)]]; [auto|auto|]); right; right; exists p, e, ip, fp, x;
    (split; [assumption|]); (split; [assumption|]); (split; [assumption|]); assert (V : 0 <= val 10 (ip ++ fp)) by (apply val_bounds; [lia|]; eapply point_digits; eauto).
  - rewrite F. apply float_of_dec_rounds; auto.
  - eapply rounds_fun; [exact F|]. apply float_of_dec_rounds; auto.
Qed.
Lemma py_float_str_err : forall s e, py_float_str s = Err e -> e = ValueError.
Proof. intros s e. unfold py_float_str. cbv zeta. destruct (drop_underscores _ _) as [[|c t]|]; try congruence. destruct (c =? 45); [|destruct (c =? 43)]; destruct (parse_unsigned_float _ _); congruence. Qed.
Lemma py_int_str_err : forall b s e, py_int_str b s = Err e -> e = ValueError.
Proof.
  intros b s e. unfold py_int_str. cbv zeta. destruct (match skip_spaces (map to_ascii s) with c :: r => if c =? 45 then (true, r) else if c =? 43 then (false, r) else (false, skip_spaces (map to_ascii s)) | [] => (false, skip_spaces (map to_ascii s)) end) as [neg s2].
  destruct (int_digits _ _ _ _) as [[v r]|]; [|congruence]. destruct (all_spaces r); congruence.
Qed.

Lemma py_int_iff : forall v n, py_int v = Ok n <-> int_value v n.
Proof.
  intros [|b|z|f|s|l|d] n; cbn [py_int int_value]; try (split; [discriminate|contradiction]).
  - destruct b; split; congruence || (intros [= <-]; reflexivity) || (intros ->; reflexivity).
  - split; congruence.
  - apply py_trunc_iff.
  - apply int_text_iff.
Qed.
Lemma py_float_iff : forall v f, py_float v = Ok f <-> float_of_value v f.
Proof.
  intros [|b|z|g|s|l|d] f; cbn [py_float float_of_value]; try (split; [discriminate|contradiction]).
  - rewrite float_int_iff. destruct b; cbn [b2z]; change (1 <? 0) with false; change (0 <? 0) with false; (split; [intros [R _]; exact R|intros R; split; [exact R|]]).
    + destruct (py_float_int_small 1) as (g & G & _ & F & _); [lia|]. apply float_int_iff in G as [G _]. rewrite (rounds_fun _ _ _ _ R G). exact F.
    + rewrite (rounds_fun _ _ _ _ R (rounds_zero false)). reflexivity.
  - apply float_int_iff.
  - split; congruence.
  - apply float_text_iff.
Qed.

End WithEnv.
