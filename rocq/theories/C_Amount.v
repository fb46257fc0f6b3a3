(** C14-C17: bitcoin amounts. *)
From Coq Require Import String Lia.
From Verif Require Import PyBase Env PyNum Validate Basic Spec EnvOk Demo.
From Verif Require Import NumLemmas HexProofs AmountProofs DemoProofs.

Section WithEnv.
Context {E : Env}.

(** C14.  satoshi_to_bitcoin writes the canonical 8-decimal text of n, for exactly the ints 0 <= n <= 21e14.
    Other ints and booleans raise ValueError, other values TypeError. *)
Lemma c14_satoshi_to_bitcoin : UniOk E ->
  (forall v s, satoshi_to_bitcoin v = Ok s <-> exists n, v = PInt n /\ 0 <= n <= 2100000000000000 /\ btc_text s n) /\
  (forall n, 0 <= n <= 2100000000000000 -> exists s, satoshi_to_bitcoin (PInt n) = Ok s) /\
  (forall n, ~ (0 <= n <= 2100000000000000) -> satoshi_to_bitcoin (PInt n) = Err ValueError) /\
  (forall b, satoshi_to_bitcoin (PBool b) = Err ValueError) /\
  (forall v, as_int v = None -> satoshi_to_bitcoin v = Err TypeError).
Proof.
  intros HU. split; [apply satoshi_to_bitcoin_iff; auto|]. split; [|split; [|split]].
  - intros n H. destruct (satoshi_to_bitcoin_ok HU n H) as [s [A _]]. eauto.
  - apply satoshi_to_bitcoin_bad.
  - apply satoshi_to_bitcoin_bool.
  - apply satoshi_to_bitcoin_nonint.
Qed.

Example ex14_satoshi : satoshi_to_bitcoin (PInt 242000) = Ok (lit "0.00242000")
  /\ satoshi_to_bitcoin (PInt 2100000000000000) = Ok (lit "21000000.00000000")
  /\ satoshi_to_bitcoin (PInt 2100000000000001) = Err ValueError
  /\ satoshi_to_bitcoin (PInt 0) = Ok (lit "0.00000000").
Proof. vm_compute. repeat split. Qed.

(** C15.  bitcoin_to_satoshi returns n for a string s exactly when s is a decimal numeral (of ASCII or other
    Unicode decimal digits) with at most 8 decimals, n = 10^8 times its value, n <= 21e14, and s does not consist
    of '0' and '.' only.  Every other string raises ValueError, every other value TypeError. *)
Lemma c15_bitcoin_to_satoshi : UniOk E ->
  (forall s n, bitcoin_to_satoshi (PStr s) = Ok n <-> amount_of s n /\ n <= 2100000000000000 /\ ~ zero_text s) /\
  (forall s, (exists n, bitcoin_to_satoshi (PStr s) = Ok n) \/ bitcoin_to_satoshi (PStr s) = Err ValueError) /\
  (forall v, (forall s, v <> PStr s) -> bitcoin_to_satoshi v = Err TypeError).
Proof.
  intros HU. split; [apply bitcoin_to_satoshi_iff; auto|]. split.
  - intros s. destruct (bitcoin_to_satoshi (PStr s)) as [n|e] eqn:B; [left; eauto|right].
    rewrite <- B. apply bitcoin_to_satoshi_err; auto. congruence.
  - apply bitcoin_to_satoshi_nonstr.
Qed.

Example ex15_bitcoin : bitcoin_to_satoshi (PStr (lit "0.00242")) = Ok 242000
  /\ bitcoin_to_satoshi (PStr (lit ".1")) = Ok 10000000 /\ bitcoin_to_satoshi (PStr (lit "007.")) = Ok 700000000
  /\ bitcoin_to_satoshi (PStr (lit "21000000.00000001")) = Err ValueError
  /\ bitcoin_to_satoshi (PStr (lit "1.123456789")) = Err ValueError.
Proof. vm_compute. repeat split. Qed.

(** C16.  Round trips.  Satoshi to text and back is the identity on 1..21e14 and raises ValueError at 0 (refuting
    the identity for all valid amounts); text to satoshi to text keeps the value; ensure_8_decimal_places changes
    neither the value nor the result of bitcoin_to_satoshi and yields exactly 8 decimals. *)
Lemma c16_amount_roundtrip : UniOk E ->
  (forall n, 1 <= n <= 2100000000000000 ->
     exists s, satoshi_to_bitcoin (PInt n) = Ok s /\ bitcoin_to_satoshi (PStr s) = Ok n) /\
  (exists s, satoshi_to_bitcoin (PInt 0) = Ok s /\ bitcoin_to_satoshi (PStr s) = Err ValueError) /\
  (forall s n, bitcoin_to_satoshi (PStr s) = Ok n ->
     exists t, satoshi_to_bitcoin (PInt n) = Ok t /\ amount_of s n /\ amount_of t n) /\
  (forall s n, amount_of s n -> exists t, ensure_8_decimal_places s = Ok t /\ amount_of t n /\
     bitcoin_to_satoshi (PStr t) = bitcoin_to_satoshi (PStr s) /\
     exists a b, t = a ++ [46] ++ b /\ length b = 8%nat /\ ~ In 46 b).
Proof.
  intros HU. split; [|split; [|split]].
  - intros n H. destruct (satoshi_to_bitcoin_ok HU n ltac:(lia)) as [s [A B]]. exists s. split; auto. apply (btc_roundtrip HU); auto.
  - destruct (satoshi_to_bitcoin_ok HU 0 ltac:(lia)) as [s [A B]]. exists s. split; auto. apply (btc_roundtrip0 HU); auto.
  - intros s n H. apply (bitcoin_to_satoshi_iff HU) in H. destruct H as [A [B C]]. pose proof (amount_of_nonneg HU s n A).
    destruct (satoshi_to_bitcoin_ok HU n ltac:(lia)) as [t [P Q]]. exists t. repeat split; auto. apply btc_amount. auto.
  - intros s n A. destruct (ensure8_ok HU s n A) as [t [P [Q [Z0 D]]]]. exists t. repeat split; auto.
    destruct (Z_le_dec n 2100000000000000) as [L|L].
    + destruct (bitcoin_to_satoshi_ok HU s n A L) as [S1 S2]. destruct (bitcoin_to_satoshi_ok HU t n Q L) as [T1 T2].
      destruct (zero_text_dec s) as [Z1|Z1].
      * rewrite S1, T1; auto. apply Z0; auto.
      * rewrite S2, T2; auto. rewrite Z0; auto.
    + rewrite !(bitcoin_to_satoshi_err HU); auto.
      * intros m H. apply (bitcoin_to_satoshi_iff HU) in H. destruct H as [H [M _]]. pose proof (amount_of_fun HU _ _ _ H A). lia.
      * intros m H. apply (bitcoin_to_satoshi_iff HU) in H. destruct H as [H [M _]]. pose proof (amount_of_fun HU _ _ _ H Q). lia.
Qed.

Example ex16_roundtrip : ensure_8_decimal_places (lit "3") = Ok (lit "3.00000000")
  /\ ensure_8_decimal_places (lit "3.14") = Ok (lit "3.14000000")
  /\ ensure_8_decimal_places (lit "3.123456789") = Err ValueError.
Proof. vm_compute. repeat split. Qed.

(** C17.  validate_bitcoin_amount accepts exactly the numerals with at most 8 decimals worth at most 21,000,000
    (the comparison made with floats is exact); validate_positive_bitcoin_amount accepts those that are not
    written with '0' and '.' only. *)
Lemma c17_validate_amount : UniOk E ->
  (forall s, validate_bitcoin_amount (PStr s) = Ok tt <-> exists n, amount_of s n /\ n <= 2100000000000000) /\
  (forall s, validate_bitcoin_amount (PStr s) = Ok tt \/ validate_bitcoin_amount (PStr s) = Err ValueError) /\
  (forall s, validate_positive_bitcoin_amount (PStr s) = Ok tt <->
     (exists n, amount_of s n /\ n <= 2100000000000000) /\ ~ zero_text s) /\
  (forall s, validate_positive_bitcoin_amount (PStr s) = Ok tt \/ validate_positive_bitcoin_amount (PStr s) = Err ValueError) /\
  (forall s n, Forall (fun c => c < 128) s -> amount_of s n -> (zero_text s <-> n = 0)) /\
  (forall v, (forall s, v <> PStr s) -> validate_bitcoin_amount v = Err TypeError /\ validate_positive_bitcoin_amount v = Err TypeError).
Proof.
  intros HU.
  assert (V : forall s, validate_bitcoin_amount (PStr s) = Ok tt \/ validate_bitcoin_amount (PStr s) = Err ValueError).
  { intros s. destruct (validate_bitcoin_amount (PStr s)) as [[]|e] eqn:A; auto. right. rewrite <- A. apply validate_amount_err; auto. congruence. }
  assert (Z0 : forall s, str_eqb (remove_char 48 (remove_char 46 s)) [] = true <-> zero_text s).
  { intros s. unfold remove_char, zero_text. rewrite str_eqb_eq. induction s as [|c s IH].
    - split; [intros _ c []|auto].
    - cbn [filter]. destruct (c =? 46) eqn:E1; cbn [negb].
      + apply Z.eqb_eq in E1. rewrite IH. split; intros H; [intros x [<-|X]; auto|intros x X; apply H; right; auto].
      + apply Z.eqb_neq in E1. cbn [filter]. destruct (c =? 48) eqn:E2; cbn [negb].
        * apply Z.eqb_eq in E2. rewrite IH. split; intros H; [intros x [<-|X]; auto|intros x X; apply H; right; auto].
        * apply Z.eqb_neq in E2. split; [discriminate|]. intros H. destruct (H c); [left; auto|lia|lia]. }
  assert (P : forall s, (zero_text s -> validate_positive_bitcoin_amount (PStr s) = Err ValueError) /\
                        (~ zero_text s -> validate_positive_bitcoin_amount (PStr s) = validate_bitcoin_amount (PStr s))).
  { intros s. unfold validate_positive_bitcoin_amount. cbn [validate_string bind as_str].
    destruct (str_eqb (remove_char 48 (remove_char 46 s)) []) eqn:Q.
    - split; auto. intros H. elim H. apply Z0; auto.
    - split; auto. intros H. apply Z0 in H. congruence. }
  split; [apply validate_amount_iff; auto|]. split; [exact V|]. split; [|split; [|split]].
  - intros s. destruct (P s) as [P1 P2]. destruct (zero_text_dec s) as [Z1|Z1].
    + rewrite P1 by auto. split; [discriminate|tauto].
    + rewrite P2 by auto. rewrite (validate_amount_iff HU). tauto.
  - intros s. destruct (P s) as [P1 P2]. destruct (zero_text_dec s) as [Z1|Z1]; [auto|rewrite P2; auto].
  - intros s n A [ip [fp [N [L ->]]]].
    assert (K : forall a ds, Forall (fun c => c < 128) a -> Forall2 dec_char a ds -> a = text10 ds /\ digits_in 10 ds).
    { clear. intros a ds H F. induction F as [|c d a ds Hc F IH]; [split; [auto|constructor]|].
      inversion H; subst. destruct (IH H3) as [-> D]. destruct Hc as [[R ->]|[R _]]; [|lia]. split; [reflexivity|]. constructor; auto. lia. }
    assert (T : forall ds, digits_in 10 ds -> (val 10 ds = 0 <-> Forall (fun d => d = 0) ds)).
    { clear. induction 1 as [|d ds Hd Hds IH]; [rewrite val_nil; split; auto|]. rewrite val_cons.
      pose proof (val_bounds 10 ds ltac:(lia) Hds). assert (0 < 10 ^ Z.of_nat (length ds)) by (apply Z.pow_pos_nonneg; lia).
      split; intros Q.
      - assert (d = 0) by nia. subst. constructor; auto. apply IH. lia.
      - inversion Q; subst. apply IH in H4. lia. }
    assert (W : forall ds, digits_in 10 ds -> (zero_text (text10 ds) <-> Forall (fun d => d = 0) ds)).
    { clear. intros ds D. rewrite Forall_forall. unfold zero_text, text10. unfold digits_in in D. rewrite Forall_forall in D. split; intros H d Hd.
      - pose proof (D d Hd). destruct (H (48 + d)); try lia. apply (in_map (fun d => 48 + d)). auto.
      - apply in_map_iff in Hd. destruct Hd as [x [<- Hx]]. rewrite (H x Hx). left; reflexivity. }
    assert (P0 : 0 < 10 ^ (8 - Z.of_nat (length fp))) by (apply Z.pow_pos_nonneg; lia).
    assert (G : digits_in 10 ip -> digits_in 10 fp -> (zero_text (text10 ip) /\ zero_text (text10 fp) <-> val 10 (ip ++ fp) * 10 ^ (8 - Z.of_nat (length fp)) = 0)).
    { intros Di Df. rewrite (W ip Di), (W fp Df), <- Forall_app, <- (T (ip ++ fp)) by (apply Forall_app; auto). nia. }
    destruct N as [[F [-> X]]|[a [b [-> [Fa [Fb X]]]]]].
    + destruct (K s ip A F) as [-> D]. rewrite <- G by (auto; constructor). split; [intros; split; [auto|intros c []]|tauto].
    + apply Forall_app in A. destruct A as [Aa A]. inversion A; subst. destruct (K a ip Aa Fa) as [-> Da]. destruct (K b fp H2 Fb) as [-> Db].
      rewrite <- G by auto. split.
      * intros H. split; intros c Hc; apply H; apply in_or_app; [left|right; right]; auto.
      * intros [Ha Hb] c Hc. apply in_app_or in Hc. destruct Hc as [Hc|[Hc|Hc]]; auto.
  - intros v H. split; [apply validate_amount_nonstr; auto|]. destruct v; try reflexivity. congruence.
Qed.

(** C17, refuted.  A zero amount written with non-ASCII digits passes validate_positive_bitcoin_amount and
    bitcoin_to_satoshi returns 0. *)
Lemma c17_positive_refuted : UniOk E -> forall c, 128 <= c -> uni_decimal c = Some 0 ->
  validate_positive_bitcoin_amount (PStr [c]) = Ok tt /\ bitcoin_to_satoshi (PStr [c]) = Ok 0.
Proof.
  intros HU c Hc Hd. assert (A : amount_of [c] 0).
  { exists [0], []. repeat split; [|cbn; lia]. left. repeat split; [|discriminate]. constructor; [right; auto|constructor]. }
  assert (Z0 : ~ zero_text [c]). { intros Z0. destruct (Z0 c); [left; auto|lia|lia]. }
  split.
  - apply (c17_validate_amount HU). split; auto. exists 0. split; [auto|lia].
  - apply (bitcoin_to_satoshi_iff HU). repeat split; auto. lia.
Qed.

(** The hypotheses are met: Arabic-Indic zero in the concrete environment. *)
Example ex17_arabic_zero : @uni_decimal demo_env 1632 = Some 0 /\ UniOk demo_env /\
  @validate_positive_bitcoin_amount demo_env (PStr [1632]) = Ok tt.
Proof. split; [reflexivity|]. split; [exact DemoProofs.demo_uni|]. vm_compute. reflexivity. Qed.

Example ex17_amounts : validate_bitcoin_amount (PStr (lit "21000000.00000000")) = Ok tt
  /\ validate_bitcoin_amount (PStr (lit "21000000.00000001")) = Err ValueError
  /\ validate_positive_bitcoin_amount (PStr (lit "0.0")) = Err ValueError
  /\ validate_bitcoin_amount (PStr (lit "1e5")) = Err ValueError /\ validate_bitcoin_amount (PStr (lit ".")) = Err ValueError.
Proof. vm_compute. repeat split. Qed.

End WithEnv.
