(** C95: the texts of the refusals of basic.py. *)
From Coq Require Import String Floats.SpecFloat Lia.
From Verif Require Import PyBase Env PyNum Validate Basic Spec EnvOk ValidSpec Messages MessagesSpec Complaints ComplaintsSpec Answer BasicSays BasicSaysSpec Demo.
From Verif Require Import NumLemmas HexProofs Base58Proofs PrepProofs AmountProofs DesignProofs SignProofs DemoProofs C_Valid C_Messages C_Complaints C_Amount.
Open Scope Z_scope.

Section WithEnv.
Context {E : Env}.

Lemma same_string : forall repr v, validate_string v = outcome_of (string_check repr v).
Proof.
  intros repr v. unfold string_check. destruct v; cbn [validate_string validate_string_says]; try reflexivity;
    match goal with |- context [complain ?r ?e ?m ?x ?n ?l ?k] => destruct (proj1 (complain_iff r e m x n l k _) eq_refl) as (t & -> & _) end; reflexivity.
Qed.
Lemma same_hex : forall repr v name location kind, validate_hex v = outcome_of (validate_hex_says repr v name location kind).
Proof. intros. pose proof (proj1 (c72_same repr v name location kind)) as SH. destruct (validate_hex v) as [[]|], (validate_hex_says repr v name location kind) as [[? ?]|]; cbn in *; congruence. Qed.
Lemma same_length : forall repr v n, validate_hex_length v n = outcome_of (hex_length_check repr v (Z.of_nat n)).
Proof. intros. unfold hex_length_check. apply c94_same. Qed.
Lemma same_integer : forall repr v, validate_integer v = outcome_of (integer_check repr v).
Proof. intros. apply c94_same. Qed.
Lemma same_positive : forall repr v, validate_positive_integer v = outcome_of (positive_check repr v).
Proof. intros. apply c94_same. Qed.
Lemma same_whole : forall repr v, validate_whole_number v = outcome_of (whole_check repr v).
Proof. intros. apply c94_same. Qed.
Lemma same_domain : forall repr v lo hi, validate_integer_domain v lo hi = outcome_of (domain_check repr v lo hi).
Proof. intros. apply (c94_same repr v None PNone PNone). Qed.
Lemma same_check : forall {A} c (k : answer A) (v : res unit) (m : res A), v = outcome_of c -> (c = None -> m = unsaid k) -> bind v (fun _ => m) = unsaid (check c k).
Proof. intros A [[e t]|] k v m -> H; [reflexivity|]. cbn [outcome_of bind check]. now apply H. Qed.
Lemma same_bind : forall {A B} (a : answer A) (k : A -> answer B) (m : res A) (f : A -> res B), m = unsaid a -> (forall x, a = Gives x -> f x = unsaid (k x)) -> bind m f = unsaid (abind a k).
Proof. intros A B [x|e t] k m f -> H; [cbn [unsaid bind abind]; now apply H|reflexivity]. Qed.
Lemma string_checked : forall repr v, string_check repr v = None -> exists s, v = PStr s.
Proof. intros repr v H. pose proof (same_string repr v) as S. rewrite H in S. destruct v; try discriminate. eauto. Qed.
Lemma hex_checked : forall repr v, hex_check repr v = None -> exists bs, bytes bs /\ v = PStr (hex_of bs).
Proof.
  intros repr v H. pose proof (same_hex repr v None PNone (PStr (lit "hex"))) as S. unfold hex_check in H. rewrite H in S. destruct v; try discriminate.
  destruct (validate_hex_cases s) as [[(bs & B & ->) _]|[_ C]]; [eauto|]. cbn [outcome_of] in S. congruence.
Qed.

Lemma same_amount : forall repr v, validate_bitcoin_amount v = outcome_of (validate_bitcoin_amount_says repr v).
Proof.
  intros repr v. unfold validate_bitcoin_amount, validate_bitcoin_amount_says. rewrite (same_string repr v). destruct (string_check repr v) as [[e t]|] eqn:S; [reflexivity|].
  apply string_checked in S as (s & ->). cbn [outcome_of bind as_str]. cbv zeta. destruct (negb _); [reflexivity|]. destruct (negb (str_isdigit _)); [reflexivity|].
  destruct max_float as (fm & ->). destruct (count_char 46 s =? 1)%nat.
  - destruct (split_char 46 s) as [|x [|y l]]; [reflexivity|reflexivity|]. destruct (8 <? length y)%nat; [reflexivity|]. cbn [bind]. destruct (py_float_str s) as [f|e]; [|reflexivity]. cbn [bind].
    destruct (SFltb f _); [reflexivity|]. destruct (SFltb fm f); reflexivity.
  - cbn [bind]. destruct (py_float_str s) as [f|e]; [|reflexivity]. cbn [bind]. destruct (SFltb f _); [reflexivity|]. destruct (SFltb fm f); reflexivity.
Qed.
Lemma same_positive_amount : forall repr v, validate_positive_bitcoin_amount v = outcome_of (validate_positive_bitcoin_amount_says repr v).
Proof.
  intros repr v. unfold validate_positive_bitcoin_amount, validate_positive_bitcoin_amount_says. rewrite (same_string repr v). destruct (string_check repr v) as [[e t]|] eqn:S; [reflexivity|].
  apply string_checked in S as (s & ->). cbn [outcome_of bind as_str]. destruct (str_eqb _ _); [reflexivity|apply same_amount].
Qed.
Lemma same_satoshi : forall repr v, satoshi_to_bitcoin v = unsaid (satoshi_to_bitcoin_says repr v).
Proof. intros repr v. unfold satoshi_to_bitcoin, satoshi_to_bitcoin_says. cbv zeta. apply same_check; [apply same_domain|]. intros _. apply same_check; [apply same_amount|]. reflexivity. Qed.
Lemma same_int : forall repr b s, py_int_str b s = unsaid (int_text repr b s).
Proof. intros. unfold int_text. destruct (py_int_str b s); reflexivity. Qed.
Lemma same_bitcoin : forall repr v, bitcoin_to_satoshi v = unsaid (bitcoin_to_satoshi_says repr v).
Proof.
  intros repr v. unfold bitcoin_to_satoshi, bitcoin_to_satoshi_says. apply same_check; [apply same_amount|]. intros S.
  assert (X : exists s, v = PStr s). { unfold validate_bitcoin_amount_says in S. destruct (string_check repr v) eqn:Q; [discriminate|]. now apply string_checked in Q. }
  destruct X as (s & ->). cbn [as_str bind]. apply same_bind.
  - destruct (_ =? 0)%nat; [reflexivity|]. destruct (_ =? 1)%nat; [|reflexivity]. destruct (split_char 46 s) as [|? [|? [|? ?]]]; reflexivity.
  - intros x _. apply same_bind; [apply same_int|]. intros n _. apply same_check; [apply same_whole|reflexivity].
Qed.
Lemma same_eight : forall s, ensure_8_decimal_places s = unsaid (ensure_8_decimal_places_says s).
Proof. intros s. unfold ensure_8_decimal_places, ensure_8_decimal_places_says. cbv zeta. destruct (split_char 46 _) as [|? [|? ?]]; try reflexivity. destruct (8 <? _)%nat; reflexivity. Qed.
Lemma same_to_hex : forall repr v, int_to_hex v = unsaid (int_to_hex_says repr v).
Proof.
  intros repr v. unfold int_to_hex, int_to_hex_says. apply same_check; [apply same_integer|]. intros _. destruct (as_int v) as [z|]; [|reflexivity]. cbn [bind]. cbv zeta.
  destruct (skipn 2 (int_hex z)) as [|c r] eqn:S; [reflexivity|]. apply same_check; [apply same_hex|reflexivity].
Qed.
Lemma same_hex_len : forall repr v, hex_len v = unsaid (hex_len_says repr v).
Proof. intros repr v. unfold hex_len, hex_len_says. apply same_check; [apply same_hex|]. intros H. apply hex_checked in H as (bs & _ & ->). reflexivity. Qed.
Lemma same_pad : forall repr s k, pad_hex s k = unsaid (pad_hex_says repr (PStr s) (PInt (Z.of_nat k))).
Proof.
  intros repr s k. unfold pad_hex, pad_hex_says. apply same_check; [apply same_hex|]. intros _. cbn [check integer_check validate_integer_says as_int]. change (integer_check repr (PInt (Z.of_nat k))) with (@None (exn * pystr)). cbn [check].
  apply same_bind; [apply same_hex_len|]. intros n _. destruct (Nat.ltb_spec k n), (Z.ltb_spec (Z.of_nat k) (Z.of_nat n)); try lia; [reflexivity|]. cbv zeta. cbn [unsaid]. replace (Z.to_nat (Z.of_nat k - Z.of_nat n)) with (k - n)%nat by lia.
  destruct (Nat.ltb_spec 0 (k - n)), (Z.ltb_spec 0 (Z.of_nat k - Z.of_nat n)); try lia; reflexivity.
Qed.
Lemma same_pad_le : forall repr s k, pad_hex_le s k = unsaid (pad_hex_le_says repr (PStr s) (PInt (Z.of_nat k))).
Proof.
  intros repr s k. unfold pad_hex_le, pad_hex_le_says. apply same_check; [apply same_hex|]. intros _. change (integer_check repr (PInt (Z.of_nat k))) with (@None (exn * pystr)). cbn [check].
  apply same_bind; [apply same_hex_len|]. intros n _. cbn [as_int]. destruct (Nat.ltb_spec k n), (Z.ltb_spec (Z.of_nat k) (Z.of_nat n)); try lia; [reflexivity|]. cbv zeta. cbn [unsaid]. replace (Z.to_nat (Z.of_nat k - Z.of_nat n)) with (k - n)%nat by lia.
  destruct (Nat.ltb_spec 0 (k - n)), (Z.ltb_spec 0 (Z.of_nat k - Z.of_nat n)); try lia; reflexivity.
Qed.
Lemma same_count : forall repr v, int_to_var_int v = unsaid (int_to_var_int_says repr v).
Proof. intros repr v. unfold int_to_var_int, int_to_var_int_says. apply same_check; [apply same_domain|]. intros _. apply same_bind; [apply same_to_hex|]. intros x _. apply same_check; [apply same_hex|reflexivity]. Qed.
Lemma same_count_read : forall repr v, var_int_to_int v = unsaid (var_int_to_int_says repr v).
Proof.
  intros repr v. unfold var_int_to_int, var_int_to_int_says. apply same_check; [apply (same_length repr v 1)|]. intros H.
  assert (X : exists s, v = PStr s). { pose proof (same_length repr v 1) as S. change (Z.of_nat 1) with 1 in S. rewrite H in S. destruct v; try discriminate. eauto. }
  destruct X as (s & ->). cbn [as_str bind]. destruct (str_in s _); [reflexivity|]. apply same_bind; [apply same_int|]. intros n _. apply same_check; [apply same_domain|reflexivity].
Qed.
Lemma same_sum : forall s t, base58_sum s t = unsaid (base58_sum_says s t).
Proof. induction s as [|c s IH]; intros t; [reflexivity|]. cbn [base58_sum base58_sum_says]. destruct (find_index c base58_symbols 0); [apply IH|reflexivity]. Qed.
Lemma same_from58 : forall repr s, base58_to_int s = unsaid (base58_to_int_says repr s).
Proof. intros repr s. unfold base58_to_int, base58_to_int_says. apply same_bind; [apply same_sum|]. intros t _. apply same_check; [apply same_positive|reflexivity]. Qed.
Lemma same_sha : forall repr x, get_sha256 x = unsaid (get_sha256_says repr x).
Proof. intros repr x. unfold get_sha256, get_sha256_says. apply same_check; [apply same_hex|]. intros _. destruct (bytes_fromhex x); reflexivity. Qed.
Lemma same_checksum : forall repr x, get_double_sha256_checksum x = unsaid (get_double_sha256_checksum_says repr x).
Proof.
  intros repr x. unfold get_double_sha256_checksum, get_double_sha256, get_double_sha256_checksum_says. pose proof (same_sha repr x) as S. destruct (get_sha256_says repr x) as [y|e t]; rewrite S; [|reflexivity].
  cbn [unsaid bind abind]. pose proof (same_sha repr y) as S2. destruct (get_sha256_says repr y); rewrite S2; reflexivity.
Qed.
Lemma same_decode : forall repr v, base58check_to_hex v = unsaid (base58check_to_hex_says repr v).
Proof.
  intros repr v. unfold base58check_to_hex, base58check_to_hex_says. apply same_check; [apply same_string|]. intros H. apply string_checked in H as (s & ->). cbn [as_str bind]. cbv zeta.
  apply same_bind; [apply same_from58|]. intros n _. apply same_bind; [apply same_to_hex|]. intros x _. apply same_bind; [apply same_checksum|]. intros c _. destruct (negb _); reflexivity.
Qed.
Lemma same_address : forall repr v, bitcoin_address_to_public_key_hash_hex v = unsaid (bitcoin_address_to_public_key_hash_hex_says repr v).
Proof.
  intros repr v. unfold bitcoin_address_to_public_key_hash_hex, bitcoin_address_to_public_key_hash_hex_says. apply same_bind; [apply same_decode|]. intros x _. destruct (negb _); [reflexivity|]. cbv zeta.
  apply same_check; [apply (same_length repr _ 20)|reflexivity].
Qed.

(** C95.  Each function returns and raises exactly what its model without texts does (C02, C05, C06, C08-C10, C14-C17). *)
Lemma c95_same : forall repr v,
  validate_bitcoin_amount v = outcome_of (validate_bitcoin_amount_says repr v) /\
  validate_positive_bitcoin_amount v = outcome_of (validate_positive_bitcoin_amount_says repr v) /\
  satoshi_to_bitcoin v = unsaid (satoshi_to_bitcoin_says repr v) /\
  bitcoin_to_satoshi v = unsaid (bitcoin_to_satoshi_says repr v) /\
  (forall s, ensure_8_decimal_places s = unsaid (ensure_8_decimal_places_says s)) /\
  int_to_hex v = unsaid (int_to_hex_says repr v) /\
  (forall s k, pad_hex s k = unsaid (pad_hex_says repr (PStr s) (PInt (Z.of_nat k)))) /\
  (forall s k, pad_hex_le s k = unsaid (pad_hex_le_says repr (PStr s) (PInt (Z.of_nat k)))) /\
  int_to_var_int v = unsaid (int_to_var_int_says repr v) /\
  var_int_to_int v = unsaid (var_int_to_int_says repr v) /\
  base58check_to_hex v = unsaid (base58check_to_hex_says repr v) /\
  bitcoin_address_to_public_key_hash_hex v = unsaid (bitcoin_address_to_public_key_hash_hex_says repr v) /\
  validate_bitcoin_address v = outcome_of (validate_bitcoin_address_says repr v).
Proof.
  intros repr v. split; [apply same_amount|]. split; [apply same_positive_amount|]. split; [apply same_satoshi|]. split; [apply same_bitcoin|]. split; [apply same_eight|]. split; [apply same_to_hex|].
  split; [apply same_pad|]. split; [apply same_pad_le|]. split; [apply same_count|]. split; [apply same_count_read|]. split; [apply same_decode|]. split; [apply same_address|].
  unfold validate_bitcoin_address, validate_bitcoin_address_says. rewrite (same_address repr v). destruct (bitcoin_address_to_public_key_hash_hex_says repr v); reflexivity.
Qed.


(** ** Amounts *)
Lemma unicode_refused : UniOk E -> forall c, char_isdigit c = true -> to_ascii c = 63 -> c <> 46 /\ ~ decimal_char c.
Proof.
  intros HU c D A. split; [intros ->; discriminate|]. intros (d & R & X). apply (dec_char_digit HU) in X as (_ & _ & Q & _). unfold dchar in Q. lia.
Qed.
Lemma period_count : forall s, digits_and_period s -> (count_char 46 s <= 1)%nat /\ str_isdigit (remove_char 46 s) = true.
Proof.
  intros s ((k & D & L) & A & (c & I & C)). apply dots_count in D as <-. split; auto. apply str_isdigit_iff. split.
  - intros Q. assert (I2 : In c (remove_char 46 s)). { unfold remove_char. apply filter_In. split; auto. apply negb_true_iff, Z.eqb_neq. intros ->. unfold digit_char in C. lia. } rewrite Q in I2. destruct I2.
  - apply forallb_forall. intros x Ix. unfold remove_char in Ix. apply filter_In in Ix as [Ix N]. apply negb_true_iff, Z.eqb_neq in N. apply isdigit_iff. destruct (A x Ix); [congruence|auto].
Qed.
Lemma count_period : forall s, (count_char 46 s <= 1)%nat -> str_isdigit (remove_char 46 s) = true -> digits_and_period s.
Proof.
  intros s L D. apply str_isdigit_iff in D as [N F]. rewrite forallb_forall in F. split; [|split].
  - exists (count_char 46 s). split; auto. now apply dots_count.
  - intros c I. destruct (Z.eq_dec c 46) as [|NE]; auto. right. apply isdigit_iff, F. unfold remove_char. apply filter_In. split; auto. now apply negb_true_iff, Z.eqb_neq.
  - destruct (remove_char 46 s) as [|c r] eqn:Q; [congruence|]. exists c. split; [|apply isdigit_iff, F; now left]. assert (I : In c (remove_char 46 s)) by (rewrite Q; now left). unfold remove_char in I. now apply filter_In in I.
Qed.
Lemma amount_cases : UniOk E -> forall s, digits_and_period s ->
  (exists ip fp, numeral s ip fp) \/ (py_float_str s = Err ValueError /\ exists c, In c s /\ c <> 46 /\ ~ decimal_char c).
Proof.
  intros HU s H. apply period_count in H as [L SD]. destruct (count_char 46 s) as [|[|k]] eqn:C; [| |lia].
  - pose proof (count0 s C) as H. destruct (count_none s H) as [_ [C2 _]]. rewrite C2 in SD. apply str_isdigit_iff in SD as [Hn SD].
    destruct (run_cases HU s SD) as [[ds Hds]|[ds [a1 [c [a2 [-> [B1 [B2 B3]]]]]]]].
    + left. exists ds, []. left. repeat split; auto. intros ->. inversion Hds. subst. auto.
    + right. destruct (dec_run HU a1 ds B1) as [I1 [I2 [I3 _]]]. split.
      * assert (MA : map to_ascii (a1 ++ c :: a2) = map dchar ds ++ 63 :: map to_ascii a2) by (rewrite map_app; cbn [map]; rewrite I2, B2; auto).
        pose proof (py_float_okc _ _ MA) as PF. rewrite float_core_bad in PF by auto. rewrite <- MA in PF. exact (PF (okc_isdigit HU _ SD)).
      * apply forallb_app_iff in SD as [_ SD]. cbn [forallb] in SD. apply andb_prop in SD as [SD _]. exists c. split; [apply in_elt|]. now apply unicode_refused.
  - destruct (count1 s C) as [a [b [-> [Ha Hb]]]]. destruct (one_dot a b Ha Hb) as [_ [C2 C3]]. rewrite C2 in SD. apply str_isdigit_iff in SD as [Hn SD]. apply forallb_app_iff in SD as [Sa Sb].
    assert (OK : Forall okc (map to_ascii (a ++ [46] ++ b))).
    { rewrite !map_app. apply Forall_app. split; [apply (okc_isdigit HU); auto|]. apply Forall_app. split; [constructor; [cbv; lia|constructor]|apply (okc_isdigit HU); auto]. }
    destruct (run_cases HU a Sa) as [[ip Hip]|[ds [a1 [c [a2 [-> [B1 [B2 B3]]]]]]]].
    + destruct (run_cases HU b Sb) as [[fp Hfp]|[ds [a1 [c [a2 [-> [B1 [B2 B3]]]]]]]].
      * left. exists ip, fp. right. exists a, b. repeat split; auto. intros A. apply app_eq_nil in A. destruct A; subst. inversion Hip; inversion Hfp; subst. auto.
      * right. destruct (dec_run HU a ip Hip) as [I1 [I2 _]]. destruct (dec_run HU a1 ds B1) as [J1 [J2 _]]. split.
        -- assert (MA : map to_ascii (a ++ [46] ++ a1 ++ c :: a2) = map dchar ip ++ [46] ++ map dchar ds ++ 63 :: map to_ascii a2).
           { rewrite !map_app. cbn [map]. rewrite I2, J2, B2. reflexivity. }
           pose proof (py_float_okc _ _ MA) as PF. rewrite float_core_bad2 in PF by auto. rewrite <- MA in PF. apply PF; auto.
        -- apply forallb_app_iff in Sb as [_ SB]. cbn [forallb] in SB. apply andb_prop in SB as [SB _]. exists c. split; [rewrite app_assoc, app_assoc; apply in_elt|]. now apply unicode_refused.
    + right. destruct (dec_run HU a1 ds B1) as [I1 [I2 _]]. split.
      * assert (MA : map to_ascii ((a1 ++ c :: a2) ++ [46] ++ b) = map dchar ds ++ 63 :: map to_ascii (a2 ++ [46] ++ b)).
        { rewrite <- app_assoc, map_app. cbn [map app]. rewrite I2, B2. reflexivity. }
        pose proof (py_float_okc _ _ MA) as PF. rewrite float_core_bad in PF by auto. rewrite <- MA in PF. apply PF; auto.
      * apply forallb_app_iff in Sa as [_ SA]. cbn [forallb] in SA. apply andb_prop in SA as [SA _]. exists c. split; [rewrite <- app_assoc; apply in_elt|]. now apply unicode_refused.
Qed.
Lemma numeral_period : UniOk E -> forall s ip fp, numeral s ip fp -> digits_and_period s /\ (forall c, In c s -> c = 46 \/ decimal_char c) /\ (forall a b, s = a ++ [46] ++ b -> length b = length fp).
Proof.
  intros HU s ip fp N.
  assert (DR : forall a ds, Forall2 dec_char a ds -> forall c, In c a -> decimal_char c /\ digit_char c).
  { intros a ds F c I. induction F as [|x d a ds X F IH]; [destruct I|]. destruct I as [->|I]; [|auto]. destruct (dec_char_digit HU c d X) as (R & D & _). split; [exists d; auto|now apply isdigit_iff]. }
  destruct N as [[D [-> Hn]]|[a [b [-> [Da [Db Hn]]]]]].
  - destruct (dec_run HU s ip D) as (_ & _ & _ & ND & L). split; [|split].
    + split; [exists O; split; [now constructor|lia]|]. split; [intros c I; right; eapply DR; eauto|]. destruct D as [|c d s ds C D]; [congruence|]. exists c. split; [now left|]. eapply (DR (c :: s)); [constructor; eauto|now left].
    + intros c I. right. eapply DR; eauto.
    + intros a b ->. elim ND. apply in_elt.
  - destruct (dec_run HU a ip Da) as (_ & _ & _ & NA & LA). destruct (dec_run HU b fp Db) as (_ & _ & _ & NB & LB). split; [|split].
    + split; [exists 1%nat; split; [apply (a_dot 0); [auto|now constructor]|lia]|]. split.
      * intros c I. apply in_app_or in I as [I|[I|I]]; [right; exact (proj2 (DR a ip Da c I))|auto|right; exact (proj2 (DR b fp Db c I))].
      * destruct Da as [|c d a ds C Da]; [destruct Db as [|c d b ds C Db]; [elim Hn; reflexivity|]|].
        -- exists c. split; [right; now left|]. apply isdigit_iff. now apply (dec_char_digit HU) in C.
        -- exists c. split; [now left|]. apply isdigit_iff. now apply (dec_char_digit HU) in C.
    + intros c I. apply in_app_or in I as [I|[I|I]]; [right; exact (proj1 (DR a ip Da c I))|auto|right; exact (proj1 (DR b fp Db c I))].
    + intros a' b' Q. destruct (in_dec Z.eq_dec 46 a') as [I|N].
      * exfalso. apply in_split in I as (x & y & ->). assert (CC : count_char 46 (a ++ [46] ++ b) = 1%nat) by (apply one_dot; auto). rewrite Q in CC. unfold count_char in CC. rewrite !filter_app in CC. cbn [filter Z.eqb Pos.eqb app] in CC. rewrite !app_length in CC. cbn [length] in CC. rewrite ?app_length in CC. cbn [length] in CC. lia.
      * apply dot_unique in Q as [-> ->]; auto.
Qed.
Lemma numeral_float : UniOk E -> forall s ip fp fm, numeral s ip fp -> (length fp <= 8)%nat -> py_float_int max_amount = Ok fm ->
  exists f, py_float_str s = Ok f /\ SFltb f (S754_zero false) = false /\ (SFltb fm f = true <-> 21000000 * 10 ^ 8 < val 10 (ip ++ fp) * 10 ^ (8 - Z.of_nat (length fp))).
Proof.
  intros HU s ip fp fm N L Hfm. pose proof (sat_value ip fp L) as SV. unfold in_range in SV.
  destruct N as [[D [-> Hn]]|[a [b [-> [Da [Db Hn]]]]]].
  - destruct (dec_run HU s ip D) as [I1 [I2 [I3 [I4 I5]]]]. assert (OK : Forall okc (map dchar ip)) by (rewrite <- I2; apply (okc_isdigit HU); auto).
    pose proof (py_float_okc s _ I2 OK) as PF. rewrite float_core_int in PF by auto. pose proof (val_bounds 10 ip ltac:(lia) I1) as VB.
    destruct (FloatProofs.amount_compare (val 10 ip) 0 fm ltac:(lia) ltac:(lia) Hfm) as [A1 A2]. change (- (0)) with 0 in A1, A2. eexists. split; [exact PF|]. split; [exact A2|]. rewrite A1.
    rewrite app_nil_r in *. cbn [length Z.of_nat] in *. rewrite Z.pow_0_r, Z.mul_1_r in *. rewrite Z.ltb_lt. change (21000000 * 10 ^ 8) with 2100000000000000. lia.
  - destruct (dec_run HU a ip Da) as [I1 [I2 [I3 [I4 I5]]]]. destruct (dec_run HU b fp Db) as [J1 [J2 [J3 [J4 J5]]]].
    assert (MA : map to_ascii (a ++ [46] ++ b) = map dchar ip ++ [46] ++ map dchar fp) by (rewrite !map_app, I2, J2; reflexivity).
    assert (OK : Forall okc (map dchar ip ++ [46] ++ map dchar fp)).
    { rewrite <- I2, <- J2. apply Forall_app. split; [apply (okc_isdigit HU); auto|]. constructor; [unfold okc; lia|apply (okc_isdigit HU); auto]. }
    pose proof (py_float_okc _ _ MA OK) as PF. rewrite float_core_dot in PF by auto. assert (DV : digits_in 10 (ip ++ fp)) by (apply Forall_app; auto).
    pose proof (val_bounds 10 (ip ++ fp) ltac:(lia) DV) as VB. destruct (FloatProofs.amount_compare (val 10 (ip ++ fp)) (Z.of_nat (length fp)) fm ltac:(lia) ltac:(lia) Hfm) as [A1 A2].
    eexists. split; [exact PF|]. split; [exact A2|]. rewrite A1, Z.ltb_lt. change (21000000 * 10 ^ 8) with 2100000000000000. lia.
Qed.
Lemma places_of : forall s, digits_and_period s -> (if Nat.eqb (count_char 46 s) 1 then match split_char 46 s with | _ :: s3 :: _ => if Nat.ltb 8 (length s3) then Some (ValueError, lit "Amount (" ++ s ++ lit ") has " ++ int_str (Z.of_nat (length s3)) ++ lit " decimal places. It can have at most 8 decimal places.") else None | _ => Some (IndexError, lit "list index out of range") end else None) = None
  <-> (forall a b, s = a ++ [46] ++ b -> (length b <= 8)%nat).
Proof.
  intros s H. apply period_count in H as [L _]. destruct (Nat.eqb_spec (count_char 46 s) 1) as [C1|C1].
  - destruct (count1 s C1) as (a & b & -> & NA & NB). destruct (one_dot a b NA NB) as (_ & _ & ->). destruct (Nat.ltb_spec 8 (length b)) as [G|G].
    + split; [discriminate|]. intros H. specialize (H a b eq_refl). lia.
    + split; auto. intros _ a' b' Q. destruct (in_dec Z.eq_dec 46 a') as [I|N].
      * exfalso. apply in_split in I as (x & y & ->). rewrite Q in C1. unfold count_char in C1. rewrite !filter_app in C1. cbn [filter Z.eqb Pos.eqb app] in C1. rewrite !app_length in C1. cbn [length] in C1. rewrite ?app_length in C1. cbn [length] in C1. lia.
      * apply dot_unique in Q as [-> ->]; auto.
  - split; auto. intros _ a b ->. exfalso. assert (C0 : count_char 46 (a ++ [46] ++ b) = 0%nat) by lia. apply count0 in C0. apply C0. apply in_elt.
Qed.
Lemma by_sound : forall (R : finding -> Prop) repr value name location kind says,
  (exists f, R f) -> (forall f, R f -> reported repr value name location kind f says) ->
  forall r, says = r <-> exists f, R f /\ reported repr value name location kind f r.
Proof. intros R repr value name location kind says (f & T) S r. split; [intros <-; eauto|]. intros (g & G & RP). eapply reported_fun; eauto. Qed.
Lemma told_string : forall repr v t, (forall s, v <> PStr s) -> type_called v t -> reported repr v None PNone (PStr (lit "string")) (Wrong TypeError (lit "which has type '" ++ lit t ++ lit "', not 'str'.")) (string_check repr v).
Proof. intros repr v t N T. apply type_name_iff in T. rewrite T. unfold string_check, validate_string_says. destruct v as [| | | |s| |]; try apply complain_wrong. elim (N s eq_refl). Qed.
Lemma string_refused : forall repr v, (forall s, v <> PStr s) -> exists e t, string_check repr v = Some (e, t).
Proof. intros repr v N. destruct (type_called_total v) as (t & T & _). pose proof (told_string repr v t N T) as R. inversion R; subst. eauto. Qed.
Lemma digits_period_dec : forall s, digits_and_period s \/ ~ digits_and_period s.
Proof.
  intros s. destruct (le_lt_dec (count_char 46 s) 1) as [L|L].
  - destruct (str_isdigit (remove_char 46 s)) eqn:D; [left; now apply count_period|]. right. intros H. apply period_count in H as [_ H]. congruence.
  - right. intros H. apply period_count in H as [H _]. lia.
Qed.
Lemma places_dec : forall s, digits_and_period s -> (forall a b, s = a ++ [46] ++ b -> (length b <= 8)%nat) \/ exists a b, s = a ++ [46] ++ b /\ (8 < length b)%nat.
Proof.
  intros s H. destruct (places_of s H) as [A _]. apply period_count in H as [L _]. destruct (Nat.eqb_spec (count_char 46 s) 1) as [C1|C1]; [|left; now apply A].
  destruct (count1 s C1) as (a & b & -> & NA & NB). destruct (one_dot a b NA NB) as (_ & _ & Q). rewrite Q in A. destruct (Nat.ltb_spec 8 (length b)) as [G|G]; [right; eauto|left; now apply A].
Qed.
Lemma amount_total : UniOk E -> forall repr v, exists f, amount repr v f.
Proof.
  intros HU repr v. assert (X : (exists s, v = PStr s) \/ forall s, v <> PStr s) by (destruct v; try (right; discriminate); eauto). destruct X as [(s & ->)|N].
  2: { destruct (type_called_total v) as (t & T & _). eexists. eapply amount_type; eauto. }
  destruct (digits_period_dec s) as [D|D].
  - destruct (places_dec s D) as [P|(a & b & -> & P)]; [|eexists; eapply amount_places; eauto].
    destruct (amount_cases HU s D) as [(ip & fp & M)|(_ & c & I & N & DC)]; [|eexists; eapply amount_digits; eauto].
    assert (L : (length fp <= 8)%nat). { destruct M as [[? [-> ?]]|[a [b [-> [Da [Db Hn]]]]]]; [cbn; lia|]. destruct (dec_run HU b fp Db) as (_ & _ & _ & _ & LB). rewrite <- LB || rewrite LB. now apply (P a b). }
    assert (A : amount_of s (val 10 (ip ++ fp) * 10 ^ (8 - Z.of_nat (length fp)))) by (exists ip, fp; auto).
    destruct (Z_le_gt_dec (val 10 (ip ++ fp) * 10 ^ (8 - Z.of_nat (length fp))) (21000000 * 10 ^ 8)); [eexists; eapply amount_fine; eauto|eexists; eapply amount_large; eauto; lia].
  - destruct (le_lt_dec (count_char 46 s) 1) as [L|L]; [eexists; eapply amount_chars; eauto; now apply dots_count|eexists; eapply amount_periods; eauto; now apply dots_count].
Qed.
Lemma amount_sound : UniOk E -> forall repr v f, amount repr v f -> reported repr v None PNone (PStr (lit "string")) f (validate_bitcoin_amount_says repr v).
Proof.
  intros HU repr v f H. destruct max_float as (fm & FM).
  assert (OK : forall s, digits_and_period s -> (forall a b, s = a ++ [46] ++ b -> (length b <= 8)%nat) -> validate_bitcoin_amount_says repr (PStr s) =
    match py_float_str s with
    | Ok f => if SFltb f (S754_zero false) then Some (ValueError, lit "The minimum possible amount is 0.00000000. Amount: " ++ s) else if SFltb fm f then Some (ValueError, lit "The maximum possible amount is 21000000.00000000. Amount: " ++ s) else None
    | Err e => Some (e, lit "could not convert string to float: " ++ repr (PStr s))
    end).
  { intros s D P. unfold validate_bitcoin_amount_says. cbn [string_check validate_string_says]. cbv zeta. rewrite (proj2 (places_of s D) P), FM. apply period_count in D as [L SD]. rewrite SD.
    replace (Nat.eqb (count_char 46 s) 0 || Nat.eqb (count_char 46 s) 1) with true by (destruct (count_char 46 s) as [|[|]]; [reflexivity|reflexivity|lia]). cbn [negb]. reflexivity. }
  assert (OK2 : forall s n, amount_of s n -> exists f, py_float_str s = Ok f /\ SFltb f (S754_zero false) = false /\ (SFltb fm f = true <-> 21000000 * 10 ^ 8 < n) /\ digits_and_period s /\ (forall a b, s = a ++ [46] ++ b -> (length b <= 8)%nat)).
  { intros s n (ip & fp & N & L & ->). destruct (numeral_period HU s ip fp N) as (D & _ & P). destruct (numeral_float HU s ip fp fm N L FM) as (f0 & A & B & C). exists f0. repeat (split; auto); try (apply C); try (now apply D). intros a b Q. rewrite (P a b Q). exact L. }
  destruct H as [t N T|s k -> D K|s k -> D K N|a b -> D L|s c -> D P I N DC|s n -> A L|s n -> A L].
  - pose proof (told_string repr v t N T) as R. unfold validate_bitcoin_amount_says. destruct (string_refused repr v N) as (e & x & Q). rewrite Q in *. exact R.
  - apply dots_count in D. unfold validate_bitcoin_amount_says. cbn [string_check validate_string_says]. cbv zeta. rewrite D. replace (Nat.eqb k 0 || Nat.eqb k 1) with false by (destruct k as [|[|]]; [lia|lia|reflexivity]). constructor.
  - apply dots_count in D. unfold validate_bitcoin_amount_says. cbn [string_check validate_string_says]. cbv zeta. rewrite D. replace (Nat.eqb k 0 || Nat.eqb k 1) with true by (destruct k as [|[|]]; [reflexivity|reflexivity|lia]). cbn [negb].
    destruct (str_isdigit (remove_char 46 s)) eqn:SD; [elim N; apply count_period; [lia|auto]|]. constructor.
  - destruct (period_count _ D) as [C SD]. unfold validate_bitcoin_amount_says. cbn [string_check validate_string_says]. cbv zeta. rewrite SD.
    assert (C1 : count_char 46 (a ++ [46] ++ b) = 1%nat). { assert (count_char 46 (a ++ [46] ++ b) <> 0%nat); [|lia]. intros Q. apply count0 in Q. apply Q, in_elt. }
    destruct (count1 _ C1) as (a' & b' & Q & NA & NB).
    assert (AB : a' = a /\ b' = b). { destruct (in_dec Z.eq_dec 46 a) as [I|I]; [|destruct (dot_unique _ _ _ _ NA I (eq_sym Q)); auto]. exfalso. apply in_split in I as (x & y & ->). unfold count_char in C1. rewrite !filter_app in C1. cbn [filter Z.eqb Pos.eqb app] in C1. rewrite !app_length in C1. cbn [length] in C1. rewrite ?app_length in C1. cbn [length] in C1. lia. }
    destruct AB as [-> ->]. destruct (one_dot a b NA NB) as (_ & _ & SP). rewrite C1, SP. cbn [Nat.eqb orb negb]. destruct (Nat.ltb_spec 8 (length b)); [|lia]. rewrite <- !app_assoc. constructor.
  - rewrite (OK s D P). destruct (amount_cases HU s D) as [(ip & fp & M)|(-> & _)]; [|constructor]. exfalso. destruct (numeral_period HU s ip fp M) as (_ & DD & _). destruct (DD c I); auto.
  - destruct (OK2 s n A) as (g & G1 & G2 & G3 & D & P). rewrite (OK s D P), G1, G2, (proj2 G3 L). constructor.
  - destruct (OK2 s n A) as (g & G1 & G2 & G3 & D & P). rewrite (OK s D P), G1, G2. destruct (SFltb fm g); [|constructor]. pose proof (proj1 G3 eq_refl). lia.
Qed.
Lemma zero_text_iff : forall s, str_eqb (remove_char 48 (remove_char 46 s)) [] = true <-> zero_text s.
Proof.
  intros s. rewrite str_eqb_eq. unfold remove_char, zero_text. induction s as [|c s IH]; cbn [filter]; [split; [intros _ ? []|auto]|].
  destruct (Z.eqb_spec c 46) as [->|N46].
  - cbn [negb]. rewrite IH. split; [intros H x [<-|I]; auto|intros H x I; apply H; now right].
  - cbn [negb filter]. destruct (Z.eqb_spec c 48) as [->|N48]; cbn [negb]; [rewrite IH; split; [intros H x [<-|I]; auto|intros H x I; apply H; now right]|].
    split; [intros H; discriminate H|]. intros H. destruct (H c (or_introl eq_refl)); congruence.
Qed.
(** C95.  validate_bitcoin_amount and validate_positive_bitcoin_amount. *)
Lemma c95_amounts : UniOk E -> forall repr v r,
  (validate_bitcoin_amount_says repr v = r <-> exists f, amount repr v f /\ reported repr v None PNone (PStr (lit "string")) f r) /\
  (validate_positive_bitcoin_amount_says repr v = r <-> exists f, positive_amount repr v f /\ reported repr v None PNone (PStr (lit "string")) f r).
Proof.
  intros HU repr v r. split; [apply by_sound; [apply (amount_total HU)|apply (amount_sound HU)]|]. apply by_sound.
  - destruct (amount_total HU repr v) as (f & A). assert (X : (exists s, v = PStr s) \/ forall s, v <> PStr s) by (destruct v; try (right; discriminate); eauto). destruct X as [(s & ->)|N].
    + destruct (zero_text_dec s) as [Z|Z]; [eexists; eapply positive_amount_zero; eauto|exists f; apply positive_amount_other; auto]. intros s' Q. now injection Q as <-.
    + exists f. apply positive_amount_other; auto. intros s Q. elim (N s Q).
  - intros f [s -> Z|g N A].
    + unfold validate_positive_bitcoin_amount_says. cbn [string_check validate_string_says]. rewrite (proj2 (zero_text_iff s) Z). constructor.
    + pose proof (amount_sound HU repr v g A) as R. unfold validate_positive_bitcoin_amount_says. assert (X : (exists s, v = PStr s) \/ forall s, v <> PStr s) by (destruct v; try (right; discriminate); eauto). destruct X as [(s & ->)|NS].
      * cbn [string_check validate_string_says]. destruct (str_eqb (remove_char 48 (remove_char 46 s)) []) eqn:Z; [apply zero_text_iff in Z; elim (N s eq_refl Z)|exact R].
      * unfold validate_bitcoin_amount_says in R. destruct (string_refused repr v NS) as (e & t & Q). rewrite Q in *. exact R.
Qed.
Lemma by_answer : forall {A} (R : answer A -> Prop) m, (exists r, R r) -> (forall r, R r -> m = r) -> forall r, m = r <-> R r.
Proof. intros A R m (r & T) S q. split; [intros <-|auto]. now rewrite (S r T). Qed.
Lemma unsaid_ok : forall {A} (m : answer A) (k : res A) x, k = unsaid m -> k = Ok x -> m = Gives x.
Proof. intros A [y|e t] k x -> H; cbn [unsaid] in H; congruence. Qed.
Lemma outcome_ok : forall (c : option (exn * pystr)) v, v = outcome_of c -> v = Ok tt -> c = None.
Proof. intros [[e t]|] v -> H; cbn [outcome_of] in H; congruence. Qed.
Lemma domain_told : forall repr v lo hi x f e text, in_domain repr v (PInt lo) (PInt hi) x f -> told repr x "integer" f e text -> domain_check repr v lo hi = Some (e, text).
Proof. intros repr v lo hi x f e text I T. unfold domain_check. apply c94_domain. eauto. Qed.
Lemma domain_passed : forall repr v lo hi, (exists x f e text, in_domain repr v (PInt lo) (PInt hi) x f /\ told repr x "integer" f e text) \/ (domain_check repr v lo hi = None /\ exists n, int_value v n /\ lo <= n <= hi).
Proof.
  intros repr v lo hi. destruct (proj1 (c94_domain repr v (PInt lo) (PInt hi) _) eq_refl) as (x & f & I & R). destruct (validate_integer_domain_says repr v (PInt lo) (PInt hi)) as [[e t]|] eqn:Q.
  - left. exists x, f, e, t. auto.
  - right. split; [exact Q|]. inversion R; subst. inversion I as [| |n a b V L H B| |]; subst. exists n. split; auto. inversion L; inversion H; subst. exact B.
Qed.

(** C95.  satoshi_to_bitcoin. *)
Lemma c95_satoshi_to_bitcoin : UniOk E -> forall repr v r, satoshi_to_bitcoin_says repr v = r <-> to_bitcoin repr v r.
Proof.
  intros HU repr v. apply by_answer.
  - destruct (domain_passed repr v 0 (21000000 * 10 ^ 8)) as [(x & f & e & t & I & T)|(_ & n & I & B)]; [eexists; eapply to_bitcoin_refused; eauto|]. destruct I as [n| |].
    + destruct (satoshi_to_bitcoin_ok HU n ltac:(lia)) as (s & _ & T). eexists. eapply to_bitcoin_given; eauto.
    + eexists. now apply to_bitcoin_true.
    + eexists. now apply to_bitcoin_false.
  - intros r [n s -> B T|x f e t I T| ->| ->].
    + eapply unsaid_ok; [apply same_satoshi|]. apply (satoshi_to_bitcoin_iff HU). exists n. auto.
    + unfold satoshi_to_bitcoin_says. change max_amount_satoshi with (21000000 * 10 ^ 8). rewrite (domain_told _ _ _ _ _ _ _ _ I T). reflexivity.
    + reflexivity.
    + reflexivity.
Qed.
Lemma amount_said : UniOk E -> forall repr v f e text, amount repr v f -> told repr v "string" f e text -> validate_bitcoin_amount_says repr v = Some (e, text).
Proof. intros HU repr v f e text A T. eapply reported_fun; [apply (amount_sound HU); eauto|exact T]. Qed.
Lemma zero_amount : UniOk E -> forall s n, amount_of s n -> zero_text s -> n = 0.
Proof. intros HU s n A Z. apply (c17_validate_amount HU) in A as Q; [now apply Q|]. apply Forall_forall. intros c I. destruct (Z c I); lia. Qed.
(** C95.  bitcoin_to_satoshi. *)
Lemma c95_bitcoin_to_satoshi : UniOk E -> forall repr v r, bitcoin_to_satoshi_says repr v = r <-> to_satoshi repr v r.
Proof.
  intros HU repr v. apply by_answer.
  - destruct (amount_total HU repr v) as (f & A). pose proof (amount_sound HU repr v f A) as R. destruct (validate_bitcoin_amount_says repr v) as [[e t]|]; [eexists; eapply to_satoshi_refused; eauto|].
    inversion R; subst. inversion A as [| | | | | |s n -> AM L]; subst. destruct (zero_text_dec s); eexists; [eapply to_satoshi_zero|eapply to_satoshi_given]; eauto.
  - intros r [s n -> A L Z|s n -> A Z|f e t A T].
    + eapply unsaid_ok; [apply same_bitcoin|]. apply (bitcoin_to_satoshi_iff HU). split; auto.
    + pose proof (zero_amount HU s n A Z) as ->. unfold bitcoin_to_satoshi_says. assert (V : validate_bitcoin_amount_says repr (PStr s) = None). { eapply outcome_ok; [apply same_amount|]. apply (validate_amount_iff HU). exists 0. split; [auto|lia]. }
      rewrite V. cbn [check]. destruct A as (ip & fp & N & L & _). destruct (numeral_period HU s ip fp N) as (D & _ & _). apply period_count in D as [C _].
      assert (X : forall o, (forall c, In c o -> c = 48) -> abind (int_text repr 10 (lstrip 48 o)) (fun n => check (whole_check repr (PInt n)) (Gives n)) = Says ValueError (lit "invalid literal for int() with base 10: " ++ repr (PStr []))).
      { intros o H. apply lstrip_nil in H. rewrite H. unfold int_text. rewrite py_int_str_empty. reflexivity. }
      destruct (count_char 46 s) as [|[|]] eqn:Q; [| |lia]; cbn [Nat.eqb].
      * cbn [abind]. apply X. intros c I. apply in_app_or in I as [I|I]; [|now apply (rep_zero_in 8)]. destruct (Z c I) as [|E1]; auto. subst. elim (count0 s Q I).
      * destruct (count1 s Q) as (a & b & -> & NA & NB). destruct (one_dot a b NA NB) as (_ & -> & ->). cbn [abind]. apply X. intros c I. apply in_app_or in I as [I|I]; [|now apply (rep_zero_in _ c I)].
        destruct (Z c) as [|E1]; auto; [apply in_app_or in I as [I|I]; apply in_or_app; [now left|right; now right]|]. subst. apply in_app_or in I as [I|I]; contradiction.
    + unfold bitcoin_to_satoshi_says. rewrite (amount_said HU _ _ _ _ _ A T). reflexivity.
Qed.
Lemma first_dot : forall s, In 46 s -> exists a r, s = a ++ [46] ++ r /\ ~ In 46 a.
Proof.
  induction s as [|c s IH]; intros H; [destruct H|]. destruct (Z.eq_dec c 46) as [->|N]; [exists [], s; auto|]. destruct H as [H|H]; [congruence|]. destruct (IH H) as (a & r & -> & A). exists (c :: a), r. split; auto. intros [|]; auto.
Qed.
(** C95.  ensure_8_decimal_places. *)
Lemma c95_ensure_8_decimal_places : forall s r, ensure_8_decimal_places_says s = r <-> eight_places s r.
Proof.
  intros s. apply by_answer.
  - destruct (in_dec Z.eq_dec 46 s) as [I|N]; [|eexists; now apply eight_none]. destruct (first_dot s I) as (a & r & -> & A).
    assert (X : exists b rest, r = b ++ rest /\ ~ In 46 b /\ (rest = [] \/ exists r', rest = [46] ++ r')).
    { destruct (in_dec Z.eq_dec 46 r) as [I2|N2]; [destruct (first_dot r I2) as (b & r' & -> & B); exists b, ([46] ++ r'); eauto|exists r, []; rewrite app_nil_r; auto]. }
    destruct X as (b & rest & -> & B & R). destruct (le_lt_dec (length b) 8); eexists; [eapply eight_filled|eapply eight_over]; eauto.
  - assert (X : forall a b rest, ~ In 46 a -> ~ In 46 b -> (rest = [] \/ exists r, rest = [46] ++ r) -> count_char 46 (a ++ [46] ++ b ++ rest) <> 0%nat /\ exists l, split_char 46 (a ++ [46] ++ b ++ rest) = a :: b :: l).
    { intros a b rest A B R. split; [intros Q; apply count0 in Q; apply Q, in_elt|]. rewrite (split_dot a _ A). destruct R as [->|(r & ->)]; [rewrite app_nil_r; destruct (count_none b B) as (_ & _ & ->); eauto|rewrite (split_dot b r B); eauto]. }
    intros r [N|a b rest -> A B R L|a b rest -> A B R L]; unfold ensure_8_decimal_places_says; cbv zeta.
    + destruct (count_none s N) as (-> & _ & _). cbn [Nat.eqb]. change (s ++ lit ".") with (s ++ [46] ++ []). rewrite (split_dot s [] N). cbn [split_char length Nat.ltb Nat.leb Nat.sub]. rewrite <- app_assoc. reflexivity.
    + destruct (X a b rest A B R) as (C & l & SP). destruct (Nat.eqb_spec (count_char 46 (a ++ [46] ++ b ++ rest)) 0); [contradiction|]. rewrite SP. destruct (Nat.ltb_spec 8 (length b)); [lia|]. do 2 f_equal. generalize (8 - length b)%nat. induction n0; [reflexivity|]. unfold rep_str in *. cbn [repeat concat]. rewrite IHn0. reflexivity.
    + destruct (X a b rest A B R) as (C & l & SP). destruct (Nat.eqb_spec (count_char 46 (a ++ [46] ++ b ++ rest)) 0); [contradiction|]. rewrite SP. destruct (Nat.ltb_spec 8 (length b)); [|lia]. reflexivity.
Qed.

(** ** Hex *)
Lemma hex_told : forall repr x f e text, hexadecimal x f -> told repr x "hex" f e text -> hex_check repr x = Some (e, text).
Proof. intros repr x f e text H T. destruct (hexadecimal_report repr x None PNone (PStr (lit "hex"))) as (g & G & R). rewrite (hexadecimal_fun _ _ _ H G) in T. eapply reported_fun; eauto. Qed.
Lemma hex_reported : forall repr x, (exists f e text, hexadecimal x f /\ told repr x "hex" f e text) \/ (hex_check repr x = None /\ exists bs, bytes bs /\ x = PStr (hex_of bs)).
Proof.
  intros repr x. destruct (hexadecimal_report repr x None PNone (PStr (lit "hex"))) as (g & G & R). fold (hex_check repr x) in R. destruct (hex_check repr x) as [[e t]|] eqn:Q; [left; exists g, e, t; auto|right; split; auto]. now apply hex_checked in Q.
Qed.
Lemma integer_told : forall repr v f e text, of_type "int" (fun v => exists n, int_value v n) v f -> told repr v "integer" f e text -> integer_check repr v = Some (e, text).
Proof. intros repr v f e text H T. unfold integer_check. apply c94_types. eauto. Qed.
Lemma integer_reported : forall repr v, (exists f e text, of_type "int" (fun v => exists n, int_value v n) v f /\ told repr v "integer" f e text) \/ (integer_check repr v = None /\ exists n, int_value v n).
Proof.
  intros repr v. destruct (proj1 (proj1 (c94_types repr v None PNone (PStr (lit "integer")) _)) eq_refl) as (f & F & R). fold (integer_check repr v) in R. destruct (integer_check repr v) as [[e t]|]; [left; exists f, e, t; auto|].
  right. split; auto. inversion R; subst. inversion F; auto.
Qed.
Lemma integer_fine : forall repr v n, int_value v n -> integer_check repr v = None /\ as_int v = Some n.
Proof. intros repr v n H. destruct H; split; reflexivity. Qed.
Lemma digit_chars : forall ds, digits_in 16 ds -> map Spec.hex_char ds = map PyBase.digit_char ds.
Proof. induction 1 as [|d ds D F IH]; [reflexivity|]. cbn [map]. rewrite IH, hex_char_digit; auto. Qed.
Lemma negative_hex : forall repr v n ds, int_value v n -> n < 0 -> digits_in 16 ds -> no_lead0 ds -> val 16 ds = - n ->
  let x := (if Nat.odd (length ds) then [] else [48]) ++ [120] ++ map Spec.hex_char ds in int_to_hex_says repr v = check (hex_check repr (PStr x)) (Gives x).
Proof.
  intros repr v n ds I N D L V x. destruct (integer_fine repr v n I) as [C A]. unfold int_to_hex_says. rewrite C, A. cbn [check]. cbv zeta. unfold int_hex. destruct (Z.ltb_spec n 0); [|lia].
  destruct (nat_text16 (- n) ltac:(lia)) as (ds' & -> & Hd & Hne & Hv & Hl).
  assert (DD : ds' = ds). { apply (val_inj_lead 16); try lia; auto. destruct Hl as [->|]; auto. exfalso. cbn in Hv. lia. } subst ds'.
  change (skipn 2 (lit "-0x" ++ map PyBase.digit_char ds)) with (120 :: map PyBase.digit_char ds). cbv iota.
  destruct (last (120 :: map PyBase.digit_char ds) 0 =? 76) eqn:EL.
  { exfalso. destruct ds as [|d r]; [contradiction|]. change (last (120 :: map PyBase.digit_char (d :: r)) 0) with (last (map PyBase.digit_char (d :: r)) 0) in EL. rewrite last_digit_char in EL by assumption. discriminate. }
  assert (Q : (if Nat.eqb (Nat.modulo (length (120 :: map PyBase.digit_char ds)) 2) 1 then 48 :: 120 :: map PyBase.digit_char ds else 120 :: map PyBase.digit_char ds) = x).
  { unfold x. rewrite (digit_chars ds D). cbn [length]. rewrite map_length. destruct (Nat.odd (length ds)) eqn:O.
    - apply Nat.odd_spec in O as (m & M). replace (Nat.modulo (S (length ds)) 2) with 0%nat; [reflexivity|]. rewrite M. replace (S (2 * m + 1)) with ((m + 1) * 2)%nat by lia. now rewrite Nat.mod_mul.
    - rewrite <- Nat.negb_even in O. apply negb_false_iff, Nat.even_spec in O as (m & M). replace (Nat.modulo (S (length ds)) 2) with 1%nat; [reflexivity|]. rewrite M. replace (S (2 * m)) with (1 + m * 2)%nat by lia. rewrite Nat.mod_add; [reflexivity|lia]. }
  rewrite Q. reflexivity.
Qed.
(** C95.  int_to_hex. *)
Lemma c95_int_to_hex : forall repr v r, int_to_hex_says repr v = r <-> to_hex repr v r.
Proof.
  intros repr v. apply by_answer.
  - destruct (integer_reported repr v) as [(f & e & t & F & T)|(_ & n & I)]; [eexists; eapply to_hex_type; eauto|]. destruct (Z_lt_le_dec n 0) as [N|N].
    + destruct (nat_text16 (- n) ltac:(lia)) as (ds & _ & Hd & Hne & Hv & Hl). assert (L : no_lead0 ds) by (destruct Hl as [->|]; auto; cbn in Hv; exfalso; lia).
      set (x := (if Nat.odd (length ds) then [] else [48]) ++ [120] ++ map Spec.hex_char ds). destruct (hex_reported repr (PStr x)) as [(f & e & t & H & T)|(H & bs & B & Q)]; [eexists; eapply to_hex_negative; eauto; reflexivity|].
      exfalso. injection Q as Q. pose proof (hex_chars bs B) as F. rewrite <- Q in F. rewrite forallb_forall in F. specialize (F 120). assert (X : In 120 x) by (unfold x; apply in_or_app; right; now left). specialize (F X). vm_compute in F. discriminate F.
    + eexists. eapply (to_hex_given repr v n (be_bytes n)); auto; [apply be_bytes_bytes|now apply be_bytes_minimal|now apply be_bytes_val].
  - intros r [n bs I N B M V|n ds x f e t I N D L V -> H T|f e t F T].
    + eapply unsaid_ok; [apply same_to_hex|]. destruct (integer_fine repr v n I) as [_ A]. rewrite (int_to_hex_as_int v n A), (int_to_hex_ok n N). now rewrite <- V, be_bytes_unique.
    + rewrite (negative_hex repr v n ds I N D L V), (hex_told _ _ _ _ _ H T). reflexivity.
    + unfold int_to_hex_says. rewrite (integer_told _ _ _ _ _ F T). reflexivity.
Qed.
Lemma hex_fine_check : forall repr bs, bytes bs -> hex_check repr (PStr (hex_of bs)) = None.
Proof. intros repr bs B. eapply outcome_ok; [apply (same_hex repr _ None PNone (PStr (lit "hex")))|]. now apply validate_hex_ok. Qed.
Lemma hexadecimal_bytes : forall x, hexadecimal x Fine -> exists bs, bytes bs /\ x = PStr (hex_of bs).
Proof.
  intros x H. destruct (hex_reported (fun _ => []) x) as [(f & e & t & F & T)|(_ & X)]; auto. rewrite (hexadecimal_fun _ _ _ F H) in T. inversion T.
Qed.
Lemma hexadecimal_of : forall bs, bytes bs -> hexadecimal (PStr (hex_of bs)) Fine.
Proof.
  intros bs B. destruct (hexadecimal_report (fun _ => []) (PStr (hex_of bs)) None PNone (PStr (lit "hex"))) as (g & G & R). fold (hex_check (fun _ => []) (PStr (hex_of bs))) in R. rewrite hex_fine_check in R by auto. inversion R; subst. exact G.
Qed.
Lemma hex_length_says : forall repr bs, bytes bs -> hex_len_says repr (PStr (hex_of bs)) = Gives (length bs).
Proof. intros repr bs B. eapply unsaid_ok; [apply same_hex_len|]. now apply hex_len_ok. Qed.
Lemma padded_total : forall repr zeros x n, exists r, padded repr zeros x n r.
Proof.
  intros repr zeros x n. destruct (hex_reported repr x) as [(f & e & t & H & T)|(_ & bs & B & ->)]; [eexists; eapply padded_not_hex; eauto|].
  destruct (integer_reported repr n) as [(f & e & t & F & T)|(_ & z & I)]; [eexists; eapply padded_type; eauto; now apply hexadecimal_of|].
  destruct (Z_lt_le_dec z (Z.of_nat (length bs))); eexists; [eapply padded_long|eapply padded_given]; eauto.
Qed.
(** C95.  pad_hex and pad_hex_le. *)
Lemma c95_pad_hex : forall repr x n r,
  (pad_hex_says repr x n = r <-> padded repr (fun zeros bs => zeros ++ bs) x n r) /\
  (pad_hex_le_says repr x n = r <-> padded repr (fun zeros bs => bs ++ zeros) x n r).
Proof.
  intros repr x n r. split; revert r; (apply by_answer; [apply padded_total|]); unfold pad_hex_says, pad_hex_le_says;
    (intros r [bs z -> B I L|bs z -> B I L|f e t H T|f e t H F T]; [| |rewrite (hex_told _ _ _ _ _ H T); reflexivity|
      apply hexadecimal_bytes in H as (bs & B & ->); rewrite (hex_fine_check repr bs B), (integer_told _ _ _ _ _ F T); reflexivity]);
    destruct (integer_fine repr n z I) as [-> ->]; rewrite (hex_fine_check repr bs B), (hex_length_says repr bs B); cbn [check abind].
  - destruct (Z.ltb_spec z (Z.of_nat (length bs))); [lia|]. cbv zeta. f_equal. rewrite hex_of_app, <- rep_str_zeros. replace (Z.to_nat z - length bs)%nat with (Z.to_nat (z - Z.of_nat (length bs))) by lia. destruct (Z.ltb_spec 0 (z - Z.of_nat (length bs))); [reflexivity|].
    replace (Z.to_nat (z - Z.of_nat (length bs))) with 0%nat by lia. reflexivity.
  - destruct (Z.ltb_spec z (Z.of_nat (length bs))); [|lia]. reflexivity.
  - destruct (Z.ltb_spec z (Z.of_nat (length bs))); [lia|]. cbv zeta. f_equal. rewrite hex_of_app, <- rep_str_zeros. replace (Z.to_nat z - length bs)%nat with (Z.to_nat (z - Z.of_nat (length bs))) by lia. destruct (Z.ltb_spec 0 (z - Z.of_nat (length bs))); [reflexivity|].
    replace (Z.to_nat (z - Z.of_nat (length bs))) with 0%nat by lia. now rewrite app_nil_r.
  - destruct (Z.ltb_spec z (Z.of_nat (length bs))); [|lia]. reflexivity.
Qed.
Lemma count_byte : forall n, 0 <= n <= 252 -> forall v, int_value v n -> int_to_var_int v = Ok (hex_of [n]).
Proof.
  intros n R v I. rewrite <- (int_to_var_int_ok n R). destruct (integer_fine (fun _ => []) v n I) as [_ A]. unfold int_to_var_int. rewrite (int_to_hex_as_int v n A). unfold validate_integer_domain. rewrite A. reflexivity.
Qed.
Lemma one_byte_reported : forall repr v, (exists x name kind f e text, hex_with_length v (PInt 1) None (PStr (lit "hex_length_1_bytes")) x name kind f /\ reported repr x name PNone kind f (Some (e, text))) \/
  (hex_length_check repr v 1 = None /\ exists b, byte b /\ v = PStr (hex_of [b])).
Proof.
  intros repr v. destruct (proj1 (c94_hex_length repr v (PInt 1) None PNone PNone _) eq_refl) as (k & K & x & name & kind & f & H & R). fold (hex_length_check repr v 1) in R.
  assert (k = PStr (lit "hex_length_1_bytes")) as ->. { inversion K as [? N|t W]; subst; [congruence|]. apply shown_written in W as ->. reflexivity. }
  destruct (hex_length_check repr v 1) as [[e t]|] eqn:Q; [left; exists x, name, kind, f, e, t; auto|right]. split; auto.
  assert (VL : validate_hex_length v 1 = Ok tt) by (pose proof (same_length repr v 1) as S; change (Z.of_nat 1) with 1 in S; rewrite Q in S; exact S).
  apply validate_hex_length_inv in VL as (bs & B & L & ->). destruct bs as [|b [|]]; try discriminate. exists b. split; auto. now inversion B.
Qed.
Lemma one_byte_told : forall repr v x name kind f e text, hex_with_length v (PInt 1) None (PStr (lit "hex_length_1_bytes")) x name kind f -> reported repr x name PNone kind f (Some (e, text)) ->
  hex_length_check repr v 1 = Some (e, text).
Proof.
  intros repr v x name kind f e text H R. unfold hex_length_check. apply c94_hex_length. exists (PStr (lit "hex_length_1_bytes")). split; [|exists x, name, kind, f; auto]. change (lit "hex_length_1_bytes") with (lit "hex_length_" ++ int_str 1 ++ lit "_bytes"). apply kind_made. constructor.
Qed.
(** C95.  int_to_var_int and var_int_to_int. *)
Lemma c95_var_int : forall repr v,
  (forall r, int_to_var_int_says repr v = r <-> count_written repr v r) /\ (forall r, var_int_to_int_says repr v = r <-> count_read repr v r).
Proof.
  intros repr v. split; apply by_answer.
  - destruct (domain_passed repr v 0 252) as [(x & f & e & t & I & T)|(_ & n & I & B)]; [eexists; eapply count_refused; eauto|eexists; eapply count_given; eauto].
  - intros r [n I B|x f e t I T].
    + eapply unsaid_ok; [apply same_count|]. now apply count_byte.
    + unfold int_to_var_int_says. rewrite (domain_told _ _ _ _ _ _ _ _ I T). reflexivity.
  - destruct (one_byte_reported repr v) as [(x & name & kind & f & e & t & H & R)|(_ & b & B & ->)]; [eexists; eapply count_no_byte; eauto|]. unfold byte in B. destruct (Z_lt_le_dec 252 b); eexists; [eapply (count_long _ _ b)|eapply (count_value _ _ b)]; auto; lia.
  - intros r [n B ->|n B ->|x name kind f e t H R].
    + eapply unsaid_ok; [apply same_count_read|]. now apply var_int_to_int_ok.
    + assert (BB : byte n) by (unfold byte; lia). unfold var_int_to_int_says. assert (Q : hex_length_check repr (PStr (hex_of [n])) 1 = None). { eapply outcome_ok; [apply (same_length repr _ 1)|]. apply validate_hex_length_ok; [now apply bytes1|reflexivity]. }
      rewrite Q. cbn [check]. rewrite str_in_fdfeff by auto. destruct (Z.ltb_spec 252 n); [reflexivity|lia].
    + unfold var_int_to_int_says. rewrite (one_byte_told _ _ _ _ _ _ _ _ H R). reflexivity.
Qed.
(** ** Base58Check *)
Lemma symbols_alphabet : base58_symbols = alphabet58.
Proof. reflexivity. Qed.
Lemma alphabet_char : forall c, In c alphabet58 <-> exists d, 0 <= d < 58 /\ c = char58 d.
Proof.
  intros c. split.
  - intros I. apply (In_nth _ _ 0) in I as (i & L & Q). exists (Z.of_nat i). split; [change (length alphabet58) with 58%nat in L; lia|]. unfold char58. now rewrite Nat2Z.id.
  - intros (d & R & ->). unfold char58. apply nth_In. change (length alphabet58) with 58%nat. lia.
Qed.
Lemma foreign_said : forall s c t, In c s -> ~ In c alphabet58 -> base58_sum_says s t = Says ValueError (lit "substring not found").
Proof.
  induction s as [|x s IH]; intros c t I N; [destruct I|]. cbn [base58_sum_says]. destruct (find_index x base58_symbols 0) as [d|e] eqn:F.
  - apply find_index_58_inv in F as [R ->]. destruct I as [<-|I]; [elim N; apply alphabet_char; eauto|eapply IH; eauto].
  - apply find_index_err in F as ->. reflexivity.
Qed.
Lemma lstrip_in : forall x c s, In c s -> c <> x -> In c (lstrip x s).
Proof. intros x c s I N. induction s as [|y s IH]; [destruct I|]. cbn [lstrip]. destruct (Z.eqb_spec y x) as [->|]; [destruct I as [<-|I]; [congruence|auto]|exact I]. Qed.
Lemma ones_digits : forall n ds, repeat 49 n ++ text58 ds = text58 (repeat 0 n ++ ds).
Proof. intros n ds. rewrite repeat_char58. unfold text58. now rewrite map_app. Qed.
Lemma positive_told : forall repr e text, told repr (PInt 0) "positive_integer" (Wrong ValueError (lit "which is less than 1.")) e text -> positive_check repr (PInt 0) = Some (e, text).
Proof. intros repr e text T. unfold positive_check. apply c94_numbers. eexists. split; [|exact T]. eapply positive_small; [constructor|lia]. Qed.
Lemma wrong_told : forall repr v kind e why, exists text, told repr v kind (Wrong e why) e text.
Proof. intros repr v kind e why. pose proof (complain_wrong repr e why v None PNone (PStr (lit kind))) as R. inversion R as [|? ? m M Q1 Q2| |]; subst. exists m. now constructor. Qed.
Lemma cut_last : forall bs body tail, cut_checksum bs body tail -> body = drop_last_n 4 bs /\ tail = last_n 4 bs.
Proof.
  intros bs body tail [-> [L|[L ->]]]; [now rewrite last_n_app, drop_last_n_app|]. cbn [app] in *. unfold drop_last_n, last_n. replace (length tail - 4)%nat with 0%nat by lia. auto.
Qed.
Lemma last_cut : forall bs, cut_checksum bs (drop_last_n 4 bs) (last_n 4 bs).
Proof.
  intros bs. split; [symmetry; apply last_drop|]. destruct (le_lt_dec 4 (length bs)) as [L|L]; [left; rewrite last_n_length; lia|right; split; auto]. unfold drop_last_n. now replace (length bs - 4)%nat with 0%nat by lia.
Qed.
Lemma leading_positive : forall ds, digits_in 58 ds -> no_lead0 ds -> ds <> [] -> 0 < val 58 ds.
Proof.
  intros [|d r] D L N; [congruence|]. apply no_lead0_cons in L. pose proof (val_lead_lower 58 d r ltac:(lia) D L). pose proof (Z.pow_pos_nonneg 58 (Z.of_nat (length r)) ltac:(lia) ltac:(lia)). lia.
Qed.
Lemma decoded_says : HashOk E -> forall repr n ds bs body tail, digits_in 58 ds -> no_lead0 ds -> ds <> [] -> bytes bs -> minimal bs -> be_val bs = val 58 ds -> cut_checksum bs body tail ->
  bytes tail /\ bytes (repeat 0 n ++ body) /\
  base58check_to_hex_says repr (PStr (repeat 49 n ++ text58 ds)) =
    if negb (str_eqb (hex_of tail) (hex_of (checksum (repeat 0 n ++ body)))) then
      Says ValueError (lit "Checksum value does not match calculated checksum." ++ paragraph
      [lit "- Input: " ++ repeat 49 n ++ text58 ds; lit "- Input hex: " ++ hex_of bs; lit "- Input hex without checksum: " ++ hex_of body;
       lit "- Input hex without checksum and with zeroes: " ++ hex_of (repeat 0 n ++ body); lit "- Checksum value     : " ++ hex_of tail;
       lit "- Calculated checksum: " ++ hex_of (checksum (repeat 0 n ++ body))])
    else Gives (hex_of (repeat 0 n ++ body)).
Proof.
  intros HH repr n ds bs body tail D L N B M V C. apply cut_last in C as [-> ->].
  assert (BT : bytes (last_n 4 bs)) by (now apply bytes_skipn). assert (BB : bytes (repeat 0 n ++ drop_last_n 4 bs)) by (apply bytes_app; split; [apply bytes_repeat0|now apply bytes_firstn]).
  split; [auto|]. split; [auto|]. unfold base58check_to_hex_says. cbn [string_check validate_string_says]. change (string_check repr (PStr (repeat 49 n ++ text58 ds))) with (@None (exn * pystr)). cbn [check]. cbv zeta.
  rewrite ones_digits. rewrite lstrip_ones by auto. pose proof (leading_positive ds D L N) as P.
  rewrite (unsaid_ok _ _ _ (same_from58 repr (text58 ds)) (base58_to_int_ok ds D P)). cbn [abind].
  assert (IH : int_to_hex (PInt (val 58 ds)) = Ok (hex_of bs)) by (rewrite int_to_hex_ok by lia; now rewrite <- V, be_bytes_unique).
  rewrite (unsaid_ok _ _ _ (same_to_hex repr _) IH). cbn [abind].
  replace (length (text58 (repeat 0%Z n ++ ds)) - length (text58 ds))%nat with n by (unfold text58; rewrite !map_length, app_length, repeat_length; lia).
  change 8%nat with (2 * 4)%nat. rewrite last_n_hex, drop_last_n_hex, rep_str_zeros, <- hex_of_app.
  rewrite (unsaid_ok _ _ _ (same_checksum repr _) (get_checksum_ok HH _ BB)). cbn [abind]. unfold paragraph. cbn [flat_map]. unfold newline. rewrite <- !app_assoc. rewrite app_nil_r. reflexivity.
Qed.
Lemma decoded_total : HashOk E -> forall repr v, exists r, decoded58 repr v r.
Proof.
  intros HH repr v. assert (X : (exists s, v = PStr s) \/ forall s, v <> PStr s) by (destruct v; try (right; discriminate); eauto). destruct X as [(s & ->)|N].
  2: { destruct (type_called_total v) as (t & T & _). destruct (wrong_told repr v "string" TypeError (lit "which has type '" ++ lit t ++ lit "', not 'str'.")) as (x & W). eexists. eapply decoded_type; eauto. }
  assert (X : (exists c, In c s /\ ~ In c alphabet58) \/ forall c, In c s -> In c alphabet58).
  { induction s as [|x s IH]; [right; intros ? []|]. destruct (in_dec Z.eq_dec x alphabet58) as [I|I]; [|left; exists x; split; [now left|auto]]. destruct IH as [(c & A & B)|IH]; [left; exists c; split; [now right|auto]|right; intros c [<-|J]; auto]. }
  destruct X as [(c & I & N)|A]; [eexists; eapply decoded_foreign; eauto|].
  assert (X : exists n ds, s = repeat 49 n ++ text58 ds /\ digits_in 58 ds /\ no_lead0 ds).
  { assert (Y : exists ds, s = text58 ds /\ digits_in 58 ds).
    { clear - A. induction s as [|x s IH]; [exists []; split; [reflexivity|constructor]|]. destruct (proj1 (alphabet_char x) (A x (or_introl eq_refl))) as (d & R & ->). destruct IH as (ds & -> & D); [intros c I; apply A; now right|]. exists (d :: ds). split; [reflexivity|constructor; auto]. }
    destruct Y as (ds & -> & D). clear A. induction D as [|d ds R D IH]; [exists 0%nat, []; repeat split; constructor|]. destruct (Z.eq_dec d 0) as [->|N].
    - destruct IH as (n & ds' & Q & D' & L). exists (S n), ds'. split; [|auto]. cbn [repeat app]. unfold text58 in *. cbn [map]. now rewrite Q.
    - exists 0%nat, (d :: ds). split; [reflexivity|]. split; [constructor; auto|now apply no_lead0_cons]. }
  destruct X as (n & ds & -> & D & L). destruct ds as [|d r].
  - cbn [text58 map]. rewrite app_nil_r. destruct (wrong_told repr (PInt 0) "positive_integer" ValueError (lit "which is less than 1.")) as (x & W). eexists. eapply (decoded_empty repr _ n); eauto.
  - set (ds := d :: r) in *. assert (N : ds <> []) by discriminate. pose proof (leading_positive ds D L N) as P. set (bs := be_bytes (val 58 ds)). pose proof (last_cut bs) as C.
    assert (V : be_val bs = val 58 ds) by (apply be_bytes_val; lia). assert (M : minimal bs) by (apply be_bytes_minimal; lia).
    destruct (str_eq_dec (last_n 4 bs) (checksum (repeat 0 n ++ drop_last_n 4 bs))); eexists; [eapply (decoded_fine repr _ n ds bs)|eapply (decoded_checksum repr _ n ds bs)]; eauto; apply be_bytes_bytes.
Qed.
(** C95.  base58check_to_hex. *)
Lemma c95_base58check_to_hex : HashOk E -> forall repr v r, base58check_to_hex_says repr v = r <-> decoded58 repr v r.
Proof.
  intros HH repr v. apply by_answer; [apply (decoded_total HH)|].
  intros r [t e x N T W|s c -> I N|n e x -> T|n ds bs body tail -> D L N B M V C X|n ds bs body tail -> D L N B M V C X].
  - unfold base58check_to_hex_says. pose proof (told_string repr v t N T) as R. rewrite (reported_fun _ _ _ _ _ _ _ _ R W). reflexivity.
  - unfold base58check_to_hex_says, base58_to_int_says. change (string_check repr (PStr s)) with (@None (exn * pystr)). cbn [check]. cbv zeta. rewrite (foreign_said _ c); [reflexivity| |auto]. apply lstrip_in; auto. intros ->. apply N. cbn. auto.
  - unfold base58check_to_hex_says, base58_to_int_says. change (string_check repr (PStr (repeat 49 n))) with (@None (exn * pystr)). cbn [check]. cbv zeta. replace (lstrip 49 (repeat 49 n)) with (@nil Z) by (clear; induction n; auto). cbn [base58_sum_says abind]. rewrite (positive_told _ _ _ T). reflexivity.
  - destruct (decoded_says HH repr n ds bs body tail D L N B M V C) as (BT & BB & ->). destruct (str_eqb _ _) eqn:Q; [|reflexivity]. apply str_eqb_eq, hex_of_inj in Q; auto; [contradiction|apply (checksum_bytes HH)].
  - destruct (decoded_says HH repr n ds bs body tail D L N B M V C) as (BT & BB & ->). rewrite X, str_eqb_refl. reflexivity.
Qed.
Lemma decoded_bytes : HashOk E -> forall repr v x, decoded58 repr v (Gives x) -> exists p, bytes p /\ x = hex_of p.
Proof. intros HH repr v x H. inversion H as [| | | |n ds bs body tail Q D L N B M V C X]; subst. destruct (decoded_says HH repr n ds bs body _ D L N B M V C) as (_ & BB & _). eauto. Qed.
(** C95.  bitcoin_address_to_public_key_hash_hex and validate_bitcoin_address. *)
Lemma c95_address : HashOk E -> forall repr v,
  (forall r, bitcoin_address_to_public_key_hash_hex_says repr v = r <-> address_read repr v r) /\
  (forall e text, validate_bitcoin_address_says repr v = Some (e, text) <-> address_read repr v (Says e text)) /\
  (validate_bitcoin_address_says repr v = None <-> exists h, address_read repr v (Gives h)).
Proof.
  intros HH repr v. assert (A : forall r, bitcoin_address_to_public_key_hash_hex_says repr v = r <-> address_read repr v r).
  { apply by_answer.
    - destruct (decoded_total HH repr v) as ([x|e t] & D); [|eexists; eapply address_undecoded; eauto]. destruct (decoded_bytes HH repr v x D) as (p & B & ->). destruct (Z.eq_dec (hd 1 p) 0) as [H|H]; [|eexists; eapply address_version; eauto].
      destruct p as [|b p]; [discriminate|]. cbn [hd] in H. subst b. inversion B as [|? ? _ BP]; subst. destruct (Nat.eq_dec (length p) 20) as [L|L]; [eexists; eapply address_hash; eauto|].
      destruct (wrong_told repr (PStr (hex_of p)) "hex_length_20_bytes" ValueError (lit "whose length is " ++ int_str (2 * Z.of_nat (length p)) ++ lit " chars, not 40 chars.")) as (x & W). eexists. eapply address_length; eauto.
    - intros r [e t D|p D B H|p e t D B L T|p D B L]; apply (c95_base58check_to_hex HH) in D; unfold bitcoin_address_to_public_key_hash_hex_says; rewrite D; cbn [abind]; [reflexivity| | |].
      + destruct (str_eqb (firstn 2 (hex_of p)) (lit "00")) eqn:Q; [|reflexivity]. exfalso. apply H. apply str_eqb_eq in Q. destruct p as [|b p]; [discriminate|]. inversion B; subst. change (firstn (2 * 1) (hex_of (b :: p)) = hex_of [0]) in Q. rewrite firstn_hex in Q. cbn [firstn] in Q. apply hex_of_inj in Q; [now injection Q|now apply bytes1|apply bytes1; unfold byte; lia].
      + change (hex_of (0 :: p)) with (48 :: 48 :: hex_of p). cbn [firstn skipn]. change (str_eqb [48; 48] (lit "00")) with true. cbn [negb]. cbv zeta.
        assert (Q : hex_length_check repr (PStr (hex_of p)) 20 = Some (e, t)).
        { unfold hex_length_check. apply c94_hex_length. exists (PStr (lit "hex_length_20_bytes")). split; [change (lit "hex_length_20_bytes") with (lit "hex_length_" ++ int_str 20 ++ lit "_bytes"); apply kind_made; constructor|].
          eexists _, _, _, _. split; [apply (length_wrong _ _ _ _ (hex_of p) 20 eq_refl); [now apply hexadecimal_of|constructor|rewrite hex_of_length; lia]|]. rewrite hex_of_length, Nat2Z.inj_mul. change (int_str (2 * 20)) with (lit "40"). exact T. }
        rewrite Q. reflexivity.
      + change (hex_of (0 :: p)) with (48 :: 48 :: hex_of p). cbn [firstn skipn]. change (str_eqb [48; 48] (lit "00")) with true. cbn [negb]. cbv zeta.
        pose proof (outcome_ok _ _ (same_length repr (PStr (hex_of p)) 20) (validate_hex_length_ok p 20 B L)) as Q. change (Z.of_nat 20) with 20 in Q. rewrite Q. reflexivity. }
  split; [exact A|]. unfold validate_bitcoin_address_says. split.
  - intros e t. rewrite <- A. destruct (bitcoin_address_to_public_key_hash_hex_says repr v); split; congruence.
  - split; [intros H|intros (h & H); apply A in H; now rewrite H]. destruct (bitcoin_address_to_public_key_hash_hex_says repr v) as [h|] eqn:Q; [|discriminate]. exists h. now apply A.
Qed.
End WithEnv.
Example ex95_amounts :
  @validate_bitcoin_amount_says demo_env plain_repr (PStr (lit "1.2.3")) = Some (ValueError, lit "Amount contains 2 periods ('.'). It must contain either 1 or 0 periods. Amount: 1.2.3") /\
  @validate_bitcoin_amount_says demo_env plain_repr (PStr (lit "-1.5")) = Some (ValueError, lit "Apart from an optional period ('.'), amount can contain only digits. Amount: -1.5") /\
  @validate_bitcoin_amount_says demo_env plain_repr (PStr (lit "1.123456789")) = Some (ValueError, lit "Amount (1.123456789) has 9 decimal places. It can have at most 8 decimal places.") /\
  @validate_bitcoin_amount_says demo_env plain_repr (PStr [178]) = Some (ValueError, lit "could not convert string to float: '" ++ [178] ++ lit "'") /\
  @validate_bitcoin_amount_says demo_env plain_repr (PStr (lit "21000000.00000001")) = Some (ValueError, lit "The maximum possible amount is 21000000.00000000. Amount: 21000000.00000001") /\
  @validate_bitcoin_amount_says demo_env plain_repr (PStr (lit "21000000")) = None /\
  @validate_positive_bitcoin_amount_says demo_env plain_repr (PStr (lit "...")) = Some (ValueError, lit "Amount ('...') cannot be 0.") /\
  @bitcoin_to_satoshi_says demo_env plain_repr (PStr (lit "0.0")) = Says ValueError (lit "invalid literal for int() with base 10: ''") /\
  @satoshi_to_bitcoin_says demo_env plain_repr (PBool true) = Says ValueError (lit "Apart from an optional period ('.'), amount can contain only digits. Amount: 0.0000True").
Proof. repeat split. Qed.
Example ex95_met : UniOk demo_env /\ HashOk demo_env /\
  @amount demo_env plain_repr (PStr (lit "1.2.3")) (Plainly ValueError (lit "Amount contains 2 periods ('.'). It must contain either 1 or 0 periods. Amount: 1.2.3")) /\
  to_hex plain_repr (PInt (-18)) (Says ValueError (lit "Expected a 'hex', but received value '0x12', where the chars at indices [1] (with values 'x') are not hex chars.")) /\
  count_read plain_repr (PStr (lit "fd")) (Says ValueError []) /\
  @decoded58 demo_env plain_repr (PStr (lit "10")) (Says ValueError (lit "substring not found")) /\
  @decoded58 demo_env plain_repr (PStr (lit "1BvBMSEYstWetqTFn5Au4m4GFg7xJaNVN3")) (Says ValueError (lit "Checksum value does not match calculated checksum." ++ paragraph
    [lit "- Input: 1BvBMSEYstWetqTFn5Au4m4GFg7xJaNVN3"; lit "- Input hex: 77bff20c60e522dfaa3350c39b030a5d004e839af415766c"; lit "- Input hex without checksum: 77bff20c60e522dfaa3350c39b030a5d004e839a";
     lit "- Input hex without checksum and with zeroes: 0077bff20c60e522dfaa3350c39b030a5d004e839a"; lit "- Checksum value     : f415766c"; lit "- Calculated checksum: 834eab50"])).
Proof.
  split; [exact demo_uni|]. split; [exact demo_hash|]. split; [|split; [|split; [|split]]].
  - eapply (amount_periods plain_repr _ (lit "1.2.3") 2); [reflexivity| |lia]. apply dots_count. reflexivity.
  - apply (@c95_int_to_hex demo_env). reflexivity.
  - apply (@c95_var_int demo_env plain_repr). reflexivity.
  - apply (c95_base58check_to_hex demo_hash). reflexivity.
  - apply (c95_base58check_to_hex demo_hash). vm_compute. reflexivity.
Qed.
