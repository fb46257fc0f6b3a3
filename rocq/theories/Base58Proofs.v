From Coq Require Import String Lia.
From Verif Require Import PyBase Env PyNum Validate Basic Spec EnvOk NumLemmas HexProofs.

Section WithEnv.
Context {E : Env}.

Lemma find_index_inv : forall c s i d, find_index c s i = Ok d ->
  exists k, nth_error s k = Some c /\ d = i + Z.of_nat k.
Proof.
  intros c s. induction s as [|x r IH]; intros i d H; [discriminate|]. cbn [find_index] in H.
  destruct (Z.eqb_spec x c).
  - injection H as <-. subst. exists O. split; [reflexivity|lia].
  - apply IH in H as (k & Hk & ->). exists (S k). split; [exact Hk|lia].
Qed.
Lemma find_index_err : forall c s i e, find_index c s i = Err e -> e = ValueError.
Proof.
  intros c s. induction s as [|x r IH]; intros i e H; cbn [find_index] in H; [congruence|].
  destruct (x =? c); [discriminate|]. eapply IH; eassumption.
Qed.

Lemma find_index_char58 : forall d, 0 <= d < 58 -> find_index (char58 d) base58_symbols 0 = Ok d.
Proof.
  intros d Hd.
  pose proof (range_check (fun d => match find_index (char58 d) base58_symbols 0 with Ok x => x =? d | _ => false end) 58
    ltac:(vm_compute; reflexivity) d ltac:(lia)) as H. cbv beta in H.
  destruct (find_index (char58 d) base58_symbols 0); [|discriminate]. apply Z.eqb_eq in H. congruence.
Qed.
Lemma find_index_58_inv : forall c d, find_index c base58_symbols 0 = Ok d -> 0 <= d < 58 /\ c = char58 d.
Proof.
  intros c d H. apply find_index_inv in H as (k & Hk & ->).
  assert (L : (k < 58)%nat).
  { assert (nth_error base58_symbols k <> None) by congruence.
    apply nth_error_Some in H. exact H. }
  split; [lia|]. unfold char58. replace (Z.to_nat (0 + Z.of_nat k)) with k by lia.
  symmetry. apply nth_error_nth. exact Hk.
Qed.
Lemma char58_inj : forall a b, 0 <= a < 58 -> 0 <= b < 58 -> char58 a = char58 b -> a = b.
Proof.
  intros a b Ha Hb H. pose proof (find_index_char58 a Ha) as A. pose proof (find_index_char58 b Hb) as B.
  rewrite H in A. congruence.
Qed.
Lemma text58_inj : forall xs ys, digits_in 58 xs -> digits_in 58 ys -> text58 xs = text58 ys -> xs = ys.
Proof.
  induction xs as [|x xs IH]; intros [|y ys] Hx Hy H; try discriminate; [reflexivity|].
  inversion Hx; inversion Hy; subst. cbn in H. injection H as e1 e2. f_equal; [apply char58_inj; assumption|apply IH; assumption].
Qed.
Lemma nth_symbols : forall d, 0 <= d < 58 -> nth_error base58_symbols (Z.to_nat d) = Some (char58 d).
Proof.
  intros d Hd.
  pose proof (range_check (fun d => match nth_error base58_symbols (Z.to_nat d) with Some x => x =? char58 d | _ => false end) 58
    ltac:(vm_compute; reflexivity) d ltac:(lia)) as H. cbv beta in H.
  destruct (nth_error base58_symbols (Z.to_nat d)); [|discriminate]. apply Z.eqb_eq in H. congruence.
Qed.

(** * base58_to_int *)
Lemma base58_sum_ok : forall ds t, digits_in 58 ds -> base58_sum (text58 ds) t = Ok (t + val 58 ds).
Proof.
  induction ds as [|d ds IH]; intros t H; cbn [text58 map base58_sum].
  - rewrite val_nil. f_equal. lia.
  - inversion H; subst. rewrite find_index_char58 by assumption. cbn [bind]. fold (text58 ds). rewrite IH by assumption.
    rewrite val_cons. unfold text58. rewrite map_length. f_equal. lia.
Qed.
Lemma base58_sum_inv : forall s t n, base58_sum s t = Ok n -> exists ds, digits_in 58 ds /\ s = text58 ds /\ n = t + val 58 ds.
Proof.
  induction s as [|c s IH]; intros t n H; cbn [base58_sum] in H.
  - exists []. split; [constructor|]. split; [reflexivity|]. rewrite val_nil. injection H as <-. lia.
  - inv_bind H d Hd. apply find_index_58_inv in Hd as [Hd ->]. apply IH in H as (ds & Hds & -> & ->).
    exists (d :: ds). split; [constructor; assumption|]. split; [reflexivity|]. rewrite val_cons.
    unfold text58. rewrite map_length. lia.
Qed.
Lemma base58_sum_err : forall s t e, base58_sum s t = Err e -> e = ValueError.
Proof.
  induction s as [|c s IH]; intros t e H; cbn [base58_sum] in H; [discriminate|].
  destruct (find_index c base58_symbols 0) eqn:F; cbn [bind] in H.
  - eapply IH; eassumption.
  - injection H as <-. eapply find_index_err; eassumption.
Qed.

Lemma base58_to_int_ok : forall ds, digits_in 58 ds -> 0 < val 58 ds -> base58_to_int (text58 ds) = Ok (val 58 ds).
Proof.
  intros ds H Hv. unfold base58_to_int. rewrite base58_sum_ok by assumption. cbn [bind]. unfold validate_positive_integer. cbn [as_int].
  destruct (Z.ltb_spec (0 + val 58 ds) 1); [lia|]. reflexivity.
Qed.
Lemma base58_to_int_inv : forall s n, base58_to_int s = Ok n -> exists ds, digits_in 58 ds /\ s = text58 ds /\ n = val 58 ds /\ 0 < n.
Proof.
  intros s n H. unfold base58_to_int in H. inv_bind H t Ht. apply base58_sum_inv in Ht as (ds & Hd & -> & Et).
  inv_bind H u Hu. injection H as <-. unfold validate_positive_integer in Hu. cbn [as_int] in Hu.
  exists ds. repeat split; [assumption|lia|]. destruct (Z.ltb_spec t 1); [discriminate|lia].
Qed.
Lemma base58_to_int_err : forall s e, base58_to_int s = Err e -> e = ValueError.
Proof.
  intros s e H. unfold base58_to_int in H. destruct (base58_sum s 0) as [t|e'] eqn:B; cbn [bind] in H.
  - unfold validate_positive_integer in H. cbn [as_int] in H. destruct (t <? 1); cbn in H; congruence.
  - injection H as <-. eapply base58_sum_err; eassumption.
Qed.
Lemma base58_to_int_zero : forall ds, digits_in 58 ds -> val 58 ds = 0 -> base58_to_int (text58 ds) = Err ValueError.
Proof.
  intros ds H Hv. destruct (base58_to_int (text58 ds)) as [n|e] eqn:R.
  - apply base58_to_int_inv in R as (ds' & Hd & He & -> & Hn). apply text58_inj in He; [|assumption|assumption]. subst. lia.
  - f_equal. eapply base58_to_int_err; eassumption.
Qed.

(** * hex_to_base58 *)
Lemma base58_loop_ok : forall f n out, 0 <= n < 2 ^ Z.of_nat f ->
  exists ds, digits_in 58 ds /\ no_lead0 ds /\ val 58 ds = n /\
    base58_loop (S f) n out = Ok (out ++ rev (text58 ds)).
Proof.
  induction f as [|f IH]; intros n out Hn.
  - cbn in Hn. assert (n = 0) by lia. subst. exists []. cbn. rewrite app_nil_r.
    repeat split; constructor.
  - cbn [base58_loop]. destruct (Z.gtb_spec n 0) as [G|G].
    + rewrite nth_symbols by (apply Z.mod_pos_bound; lia).
      rewrite Nat2Z.inj_succ, Z.pow_succ_r in Hn by lia.
      destruct (IH (n / 58) (out ++ [char58 (n mod 58)])) as (ds & Hd & Hl & Hv & Hr).
      { split; [apply Z.div_pos; lia|apply Z.div_lt_upper_bound; lia]. }
      cbn [base58_loop] in Hr. exists (ds ++ [n mod 58]). split; [|split; [|split]].
      * apply Forall_app. split; [assumption|]. constructor; [apply Z.mod_pos_bound; lia|constructor].
      * destruct ds as [|d r].
        -- cbn [app]. rewrite val_nil in Hv. apply no_lead0_cons.
           pose proof (Z.div_mod n 58 ltac:(lia)). lia.
        -- exact Hl.
      * rewrite val_snoc, Hv. pose proof (Z.div_mod n 58 ltac:(lia)). lia.
      * rewrite Hr. unfold text58. rewrite map_app, rev_app_distr. cbn [map rev app].
        rewrite <- app_assoc. reflexivity.
    + assert (n = 0) by lia. subst. exists []. cbn. rewrite app_nil_r. repeat split; constructor.
Qed.

Lemma hex_to_base58_ok : forall bs, bytes bs -> bs <> [] ->
  exists ds, digits_in 58 ds /\ no_lead0 ds /\ val 58 ds = be_val bs /\ hex_to_base58 (hex_of bs) = Ok (text58 ds).
Proof.
  intros bs H Hn. unfold hex_to_base58. rewrite validate_hex_ok by assumption. cbn [bind].
  rewrite py_int_hex by assumption. cbn [bind].
  pose proof (val_bounds 256 bs ltac:(lia) H) as B. fold (be_val bs) in B.
  destruct (base58_loop_ok (S (Z.to_nat (Z.log2 (be_val bs)))) (be_val bs) []) as (ds & Hd & Hl & Hv & Hr).
  { split; [lia|]. apply log2_fuel. }
  exists ds. rewrite Hr. cbn [bind app]. rewrite rev_involutive. auto.
Qed.
Lemma hex_to_base58_empty : hex_to_base58 [] = Err ValueError.
Proof. reflexivity. Qed.
Lemma hex_to_base58_bad : forall s, ~ is_hex s -> hex_to_base58 s = Err ValueError.
Proof.
  intros s H. unfold hex_to_base58. destruct (validate_hex_cases s) as [[C _]|[_ C]]; [contradiction|]. rewrite C. reflexivity.
Qed.

(** * Hashes *)
Context (HH : HashOk E).

Lemma get_sha256_ok : forall bs, bytes bs -> get_sha256 (hex_of bs) = Ok (hex_of (sha256 bs)).
Proof.
  intros bs H. unfold get_sha256. rewrite validate_hex_ok by assumption. cbn [bind]. rewrite bytes_fromhex_ok by assumption.
  cbn [bind]. rewrite bytes_hex_hex_of by apply HH. reflexivity.
Qed.
Lemma get_double_sha256_ok : forall bs, bytes bs -> get_double_sha256 (hex_of bs) = Ok (hex_of (sha256 (sha256 bs))).
Proof.
  intros bs H. unfold get_double_sha256. rewrite get_sha256_ok by assumption. cbn [bind].
  apply get_sha256_ok. apply HH.
Qed.
Lemma firstn_hex : forall k bs, firstn (2 * k) (hex_of bs) = hex_of (firstn k bs).
Proof.
  induction k as [|k IH]; intros bs; [reflexivity|]. destruct bs as [|b r]; [rewrite firstn_nil; reflexivity|].
  replace (2 * S k)%nat with (S (S (2 * k))) by lia. cbn [hex_of flat_map app firstn]. fold (hex_of r).
  rewrite IH. reflexivity.
Qed.
Lemma skipn_hex : forall k bs, skipn (2 * k) (hex_of bs) = hex_of (skipn k bs).
Proof.
  induction k as [|k IH]; intros bs; [reflexivity|]. destruct bs as [|b r]; [rewrite skipn_nil; reflexivity|].
  replace (2 * S k)%nat with (S (S (2 * k))) by lia. cbn [hex_of flat_map app skipn]. fold (hex_of r).
  rewrite IH. reflexivity.
Qed.
Lemma last_n_hex : forall k bs, last_n (2 * k) (hex_of bs) = hex_of (last_n k bs).
Proof.
  intros k bs. unfold last_n. rewrite hex_of_length.
  replace (2 * length bs - 2 * k)%nat with (2 * (length bs - k))%nat by lia. apply skipn_hex.
Qed.
Lemma drop_last_n_hex : forall k bs, drop_last_n (2 * k) (hex_of bs) = hex_of (drop_last_n k bs).
Proof.
  intros k bs. unfold drop_last_n. rewrite hex_of_length.
  replace (2 * length bs - 2 * k)%nat with (2 * (length bs - k))%nat by lia. apply firstn_hex.
Qed.
Lemma bytes_firstn : forall k bs, bytes bs -> bytes (firstn k bs).
Proof. intros k bs H. rewrite <- (firstn_skipn k bs) in H. apply bytes_app in H. apply H. Qed.
Lemma bytes_skipn : forall k bs, bytes bs -> bytes (skipn k bs).
Proof. intros k bs H. rewrite <- (firstn_skipn k bs) in H. apply bytes_app in H. apply H. Qed.

Lemma checksum_bytes : forall bs, bytes (checksum bs).
Proof. intros bs. apply bytes_firstn. apply HH. Qed.
Lemma checksum_length : forall bs, length (checksum bs) = 4%nat.
Proof. intros bs. unfold checksum. rewrite firstn_length. destruct HH as [H _]. destruct (H (sha256 bs)) as [_ ->]. reflexivity. Qed.
Lemma get_checksum_ok : forall bs, bytes bs -> get_double_sha256_checksum (hex_of bs) = Ok (hex_of (checksum bs)).
Proof.
  intros bs H. unfold get_double_sha256_checksum. rewrite get_double_sha256_ok by assumption. cbn [bind].
  change 8%nat with (2 * 4)%nat. rewrite firstn_hex. reflexivity.
Qed.

(** * Base58Check *)
Lemma count_zeros : forall n r, bytes r -> no_lead0 r -> count_leading_zero_bytes (hex_of (repeat 0 n ++ r)) = n.
Proof.
  intros n r Hb Hl. unfold count_leading_zero_bytes. rewrite chunks2_hex, map_app. induction n as [|n IH].
  - cbn [repeat map app]. destruct r as [|b r]; [reflexivity|]. cbn [map count_zero_chunks].
    apply no_lead0_cons in Hl. inversion Hb as [|? ? B _]; subst.
    destruct (str_eqb (hex1 b) (lit "00")) eqn:Eq; [|reflexivity]. apply str_eqb_eq in Eq. exfalso. apply Hl.
    assert (X : [b] = [0]); [|congruence]. apply hex_of_inj; [apply bytes1; assumption|apply bytes1; unfold byte; lia|exact Eq].
  - cbn [repeat map app count_zero_chunks]. change (str_eqb (hex1 0) (lit "00")) with true. cbn iota. f_equal. exact IH.
Qed.

Lemma repeat_char58 : forall n, repeat 49 n = text58 (repeat 0 n).
Proof. induction n as [|n IH]; [reflexivity|]. cbn [repeat text58 map]. rewrite IH. reflexivity. Qed.

Lemma hex_to_base58check_ok : forall p, bytes p ->
  exists s, is_base58check p s /\ hex_to_base58check (hex_of p) = Ok s.
Proof.
  intros p Hp. unfold hex_to_base58check. rewrite get_checksum_ok by assumption. cbn [bind]. rewrite <- hex_of_app.
  assert (Hb : bytes (p ++ checksum p)) by (apply bytes_app; split; [assumption|apply checksum_bytes]).
  assert (Hne : p ++ checksum p <> []).
  { intros C. apply (f_equal (@length Z)) in C. rewrite app_length, checksum_length in C. cbn in C. lia. }
  destruct (hex_to_base58_ok (p ++ checksum p) Hb Hne) as (ds & Hd & Hl & Hv & ->). cbn [bind].
  destruct (lead_split (p ++ checksum p)) as (n & r & Hs & Hr).
  eexists. split; [|reflexivity]. exists n, r, ds. rewrite Hs in *.
  rewrite count_zeros by (try assumption; apply bytes_app in Hb; apply Hb).
  repeat split; try assumption.
  - rewrite Hv. apply val_repeat0_app.
  - unfold text58. rewrite map_app. rewrite repeat_char58. reflexivity.
Qed.

Lemma lead_unique : forall n m (r q : list Z), repeat 0 n ++ r = repeat 0 m ++ q -> no_lead0 r -> no_lead0 q -> n = m /\ r = q.
Proof.
  induction n as [|n IH]; intros [|m] r q H Hr Hq; cbn [repeat app] in H.
  - auto.
  - subst. cbn in Hr. contradiction.
  - subst. cbn in Hq. contradiction.
  - injection H as H. apply IH in H as [-> ->]; auto.
Qed.

Lemma is_base58check_fun : forall p s s', is_base58check p s -> is_base58check p s' -> s = s'.
Proof.
  intros p s s' (n & r & ds & H1 & H2 & H3 & H4 & H5 & ->) (n' & r' & ds' & G1 & G2 & G3 & G4 & G5 & ->).
  rewrite H1 in G1. apply lead_unique in G1 as [<- <-]; try assumption.
  f_equal. f_equal. apply (val_inj_lead 58); try assumption; try lia. 
Qed.

Lemma hex_to_base58check_iff : forall p s, bytes p -> hex_to_base58check (hex_of p) = Ok s <-> is_base58check p s.
Proof.
  intros p s Hp. destruct (hex_to_base58check_ok p Hp) as (s' & Hs & R). rewrite R. split.
  - intros H. injection H as <-. assumption.
  - intros H. f_equal. eapply is_base58check_fun; eassumption.
Qed.

Lemma hex_to_base58check_bad : forall x, ~ is_hex x -> hex_to_base58check x = Err ValueError.
Proof.
  intros x H. unfold hex_to_base58check, get_double_sha256_checksum, get_double_sha256, get_sha256.
  destruct (validate_hex_cases x) as [[C _]|[_ C]]; [contradiction|]. rewrite C. reflexivity.
Qed.

Lemma lstrip_ones : forall n ds, digits_in 58 ds -> no_lead0 ds -> lstrip 49 (text58 (repeat 0 n ++ ds)) = text58 ds.
Proof.
  induction n as [|n IH]; intros ds H Hl.
  - cbn [repeat app]. destruct ds as [|d r]; [reflexivity|]. cbn [text58 map lstrip]. apply no_lead0_cons in Hl.
    inversion H; subst. destruct (Z.eqb_spec (char58 d) 49) as [e|]; [|reflexivity]. exfalso. apply Hl.
    apply char58_inj; [assumption|lia|exact e].
  - cbn [repeat app text58 map lstrip]. change (char58 0 =? 49) with true. cbn iota. apply IH; assumption.
Qed.

Lemma last_n_app : forall {A} (k : nat) (a b : list A), length b = k -> last_n k (a ++ b) = b.
Proof.
  intros A k a b H. unfold last_n. rewrite app_length, H. replace (length a + k - k)%nat with (length a) by lia.
  rewrite skipn_app, skipn_all, Nat.sub_diag. reflexivity.
Qed.
Lemma drop_last_n_app : forall {A} (k : nat) (a b : list A), length b = k -> drop_last_n k (a ++ b) = a.
Proof.
  intros A k a b H. unfold drop_last_n. rewrite app_length, H. replace (length a + k - k)%nat with (length a) by lia.
  rewrite firstn_app, firstn_all, Nat.sub_diag. cbn. apply app_nil_r.
Qed.
Lemma last_drop : forall {A} (k : nat) (l : list A), drop_last_n k l ++ last_n k l = l.
Proof. intros A k l. apply firstn_skipn. Qed.
Lemma last_n_length : forall {A} (k : nat) (l : list A), (length (last_n k l) = min k (length l))%nat.
Proof. intros A k l. unfold last_n. rewrite skipn_length. lia. Qed.

(** What the decoder computes on a text of n ones followed by the digits ds. *)
Definition decode_result (n : nat) (r : list Z) : res pystr :=
  let p := repeat 0 n ++ drop_last_n 4 r in
  if negb (str_eqb (hex_of (last_n 4 r)) (hex_of (checksum p))) then Err ValueError else Ok (hex_of p).

Lemma decode_text : forall n ds r, digits_in 58 ds -> no_lead0 ds -> bytes r -> no_lead0 r -> val 58 ds = be_val r ->
  base58check_to_hex (PStr (text58 (repeat 0 n ++ ds))) = match r with [] => Err ValueError | _ => decode_result n r end.
Proof.
  intros n ds r Hd Hl Hb Hr Hv. unfold base58check_to_hex. cbn [validate_string as_str bind].
  rewrite lstrip_ones by assumption.
  replace (length (text58 (repeat 0%Z n ++ ds)) - length (text58 ds))%nat with n
    by (unfold text58; rewrite !map_length, app_length, repeat_length; lia).
  destruct r as [|b r'].
  - rewrite base58_to_int_zero by assumption. reflexivity.
  - set (r := b :: r') in *.
    assert (Hpos : 0 < be_val r).
    { apply no_lead0_cons in Hr.
      pose proof (val_lead_lower 256 b r' ltac:(lia) Hb Hr) as L. change (val 256 (b :: r')) with (be_val r) in L.
      pose proof (Z.pow_pos_nonneg 256 (Z.of_nat (length r')) ltac:(lia) ltac:(lia)). lia. }
    rewrite base58_to_int_ok by (try assumption; lia). cbn [bind]. rewrite Hv.
    rewrite int_to_hex_ok by lia. cbn [bind].
    rewrite be_bytes_unique; [|assumption|right; exists b, r'; split; [reflexivity|apply no_lead0_cons in Hr; assumption]].
    change 8%nat with (2 * 4)%nat. rewrite last_n_hex, drop_last_n_hex, rep_str_zeros, <- hex_of_app.
    rewrite get_checksum_ok.
    + reflexivity.
    + apply bytes_app. split; [apply bytes_repeat0|]. apply bytes_firstn. assumption.
Qed.

(** Every string is ones followed by digits without leading one, or has a foreign character. *)
Lemma decode_inv : forall s x, base58check_to_hex (PStr s) = Ok x ->
  exists n ds r, digits_in 58 ds /\ no_lead0 ds /\ bytes r /\ no_lead0 r /\ r <> [] /\ val 58 ds = be_val r /\
    s = text58 (repeat 0 n ++ ds) /\ decode_result n r = Ok x.
Proof.
  intros s x H. pose proof H as H0. unfold base58check_to_hex in H. cbn [validate_string as_str bind] in H.
  inv_bind H v Hv. apply base58_to_int_inv in Hv as (ds & Hd & Hs & Ev & Hpos).
  assert (S : exists n, s = repeat 49 n ++ lstrip 49 s /\ match lstrip 49 s with c :: _ => c <> 49 | [] => True end).
  { clear. induction s as [|c s IH]; [exists O; cbn; auto|]. cbn [lstrip]. destruct (Z.eqb_spec c 49) as [->|Hc].
    - destruct IH as (n & E1 & E2). exists (S n). split; [|assumption]. cbn [repeat app]. f_equal. assumption.
    - exists O. split; [reflexivity|assumption]. }
  destruct S as (n & Es & Hlead). rewrite Hs in Es, Hlead.
  assert (Hl : no_lead0 ds).
  { destruct ds as [|d r]; [exact I|]. apply no_lead0_cons. intros ->. cbn in Hlead. apply Hlead. reflexivity. }
  set (r := be_bytes v).
  assert (Hr : exists b q, r = b :: q /\ b <> 0).
  { destruct (be_bytes_minimal v ltac:(lia)) as [M|M]; [|exact M]. exfalso.
    pose proof (be_bytes_val v ltac:(lia)) as V. rewrite M in V. unfold be_val in V. rewrite val_cons, val_nil in V. cbn in V. lia. }
  destruct Hr as (b & q & Er & Hb0).
  exists n, ds, r. rewrite repeat_char58 in Es.
  assert (Es' : s = text58 (repeat 0 n ++ ds)) by (rewrite Es; unfold text58; rewrite map_app; reflexivity).
  assert (V : val 58 ds = be_val r) by (unfold r; rewrite be_bytes_val by lia; lia).
  assert (NL : no_lead0 r) by (rewrite Er; apply no_lead0_cons; assumption).
  repeat split; try assumption.
  - apply be_bytes_bytes.
  - rewrite Er. discriminate.
  - rewrite Es', (decode_text n ds r) in H0; try assumption; [|apply be_bytes_bytes].
    rewrite Er in *. exact H0.
Qed.

Lemma decode_result_inv : forall n r x, bytes r -> no_lead0 r -> decode_result n r = Ok x ->
  exists q, r = q ++ checksum (repeat 0 n ++ q) /\ x = hex_of (repeat 0 n ++ q) /\ bytes q.
Proof.
  intros n r x Hb Hr H. unfold decode_result in H. cbv zeta in H.
  destruct (str_eqb (hex_of (last_n 4 r)) (hex_of (checksum (repeat 0 n ++ drop_last_n 4 r)))) eqn:Eq; [|discriminate].
  cbn [negb] in H. injection H as <-. apply str_eqb_eq in Eq.
  apply hex_of_inj in Eq; [|apply bytes_skipn; assumption|apply checksum_bytes].
  exists (drop_last_n 4 r). rewrite <- Eq. rewrite last_drop. repeat split. apply bytes_firstn. assumption.
Qed.

(** Soundness: what is decoded re-encodes to the same text. *)
Lemma decode_sound : forall s x, base58check_to_hex (PStr s) = Ok x ->
  exists p, bytes p /\ x = hex_of p /\ is_base58check p s.
Proof.
  intros s x H. apply decode_inv in H as (n & ds & r & Hd & Hl & Hb & Hr & Hne & Hv & -> & H).
  apply decode_result_inv in H as (q & Er & -> & Hq); try assumption.
  exists (repeat 0 n ++ q). split; [apply bytes_app; split; [apply bytes_repeat0|assumption]|]. split; [reflexivity|].
  exists n, r, ds. repeat split; try assumption. rewrite <- app_assoc, <- Er. reflexivity.
Qed.

(** The only payloads that do not survive: all zero, with a checksum starting with zero. *)
Definition lost (p : list Z) : Prop := Forall (fun b => b = 0) p /\ hd 0 (checksum p) = 0.

Lemma firstn_repeat_le : forall k n, (k <= n)%nat -> firstn k (repeat 0 n) = repeat 0 k.
Proof.
  induction k as [|k IH]; intros [|n] H; try reflexivity; [lia|]. cbn [repeat firstn]. f_equal. apply IH. lia.
Qed.
Lemma decode_complete : forall p s, bytes p -> is_base58check p s ->
  (lost p /\ base58check_to_hex (PStr s) = Err ValueError) \/ (~ lost p /\ base58check_to_hex (PStr s) = Ok (hex_of p)).
Proof.
  intros p s Hp (n & r & ds & Hs & Hr & Hd & Hl & Hv & ->).
  assert (Hb : bytes r).
  { assert (bytes (p ++ checksum p)) by (apply bytes_app; split; [assumption|apply checksum_bytes]).
    rewrite Hs in H. apply bytes_app in H. apply H. }
  rewrite (decode_text n ds r) by assumption.
  pose proof (checksum_length p) as CL.
  assert (Len : (length p + 4 = n + length r)%nat).
  { apply (f_equal (@length Z)) in Hs. rewrite !app_length, repeat_length in Hs. lia. }
  destruct (Nat.le_gt_cases n (length p)) as [Hn|Hn].
  - (* p = 0^n ++ q, r = q ++ checksum p *)
    assert (X : exists q, p = repeat 0 n ++ q /\ r = q ++ checksum p).
    { exists (skipn n p). assert (F : firstn n (p ++ checksum p) = repeat 0 n).
      { rewrite Hs, firstn_app, repeat_length, Nat.sub_diag. cbn. rewrite app_nil_r. apply firstn_all2. rewrite repeat_length. lia. }
      assert (K : skipn n (p ++ checksum p) = r).
      { rewrite Hs, skipn_app, repeat_length, Nat.sub_diag. cbn.
        rewrite skipn_all2 by (rewrite repeat_length; lia). reflexivity. }
      rewrite firstn_app in F. replace (n - length p)%nat with O in F by lia. cbn [firstn] in F. rewrite app_nil_r in F.
      rewrite skipn_app in K. replace (n - length p)%nat with O in K by lia. cbn [skipn] in K.
      split; [rewrite <- F; symmetry; apply firstn_skipn|symmetry; exact K]. }
    destruct X as (q & Ep & Er). right. split.
    + intros [Z1 Z2]. destruct q as [|b q].
      * cbn [app] in Er. subst r. destruct (checksum p) as [|c cs]; [cbn in CL; lia|]. cbn [hd] in Z2. subst c. exact Hr.
      * subst r. cbn in Hr. rewrite Ep in Z1. apply Forall_app in Z1 as [_ Z1]. inversion Z1; subst. exact Hr.
    + assert (Hne : r <> []).
      { intros C. rewrite C in Len. cbn in Len. lia. }
      destruct r as [|b r0] eqn:E0; [contradiction|]. rewrite <- E0 in *.
      unfold decode_result. rewrite Er, drop_last_n_app, last_n_app by assumption. rewrite <- Ep.
      rewrite str_eqb_refl. reflexivity.
  - left. assert (AllZero : Forall (fun b => b = 0) p /\ hd 0 (checksum p) = 0).
    { assert (F : firstn (S (length p)) (p ++ checksum p) = repeat 0 (S (length p))).
      { rewrite Hs, firstn_app, repeat_length. replace (S (length p) - n)%nat with O by lia.
        rewrite firstn_O, app_nil_r. apply firstn_repeat_le. lia. }
      rewrite firstn_app in F. rewrite firstn_all2 in F by lia. replace (S (length p) - length p)%nat with 1%nat in F by lia.
      assert (A : Forall (fun b => b = 0) (p ++ firstn 1 (checksum p))).
      { rewrite F. apply Forall_forall. intros z Hz. apply repeat_spec in Hz. assumption. }
      apply Forall_app in A as [A1 A2]. split; [assumption|]. destruct (checksum p) as [|c cs]; [reflexivity|].
      cbn in A2. inversion A2. assumption. }
    split; [exact AllZero|]. destruct r as [|b r0] eqn:E0; [reflexivity|]. rewrite <- E0 in *.
    unfold decode_result. cbv zeta. 
    destruct (str_eqb (hex_of (last_n 4 r)) (hex_of (checksum (repeat 0 n ++ drop_last_n 4 r)))) eqn:Eq; [|reflexivity].
    exfalso. apply str_eqb_eq in Eq. apply (f_equal (@length Z)) in Eq.
    rewrite !hex_of_length, checksum_length, last_n_length in Eq. lia.
Qed.

Lemma decode_err : forall s e, base58check_to_hex (PStr s) = Err e -> e = ValueError.
Proof.
  intros s e H. unfold base58check_to_hex in H. cbn [validate_string as_str bind] in H.
  destruct (base58_to_int (lstrip 49 s)) as [v|e'] eqn:B; cbn [bind] in H.
  2:{ injection H as <-. eapply base58_to_int_err; eassumption. }
  apply base58_to_int_inv in B as (ds & _ & _ & _ & Hpos). rewrite int_to_hex_ok in H by lia. cbn [bind] in H.
  change 8%nat with (2 * 4)%nat in H. rewrite drop_last_n_hex, rep_str_zeros, <- hex_of_app in H.
  rewrite get_checksum_ok in H by (apply bytes_app; split; [apply bytes_repeat0|apply bytes_firstn, be_bytes_bytes]).
  cbn [bind] in H. match type of H with (if ?c then _ else _) = _ => destruct c end; congruence.
Qed.

(** * Addresses *)
Lemma address_iff : forall s x,
  bitcoin_address_to_public_key_hash_hex (PStr s) = Ok x <->
  exists h, x = hex_of h /\ is_address h s /\ ~ lost (0 :: h).
Proof.
  intros s x. unfold bitcoin_address_to_public_key_hash_hex. split.
  - intros H. inv_bind H y Hy. pose proof Hy as Hy0. apply decode_sound in Hy as (p & Hp & -> & Hs).
    change (firstn 2 (hex_of p)) with (firstn (2 * 1) (hex_of p)) in H.
    change (skipn 2 (hex_of p)) with (skipn (2 * 1) (hex_of p)) in H. rewrite firstn_hex, skipn_hex in H.
    destruct (str_eqb (hex_of (firstn 1 p)) (lit "00")) eqn:E0; [|discriminate]. cbn [negb] in H.
    apply str_eqb_eq in E0. change (lit "00") with (hex_of [0]) in E0.
    apply hex_of_inj in E0; [|apply bytes_firstn; assumption|apply bytes1; unfold byte; lia].
    destruct p as [|b h]; [discriminate|]. cbn in E0. injection E0 as ->. cbn [skipn] in H.
    inv_bind H u Hu. injection H as <-. destruct u. apply validate_hex_length_inv in Hu as (bs & Hbs & Hl & He). injection He as He.
    inversion Hp as [|? ? _ Hh]; subst. apply hex_of_inj in He; [|assumption|assumption]. subst bs.
    exists h. split; [reflexivity|]. split; [repeat split; assumption|].
    destruct (decode_complete (0 :: h) s Hp Hs) as [[_ C]|[C _]]; [congruence|exact C].
  - intros (h & -> & (Hb & Hl & Hs) & Hn).
    assert (Hp : bytes (0 :: h)) by (constructor; [unfold byte; lia|assumption]).
    destruct (decode_complete (0 :: h) s Hp Hs) as [[C _]|[_ C]]; [contradiction|]. rewrite C. cbn [bind].
    change (str_eqb (firstn 2 (hex_of (0 :: h))) (lit "00")) with true. cbn [negb].
    change (skipn 2 (hex_of (0 :: h))) with (hex_of h). rewrite validate_hex_length_ok by assumption. reflexivity.
Qed.

Lemma address_err : forall s e, bitcoin_address_to_public_key_hash_hex (PStr s) = Err e -> e = ValueError.
Proof.
  intros s e H. unfold bitcoin_address_to_public_key_hash_hex in H.
  destruct (base58check_to_hex (PStr s)) as [y|e'] eqn:D; cbn [bind] in H.
  - apply decode_sound in D as (p & Hp & -> & _). match type of H with (if ?c then _ else _) = _ => destruct c end; [congruence|].
    change (skipn 2 (hex_of p)) with (skipn (2 * 1) (hex_of p)) in H. rewrite skipn_hex in H.
    destruct (Nat.eq_dec (length (skipn 1 p)) 20).
    + rewrite validate_hex_length_ok in H by (try apply bytes_skipn; assumption). discriminate.
    + rewrite validate_hex_length_bad in H by (try apply bytes_skipn; assumption). cbn in H. congruence.
  - injection H as <-. eapply decode_err; eassumption.
Qed.

Context (HZ : ZeroAddressOk E).
Lemma not_lost : forall h, length h = 20%nat -> ~ lost (0 :: h).
Proof.
  intros h Hl [Z1 Z2]. apply HZ. assert (X : 0 :: h = repeat 0 21); [|rewrite <- X; exact Z2].
  inversion Z1 as [|? ? _ Z3]; subst. change (repeat 0 21) with (0 :: repeat 0 20). f_equal. rewrite <- Hl. clear -Z3.
  induction Z3 as [|x l H _ IH]; [reflexivity|]. cbn. subst. f_equal. exact IH.
Qed.
Lemma address_iff' : forall s x,
  bitcoin_address_to_public_key_hash_hex (PStr s) = Ok x <-> exists h, x = hex_of h /\ is_address h s.
Proof.
  intros s x. rewrite address_iff. split.
  - intros (h & H1 & H2 & _). exists h. auto.
  - intros (h & H1 & H2). exists h. repeat split; try apply H2; [assumption|]. apply not_lost. apply H2.
Qed.
Lemma is_address_fun : forall h s s', is_address h s -> is_address h s' -> s = s'.
Proof. intros h s s' (_ & _ & H) (_ & _ & H'). eapply is_base58check_fun; eassumption. Qed.
Lemma is_address_inj : forall h h' s, is_address h s -> is_address h' s -> h = h'.
Proof.
  intros h h' s H H'. assert (A : bitcoin_address_to_public_key_hash_hex (PStr s) = Ok (hex_of h)) by (apply address_iff'; eauto).
  assert (B : bitcoin_address_to_public_key_hash_hex (PStr s) = Ok (hex_of h')) by (apply address_iff'; eauto).
  rewrite A in B. injection B as B. apply hex_of_inj in B; [assumption|apply H|apply H'].
Qed.

End WithEnv.
