(** Hex, endianness and var_int lemmas. *)
From Coq Require Import String Floats.SpecFloat Lia.
From Verif Require Import PyBase Env PyNum Validate Basic Spec NumLemmas.

(** * Generic helpers *)
Lemma bind_ok_inv : forall {A B} (m : res A) (k : A -> res B) b,
  bind m k = Ok b -> exists a, m = Ok a /\ k a = Ok b.
Proof. intros A B [a|e] k b H; cbn in H; [eauto|discriminate]. Qed.

Lemma bind_err_inv : forall {A B} (m : res A) (k : A -> res B) e,
  bind m k = Err e -> m = Err e \/ exists a, m = Ok a /\ k a = Err e.
Proof. intros A B [a|x] k e H; cbn in H; [eauto|left; congruence]. Qed.

(** Break an equation [bind m k = Ok b] into the run of m and the run of k. *)
Ltac inv_bind H x Hx :=
  apply bind_ok_inv in H; destruct H as (x & Hx & H).

Lemma str_eqb_eq : forall a b, str_eqb a b = true <-> a = b.
Proof.
  induction a as [|x a IH]; destruct b as [|y b]; cbn; split; intros H; try reflexivity; try discriminate.
  - apply andb_true_iff in H as [H1 H2]. apply Z.eqb_eq in H1. apply IH in H2. congruence.
  - injection H as -> ->. rewrite Z.eqb_refl. apply IH. reflexivity.
Qed.
Lemma str_eqb_refl : forall a, str_eqb a a = true.
Proof. intros. apply str_eqb_eq. reflexivity. Qed.
Lemma str_eqb_neq : forall a b, str_eqb a b = false <-> a <> b.
Proof.
  intros. destruct (str_eqb a b) eqn:E; split; intros H; try discriminate; try reflexivity.
  - apply str_eqb_eq in E. contradiction.
  - intros ->. rewrite str_eqb_refl in E. discriminate.
Qed.
Lemma str_eq_dec : forall a b : pystr, {a = b} + {a <> b}.
Proof. apply list_eq_dec, Z.eq_dec. Qed.

Lemma range_check : forall (f : Z -> bool) n,
  forallb f (map Z.of_nat (seq 0 n)) = true -> forall d, 0 <= d < Z.of_nat n -> f d = true.
Proof.
  intros f n H d Hd. rewrite forallb_forall in H. apply H.
  rewrite <- (Z2Nat.id d) by lia. apply in_map. apply in_seq. lia.
Qed.

Lemma mapM_ok : forall {A B} (f : A -> res B) l l',
  mapM f l = Ok l' <-> Forall2 (fun x y => f x = Ok y) l l'.
Proof.
  intros A B f. induction l as [|x r IH]; intros l'; cbn [mapM]; split; intros H.
  - injection H as <-. constructor.
  - inversion H. reflexivity.
  - inv_bind H y Hy. inv_bind H ys Hys. injection H as <-. constructor; [assumption|]. apply IH. assumption.
  - inversion H; subst. rewrite H2. cbn. apply IH in H4. rewrite H4. reflexivity.
Qed.

Lemma iterM_ok : forall {A} (f : A -> res unit) l,
  iterM f l = Ok tt <-> Forall (fun x => f x = Ok tt) l.
Proof.
  intros A f. induction l as [|x r IH]; cbn [iterM]; split; intros H.
  - constructor.
  - reflexivity.
  - inv_bind H y Hy. destruct y. constructor; [assumption|]. apply IH. assumption.
  - inversion H; subst. rewrite H2. cbn. apply IH. assumption.
Qed.

(** * Characters *)
Lemma hex_char_digit : forall d, 0 <= d < 16 -> hex_char d = digit_char d.
Proof.
  intros d Hd. apply Z.eqb_eq.
  apply (range_check (fun d => hex_char d =? digit_char d) 16); [vm_compute; reflexivity|lia].
Qed.

Lemma char_in_In : forall c s, char_in c s = true <-> In c s.
Proof.
  intros. unfold char_in. rewrite existsb_exists. split.
  - intros (x & Hx & E). apply Z.eqb_eq in E. subst. assumption.
  - intros H. exists c. split; [assumption|apply Z.eqb_refl].
Qed.

Lemma char_in_hex : forall c, char_in c hex_digits = true <-> exists d, 0 <= d < 16 /\ c = hex_char d.
Proof.
  intros c. rewrite char_in_In. split.
  - intros H. apply (In_nth _ _ 0) in H. destruct H as (n & Hn & E).
    exists (Z.of_nat n). change (length hex_digits) with 16%nat in Hn. split; [lia|].
    unfold hex_char. rewrite Nat2Z.id. symmetry. exact E.
  - intros (d & Hd & ->). unfold hex_char. apply nth_In. replace (length hex_digits) with 16%nat by reflexivity. lia.
Qed.

Lemma hex_char_range : forall d, 0 <= d < 16 -> 48 <= hex_char d <= 102.
Proof.
  intros d Hd. pose proof (range_check (fun d => (48 <=? hex_char d) && (hex_char d <=? 102)) 16 eq_refl d ltac:(lia)) as H.
  cbv beta in H. apply andb_true_iff in H as [H1 H2]. lia.
Qed.

Definition nib (bs : list Z) : list Z := flat_map (fun b => [b / 16; b mod 16]) bs.

Lemma hex_of_nib : forall bs, hex_of bs = map hex_char (nib bs).
Proof. induction bs as [|b r IH]; [reflexivity|]. cbn. f_equal. f_equal. exact IH. Qed.

Lemma nib_digits : forall bs, bytes bs -> digits_in 16 (nib bs).
Proof.
  intros bs H. induction H as [|b r Hb Hr IH]; [constructor|].
  unfold byte in Hb. cbn. constructor; [|constructor; [|exact IH]].
  - split; [apply Z.div_pos; lia|apply Z.div_lt_upper_bound; lia].
  - apply Z.mod_pos_bound. lia.
Qed.

Lemma nib_length : forall bs, length (nib bs) = (2 * length bs)%nat.
Proof. induction bs as [|b r IH]; [reflexivity|]. cbn [nib flat_map app length] in *. unfold nib in IH. lia. Qed.

Lemma hex_of_length : forall bs, length (hex_of bs) = (2 * length bs)%nat.
Proof. intros. rewrite hex_of_nib, map_length. apply nib_length. Qed.

Lemma nib_val : forall bs, bytes bs -> val 16 (nib bs) = be_val bs.
Proof.
  intros bs H. unfold be_val. induction H as [|b r Hb Hr IH]; [reflexivity|].
  unfold nib. cbn [flat_map app]. fold (nib r). rewrite !val_cons, IH. cbn [length].
  rewrite nib_length. replace (Z.of_nat (S (2 * length r))) with (Z.succ (2 * Z.of_nat (length r))) by lia.
  rewrite Z.pow_succ_r by lia. replace (Z.of_nat (2 * length r)) with (2 * Z.of_nat (length r)) by lia.
  rewrite Z.pow_mul_r by lia. change (16 ^ 2) with 256.
  pose proof (Z.div_mod b 16 ltac:(lia)). nia.
Qed.

Lemma pair_digits : forall ds, digits_in 16 ds -> Nat.modulo (length ds) 2 = O -> exists bs, bytes bs /\ nib bs = ds.
Proof.
  intros ds. remember (length ds) as n eqn:Hn. revert ds Hn.
  induction n as [n IH] using (well_founded_induction lt_wf). intros ds Hn Hd Hm.
  destruct ds as [|d [|e r]].
  - exists []. split; [constructor|reflexivity].
  - subst n. cbn in Hm. discriminate.
  - inversion Hd as [|? ? Hd1 Hd']; subst. inversion Hd' as [|? ? He Hr]; subst.
    destruct (IH (length r) ltac:(cbn; lia) r eq_refl Hr) as (bs & Hb & E).
    { cbn [length] in Hm. replace (S (S (length r))) with (length r + 1 * 2)%nat in Hm by lia.
      rewrite Nat.mod_add in Hm by lia. exact Hm. }
    exists (16 * d + e :: bs). split.
    + constructor; [unfold byte; lia|assumption].
    + unfold nib. cbn [flat_map app]. fold (nib bs). rewrite E. f_equal; [|f_equal].
      * symmetry. apply Z.div_unique with e; lia.
      * symmetry. apply Z.mod_unique with d; lia.
Qed.

Lemma nib_inj : forall xs ys, bytes xs -> bytes ys -> nib xs = nib ys -> xs = ys.
Proof.
  intros xs ys Hx. revert ys. induction Hx as [|b r Hb Hr IH]; intros ys Hy E.
  - destruct ys; [reflexivity|discriminate].
  - destruct ys as [|c s]; [discriminate|]. inversion Hy; subst.
    cbn in E. injection E as E1 E2 E3. f_equal; [|apply IH; assumption].
    rewrite (Z.div_mod b 16), (Z.div_mod c 16) by lia. congruence.
Qed.

Lemma hex_char_inj : forall d e, 0 <= d < 16 -> 0 <= e < 16 -> hex_char d = hex_char e -> d = e.
Proof.
  intros d e Hd He. rewrite !hex_char_digit by assumption. unfold digit_char.
  destruct (Z.ltb_spec d 10), (Z.ltb_spec e 10); lia.
Qed.

Lemma map_hex_char_inj : forall xs ys, digits_in 16 xs -> digits_in 16 ys -> map hex_char xs = map hex_char ys -> xs = ys.
Proof.
  intros xs ys Hx. revert ys. induction Hx as [|d r Hd Hr IH]; intros ys Hy E.
  - destruct ys; [reflexivity|discriminate].
  - destruct ys as [|e s]; [discriminate|]. inversion Hy; subst. cbn in E. injection E as E1 E2.
    f_equal; [apply hex_char_inj; assumption|apply IH; assumption].
Qed.

Lemma hex_of_inj : forall xs ys, bytes xs -> bytes ys -> hex_of xs = hex_of ys -> xs = ys.
Proof.
  intros xs ys Hx Hy E. rewrite !hex_of_nib in E. apply nib_inj; try assumption.
  apply map_hex_char_inj; try apply nib_digits; assumption.
Qed.

Lemma hex_of_app : forall xs ys, hex_of (xs ++ ys) = hex_of xs ++ hex_of ys.
Proof. intros. unfold hex_of. apply flat_map_app. Qed.

Lemma bytes_app : forall xs ys, bytes (xs ++ ys) <-> bytes xs /\ bytes ys.
Proof. intros. apply Forall_app. Qed.

Lemma hex_of_nil_inv : forall bs, hex_of bs = [] -> bs = [].
Proof. intros [|b r] H; [reflexivity|discriminate]. Qed.

(** * validate_hex *)
Lemma forallb_existsb_neg : forall {A} (f : A -> bool) l, existsb (fun c => negb (f c)) l = negb (forallb f l).
Proof. induction l as [|x r IH]; [reflexivity|]. cbn. rewrite IH. destruct (f x); reflexivity. Qed.

Lemma chars_hex_nib : forall s, forallb (fun c => char_in c hex_digits) s = true ->
  exists ds, digits_in 16 ds /\ s = map hex_char ds.
Proof.
  induction s as [|c r IH]; intros H.
  - exists []. split; [constructor|reflexivity].
  - cbn in H. apply andb_true_iff in H as [H1 H2]. apply char_in_hex in H1 as (d & Hd & ->).
    destruct (IH H2) as (ds & Hds & ->). exists (d :: ds). split; [constructor; assumption|reflexivity].
Qed.

Lemma even_chars_hex : forall s, Nat.modulo (length s) 2 = O ->
  forallb (fun c => char_in c hex_digits) s = true -> is_hex s.
Proof.
  intros s Hl H. destruct (chars_hex_nib s H) as (ds & Hds & ->).
  rewrite map_length in Hl. destruct (pair_digits ds Hds Hl) as (bs & Hb & <-).
  exists bs. split; [assumption|]. symmetry. apply hex_of_nib.
Qed.

Lemma hex_chars : forall bs, bytes bs -> forallb (fun c => char_in c hex_digits) (hex_of bs) = true.
Proof.
  intros bs H. rewrite hex_of_nib. apply forallb_forall. intros c Hc.
  apply in_map_iff in Hc as (d & <- & Hd). apply char_in_hex. exists d. split; [|reflexivity].
  pose proof (nib_digits bs H) as F. unfold digits_in in F. rewrite Forall_forall in F. apply F. exact Hd.
Qed.

Section WithEnv.
Context {E : Env}.

Lemma validate_hex_ok : forall bs, bytes bs -> validate_hex (PStr (hex_of bs)) = Ok tt.
Proof.
  intros bs H. unfold validate_hex. cbn [validate_string bind as_str].
  rewrite hex_of_length. replace (2 * length bs)%nat with (length bs * 2)%nat by lia.
  rewrite Nat.mod_mul by lia. cbn [Nat.eqb negb].
  rewrite forallb_existsb_neg, hex_chars by assumption. reflexivity.
Qed.

Lemma validate_hex_cases : forall s,
  (is_hex s /\ validate_hex (PStr s) = Ok tt) \/ (~ is_hex s /\ validate_hex (PStr s) = Err ValueError).
Proof.
  intros s.
  assert (D : is_hex s \/ validate_hex (PStr s) = Err ValueError).
  { unfold validate_hex. cbn [validate_string bind as_str].
    destruct (Nat.eqb_spec (Nat.modulo (length s) 2) 0) as [H1|H1]; cbn [negb]; [|right; reflexivity].
    rewrite forallb_existsb_neg.
    destruct (forallb (fun c => char_in c hex_digits) s) eqn:H2; cbn [negb]; [|right; reflexivity].
    left. apply even_chars_hex; assumption. }
  destruct D as [D|D].
  - left. split; [assumption|]. destruct D as (bs & Hb & ->). apply validate_hex_ok. assumption.
  - right. split; [|assumption]. intros (bs & Hb & ->). rewrite validate_hex_ok in D by assumption. discriminate.
Qed.

Lemma validate_hex_inv : forall v, validate_hex v = Ok tt -> exists bs, bytes bs /\ v = PStr (hex_of bs).
Proof.
  intros v H. destruct v; try discriminate.
  destruct (validate_hex_cases s) as [[(bs & Hb & ->) _]|[_ H']]; [eauto|congruence].
Qed.

Lemma validate_hex_nonstr : forall v, (forall s, v <> PStr s) -> validate_hex v = Err TypeError.
Proof. intros v H. destruct v; try reflexivity. exfalso. eapply H. reflexivity. Qed.

Lemma validate_hex_length_ok : forall bs n, bytes bs -> length bs = n -> validate_hex_length (PStr (hex_of bs)) n = Ok tt.
Proof.
  intros bs n H Hn. unfold validate_hex_length. rewrite validate_hex_ok by assumption. cbn [bind as_str].
  rewrite hex_of_length. subst n. rewrite Nat.mul_comm, Nat.eqb_refl. reflexivity.
Qed.

Lemma validate_hex_length_bad : forall bs n, bytes bs -> length bs <> n ->
  validate_hex_length (PStr (hex_of bs)) n = Err ValueError.
Proof.
  intros bs n H Hn. unfold validate_hex_length. rewrite validate_hex_ok by assumption. cbn [bind as_str].
  rewrite hex_of_length. destruct (Nat.eqb_spec (2 * length bs) (n * 2)); [lia|reflexivity].
Qed.

Lemma validate_hex_length_inv : forall v n, validate_hex_length v n = Ok tt ->
  exists bs, bytes bs /\ length bs = n /\ v = PStr (hex_of bs).
Proof.
  intros v n H. unfold validate_hex_length in H. inv_bind H u Hu. destruct u.
  destruct (validate_hex_inv v Hu) as (bs & Hb & ->). cbn [bind as_str] in H.
  rewrite hex_of_length in H. destruct (Nat.eqb_spec (2 * length bs) (n * 2)); [|discriminate].
  exists bs. repeat split; try assumption. lia.
Qed.

Lemma hex_len_ok : forall bs, bytes bs -> hex_len (PStr (hex_of bs)) = Ok (length bs).
Proof.
  intros bs H. unfold hex_len. rewrite validate_hex_ok by assumption. cbn [bind as_str].
  rewrite hex_of_length, Nat.mul_comm, Nat.div_mul by lia. reflexivity.
Qed.

Lemma hex_len_inv : forall v n, hex_len v = Ok n -> exists bs, bytes bs /\ length bs = n /\ v = PStr (hex_of bs).
Proof.
  intros v n H. unfold hex_len in H. inv_bind H u Hu. destruct u.
  destruct (validate_hex_inv v Hu) as (bs & Hb & ->). cbn [bind as_str] in H.
  rewrite hex_of_length, Nat.mul_comm, Nat.div_mul in H by lia. injection H as <-.
  exists bs. repeat split; assumption.
Qed.

(** * chunks, reversal *)
Definition hex1 (b : Z) : pystr := hex_of [b].

Lemma chunks2_hex : forall bs, chunks2 (hex_of bs) = map hex1 bs.
Proof. induction bs as [|b r IH]; [reflexivity|]. cbn [hex_of flat_map app chunks2]. unfold hex_of in IH. rewrite IH. reflexivity. Qed.

Lemma concat_hex1 : forall bs, concat (map hex1 bs) = hex_of bs.
Proof. induction bs as [|b r IH]; [reflexivity|]. cbn [map concat]. rewrite IH. reflexivity. Qed.

Lemma bytes_rev : forall bs, bytes bs -> bytes (rev bs).
Proof. intros. apply Forall_rev. assumption. Qed.

Lemma reverse_hex_order_ok : forall bs, bytes bs -> reverse_hex_order (PStr (hex_of bs)) = Ok (hex_of (rev bs)).
Proof.
  intros bs H. unfold reverse_hex_order. rewrite validate_hex_ok by assumption. cbn [bind as_str].
  rewrite chunks2_hex, <- map_rev, concat_hex1. rewrite validate_hex_ok by (apply bytes_rev; assumption). reflexivity.
Qed.

Lemma reverse_hex_order_inv : forall v s, reverse_hex_order v = Ok s ->
  exists bs, bytes bs /\ v = PStr (hex_of bs) /\ s = hex_of (rev bs).
Proof.
  intros v s H. pose proof H as H0. unfold reverse_hex_order in H. inv_bind H u Hu. destruct u.
  destruct (validate_hex_inv v Hu) as (bs & Hb & ->). exists bs. repeat split; try assumption.
  rewrite reverse_hex_order_ok in H0 by assumption. congruence.
Qed.

(** * int(s, base) *)
Lemma to_ascii_small : forall c, c < 128 -> to_ascii c = c.
Proof. intros c H. unfold to_ascii. destruct (Z.ltb_spec c 128); [reflexivity|lia]. Qed.

Lemma digit_char_range : forall d, 0 <= d < 16 -> 48 <= digit_char d <= 102.
Proof. intros d H. unfold digit_char. destruct (Z.ltb_spec d 10); lia. Qed.

Lemma digit_in_char : forall base d, base = 10 \/ base = 16 -> 0 <= d < base -> digit_in base (digit_char d) = Some d.
Proof.
  intros base d Hb Hd. unfold digit_in, digit_val, digit_char. destruct (Z.ltb_spec d 10).
  - destruct (Z.leb_spec 48 (48 + d)); [|lia]. destruct (Z.leb_spec (48 + d) 57); [|lia]. cbn [andb].
    replace (48 + d - 48) with d by lia. destruct (Z.ltb_spec d base); [reflexivity|lia].
  - destruct (Z.leb_spec (87 + d) 57); [lia|]. rewrite andb_false_r.
    destruct (Z.leb_spec 97 (87 + d)); [|lia]. destruct (Z.leb_spec (87 + d) 122); [|lia]. cbn [andb].
    replace (87 + d - 87) with d by lia. destruct (Z.ltb_spec d base); [reflexivity|lia].
Qed.

Lemma int_digits_ok : forall base ds acc prev, base = 10 \/ base = 16 -> digits_in base ds ->
  prev = true \/ ds <> [] ->
  int_digits base acc prev (map digit_char ds) = Some (fold_left (fun a d => a * base + d) ds acc, []).
Proof.
  intros base ds. induction ds as [|d r IH]; intros acc prev Hb Hd Hp.
  - destruct Hp as [->|Hp]; [reflexivity|contradiction].
  - inversion Hd; subst. cbn [map int_digits]. rewrite digit_in_char by assumption. cbn [fold_left].
    apply IH; auto.
Qed.

Lemma skip_prefix_digits : forall base ds, base = 10 \/ base = 16 -> digits_in base ds ->
  skip_prefix base (map digit_char ds) = map digit_char ds.
Proof.
  intros base ds Hb Hd. unfold skip_prefix. destruct (Z.eqb_spec base 16) as [Hb16|Hb16]; [|reflexivity].
  destruct ds as [|d [|e r]]; cbn [map]; try reflexivity.
  - destruct (digit_char d) as [|p|p]; try reflexivity. repeat (destruct p as [p|p|]; try reflexivity).
  - inversion Hd as [|? ? H1 H2]; subst. inversion H2 as [|? ? H3 H4]; subst.
    pose proof (digit_char_range e ltac:(lia)).
    assert (X : (digit_char e =? 120) || (digit_char e =? 88) = false).
    { apply orb_false_iff. split; apply Z.eqb_neq; [lia|].
      unfold digit_char. destruct (Z.ltb_spec e 10); lia. }
    destruct (digit_char d) as [|p|p]; try reflexivity. repeat (destruct p as [p|p|]; try reflexivity).
    rewrite X. reflexivity.
Qed.

Lemma py_int_str_digits : forall base s ds, base = 10 \/ base = 16 -> digits_in base ds -> ds <> [] ->
  map to_ascii s = map digit_char ds -> py_int_str base s = Ok (val base ds).
Proof.
  intros base s ds Hb Hd Hn Hs. unfold py_int_str. rewrite Hs.
  destruct ds as [|d r]; [contradiction|].
  assert (Hd0 : 48 <= digit_char d <= 102) by (apply digit_char_range; inversion Hd; subst; lia).
  assert (S1 : skip_spaces (map digit_char (d :: r)) = map digit_char (d :: r)).
  { cbn [map skip_spaces]. unfold ascii_space.
    destruct (Z.leb_spec 9 (digit_char d)); [|lia]. destruct (Z.leb_spec (digit_char d) 13); [lia|].
    destruct (Z.eqb_spec (digit_char d) 32); [lia|]. reflexivity. }
  rewrite S1. cbn [map].
  destruct (Z.eqb_spec (digit_char d) 45); [lia|]. destruct (Z.eqb_spec (digit_char d) 43); [lia|].
  change (digit_char d :: map digit_char r) with (map digit_char (d :: r)).
  rewrite skip_prefix_digits by assumption.
  rewrite int_digits_ok by auto. reflexivity.
Qed.

Lemma py_int_str_empty : forall base, py_int_str base [] = Err ValueError.
Proof. intros. unfold py_int_str. cbn. unfold skip_prefix. destruct (base =? 16); reflexivity. Qed.

Lemma map_ascii_digit_chars : forall ds, digits_in 16 ds -> map to_ascii (map digit_char ds) = map digit_char ds.
Proof.
  intros ds H. induction H as [|d r Hd Hr IH]; [reflexivity|]. cbn [map]. rewrite IH.
  rewrite to_ascii_small; [reflexivity|]. pose proof (digit_char_range d Hd). lia.
Qed.

Lemma hex_of_digit_chars : forall bs, bytes bs -> hex_of bs = map digit_char (nib bs).
Proof.
  intros bs H. rewrite hex_of_nib. apply map_ext_in. intros d Hd. apply hex_char_digit.
  pose proof (nib_digits bs H) as F. unfold digits_in in F. rewrite Forall_forall in F. apply F. exact Hd.
Qed.

Lemma py_int_hex : forall bs, bytes bs -> bs <> [] -> py_int_str 16 (hex_of bs) = Ok (be_val bs).
Proof.
  intros bs H Hn. rewrite <- nib_val by assumption. apply py_int_str_digits.
  - auto.
  - apply nib_digits. assumption.
  - destruct bs; [contradiction|discriminate].
  - rewrite hex_of_digit_chars by assumption. apply map_ascii_digit_chars. apply nib_digits. assumption.
Qed.

Lemma hex_to_int_ok : forall bs, bytes bs -> bs <> [] -> hex_to_int (hex_of bs) = Ok (be_val bs).
Proof. exact py_int_hex. Qed.

(** * int_to_hex *)
Definition be_bytes (n : Z) : list Z := if n =? 0 then [0] else digits 256 n.

Lemma be_bytes_bytes : forall n, bytes (be_bytes n).
Proof.
  intros n. unfold be_bytes. destruct (n =? 0).
  - constructor; [unfold byte; lia|constructor].
  - destruct (digits_spec 256 n ltac:(lia)) as (A & _ & _). exact A.
Qed.
Lemma be_bytes_val : forall n, 0 <= n -> be_val (be_bytes n) = n.
Proof.
  intros n Hn. unfold be_bytes. destruct (Z.eqb_spec n 0); [subst; reflexivity|].
  destruct (digits_spec 256 n ltac:(lia)) as (_ & _ & C). unfold be_val. lia.
Qed.
Lemma be_bytes_minimal : forall n, 0 <= n -> minimal (be_bytes n).
Proof.
  intros n Hn. unfold be_bytes. destruct (Z.eqb_spec n 0); [left; reflexivity|].
  destruct (digits_spec 256 n ltac:(lia)) as (A & B & C). right.
  destruct (digits 256 n) as [|d r].
  - rewrite val_nil in C. lia.
  - apply no_lead0_cons in B. eauto.
Qed.
Lemma be_bytes_unique : forall bs, bytes bs -> minimal bs -> be_bytes (be_val bs) = bs.
Proof.
  intros bs Hb [->|(b & r & -> & Hne)]; [reflexivity|].
  unfold be_bytes. pose proof (val_lead_lower 256 b r ltac:(lia) Hb Hne) as L.
  pose proof (Z.pow_pos_nonneg 256 (Z.of_nat (length r)) ltac:(lia) ltac:(lia)).
  fold (be_val (b :: r)) in L. destruct (Z.eqb_spec (be_val (b :: r)) 0); [lia|].
  apply digits_unique; [lia|assumption|]. apply no_lead0_cons. assumption.
Qed.
Lemma be_bytes_nonempty : forall n, 0 <= n -> be_bytes n <> [].
Proof. intros n Hn. destruct (be_bytes_minimal n Hn) as [->|(b & r & -> & _)]; discriminate. Qed.
Lemma be_bytes_length : forall n k, 0 <= n < 256 ^ Z.of_nat k -> (1 <= k)%nat -> (length (be_bytes n) <= k)%nat.
Proof.
  intros n k Hn Hk. unfold be_bytes. destruct (Z.eqb_spec n 0); [cbn; lia|].
  apply digits_length; lia.
Qed.

Lemma int_to_hex_as_int : forall v n, as_int v = Some n -> int_to_hex v = int_to_hex (PInt n).
Proof. intros v n H. unfold int_to_hex, validate_integer. rewrite H. reflexivity. Qed.

Lemma int_to_hex_notint : forall v, as_int v = None -> int_to_hex v = Err TypeError.
Proof. intros v H. unfold int_to_hex, validate_integer. rewrite H. reflexivity. Qed.

Lemma nat_text16 : forall n, 0 <= n -> exists ds, nat_text 16 n = map digit_char ds /\ digits_in 16 ds /\
  ds <> [] /\ val 16 ds = n /\ (ds = [0] \/ no_lead0 ds).
Proof.
  intros n Hn. unfold nat_text. destruct (Z.eqb_spec n 0).
  - exists [0]. subst. repeat split; try reflexivity; try discriminate; auto. constructor; [lia|constructor].
  - destruct (digits_spec 16 n ltac:(lia)) as (A & B & C). exists (digits 16 n). repeat split; auto; try lia.
    intros X. rewrite X, val_nil in C. lia.
Qed.

Lemma last_digit_char : forall ds, digits_in 16 ds -> ds <> [] -> last (map digit_char ds) 0 =? 76 = false.
Proof.
  intros ds H Hn. destruct (exists_last Hn) as (r & d & ->). rewrite map_app. cbn [map]. rewrite last_last.
  apply Forall_app in H as [_ H]. inversion H; subst. apply Z.eqb_neq.
  unfold digit_char. destruct (Z.ltb_spec d 10); lia.
Qed.

Lemma int_to_hex_ok : forall n, 0 <= n -> int_to_hex (PInt n) = Ok (hex_of (be_bytes n)).
Proof.
  intros n Hn. unfold int_to_hex. cbn [validate_integer as_int bind].
  unfold int_hex. destruct (Z.ltb_spec n 0); [lia|].
  destruct (nat_text16 n Hn) as (ds & -> & Hd & Hne & Hv & Hl).
  change (skipn 2 (lit "0x" ++ map digit_char ds)) with (map digit_char ds).
  assert (G : exists ds', digits_in 16 ds' /\ Nat.modulo (length ds') 2 = O /\
     (if Nat.eqb (Nat.modulo (length (map digit_char ds)) 2) 1 then 48 :: map digit_char ds else map digit_char ds)
       = map digit_char ds' /\ val 16 ds' = n /\
     (ds' = [0;0] \/ exists d e r, ds' = d :: e :: r /\ 16 * d + e <> 0)).
  { rewrite map_length. destruct (Nat.eqb_spec (Nat.modulo (length ds) 2) 1) as [M|M].
    - exists (0 :: ds). repeat split.
      + constructor; [lia|assumption].
      + cbn [length]. rewrite <- Nat.add_1_r. rewrite Nat.add_mod by lia. rewrite M. reflexivity.
      + rewrite val_cons. lia.
      + destruct Hl as [->|Hl]; [left; reflexivity|]. destruct ds as [|d r]; [contradiction|].
        apply no_lead0_cons in Hl. right. exists 0, d, r. split; [reflexivity|lia].
    - exists ds. repeat split; try assumption.
      + pose proof (Nat.mod_upper_bound (length ds) 2 ltac:(lia)). lia.
      + right. destruct ds as [|d [|e r]]; [contradiction|cbn in M; lia|].
        destruct Hl as [Hl|Hl]; [discriminate|]. apply no_lead0_cons in Hl. exists d, e, r. split; [reflexivity|].
        inversion Hd as [|? ? H1 H2]; subst. inversion H2; subst. lia. }
  destruct G as (ds' & Hd' & Hm & Heq & Hv' & Hl').
  destruct (map digit_char ds) as [|c r] eqn:Em.
  { destruct ds; [contradiction|discriminate]. }
  rewrite <- Em in *. rewrite last_digit_char by assumption. cbv zeta iota. rewrite Heq.
  destruct (pair_digits ds' Hd' Hm) as (bs & Hb & <-).
  rewrite <- hex_of_digit_chars by assumption. rewrite validate_hex_ok by assumption. cbn [bind].
  rewrite nib_val in Hv' by assumption.
  assert (Q : be_bytes n = bs); [|rewrite Q; reflexivity].
  rewrite <- Hv'. apply be_bytes_unique; [assumption|].
  destruct Hl' as [Hl'|(d & e & r' & Hl' & Hnz)].
  - left. destruct bs as [|b [|b2 bs]]; try discriminate. cbn in Hl'. injection Hl' as H1 H2.
    f_equal. rewrite (Z.div_mod b 16) by lia. lia.
  - right. destruct bs as [|b bs]; [discriminate|]. exists b, bs. split; [reflexivity|].
    cbn in Hl'. injection Hl' as H1 H2 H3. rewrite (Z.div_mod b 16) by lia. lia.
Qed.

Lemma int_to_hex_neg : forall n, n < 0 -> int_to_hex (PInt n) = Err ValueError.
Proof.
  intros n Hn. unfold int_to_hex. cbn [validate_integer as_int bind].
  unfold int_hex. destruct (Z.ltb_spec n 0); [|lia].
  destruct (nat_text16 (- n) ltac:(lia)) as (ds & -> & Hd & Hne & Hv & Hl).
  change (skipn 2 (lit "-0x" ++ map digit_char ds)) with (120 :: map digit_char ds).
  assert (X : forall c s, c = 120 \/ In 120 s -> validate_hex (PStr (c :: s)) = Err ValueError).
  { intros c s H'. destruct (validate_hex_cases (c :: s)) as [[(bs & Hb & Eb) _]|[_ R]]; [|exact R].
    exfalso. pose proof (hex_chars bs Hb) as F. rewrite <- Eb in F. rewrite forallb_forall in F.
    assert (I : In 120 (c :: s)) by (destruct H' as [->|H']; [left; reflexivity|right; exact H']).
    specialize (F 120 I). vm_compute in F. discriminate. }
  cbv zeta.
  destruct (last (120 :: map digit_char ds) 0 =? 76) eqn:EL.
  { exfalso. destruct ds as [|d r]; [contradiction|].
    change (last (120 :: map digit_char (d :: r)) 0) with (last (map digit_char (d :: r)) 0) in EL.
    rewrite last_digit_char in EL by assumption. discriminate. }
  match goal with |- context [Nat.eqb ?a 1] => destruct (Nat.eqb a 1) end.
  - rewrite X by (right; left; reflexivity). reflexivity.
  - rewrite X by (left; reflexivity). reflexivity.
Qed.

Lemma int_to_hex_inv : forall v s, int_to_hex v = Ok s ->
  exists n, as_int v = Some n /\ 0 <= n /\ s = hex_of (be_bytes n).
Proof.
  intros v s H. destruct (as_int v) as [n|] eqn:Ev.
  - rewrite (int_to_hex_as_int v n Ev) in H. destruct (Z.ltb_spec n 0).
    + rewrite int_to_hex_neg in H by assumption. discriminate.
    + rewrite int_to_hex_ok in H by lia. exists n. repeat split; try lia. congruence.
  - rewrite int_to_hex_notint in H by assumption. discriminate.
Qed.

(** * Little-endian fields *)
Lemma le_bytes_bytes : forall k n, bytes (le_bytes k n).
Proof.
  induction k as [|k IH]; intros n; cbn; constructor; [|apply IH].
  unfold byte. apply Z.mod_pos_bound. lia.
Qed.
Lemma le_bytes_length : forall k n, length (le_bytes k n) = k.
Proof. induction k as [|k IH]; intros n; cbn; [reflexivity|]. rewrite IH. reflexivity. Qed.
Lemma le_bytes_val : forall k n, 0 <= n < 256 ^ Z.of_nat k -> le_val (le_bytes k n) = n.
Proof.
  induction k as [|k IH]; intros n Hn; cbn [le_bytes le_val].
  - cbn in Hn. lia.
  - rewrite Nat2Z.inj_succ, Z.pow_succ_r in Hn by lia. rewrite IH.
    + pose proof (Z.div_mod n 256 ltac:(lia)). lia.
    + split; [apply Z.div_pos; lia|apply Z.div_lt_upper_bound; lia].
Qed.
Lemma le_bytes_unique : forall bs, bytes bs -> le_bytes (length bs) (le_val bs) = bs.
Proof.
  intros bs H. apply le_val_inj; try assumption.
  - apply le_bytes_bytes.
  - apply le_bytes_length.
  - apply le_bytes_val. apply le_val_bounds. assumption.
Qed.

Lemma int_to_hex_le_ok : forall n, 0 <= n -> int_to_hex_le (PInt n) = Ok (hex_of (rev (be_bytes n))).
Proof.
  intros n Hn. unfold int_to_hex_le. rewrite int_to_hex_ok by assumption. cbn [bind].
  apply reverse_hex_order_ok. apply be_bytes_bytes.
Qed.
Lemma int_to_hex_le_neg : forall n, n < 0 -> int_to_hex_le (PInt n) = Err ValueError.
Proof. intros n Hn. unfold int_to_hex_le. rewrite int_to_hex_neg by assumption. reflexivity. Qed.

Lemma rep_str_zeros : forall m, rep_str m (lit "00") = hex_of (repeat 0 m).
Proof. induction m as [|m IH]; [reflexivity|]. unfold rep_str in *. cbn [repeat concat]. rewrite IH. reflexivity. Qed.

Lemma bytes_repeat0 : forall m, bytes (repeat 0 m).
Proof. induction m; cbn; constructor; [unfold byte; lia|assumption]. Qed.

Lemma pad_hex_le_ok : forall bs k, bytes bs -> (length bs <= k)%nat ->
  pad_hex_le (hex_of bs) k = Ok (hex_of (bs ++ repeat 0 (k - length bs))).
Proof.
  intros bs k H Hk. unfold pad_hex_le. rewrite validate_hex_ok, hex_len_ok by assumption. cbn [bind].
  destruct (Nat.ltb_spec k (length bs)); [lia|]. cbv zeta.
  destruct (Nat.ltb_spec 0 (k - length bs)).
  - rewrite rep_str_zeros, hex_of_app. reflexivity.
  - replace (k - length bs)%nat with O by lia. cbn [repeat]. rewrite app_nil_r. reflexivity.
Qed.
Lemma pad_hex_le_long : forall bs k, bytes bs -> (k < length bs)%nat -> pad_hex_le (hex_of bs) k = Err ValueError.
Proof.
  intros bs k H Hk. unfold pad_hex_le. rewrite validate_hex_ok, hex_len_ok by assumption. cbn [bind].
  destruct (Nat.ltb_spec k (length bs)); [reflexivity|lia].
Qed.

Lemma pad_hex_ok : forall bs k, bytes bs -> (length bs <= k)%nat ->
  pad_hex (hex_of bs) k = Ok (hex_of (repeat 0 (k - length bs) ++ bs)).
Proof.
  intros bs k H Hk. unfold pad_hex. rewrite validate_hex_ok, hex_len_ok by assumption. cbn [bind].
  destruct (Nat.ltb_spec k (length bs)); [lia|]. cbv zeta.
  destruct (Nat.ltb_spec 0 (k - length bs)).
  - rewrite rep_str_zeros, hex_of_app. reflexivity.
  - replace (k - length bs)%nat with O by lia. reflexivity.
Qed.
Lemma pad_hex_long : forall bs k, bytes bs -> (k < length bs)%nat -> pad_hex (hex_of bs) k = Err ValueError.
Proof.
  intros bs k H Hk. unfold pad_hex. rewrite validate_hex_ok, hex_len_ok by assumption. cbn [bind].
  destruct (Nat.ltb_spec k (length bs)); [reflexivity|lia].
Qed.
Lemma pad_hex_bad : forall s k, ~ is_hex s -> pad_hex s k = Err ValueError /\ pad_hex_le s k = Err ValueError.
Proof.
  intros s k H. destruct (validate_hex_cases s) as [[C _]|[_ C]]; [contradiction|].
  unfold pad_hex, pad_hex_le. rewrite C. split; reflexivity.
Qed.

(** The composition used for every fixed-width field. *)
Definition le_field (n : pyval) (k : nat) : res pystr :=
  x <- int_to_hex_le n ;; pad_hex_le x k.

Lemma le_field_ok : forall n k, (1 <= k)%nat -> 0 <= n < 256 ^ Z.of_nat k -> le_field (PInt n) k = Ok (hex_of (le_bytes k n)).
Proof.
  intros n k Hk Hn. unfold le_field. rewrite int_to_hex_le_ok by lia. cbn [bind].
  pose proof (be_bytes_length n k Hn Hk). pose proof (be_bytes_bytes n) as Hb.
  rewrite pad_hex_le_ok; [|apply bytes_rev; assumption|rewrite rev_length; assumption].
  do 2 f_equal. apply le_val_inj.
  - apply bytes_app. split; [apply bytes_rev; assumption|apply bytes_repeat0].
  - apply le_bytes_bytes.
  - rewrite app_length, repeat_length, rev_length, le_bytes_length. lia.
  - rewrite le_val_app_zeros, le_bytes_val by assumption. rewrite le_val_rev, rev_involutive.
    apply be_bytes_val. lia.
Qed.

Lemma be_bytes_long : forall n k, 256 ^ Z.of_nat k <= n -> (k < length (be_bytes n))%nat.
Proof.
  intros n k Hn. pose proof (Z.pow_pos_nonneg 256 (Z.of_nat k) ltac:(lia) ltac:(lia)).
  assert (V : be_val (be_bytes n) = n) by (apply be_bytes_val; lia).
  pose proof (val_bounds 256 (be_bytes n) ltac:(lia) (be_bytes_bytes n)) as B. fold (be_val (be_bytes n)) in B.
  assert (~ (length (be_bytes n) <= k)%nat).
  { intros L. assert (256 ^ Z.of_nat (length (be_bytes n)) <= 256 ^ Z.of_nat k) by (apply Z.pow_le_mono_r; lia). lia. }
  lia.
Qed.

Lemma le_field_bad : forall n k, n < 0 \/ 256 ^ Z.of_nat k <= n -> le_field (PInt n) k = Err ValueError.
Proof.
  intros n k H. unfold le_field. destruct (Z.ltb_spec n 0).
  - rewrite int_to_hex_le_neg by assumption. reflexivity.
  - destruct H as [H|H]; [lia|]. rewrite int_to_hex_le_ok by lia. cbn [bind].
    apply pad_hex_le_long; [apply bytes_rev, be_bytes_bytes|]. rewrite rev_length. apply be_bytes_long. assumption.
Qed.

Lemma le_field_as_int : forall v n k, as_int v = Some n -> le_field v k = le_field (PInt n) k.
Proof. intros v n k H. unfold le_field, int_to_hex_le. rewrite (int_to_hex_as_int v n H). reflexivity. Qed.

Lemma le_field_inv : forall v k s, (1 <= k)%nat -> le_field v k = Ok s ->
  exists n, as_int v = Some n /\ 0 <= n < 256 ^ Z.of_nat k /\ s = hex_of (le_bytes k n).
Proof.
  intros v k s Hk H. destruct (as_int v) as [n|] eqn:Ev.
  - rewrite (le_field_as_int v n k Ev) in H.
    destruct (Z.ltb_spec n 0); [rewrite le_field_bad in H by auto; discriminate|].
    destruct (Z.ltb_spec n (256 ^ Z.of_nat k)); [|rewrite le_field_bad in H by auto; discriminate].
    rewrite le_field_ok in H by (try assumption; lia). exists n. repeat split; try lia. congruence.
  - unfold le_field, int_to_hex_le in H. rewrite int_to_hex_notint in H by assumption. discriminate.
Qed.

Lemma hex_le_to_int_ok : forall bs, bytes bs -> bs <> [] -> hex_le_to_int (PStr (hex_of bs)) = Ok (le_val bs).
Proof.
  intros bs H Hn. unfold hex_le_to_int. rewrite reverse_hex_order_ok by assumption. cbn [bind].
  rewrite hex_to_int_ok; [rewrite le_val_rev; reflexivity|apply bytes_rev; assumption|].
  intros X. apply (f_equal (@rev Z)) in X. rewrite rev_involutive in X. contradiction.
Qed.
Lemma hex_le_to_int_empty : hex_le_to_int (PStr []) = Err ValueError.
Proof. reflexivity. Qed.

(** * var_int *)
Lemma be_bytes_small : forall n, byte n -> be_bytes n = [n].
Proof.
  intros n H. assert (V : be_val [n] = n) by (unfold be_val; rewrite val_cons, val_nil; cbn; lia).
  rewrite <- V at 1. apply be_bytes_unique.
  - constructor; [assumption|constructor].
  - destruct (Z.eq_dec n 0) as [->|Hn]; [left; reflexivity|right; exists n, []; auto].
Qed.

Lemma validate_integer_domain_ok : forall n lo hi, lo <= n <= hi -> validate_integer_domain (PInt n) lo hi = Ok tt.
Proof.
  intros n lo hi H. unfold validate_integer_domain. cbn [as_int].
  destruct (Z.gtb_spec lo hi); [lia|]. destruct (Z.leb_spec lo n); [|lia]. destruct (Z.leb_spec n hi); [|lia]. reflexivity.
Qed.
Lemma validate_integer_domain_bad : forall n lo hi, ~ (lo <= n <= hi) -> validate_integer_domain (PInt n) lo hi = Err ValueError.
Proof.
  intros n lo hi H. unfold validate_integer_domain. cbn [as_int].
  destruct (Z.gtb_spec lo hi); [reflexivity|]. destruct (Z.leb_spec lo n), (Z.leb_spec n hi); cbn [andb]; try lia.
  - destruct (Z.ltb_spec n lo); [lia|]. destruct (Z.gtb_spec n hi); [reflexivity|lia].
  - destruct (Z.ltb_spec n lo); [reflexivity|lia].
Qed.

Lemma int_to_var_int_ok : forall n, 0 <= n <= 252 -> int_to_var_int (PInt n) = Ok (hex_of [n]).
Proof.
  intros n H. unfold int_to_var_int. rewrite validate_integer_domain_ok by assumption. cbn [bind].
  rewrite int_to_hex_ok by lia. cbn [bind]. rewrite be_bytes_small by (unfold byte; lia).
  rewrite validate_hex_ok; [reflexivity|]. constructor; [unfold byte; lia|constructor].
Qed.
Lemma int_to_var_int_bad : forall n, ~ (0 <= n <= 252) -> int_to_var_int (PInt n) = Err ValueError.
Proof. intros n H. unfold int_to_var_int. rewrite validate_integer_domain_bad by assumption. reflexivity. Qed.

Lemma bytes1 : forall b, byte b -> bytes [b].
Proof. intros. constructor; [assumption|constructor]. Qed.

Lemma str_in_fdfeff : forall b, byte b ->
  str_in (hex_of [b]) [lit "fd"; lit "fe"; lit "ff"] = (252 <? b).
Proof.
  intros b Hb.
  pose proof (range_check (fun b => Bool.eqb (str_in (hex_of [b]) [lit "fd"; lit "fe"; lit "ff"]) (252 <? b)) 256
    ltac:(vm_compute; reflexivity) b ltac:(unfold byte in Hb; lia)) as H.
  apply Bool.eqb_prop in H. exact H.
Qed.

Lemma be_val1 : forall b, be_val [b] = b.
Proof. intros. unfold be_val. rewrite val_cons, val_nil. cbn. lia. Qed.

Lemma var_int_to_int_ok : forall b, 0 <= b <= 252 -> var_int_to_int (PStr (hex_of [b])) = Ok b.
Proof.
  intros b H. assert (Hb : byte b) by (unfold byte; lia). unfold var_int_to_int.
  rewrite validate_hex_length_ok by (try apply bytes1; auto). cbn [bind as_str].
  rewrite str_in_fdfeff by assumption. destruct (Z.ltb_spec 252 b); [lia|].
  rewrite py_int_hex by (try apply bytes1; auto; discriminate). cbn [bind]. rewrite be_val1.
  rewrite validate_integer_domain_ok by assumption. reflexivity.
Qed.
Lemma var_int_to_int_big : forall b, 252 < b < 256 -> var_int_to_int (PStr (hex_of [b])) = Err ValueError.
Proof.
  intros b H. assert (Hb : byte b) by (unfold byte; lia). unfold var_int_to_int.
  rewrite validate_hex_length_ok by (try apply bytes1; auto). cbn [bind as_str].
  rewrite str_in_fdfeff by assumption. destruct (Z.ltb_spec 252 b); [reflexivity|lia].
Qed.
Lemma var_int_to_int_inv : forall v n, var_int_to_int v = Ok n -> v = PStr (hex_of [n]) /\ 0 <= n <= 252.
Proof.
  intros v n H. pose proof H as H0. unfold var_int_to_int in H. inv_bind H u Hu. destruct u.
  apply validate_hex_length_inv in Hu as (bs & Hb & Hl & ->).
  destruct bs as [|b [|? ?]]; try discriminate. inversion Hb as [|? ? Hbb _]; subst.
  destruct (Z.leb_spec b 252).
  - rewrite var_int_to_int_ok in H0 by (unfold byte in Hbb; lia). injection H0 as <-. split; [reflexivity|unfold byte in Hbb; lia].
  - rewrite var_int_to_int_big in H0 by (unfold byte in Hbb; lia). discriminate.
Qed.

(** * bytes.fromhex *)
Lemma bytes_fromhex_ok : forall bs, bytes bs -> bytes_fromhex (hex_of bs) = Ok bs.
Proof.
  intros bs H. induction H as [|b r Hb Hr IH]; [reflexivity|].
  unfold byte in Hb.
  assert (D1 : 0 <= b / 16 < 16) by (split; [apply Z.div_pos; lia|apply Z.div_lt_upper_bound; lia]).
  assert (D2 : 0 <= b mod 16 < 16) by (apply Z.mod_pos_bound; lia).
  cbn [hex_of flat_map app]. fold (hex_of r). cbn [bytes_fromhex].
  pose proof (hex_char_range (b / 16) D1). destruct (Z.eqb_spec (hex_char (b / 16)) 32); [lia|].
  unfold hex_nibble. rewrite !hex_char_digit by assumption.
  rewrite !digit_in_char by (auto; lia). rewrite IH. cbn [bind]. do 2 f_equal.
  symmetry. apply Z.div_mod. lia.
Qed.

Lemma bytes_hex_hex_of : forall bs, bytes bs -> bytes_hex bs = hex_of bs.
Proof.
  intros bs H. induction H as [|b r Hb Hr IH]; [reflexivity|]. unfold byte in Hb.
  assert (D1 : 0 <= b / 16 < 16) by (split; [apply Z.div_pos; lia|apply Z.div_lt_upper_bound; lia]).
  assert (D2 : 0 <= b mod 16 < 16) by (apply Z.mod_pos_bound; lia).
  unfold bytes_hex in *. cbn [map concat hex_of flat_map app]. rewrite IH, !hex_char_digit by assumption. reflexivity.
Qed.

End WithEnv.
