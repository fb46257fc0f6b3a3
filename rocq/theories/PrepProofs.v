(** Lemmas about the argument processing of create_transaction. *)
From Coq Require Import String Floats.SpecFloat Permutation Sorted Lia.
From Verif Require Import PyBase Env PyNum Validate Basic Spec EnvOk TxInput TxOutput Tx Create TxSpec FloatSpec NumSpec CreateSpec.
From Verif Require Import NumLemmas HexProofs Base58Proofs AddrProofs AmountProofs NumProofs.

(** Truth values. *)
Lemma falsy_iff : forall v, truthy v = false <-> counts_as_false v.
Proof.
  intros v. unfold counts_as_false. split.
  - destruct v as [|[|]|[|z|z]|[b|b| |s m e]|[|c s]|[|x l]|[|x d]]; cbn; intros H; try discriminate; eauto 10.
  - intros [->|[->|[->|[[b ->]|[->|[->| ->]]]]]]; reflexivity.
Qed.

(** Sorting strings. *)
Lemma str_leb_refl : forall a, str_leb a a = true.
Proof. induction a as [|x a IH]; auto. cbn [str_leb]. rewrite Z.ltb_irrefl. auto. Qed.
Lemma str_leb_total : forall a b, str_leb a b = true \/ str_leb b a = true.
Proof.
  induction a as [|x a IH]; intros [|y b]; auto. cbn [str_leb].
  destruct (Z.ltb_spec x y), (Z.ltb_spec y x); auto; try lia.
Qed.
Lemma str_leb_antisym : forall a b, str_leb a b = true -> str_leb b a = true -> a = b.
Proof.
  induction a as [|x a IH]; intros [|y b] H1 H2; auto; try discriminate. cbn [str_leb] in *.
  destruct (Z.ltb_spec x y), (Z.ltb_spec y x); try lia; try discriminate. f_equal; [lia|auto].
Qed.
Lemma str_leb_trans : forall a b c, str_leb a b = true -> str_leb b c = true -> str_leb a c = true.
Proof.
  induction a as [|x a IH]; intros [|y b] [|z c] H1 H2; auto; try discriminate. cbn [str_leb] in *.
  destruct (Z.ltb_spec x y), (Z.ltb_spec y x), (Z.ltb_spec y z), (Z.ltb_spec z y), (Z.ltb_spec x z), (Z.ltb_spec z x);
    try lia; try discriminate; auto. eapply IH; eauto.
Qed.
Lemma str_insert_perm : forall x l, Permutation (x :: l) (str_insert x l).
Proof.
  induction l as [|y l IH]; cbn [str_insert]; auto. destruct (str_leb x y); auto.
  rewrite perm_swap. constructor. auto.
Qed.
Lemma str_sorted_perm : forall l, Permutation l (str_sorted l).
Proof.
  induction l as [|x l IH]; auto. unfold str_sorted in *. cbn [fold_right].
  rewrite <- str_insert_perm. constructor. auto.
Qed.
Definition sle (a b : pystr) : Prop := str_leb a b = true.
Lemma str_insert_sorted : forall x l, StronglySorted sle l -> StronglySorted sle (str_insert x l).
Proof.
  induction 1 as [|y l HS IH HF]; cbn [str_insert]; [repeat constructor|].
  destruct (str_leb x y) eqn:E.
  - constructor; [constructor; auto|]. constructor; auto. eapply Forall_impl; [|exact HF].
    intros z Hz. eapply str_leb_trans; eauto.
  - constructor; auto. eapply Permutation_Forall; [apply str_insert_perm|]. constructor; auto.
    destruct (str_leb_total x y); [congruence|auto].
Qed.
Lemma str_sorted_sorted : forall l, StronglySorted sle (str_sorted l).
Proof. induction l; [constructor|]. apply str_insert_sorted. auto. Qed.
Lemma sorted_unique : forall l l', StronglySorted sle l -> StronglySorted sle l' -> Permutation l l' -> l = l'.
Proof.
  induction l as [|x l IH]; intros l' H H' P. { apply Permutation_nil in P. auto. }
  destruct l' as [|y l']. { symmetry in P. apply Permutation_nil in P. discriminate. }
  inversion H; subst. inversion H'; subst. assert (x = y).
  { assert (A : In x (y :: l')) by (eapply Permutation_in; [exact P|left; auto]).
    assert (B : In y (x :: l)) by (eapply Permutation_in; [symmetry; exact P|left; auto]).
    destruct A as [A|A]; [auto|]. destruct B as [B|B]; [auto|]. rewrite Forall_forall in *.
    apply str_leb_antisym; [apply H3 | apply H5]; auto. }
  subst y. f_equal. apply IH; auto. eapply Permutation_cons_inv; eauto.
Qed.
Lemma strs_eqb_eq : forall a b, strs_eqb a b = true <-> a = b.
Proof.
  induction a as [|x a IH]; intros [|y b]; cbn [strs_eqb]; split; intros H; try discriminate; auto.
  - apply andb_prop in H as [H1 H2]. apply str_eqb_eq in H1. apply IH in H2. congruence.
  - injection H as -> ->. rewrite str_eqb_refl. cbn. apply IH. auto.
Qed.
Lemma identical_iff : forall l l', validate_lists_are_identical l l' = Ok tt <-> Permutation l l'.
Proof.
  intros l l'. unfold validate_lists_are_identical. destruct (strs_eqb _ _) eqn:E; cbn [negb].
  - apply strs_eqb_eq in E. split; auto. intros _. rewrite (str_sorted_perm l), E. symmetry. apply str_sorted_perm.
  - split; [discriminate|]. intros P. exfalso. assert (X : strs_eqb (str_sorted l) (str_sorted l') = true); [|congruence].
    apply strs_eqb_eq. apply sorted_unique; auto using str_sorted_sorted. rewrite <- !str_sorted_perm. auto.
Qed.
Lemma identical_err : forall l l', ~ Permutation l l' -> validate_lists_are_identical l l' = Err ValueError.
Proof.
  intros l l' H. destruct (validate_lists_are_identical l l') as [[]|e] eqn:E.
  - apply identical_iff in E. contradiction.
  - unfold validate_lists_are_identical in E. destruct (negb _); congruence.
Qed.

(** Dicts. *)
Lemma find_set : forall k k' v d, dict_find k (dict_set k' v d) = if str_eqb k' k then Some v else dict_find k d.
Proof.
  intros k k' v d. induction d as [|[k0 v0] d IH]; cbn [dict_set dict_find].
  - reflexivity.
  - destruct (str_eqb k0 k') eqn:E0; cbn [dict_find].
    + apply str_eqb_eq in E0. subst k0. destruct (str_eqb k' k); reflexivity.
    + rewrite IH. destruct (str_eqb k0 k) eqn:E1; auto. destruct (str_eqb k' k) eqn:E2; auto.
      apply str_eqb_eq in E1, E2. subst. rewrite str_eqb_refl in E0. discriminate.
Qed.
Lemma find_set_same : forall k v d, dict_find k (dict_set k v d) = Some v.
Proof. intros. rewrite find_set, str_eqb_refl. auto. Qed.
Lemma keys_set_present : forall k v d w, dict_find k d = Some w -> map fst (dict_set k v d) = map fst d.
Proof.
  intros k v d w. induction d as [|[k0 v0] d IH]; cbn [dict_find dict_set]; [discriminate|].
  destruct (str_eqb k0 k); intros H; cbn [map fst]; auto. rewrite IH; auto.
Qed.
Lemma keys_set_absent : forall k v d, dict_find k d = None -> map fst (dict_set k v d) = map fst d ++ [k].
Proof.
  intros k v d. induction d as [|[k0 v0] d IH]; cbn [dict_find dict_set]; auto.
  destruct (str_eqb k0 k); [discriminate|]. intros H; cbn [map fst app]. rewrite IH; auto.
Qed.
Lemma find_none : forall k d, dict_find k d = None <-> ~ In k (map fst d).
Proof.
  intros k d. induction d as [|[k0 v0] d IH]; cbn [dict_find map fst]; [tauto|].
  destruct (str_eqb k0 k) eqn:E.
  - apply str_eqb_eq in E. subst. split; [discriminate|]. intros H. elim H. left. auto.
  - rewrite IH. split; intros H; [intros [A|A]; [subst; rewrite str_eqb_refl in E; discriminate|auto]|].
    intros A. apply H. right. auto.
Qed.
Lemma get_ok : forall k d v, dict_get k d = Ok v <-> dict_find k d = Some v.
Proof. intros. unfold dict_get. destruct (dict_find k d); split; congruence. Qed.

Lemma seq_neq : forall a b : pystr, b <> a -> str_eqb a b = false.
Proof. intros a b H. apply str_eqb_neq. congruence. Qed.

(** for loops *)
Lemma for_each_ok : forall A (f : A -> res unit * A) l l',
  for_each f l = (Ok tt, l') <-> Forall2 (fun x x' => f x = (Ok tt, x')) l l'.
Proof.
  intros A f l. induction l as [|x l IH]; intros l'; cbn [for_each].
  - split; [intros [= <-]; constructor|]. inversion 1; subst; auto.
  - destruct (f x) as [o x'] eqn:F. destruct o as [[]|e].
    + destruct (for_each f l) as [o' r'] eqn:R. split.
      * intros [= -> <-]. constructor; auto. apply IH. auto.
      * inversion 1; subst. rewrite F in H2. injection H2 as <-. apply IH in H4. congruence.
    + split; [discriminate|]. inversion 1; subst. rewrite F in H2. discriminate.
Qed.
Lemma iter_ok : forall A (f : A -> res unit) l, iterM f l = Ok tt <-> Forall (fun x => f x = Ok tt) l.
Proof.
  intros A f l. induction l as [|x l IH]; cbn [iterM]; [split; auto|]. split.
  - intros H. inv_bind H u Hu. destruct u. constructor; auto. apply IH. auto.
  - inversion 1; subst. rewrite H2. cbn [bind]. apply IH. auto.
Qed.

Lemma py_eq_zero : forall v, py_eq_int v 0 = true -> v = PInt 0 \/ v = PBool false \/ exists b, v = PFloat (S754_zero b).
Proof.
  intros v H. destruct v as [|b|z|f| | |]; try discriminate; cbn [py_eq_int] in H.
  - destruct b; [discriminate|auto].
  - apply Z.eqb_eq in H. subst. auto.
  - destruct f as [b|b| |b m e]; eauto; try (destruct b; discriminate); try discriminate. cbn [float_cmp_int] in H.
    destruct (Z.leb_spec 0 e).
    + destruct (Z.compare_spec ((if b then Z.neg m else Z.pos m) * 2 ^ e) 0) as [C|C|C]; try discriminate.
      apply Z.mul_eq_0 in C as [C|C]; [destruct b; discriminate|]. pose proof (Z.pow_pos_nonneg 2 e ltac:(lia) ltac:(lia)). lia.
    + destruct (Z.compare_spec (if b then Z.neg m else Z.pos m) (0 * 2 ^ (- e))) as [C|C|C]; try discriminate.
      rewrite Z.mul_0_l in C. destruct b; discriminate.
Qed.
Lemma whole_iff : forall v, validate_whole_number v = Ok tt <-> exists z, whole v z.
Proof.
  intros v. unfold validate_whole_number. destruct (py_eq_int v 0) eqn:E0.
  - split; auto. intros _. apply py_eq_zero in E0 as [->|[->|[b ->]]].
    + exists 0. left. split; auto. lia. + exists 0. right. left. exists false. auto. + exists 0. right. right. eauto.
  - unfold validate_positive_integer. split.
    + destruct v as [|b|z|f| | |]; cbn [as_int]; try discriminate.
      * intros _. exists (b2z b). right. left. eauto.
      * destruct (Z.ltb_spec z 1); [discriminate|]. intros _. exists z. left. split; auto. lia.
    + intros [z [[-> Hz]|[[b [-> _]]|[b [-> _]]]]]; cbn [as_int].
      * cbn [py_eq_int] in E0. apply Z.eqb_neq in E0. destruct (Z.ltb_spec z 1); auto. lia.
      * destruct b; [reflexivity|discriminate].
      * discriminate.
Qed.
Lemma whole_fun : forall v z z', whole v z -> whole v z' -> z = z'.
Proof.
  intros v z z' [[-> _]|[[b [-> ->]]|[b [-> ->]]]] [[H _]|[[b' [H ->]]|[b' [H ->]]]]; congruence.
Qed.
Lemma whole_nonneg : forall v z, whole v z -> 0 <= z.
Proof. intros v z [[-> H]|[[b [-> ->]]|[b [-> ->]]]]; auto; try lia. destruct b; cbn; lia. Qed.

Section WithEnv.
Context {E : Env}.
Hypothesis HH : HashOk E.
Hypothesis HZ : ZeroAddressOk E.
Hypothesis HU : UniOk E.

Lemma positive_amount_iff : forall v, validate_positive_bitcoin_amount v = Ok tt <-> exists s n, v = PStr s /\ amount_arg s n.
Proof.
  intros v. unfold validate_positive_bitcoin_amount. split.
  - intros H. destruct v as [| | | |s| |]; try discriminate. cbn [validate_string bind as_str] in H.
    destruct (str_eqb (remove_char 48 (remove_char 46 s)) []) eqn:Z0; [discriminate|].
    apply (validate_amount_iff HU) in H as (n & A & M). exists s, n. split; auto. split; auto. split; auto.
    intros ZT. enough (X : remove_char 48 (remove_char 46 s) = []) by (rewrite X in Z0; discriminate).
    unfold remove_char. clear - ZT. induction s as [|c s IH]; auto. cbn [filter].
    assert (IH' : zero_text s) by (intros x Hx; apply ZT; right; auto). specialize (IH IH').
    destruct (ZT c (or_introl eq_refl)) as [->| ->]; cbn [Z.eqb Pos.eqb negb filter]; auto.
  - intros (s & n & -> & A & M & NZ). cbn [validate_string bind as_str].
    destruct (str_eqb (remove_char 48 (remove_char 46 s)) []) eqn:Z0.
    + elim NZ. apply str_eqb_eq in Z0. intros c Hc. destruct (Z.eq_dec c 48); auto. destruct (Z.eq_dec c 46); auto.
      exfalso. assert (X : In c (remove_char 48 (remove_char 46 s))); [|rewrite Z0 in X; destruct X].
      unfold remove_char. rewrite !filter_In. repeat split; auto; apply negb_true_iff, Z.eqb_neq; auto.
    + apply (validate_amount_iff HU). eauto.
Qed.
Lemma amount_arg_fun : forall s n n', amount_arg s n -> amount_arg s n' -> n = n'.
Proof. intros s n n' (A & _) (B & _). eapply (amount_of_fun HU); eauto. Qed.
Lemma amount_arg_bounds : forall s n, amount_arg s n -> 0 <= n <= max_money.
Proof. intros s n (A & B & _). split; auto. eapply (amount_of_nonneg HU); eauto. Qed.
Lemma amount_arg_sat : forall s n, amount_arg s n -> bitcoin_to_satoshi (PStr s) = Ok n.
Proof. intros s n (A & B & C). apply (bitcoin_to_satoshi_iff HU). auto. Qed.

(** What an input dict looks like after adjust_input and after add_satoshi_amount. *)
Definition adjusted_input (d : dict) (i : iarg) : dict := dict_set (lit "previous_output_index") (PInt (ia_index i)) d.
Definition final_input (d : dict) (i : iarg) : dict := dict_set (lit "satoshi_amount") (PInt (ia_value i)) (adjusted_input d i).

Lemma find_adjusted : forall k d i, k <> lit "previous_output_index" -> dict_find k (adjusted_input d i) = dict_find k d.
Proof. intros k d i H. unfold adjusted_input. rewrite find_set, seq_neq; auto. Qed.
Lemma find_final : forall k d i, k <> lit "previous_output_index" -> k <> lit "satoshi_amount" -> dict_find k (final_input d i) = dict_find k d.
Proof. intros k d i H H'. unfold final_input. rewrite find_set, seq_neq by auto. apply find_adjusted. auto. Qed.

Lemma input_steps_ok : forall v i, input_arg v i -> exists d, v = PDict d /\
  adjust_input v = (Ok tt, PDict (adjusted_input d i)) /\
  validate_input (PDict (adjusted_input d i)) = Ok tt /\
  add_satoshi_amount (PDict (adjusted_input d i)) = (Ok tt, PDict (final_input d i)) /\
  make_input (PDict (final_input d i)) = txin_create (PStr (ia_address i)) (PStr (hex_of (ia_txid i))) (PInt (ia_index i)) (ia_value i).
Proof.
  intros v i (d & vi & s & -> & P & F1 & (h & A) & F2 & B & L & F3 & I & I0 & F4 & AA). apply (py_int_iff HU) in I. exists d. split; auto.
  assert (K : map fst (adjusted_input d i) = map fst d) by (eapply keys_set_present; eauto).
  assert (X1 : lit "address" <> lit "previous_output_index") by discriminate.
  assert (X2 : lit "transaction_id" <> lit "previous_output_index") by discriminate.
  assert (X3 : lit "bitcoin_amount" <> lit "previous_output_index") by discriminate.
  assert (Y1 : lit "address" <> lit "satoshi_amount") by discriminate.
  assert (Y2 : lit "transaction_id" <> lit "satoshi_amount") by discriminate.
  split; [|split; [|split]].
  - unfold adjust_input. rewrite F3, I. reflexivity.
  - unfold validate_input. cbn [as_dict bind]. unfold dict_keys. rewrite K. apply identical_iff in P. rewrite P. cbn [bind].
    unfold dict_get. rewrite (find_adjusted (lit "address")), (find_adjusted (lit "transaction_id")), (find_adjusted (lit "bitcoin_amount")) by auto. rewrite F1. cbn [bind]. rewrite (validate_address_ok HH HZ h) by auto. cbn [bind].
    rewrite F2. cbn [bind]. rewrite validate_hex_length_ok by auto. cbn [bind].
    unfold adjusted_input at 1. rewrite find_set_same. cbn [bind].
    assert (W : validate_whole_number (PInt (ia_index i)) = Ok tt) by (apply whole_iff; exists (ia_index i); left; auto).
    rewrite W. cbn [bind]. rewrite F4. cbn [bind]. apply positive_amount_iff. eauto.
  - unfold add_satoshi_amount, dict_get. rewrite find_adjusted by auto. rewrite F4. cbn [bind].
    rewrite (amount_arg_sat _ _ AA). reflexivity.
  - unfold make_input, dict_get. cbn [bind]. rewrite (find_final (lit "address")), (find_final (lit "transaction_id")) by auto. rewrite F1, F2. cbn [bind].
    unfold final_input. rewrite find_set, seq_neq by discriminate. unfold adjusted_input at 1. rewrite find_set_same. cbn [bind].
    rewrite find_set_same. reflexivity.
Qed.

Lemma input_steps_inv : forall v v', adjust_input v = (Ok tt, v') -> validate_input v' = Ok tt -> exists i, input_arg v i.
Proof.
  intros v v' H V. destruct v as [| | | | | |d]; try discriminate. cbn [adjust_input] in H.
  destruct (dict_find (lit "previous_output_index") d) as [vi|] eqn:F3; [|discriminate].
  destruct (py_int vi) as [n|e] eqn:I; [|discriminate]. apply (py_int_iff HU) in I. injection H as <-. set (i0 := mk_iarg [] [] n 0).
  change (dict_set (lit "previous_output_index") (PInt n) d) with (adjusted_input d i0) in V.
  assert (K : map fst (adjusted_input d i0) = map fst d) by (eapply keys_set_present; eauto).
  unfold validate_input in V. cbn [as_dict bind] in V. unfold dict_keys in V. rewrite K in V. unfold dict_get in V.
  rewrite (find_adjusted (lit "address")), (find_adjusted (lit "transaction_id")), (find_adjusted (lit "bitcoin_amount")) in V by discriminate. unfold adjusted_input in V at 1. rewrite find_set_same in V.
  inv_bind V u1 V1. destruct u1. apply identical_iff in V1. inv_bind V a A.
  destruct (dict_find (lit "address") d) as [av|] eqn:F1; [|discriminate]. injection A as <-.
  inv_bind V u2 V2. destruct u2. apply (validate_address_inv HH HZ) in V2 as (h & s & -> & AD).
  inv_bind V tv A. destruct (dict_find (lit "transaction_id") d) as [tv'|] eqn:F2; [|discriminate]. injection A as <-.
  inv_bind V u3 V3. destruct u3. apply validate_hex_length_inv in V3 as (txid & Bt & Lt & ->).
  cbn [bind] in V. inv_bind V u4 V4. destruct u4. apply whole_iff in V4 as (z & W).
  assert (0 <= n). { pose proof (whole_nonneg _ _ W). destruct W as [[W _]|[[b [W _]]|[b [W _]]]]; try discriminate. injection W as ->. auto. }
  inv_bind V bv A. destruct (dict_find (lit "bitcoin_amount") d) as [bv'|] eqn:F4; [|discriminate]. injection A as <-.
  apply positive_amount_iff in V as (st & m & -> & AA).
  exists (mk_iarg s txid n m). exists d, vi, st. cbn [ia_address ia_txid ia_index ia_value].
  split; auto. split; auto. split; auto. split; [exists h; auto|]. auto 12.
Qed.

Definition adjusted_output (d : dict) (s : pystr) : dict := dict_set (lit "bitcoin_amount") (PStr s) d.
Definition final_output (d : dict) (s : pystr) (n : Z) : dict := dict_set (lit "satoshi_amount") (PInt n) (adjusted_output d s).

Lemma output_steps_ok : forall v o, output_arg v o -> exists d s, v = PDict d /\
  validate_output v = (Ok tt, PDict (adjusted_output d s)) /\
  add_satoshi_amount (PDict (adjusted_output d s)) = (Ok tt, PDict (final_output d s (oa_value o))) /\
  make_output (PDict (final_output d s (oa_value o))) = txout_create (PStr (oa_address o)) (oa_value o).
Proof.
  intros v o (d & s & -> & P & F1 & (h & A) & F2 & (AA & M & NZ)).
  destruct (ensure8_ok HU s (oa_value o) AA) as (t & T & AT & ZT & _). exists d, t. split; auto. split; [|split].
  - unfold validate_output. unfold dict_keys. apply identical_iff in P. rewrite P. cbn [bind].
    unfold dict_get. rewrite F1. cbn [bind]. rewrite (validate_address_ok HH HZ h) by auto. cbn [bind].
    rewrite F2. cbn [bind].
    assert (W : validate_positive_bitcoin_amount (PStr s) = Ok tt) by (apply positive_amount_iff; exists s, (oa_value o); repeat split; auto).
    rewrite W. cbn [bind as_str]. rewrite T. reflexivity.
  - unfold add_satoshi_amount, dict_get, adjusted_output at 1. rewrite find_set_same. cbn [bind].
    rewrite (amount_arg_sat t (oa_value o)); auto. split; auto. split; auto. rewrite ZT. auto.
  - unfold make_output, dict_get. cbn [bind]. unfold final_output. rewrite find_set, seq_neq by discriminate.
    unfold adjusted_output at 1. rewrite find_set, seq_neq by discriminate. rewrite F1. cbn [bind].
    rewrite find_set_same. reflexivity.
Qed.
Lemma output_steps_inv : forall v v', validate_output v = (Ok tt, v') -> exists o, output_arg v o.
Proof.
  intros v v' H. destruct v as [| | | | | |d]; try discriminate. unfold validate_output in H. cbv beta iota in H.
  match type of H with (match ?m with _ => _ end = _) => destruct m as [t|e] eqn:V; [|discriminate] end. clear H.
  unfold dict_keys, dict_get in V.
  inv_bind V u1 V1. destruct u1. apply identical_iff in V1. inv_bind V a A.
  destruct (dict_find (lit "address") d) as [av|] eqn:F1; [|discriminate]. injection A as <-.
  inv_bind V u2 V2. destruct u2. apply (validate_address_inv HH HZ) in V2 as (h & s & -> & AD).
  inv_bind V bv A. destruct (dict_find (lit "bitcoin_amount") d) as [bv'|] eqn:F4; [|discriminate]. injection A as <-.
  inv_bind V u3 V3. destruct u3. apply positive_amount_iff in V3 as (st & m & -> & AA).
  exists (mk_oarg s m). exists d, st. cbn [oa_address oa_value].
  split; auto. split; auto. split; auto. split; [exists h; auto|]. auto 12.
Qed.

End WithEnv.
