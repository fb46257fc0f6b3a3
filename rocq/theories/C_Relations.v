(** C75, C76: how the results of two calls are related. *)
From Coq Require Import String Floats.SpecFloat Permutation Sorted Lia.
From Verif Require Import PyBase Env PyNum Validate Basic Spec EnvOk TxInput TxOutput Tx Create TxSpec SignSpec FloatSpec NumSpec ValidSpec CreateSpec RefuseSpec RelSpec Demo DemoTx DemoCreate DemoRel.
From Verif Require Import NumLemmas HexProofs Base58Proofs AddrProofs AmountProofs ScriptProofs WireProofs SignProofs VerifyProofs MakeProofs NumProofs PrepProofs DesignProofs BuildProofs CreateProofs RefuseProofs OrderProofs C_Sign C_Create C_Refuse DemoProofs DemoTxProofs DemoCreateProofs.
Open Scope Z_scope.

(** Two sorted arrangements of the same inputs have the same values in the same places. *)
Lemma sorted_values : forall ap s s', StronglySorted (in_order ap) s -> StronglySorted (in_order ap) s' -> Permutation s s' ->
  map ia_value s = map ia_value s'.
Proof.
  intros ap. induction s as [|x s IH]; intros s' H H' P.
  - apply Permutation_nil in P. subst. reflexivity.
  - destruct s' as [|y s']; [apply Permutation_sym, Permutation_nil in P; discriminate|].
    apply StronglySorted_inv in H as [H F]. pose proof H' as H'0. apply StronglySorted_inv in H' as [H' F'].
    assert (V : ia_value x = ia_value y).
    { assert (A : in_order ap x y \/ x = y).
      { assert (I : In y (x :: s)) by (eapply Permutation_in; [apply Permutation_sym; eassumption|left; auto]).
        destruct I as [->|I]; auto. left. rewrite Forall_forall in F. auto. }
      assert (B : in_order ap y x \/ x = y).
      { assert (I : In x (y :: s')) by (eapply Permutation_in; [eassumption|left; auto]).
        destruct I as [->|I]; auto. left. rewrite Forall_forall in F'. auto. }
      destruct A as [A|A], B as [B|B]; try congruence. destruct ap; cbn in A, B; lia. }
    cbn [map]. rewrite V. f_equal.
    (* remove x from s': put y where x was *)
    assert (I : In x (y :: s')) by (eapply Permutation_in; [eassumption|left; auto]).
    destruct I as [->|I]; [apply IH; auto; eapply Permutation_cons_inv; eassumption|].
    apply in_split in I as (l1 & l2 & ->).
    transitivity (map ia_value (l1 ++ y :: l2)); [|rewrite !map_app; cbn [map]; rewrite V; reflexivity].
    apply IH; auto.
    + (* sorted: y has the value of x *)
      assert (FY : Forall (in_order ap y) (l1 ++ x :: l2)) by auto.
      assert (RV : forall z, in_order ap x z <-> in_order ap y z) by (intros z; destruct ap; cbn; rewrite V; reflexivity).
      assert (LV : forall z, in_order ap z x <-> in_order ap z y) by (intros z; destruct ap; cbn; rewrite V; reflexivity).
      clear - H' RV LV. induction l1 as [|z l1 IH1]; cbn [app] in *.
      * apply StronglySorted_inv in H' as [A B]. constructor; auto. eapply Forall_impl; [|exact B]. intros w. apply RV.
      * apply StronglySorted_inv in H' as [A B]. constructor; auto. apply Forall_app in B as [B1 B2]. apply Forall_app. split; auto.
        inversion B2; subst. constructor; auto. apply LV. auto.
    + apply (Permutation_cons_inv (a := x)). rewrite P. rewrite <- (Permutation_middle (x :: l1) l2 y). cbn [app]. 
      rewrite <- (Permutation_middle l1 l2 x). rewrite perm_swap. reflexivity.
Qed.
Lemma in_value_map : forall l l', map ia_value l = map ia_value l' -> in_value l = in_value l'.
Proof. intros l l' H. unfold in_value. rewrite H. reflexivity. Qed.
Lemma in_value_perm : forall l l', Permutation l l' -> in_value l = in_value l'.
Proof. induction 1; unfold in_value in *; cbn [map Zsum fold_right] in *; unfold Zsum in *; cbn in *; lia. Qed.
(** The choice depends on the values only. *)
Lemma chosen_values_only : forall ap target s s' sel, map ia_value s = map ia_value s' -> chosen ap target s sel ->
  exists sel', chosen ap target s' sel' /\ map ia_value sel = map ia_value sel'.
Proof.
  intros ap target s s' sel V [[D ->]|(NA & NV & first & last & rest & -> & -> & LT & GE)].
  - exists s'. split; auto. left. split; auto. rewrite <- (in_value_map _ _ V). auto.
  - assert (L : length s' = length ((first ++ [last]) ++ rest)) by (rewrite <- (map_length ia_value s'), <- V, map_length; reflexivity).
    rewrite !map_app in V. symmetry in V. apply map_eq_app in V as (l12 & l3 & -> & V12 & V3). apply map_eq_app in V12 as (l1 & l2 & -> & V1 & V2).
    destruct l2 as [|z [|? ?]]; try discriminate.
    exists (l1 ++ [z]). split.
    + right. split; auto. assert (W : map ia_value ((first ++ [last]) ++ rest) = map ia_value ((l1 ++ [z]) ++ l3)) by (rewrite !map_app; congruence).
      split; [rewrite <- (in_value_map _ _ W); auto|]. exists l1, z, l3. split; auto. split; auto. split.
      * destruct LT as [->|LT]; [left; destruct l1; [auto|discriminate]|right]. rewrite (in_value_map _ _ V1). auto.
      * assert (W2 : map ia_value (first ++ [last]) = map ia_value (l1 ++ [z])) by (rewrite !map_app; congruence). rewrite <- (in_value_map _ _ W2). auto.
    + rewrite !map_app. congruence.
Qed.

Lemma relisted_sym : forall q q', relisted q q' -> relisted q' q.
Proof. intros [] q' (l & P & ->). cbn in *. eexists. split; [apply Permutation_sym; eassumption|]. reflexivity. Qed.
Lemma relisted_fee : forall q q' f, relisted q q' -> (fee_due q f <-> fee_due q' f).
Proof. intros q q' f (l & P & ->). unfold fee_due. cbn. rewrite (Permutation_length P). reflexivity. Qed.
Lemma relisted_sorted : forall q q' s s', relisted q q' -> sorted_for (q_approach q) (q_inputs q) s -> sorted_for (q_approach q') (q_inputs q') s' ->
  map ia_value s = map ia_value s'.
Proof.
  intros q q' s s' (l & P & ->) (P1 & S1 & _) (P2 & S2 & _). cbn in *. apply (sorted_values (q_approach q)); auto. rewrite <- P1, <- P2. auto.
Qed.

Section WithEnv.
Context {E : Env}.

Lemma relisted_plan : forall q q' sel outs f chg, relisted q q' -> plan q sel outs f chg ->
  exists sel', plan q' sel' outs f chg /\ map ia_value sel = map ia_value sel' /\
    forall s s', sorted_for (q_approach q) (q_inputs q) s -> sorted_for (q_approach q') (q_inputs q') s' -> s = s' -> sel' = sel.
Proof.
  intros q q' sel outs f chg R (L1 & L2 & L3 & IX & TI & ND & FD & F & TT & (s & SF & SC) & SP & LIM).
  pose proof (isort_for (q_approach q') (q_inputs q')) as SF'. set (s' := isort (q_approach q') (q_inputs q')) in *.
  pose proof (relisted_sorted q q' s s' R SF SF') as V. apply (relisted_fee q q' f R) in FD.
  assert (CH : exists sel', chosen (q_approach q) (out_value (q_outputs q) + f) s' sel' /\ map ia_value sel = map ia_value sel' /\ (s = s' -> sel' = sel)).
  { assert (D : forall x y : iarg, {x = y} + {x <> y}) by (decide equality; auto using Z.eq_dec, (list_eq_dec Z.eq_dec)).
    destruct (list_eq_dec D s s') as [->|N].
    - exists sel. auto.
    - destruct (chosen_values_only _ _ _ _ _ V SC) as (sel' & C & W). exists sel'. split; auto. split; auto. congruence. }
  destruct CH as (sel' & C & W & SAME). exists sel'. destruct R as (l & P & ->). cbn [q_inputs q_outputs q_fee q_change_address q_max_fee q_max_spend q_approach q_allow_duplicates q_change_index] in *.
  split; [|split; auto].
  - unfold plan. cbn [q_inputs q_outputs q_fee q_change_address q_max_fee q_max_spend q_approach q_allow_duplicates q_change_index]. rewrite <- (Permutation_length P), <- (in_value_perm _ _ P). rewrite <- (in_value_map _ _ W).
    split; auto. split; auto. split; auto. split; [eapply Permutation_Forall; eassumption|]. split; auto. split; auto. split; auto. split; auto. split; auto.
    split; [exists s'; auto|]. split; auto.
  - intros t t' T T' ->. apply SAME. apply sorted_for_unique in T, T', SF. unfold s'. congruence.
Qed.


Lemma F2_pick : forall (A B : Type) (R : A -> B -> Prop) l xs sel, Forall2 R l xs -> (forall i, In i sel -> In i l) -> exists ys, Forall2 R sel ys.
Proof.
  intros A B R l xs sel F. induction sel as [|i sel IH]; intros H; [exists []; constructor|].
  destruct IH as [ys Y]; [intros; apply H; right; auto|].
  assert (I : In i l) by (apply H; left; auto). clear - F I Y. induction F as [|a b l xs r F IH]; [destruct I|].
  destruct I as [->|I]; [exists (b :: ys); constructor; auto|auto].
Qed.
Lemma chosen_from : forall ap target s sel i, chosen ap target s sel -> In i sel -> In i s.
Proof. intros ap target s sel i [[_ ->]|(_ & _ & f & l & r & -> & -> & _)] I; auto. apply in_or_app. auto. Qed.
Lemma made_values : forall sel ins, Forall2 (fun i x => made_input (ia_address i) (ia_txid i) (PInt (ia_index i)) (ia_value i) x) sel ins ->
  map ti_satoshi_amount ins = map (fun v => Some v) (map ia_value sel).
Proof. intros sel ins F. induction F as [|i x sel ins (h & idx & st & _ & _ & _ & _ & _ & _ & _ & ->) F IH]; cbn [map ti_satoshi_amount]; [reflexivity|]. rewrite IH. reflexivity. Qed.

(** The other order of the inputs also has a transaction. *)
Lemma relisted_tx : HashOk E -> ZeroAddressOk E -> UniOk E -> forall q q' a' sel outs f chg t, asked a' q' -> relisted q q' ->
  plan q sel outs f chg -> tx_of sel outs (q_change_address q) t ->
  exists sel' t', plan q' sel' outs f chg /\ tx_of sel' outs (q_change_address q') t' /\ same_amounts t t' /\
    ((forall s s', sorted_for (q_approach q) (q_inputs q) s -> sorted_for (q_approach q') (q_inputs q') s' -> s = s') -> t' = t).
Proof.
  intros HH HZ HU q q' a' sel outs f chg t A' R PL TX. destruct (relisted_plan _ _ _ _ _ _ R PL) as (sel' & PL' & V & SAME).
  pose proof PL' as (_ & _ & _ & IX & _ & _ & _ & _ & _ & (s' & SF' & SC') & _).
  destruct (ready_made HU q' (asked_wf HU _ _ A') IX) as (xs & ys & X & Y).
  assert (S : exists ins', Forall2 (fun i x => made_input (ia_address i) (ia_txid i) (PInt (ia_index i)) (ia_value i) x) sel' ins').
  { eapply F2_pick; [exact X|]. intros i I. eapply Permutation_in; [apply Permutation_sym; apply SF'|]. eapply chosen_from; eassumption. }
  pose proof TX as (ins & os & FI & FO & T). destruct S as (ins' & FI').
  assert (QC : q_change_address q' = q_change_address q) by (destruct R as (l & _ & ->); reflexivity).
  assert (D : sel' = sel \/ sel' <> sel).
  { assert (D : forall x y : iarg, {x = y} + {x <> y}) by (decide equality; auto using Z.eq_dec, (list_eq_dec Z.eq_dec)).
    destruct (list_eq_dec D sel' sel); auto. }
  destruct D as [->|N].
  - exists sel, t. rewrite QC. split; auto. split; auto. split; [repeat split; auto|]. auto.
  - exists sel'. rewrite QC. eexists. split; [exact PL'|]. split; [exists ins', os; split; [exact FI'|]; split; [exact FO|]; reflexivity|]. split.
    + subst t. assert (M : map ti_satoshi_amount ins' = map ti_satoshi_amount ins) by (rewrite (made_values _ _ FI), (made_values _ _ FI'), V; reflexivity).
      unfold same_amounts. cbn [tx_outputs tx_inputs tx_change_address]. split; auto. split; auto. split; auto. split; [|reflexivity].
      assert (TT : forall u v, tx_outputs u = tx_outputs v -> map ti_satoshi_amount (tx_inputs u) = map ti_satoshi_amount (tx_inputs v) -> fee u = fee v).
      { intros u v O I. unfold fee, total_input, total_output. rewrite O.
        assert (K : input_values_known u = input_values_known v).
        { unfold input_values_known. revert I. generalize (tx_inputs u) (tx_inputs v). intros l; induction l as [|x l IH]; intros [|y m] Q; try discriminate; auto.
          cbn in Q. injection Q as Q1 Q2. cbn. rewrite Q1. f_equal. apply IH. exact Q2. }
        assert (Z : map ti_sat (tx_inputs u) = map ti_sat (tx_inputs v)).
        { revert I. generalize (tx_inputs u) (tx_inputs v). intros l; induction l as [|x l IH]; intros [|y m] Q; try discriminate; auto.
          cbn in Q. injection Q as Q1 Q2. cbn [map]. f_equal; [unfold ti_sat; rewrite Q1; reflexivity|apply IH; exact Q2]. }
        rewrite K, Z. reflexivity. }
      apply TT; auto.
    + intros U. exfalso. apply N. destruct PL as (_ & _ & _ & _ & _ & _ & _ & _ & _ & (s & SF & SC) & _). apply (SAME s s'); auto.
Qed.

(** C75.  Only what is asked for counts: two argument objects that ask for the same thing (written differently: the order of dictionary keys,
    numbers as int or str, options missing or None) give the same transaction, or are both refused. *)
Lemma c75_same_request : HashOk E -> ZeroAddressOk E -> UniOk E -> forall a a' q t, asked a q -> asked a' q ->
  (fst (create_transaction a) = Ok t <-> fst (create_transaction a') = Ok t).
Proof.
  intros HH HZ HU a a' q t A A'.
  assert (G : forall a a', asked a q -> asked a' q -> fst (create_transaction a) = Ok t -> fst (create_transaction a') = Ok t).
  { clear a a' A A'. intros a a' A A' H. destruct (created_plan HH HZ HU _ _ _ A H) as (sel & outs & f & chg & PL & TX).
    apply (create_iff HH HZ HU). exists q, sel, outs, f, chg. auto. }
  split; apply G; auto.
Qed.

(** C75.  Listing the available inputs in another order: the payments, the change, the fee and the amounts spent stay the same, and
    so does the refusal. *)
Lemma c75_listing_order : HashOk E -> ZeroAddressOk E -> UniOk E -> forall a a' q q' t, asked a q -> asked a' q' -> relisted q q' ->
  fst (create_transaction a) = Ok t -> exists t', fst (create_transaction a') = Ok t' /\ same_amounts t t'.
Proof.
  intros HH HZ HU a a' q q' t A A' R H. destruct (created_plan HH HZ HU _ _ _ A H) as (sel & outs & f & chg & PL & TX).
  destruct (relisted_tx HH HZ HU q q' a' sel outs f chg t A' R PL TX) as (sel' & t' & PL' & TX' & SA & _).
  exists t'. split; auto. apply (create_iff HH HZ HU). exists q', sel', outs, f, chg. auto.
Qed.

Lemma distinct_filter : forall l (v : Z), NoDup (map ia_value l) -> (length (filter (fun i => (ia_value i =? v)%Z) l) <= 1)%nat.
Proof.
  induction l as [|x l IH]; intros v N; cbn [filter length]; [lia|]. cbn [map] in N. inversion N as [|? ? NI ND]; subst. destruct (ia_value x =? v) eqn:Q; [|auto].
  apply Z.eqb_eq in Q. subst v. cbn [length]. assert (Z : filter (fun i => ia_value i =? ia_value x) l = []); [|rewrite Z; cbn; lia].
  clear - NI. induction l as [|y l IH]; auto. cbn [filter map] in *. destruct (ia_value y =? ia_value x) eqn:Q.
  - apply Z.eqb_eq in Q. exfalso. apply NI. left. auto.
  - apply IH. intros I. apply NI. right. auto.
Qed.
Lemma short_perm : forall (A : Type) (l l' : list A), Permutation l l' -> (length l <= 1)%nat -> l = l'.
Proof.
  intros A l l' P L. destruct l as [|x [|y l]]; cbn in L; try lia.
  - apply Permutation_nil in P. auto.
  - apply Permutation_length_1_inv in P. auto.
Qed.
Lemma filter_perm : forall (A : Type) (p : A -> bool) l l', Permutation l l' -> Permutation (filter p l) (filter p l').
Proof. intros A p l l' P. induction P; cbn; repeat (destruct (p _)); auto; try (constructor; auto). etransitivity; eauto. Qed.

(** C75.  If no two available inputs have the same amount, the transaction is the same. *)
Lemma c75_distinct_amounts : HashOk E -> ZeroAddressOk E -> UniOk E -> forall a a' q q' t, asked a q -> asked a' q' -> relisted q q' ->
  NoDup (map ia_value (q_inputs q)) -> (fst (create_transaction a) = Ok t <-> fst (create_transaction a') = Ok t).
Proof.
  intros HH HZ HU a a' q q' t A A' R ND.
  assert (G : forall a a' q q', asked a q -> asked a' q' -> relisted q q' -> NoDup (map ia_value (q_inputs q)) -> fst (create_transaction a) = Ok t -> fst (create_transaction a') = Ok t).
  { clear a a' q q' A A' R ND. intros a a' q q' A A' R ND H. destruct (created_plan HH HZ HU _ _ _ A H) as (sel & outs & f & chg & PL & TX).
    destruct (relisted_tx HH HZ HU q q' a' sel outs f chg t A' R PL TX) as (sel' & t' & PL' & TX' & _ & SAME).
    assert (T : t' = t).
    { apply SAME. intros s s' (P1 & S1 & F1) (P2 & S2 & F2). destruct R as (l & P & ->). cbn in *. apply (sorted_for_unique' (q_approach q)); auto.
      intros v. rewrite F1, F2. apply short_perm; [apply filter_perm; auto|apply distinct_filter; auto]. }
    subst t'. apply (create_iff HH HZ HU). exists q', sel', outs, f, chg. auto. }
  split; intros H.
  - apply (G a a' q q'); auto.
  - apply (G a' a q' q); auto; [apply relisted_sym; auto|]. destruct R as (l & P & ->). cbn. eapply Permutation_NoDup; [apply Permutation_map; exact P|exact ND].
Qed.


Lemma same_problem : forall l l' e, Forall2 (fun c c' : check => (fst c <-> fst c') /\ snd c = snd c') l l' -> first_problem l e -> first_problem l' e.
Proof.
  intros l l' e F H. revert l' F. induction H as [P e l N|P e l e' H HF IH]; intros l' F; inversion F as [|? [P' e0] ? l0 [I Q] F0]; subst; cbn in I, Q; subst; constructor; auto; tauto.
Qed.
Lemma relisted_selected : forall q q' (P P' : list iarg -> Z -> Prop), relisted q q' ->
  (forall sel sel' x, map ia_value sel = map ia_value sel' -> P sel x -> P' sel' x) -> selected q P -> selected q' P'.
Proof.
  intros q q' P P' R H S f s' sel' FD SF' SC'. pose proof (relisted_fee q q' f R) as FE. apply FE in FD.
  pose proof (isort_for (q_approach q) (q_inputs q)) as SF. pose proof (relisted_sorted _ _ _ _ R SF SF') as V.
  assert (QA : q_approach q' = q_approach q /\ q_outputs q' = q_outputs q) by (destruct R as (l & _ & ->); auto). destruct QA as [QA QO]. rewrite QA, QO in SC'.
  destruct (chosen_values_only _ _ _ _ _ (eq_sym V) SC') as (sel & SC & W). specialize (S f _ sel FD SF SC). rewrite QO, (in_value_map _ _ W). eapply H; [symmetry; eassumption|exact S].
Qed.
Lemma relisted_changed : forall q q' (P : list oarg -> Z -> Prop), relisted q q' -> changed q P -> changed q' P.
Proof.
  intros q q' P R. unfold changed. apply relisted_selected; auto. intros sel sel' x V H outs chg SP.
  assert (Q : q_change_address q' = q_change_address q /\ q_change_index q' = q_change_index q /\ q_outputs q' = q_outputs q) by (destruct R as (l & _ & ->); auto).
  destruct Q as (Q1 & Q2 & Q3). rewrite Q1, Q2, Q3 in SP. rewrite <- (in_value_map _ _ V). auto.
Qed.
Lemma relisted_due : forall q q' (P : Z -> Prop), relisted q q' -> due q P -> due q' P.
Proof. intros q q' P R H f FD. apply H. apply (relisted_fee q q' f R). auto. Qed.

Lemma relisted_checks : forall q q', relisted q q' -> Forall2 (fun c c' : check => (fst c <-> fst c') /\ snd c = snd c') (order_checks q) (order_checks q').
Proof.
  intros q q' R. pose proof (relisted_sym _ _ R) as R'. unfold order_checks. cbn zeta.
  assert (Q : in_value (q_inputs q') = in_value (q_inputs q) /\ q_outputs q' = q_outputs q /\ q_allow_duplicates q' = q_allow_duplicates q /\ length (q_inputs q') = length (q_inputs q) /\
    q_max_fee q' = q_max_fee q /\ q_change_address q' = q_change_address q /\ q_change_index q' = q_change_index q /\ q_max_spend q' = q_max_spend q /\
    (forall a, in_value (filter (at_address a) (q_inputs q')) = in_value (filter (at_address a) (q_inputs q)))).
  { destruct R as (l & P & ->). cbn [q_inputs q_outputs q_fee q_change_address q_max_fee q_max_spend q_approach q_allow_duplicates q_change_index].
    rewrite <- (in_value_perm _ _ P), <- (Permutation_length P). repeat (split; auto). intros a. symmetry. apply in_value_perm, filter_perm. auto. }
  destruct Q as (-> & -> & -> & -> & -> & Q6 & Q7 & -> & Q9).
  assert (D : forall P, due q P <-> due q' P) by (intros P; split; apply relisted_due; auto).
  assert (C : forall P, changed q P <-> changed q' P) by (intros P; split; apply relisted_changed; auto).
  repeat (apply Forall2_cons; [split; [|rewrite ?Q7; reflexivity]; cbn [fst]; try reflexivity; auto|]).
  - split; intros H a; [rewrite Q9|rewrite <- Q9]; auto.
  - split; intros [f H]; exists f; apply (relisted_fee q q' f R); auto.
  - split; apply relisted_selected; auto; intros sel sel' x V; rewrite Q6, Q7; auto.
  - constructor.
Qed.

(** C75.  In another order, or written differently, the same exception is raised. *)
Lemma c75_same_exception : HashOk E -> ZeroAddressOk E -> UniOk E -> forall a a' q q' e, asked a q -> asked a' q' -> relisted q q' ->
  double (q_max_spend q) -> Forall (fun i => ia_index i < 2 ^ 32) (q_inputs q) ->
  (fst (create_transaction a) = Err e <-> fst (create_transaction a') = Err e).
Proof.
  intros HH HZ HU a a' q q' e A A' R DB IX.
  assert (DB' : double (q_max_spend q')) by (destruct R as (l & _ & ->); auto).
  assert (IX' : Forall (fun i => ia_index i < 2 ^ 32) (q_inputs q')) by (destruct R as (l & P & ->); eapply Permutation_Forall; eassumption).
  rewrite (proj2 (c70_first_problem HH HZ HU a q A DB IX) e), (proj2 (c70_first_problem HH HZ HU a' q' A' DB' IX') e).
  split; apply same_problem; apply relisted_checks; auto. apply relisted_sym; auto.
Qed.


(** * C76: the list of private keys *)

Lemma sign_loop_map : forall t m m' rv todo dn, (forall x, In x todo -> map_find (ti_address x) m = map_find (ti_address x) m') ->
  sign_loop t m rv dn todo = sign_loop t m' rv dn todo.
Proof.
  intros t m m' rv. induction todo as [|x todo IH]; intros dn H; cbn [sign_loop]; [reflexivity|].
  rewrite (H x) by (left; auto). destruct (random_value_at rv (length dn)); [|reflexivity].
  destruct (map_find (ti_address x) m'); [|reflexivity]. destruct (private_key_hex_to_public_key_hex _); [|reflexivity].
  destruct (make_script_sig _ _ _ _ _) as [[[? ?] ?]|]; [|reflexivity]. apply IH. intros. apply H. right. auto.
Qed.

(** C76.  The order of the private keys, repeated keys, and further keys that control no input, make no difference: signing gives the same
    outcome and the same transaction (when nonces are given, as many keys as before). *)
Lemma c76_key_list : CryptoOk E -> forall t keys keys' rv, usable keys -> usable keys' -> one_key_each keys -> same_keys_for t keys keys' ->
  rv = None \/ rv = Some [] \/ length keys = length keys' -> sign t keys rv = sign t keys' rv.
Proof.
  intros HC t keys keys' rv U U' ONE SAME RV. unfold sign.
  assert (C : check_random_values keys rv = check_random_values keys' rv).
  { destruct RV as [->|[->|L]]; [reflexivity|reflexivity|]. unfold check_random_values. rewrite L. reflexivity. }
  rewrite C. destruct (check_random_values keys' rv); [|reflexivity].
  assert (HH : HashOk E) by apply HC. assert (HK : KeysOk E) by apply HC.
  destruct (build_map_ok HH HK keys [] U) as (m & -> & M). destruct (build_map_ok HH HK keys' [] U') as (m' & -> & M').
  rewrite (sign_loop_map t m m' rv (tx_inputs t) []); [reflexivity|]. intros x I.
  destruct (M (ti_address x)) as [(k & -> & [[I1 C1]|N])|(-> & _ & N)]; [|discriminate|];
    destruct (M' (ti_address x)) as [(k' & -> & [[I2 C2]|N'])|(-> & _ & N')]; try discriminate; try reflexivity.
  - f_equal. eapply ONE; eauto. apply (SAME x k'); auto.
  - exfalso. apply (N' k); auto. apply (SAME x k); auto.
  - exfalso. apply (N k'); auto. apply (SAME x k'); auto.
Qed.

Lemma signed_again : forall keys rv ins outs n xs xs', one_key_each keys -> all_signed keys rv ins outs n xs xs' ->
  (forall i, (n <= i < n + length xs)%nat -> ~ no_nonce rv i) ->
  forall zs r ys, map unsign zs = map unsign xs -> signing keys rv ins outs n zs r ys -> r = Ok tt /\ ys = xs'.
Proof.
  intros keys rv ins outs n xs xs' ONE A. induction A as [n|n x x' xs xs' key I (pub & sig & KP & OW & B & L & S & BD & LD & ->) A IH]; intros NN zs r ys U SG.
  - destruct zs; [|discriminate]. inversion SG; subst. auto.
  - destruct zs as [|z zs]; [discriminate|]. apply (f_equal (fun l => (hd (unsign x) l, tl l))) in U. pose proof (f_equal fst U) as U1. pose proof (f_equal snd U) as U2. cbn [map hd tl fst snd] in U1, U2. clear U.
    unfold unsign in U1. injection U1 as V1 V2 V3 V4 V5 V6 V7 V8 V9 V10 V11.
    assert (NN0 : ~ no_nonce rv n) by (apply NN; cbn [length]; lia).
    assert (CT : controls key (ti_address x)) by (exists pub; split; [exact KP|apply OW]).
    inversion SG as [|? ? x2 ? ? ? key2 N1 I2 (pub2 & sig2 & KP2 & OW2 & B2 & L2 & S2 & BD2 & LD2 & E2) SG2|? ? ? N1|? ? ? N1 NK|? ? ? key2 pub2 e N1 I2 KP2 OW2 S2]; subst.
    + assert (K : key2 = key).
      { eapply ONE; [exact I2|exact I| |exact CT]. exists pub2. split; [exact KP2|]. destruct OW2 as (W & _). congruence. }
      subst key2. assert (pub2 = pub) by (eapply key_pub_fun; eauto). subst pub2. rewrite S in S2. injection S2 as S2. apply hex_of_inj in S2; auto. subst sig2.
      destruct (IH (fun i H => NN i ltac:(cbn [length]; lia)) _ _ _ U2 SG2) as [-> ->]. split; [reflexivity|]. rewrite V1, V2, V3, V4, V5, V6, V7, V8, V9, V10, V11. reflexivity.
    + contradiction.
    + exfalso. apply (NK key I). congruence.
    + assert (K : key2 = key).
      { eapply ONE; [exact I2|exact I| |exact CT]. exists pub2. split; [exact KP2|]. destruct OW2 as (W & _). congruence. }
      subst key2. assert (pub2 = pub) by (eapply key_pub_fun; eauto). subst pub2. rewrite S in S2. discriminate.
Qed.

(** C76.  What had been signed before makes no difference: if signing t succeeds, then signing any t2 that differs from t in public keys
    and scriptSigs only gives the same transaction (no two of the keys controlling the same address).  In particular signing again changes nothing. *)
Lemma c76_already_signed : CryptoOk E -> forall t ins outs keys rv t' xs2, tx_body t ins outs -> one_key_each keys ->
  map unsign xs2 = map unsign (tx_inputs t) ->
  sign t keys rv = (Ok tt, t') -> sign (set_inputs t xs2) keys rv = (Ok tt, t').
Proof.
  intros HC t ins outs keys rv t' xs2 HB ONE U H. destruct (sign_ok_inv HC _ _ _ _ _ _ HB H) as (CR & FK & xs' & -> & AS & SI).
  assert (HB' : tx_body (set_inputs t xs2) ins outs) by (apply body_after; auto).
  destruct HC as (HH & HZ & HK & HS & HP & HD).
  destruct (sign_spec HH HK HS HP HD HZ _ ins outs keys rv HB' CR FK) as (r & ys & -> & SI').
  destruct (signed_again keys rv ins outs 0 (tx_inputs t) xs' ONE AS (signing_nonces _ _ _ _ _ _ _ SI) xs2 r ys U SI') as [-> ->].
  reflexivity.
Qed.
Lemma c76_again : CryptoOk E -> forall t ins outs keys rv t', tx_body t ins outs -> one_key_each keys ->
  sign t keys rv = (Ok tt, t') -> sign t' keys rv = (Ok tt, t').
Proof.
  intros HC t ins outs keys rv t' HB ONE H. destruct (sign_ok_inv HC _ _ _ _ _ _ HB H) as (CR & FK & xs' & -> & AS & SI).
  eapply c76_already_signed; eauto. eapply all_signed_unsign; exact AS.
Qed.


Lemma equal_inputs_ok : Forall2 (@input_arg demo_env) equal_inputs equal_iargs.
Proof.
  constructor; [|constructor; [|constructor]]; (apply input_demo; [| |lia|vm_compute; reflexivity]).
  - exact good2. - unfold byte; lia. - exact good1. - unfold byte; lia.
Qed.
Lemma F2_rev : forall (A B : Type) (R : A -> B -> Prop) l m, Forall2 R l m -> Forall2 R (rev l) (rev m).
Proof. intros A B R l m F. induction F; cbn [rev]; [constructor|]. apply Forall2_app; auto. Qed.
Lemma equal_asked : forall ins iargs, Forall2 (@input_arg demo_env) ins iargs -> @asked demo_env (equal_request ins) (equal_order iargs).
Proof. intros ins iargs F. apply fixed_request; try lia; [exact F|]. apply out3. vm_compute. reflexivity. Qed.

(** C75.  The naive property fails: with two available inputs of the same amount, the order in which they are listed decides which one
    is spent. *)
Lemma c75_equal_amounts_refuted : exists a a' q q' t t', @asked demo_env a q /\ @asked demo_env a' q' /\ relisted q q' /\
  fst (@create_transaction demo_env a) = Ok t /\ fst (@create_transaction demo_env a') = Ok t' /\
  map ti_txid (tx_inputs t) <> map ti_txid (tx_inputs t').
Proof.
  exists (equal_request equal_inputs), (equal_request (rev equal_inputs)), (equal_order equal_iargs), (equal_order (rev equal_iargs)), equal_tx1, equal_tx2.
  split; [apply equal_asked, equal_inputs_ok|]. split; [apply equal_asked, F2_rev, equal_inputs_ok|].
  split; [exists (rev equal_iargs); split; [apply Permutation_rev|reflexivity]|].
  split; [vm_compute; reflexivity|]. split; [vm_compute; reflexivity|]. vm_compute. discriminate.
Qed.

Example ex75_demo : @asked demo_env demo_ns demo_order /\ @asked demo_env backwards backwards_order /\ relisted demo_order backwards_order /\
  NoDup (map ia_value (q_inputs demo_order)) /\ fst (@create_transaction demo_env demo_ns) = Ok created.
Proof.
  split; [exact demo_asked|]. split; [apply fixed_request; try lia; [apply F2_rev, demo_inputs_ok|apply out3; vm_compute; reflexivity]|].
  split; [exists (rev demo_iargs); split; [apply Permutation_rev|reflexivity]|].
  split; [|exact created_ok]. cbn. constructor; [intros [H|[]]; discriminate|]. constructor; [intros []|constructor].
Qed.

Lemma demo_controls : @controls demo_env key1 addr1 /\ @controls demo_env key2 addr2 /\ @controls demo_env key3 addr3.
Proof.
  assert (G : forall k a, (validate_hex_length (PStr k) 32 ;;; @private_key_hex_to_address demo_env k) = Ok a -> @controls demo_env k a).
  { intros k a H. destruct (key_step demo_hash demo_keys k) as [(a' & C & V & P)|[N [e X]]].
    - rewrite V in H. cbn [bind] in H. rewrite H in P. injection P as ->. exact C.
    - rewrite H in X. discriminate. }
  split; [|split]; apply G; vm_compute; reflexivity.
Qed.
Lemma controls_fun : forall E0 : Env, HashOk E0 -> KeysOk E0 -> forall k a a', @controls E0 k a -> @controls E0 k a' -> a = a'.
Proof. intros E0 HH HK k a a' C C'. destruct (key_step_ok HH HK _ _ C) as [_ P]. destruct (key_step_ok HH HK _ _ C') as [_ P']. congruence. Qed.

(** Signing the demo transaction with its keys in another order, a key repeated and one key more. *)
Example ex76_demo : @usable demo_env [key1; key2] /\ @usable demo_env [key2; key3; key1; key2] /\ @one_key_each demo_env [key1; key2] /\
  @same_keys_for demo_env created [key1; key2] [key2; key3; key1; key2] /\ (exists ins outs, @tx_body demo_env created ins outs) /\
  @sign demo_env created [key1; key2] None = (Ok tt, signed_tx).
Proof.
  destruct demo_controls as (C1 & C2 & C3).
  assert (F : forall k a a', @controls demo_env k a -> @controls demo_env k a' -> a = a') by (apply controls_fun; [exact demo_hash|exact demo_keys]).
  assert (N12 : addr1 <> addr2) by (vm_compute; discriminate). assert (N13 : addr1 <> addr3) by (vm_compute; discriminate).
  assert (N23 : addr2 <> addr3) by (vm_compute; discriminate).
  split; [|split; [|split; [|split; [|split; [exact demo_body|exact signed_ok]]]]].
  - constructor; [exists addr1; exact C1|]. constructor; [exists addr2; exact C2|constructor].
  - constructor; [exists addr2; exact C2|]. constructor; [exists addr3; exact C3|]. constructor; [exists addr1; exact C1|]. constructor; [exists addr2; exact C2|constructor].
  - intros k k' a [<-|[<-|[]]] [<-|[<-|[]]] D D'; auto; exfalso; apply N12.
    + rewrite (F _ _ _ C1 D). apply (F key2); auto.
    + rewrite (F _ _ _ C1 D'). apply (F key2); auto.
  - intros x k I D. assert (A : ti_address x = addr1 \/ ti_address x = addr2).
    { assert (M : map ti_address (tx_inputs created) = [addr1; addr2]) by (vm_compute; reflexivity).
      apply (in_map ti_address) in I. rewrite M in I. destruct I as [<-|[<-|[]]]; auto. }
    split; intros J.
    + destruct J as [<-|[<-|[]]]; [right; right; left; reflexivity|left; reflexivity].
    + destruct J as [<-|[<-|[<-|[<-|[]]]]]; [right; left; reflexivity| |left; reflexivity|right; left; reflexivity]. exfalso. pose proof (F _ _ _ C3 D) as Q. destruct A as [A|A]; rewrite A in Q; auto.
Qed.

End WithEnv.
