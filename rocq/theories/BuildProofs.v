(** create_transaction returns exactly the transactions of FloatSpec NumSpec CreateSpec. *)
From Coq Require Import String Floats.SpecFloat Permutation Sorted Lia Reals.
From Verif Require Import PyBase Env PyNum Validate Basic Spec EnvOk TxInput TxOutput Tx Create TxSpec CreateSpec.
From Verif Require Import NumLemmas HexProofs Base58Proofs AddrProofs FloatProofs AmountProofs ScriptProofs WireProofs MakeProofs NumProofs PrepProofs DesignProofs.
Open Scope Z_scope.

Lemma Zsum_app : forall a b, Zsum (a ++ b) = Zsum a + Zsum b.
Proof. induction a as [|x a IH]; intros b; cbn [app Zsum fold_right]; [auto|]. unfold Zsum in *. rewrite IH. lia. Qed.
Lemma Zsum_nonneg : forall l, Forall (fun x => 0 <= x) l -> 0 <= Zsum l.
Proof. induction 1; cbn; [lia|]. unfold Zsum in *. lia. Qed.
Lemma Zsum_perm : forall l l', Permutation l l' -> Zsum l = Zsum l'.
Proof. induction 1; cbn; auto; unfold Zsum in *; lia. Qed.
Lemma Zsum_ge : forall l x, Forall (fun x => 0 <= x) l -> In x l -> x <= Zsum l.
Proof.
  induction 1 as [|y l Hy Hl IH]; intros []; cbn.
  - subst. pose proof (Zsum_nonneg l Hl). unfold Zsum in *. lia. - apply IH in H. unfold Zsum in *. lia.
Qed.
Lemma F2_map : forall A B C (R : A -> B -> Prop) (f : A -> C) (g : B -> C) l1 l2,
  Forall2 R l1 l2 -> (forall a b, R a b -> f a = g b) -> map f l1 = map g l2.
Proof. induction 1; intros; cbn; auto. f_equal; auto. Qed.

(** Stable sort. *)
Section Sort.
Fixpoint iinsert (ap : approach) (x : iarg) (l : list iarg) : list iarg :=
  match l with
  | [] => [x]
  | y :: r => if (match ap with SmallestFirst => ia_value x <=? ia_value y | _ => ia_value y <=? ia_value x end)
              then x :: l else y :: iinsert ap x r
  end.
Definition isort (ap : approach) (l : list iarg) : list iarg := fold_right (iinsert ap) [] l.

Lemma iinsert_perm : forall ap x l, Permutation (x :: l) (iinsert ap x l).
Proof.
  induction l as [|y l IH]; cbn [iinsert]; auto. destruct (match ap with SmallestFirst => _ | _ => _ end); auto.
  rewrite perm_swap. constructor. auto.
Qed.
Lemma isort_perm : forall ap l, Permutation l (isort ap l).
Proof. induction l; cbn; auto. rewrite <- iinsert_perm. constructor. auto. Qed.
Lemma in_order_trans : forall ap x y z, in_order ap x y -> in_order ap y z -> in_order ap x z.
Proof. destruct ap; cbn; intros; lia. Qed.
Lemma iinsert_test : forall ap x y, (match ap with SmallestFirst => ia_value x <=? ia_value y | _ => ia_value y <=? ia_value x end) = true <-> in_order ap x y.
Proof. destruct ap; cbn; intros; apply Z.leb_le. Qed.
Lemma iinsert_sorted : forall ap x l, StronglySorted (in_order ap) l -> StronglySorted (in_order ap) (iinsert ap x l).
Proof.
  induction 1 as [|y l HS IH HF]; cbn [iinsert]; [repeat constructor|].
  destruct (match ap with SmallestFirst => _ | _ => _ end) eqn:T.
  - apply iinsert_test in T. constructor; [constructor; auto|]. constructor; auto. eapply Forall_impl; [|exact HF].
    intros z Hz. eapply in_order_trans; eauto.
  - constructor; auto. eapply Permutation_Forall; [apply iinsert_perm|]. constructor; auto.
    destruct ap; cbn in *; apply Z.leb_gt in T; lia.
Qed.
Lemma isort_sorted : forall ap l, StronglySorted (in_order ap) (isort ap l).
Proof. induction l; [constructor|]. apply iinsert_sorted. auto. Qed.
Lemma iinsert_filter : forall ap v x l, StronglySorted (in_order ap) l ->
  filter (fun i => ia_value i =? v) (iinsert ap x l) = filter (fun i => ia_value i =? v) (x :: l).
Proof.
  induction 1 as [|y l HS IH HF]; auto. cbn [iinsert]. destruct (match ap with SmallestFirst => _ | _ => _ end) eqn:T; auto.
  cbn [filter]. rewrite IH. cbn [filter].
  destruct (ia_value x =? v) eqn:X, (ia_value y =? v) eqn:Y; auto. exfalso. apply Z.eqb_eq in X, Y. destruct ap; apply Z.leb_gt in T; lia.
Qed.
Lemma isort_filter : forall ap v l, filter (fun i => ia_value i =? v) (isort ap l) = filter (fun i => ia_value i =? v) l.
Proof.
  induction l as [|x l IH]; auto. unfold isort in *. cbn [fold_right]. rewrite iinsert_filter by apply isort_sorted.
  cbn [filter]. rewrite IH. auto.
Qed.
Lemma isort_for : forall ap l, sorted_for ap l (isort ap l).
Proof. intros. split; [apply isort_perm|]. split; [apply isort_sorted|]. intros. apply isort_filter. Qed.

Lemma sorted_for_unique' : forall ap s s', StronglySorted (in_order ap) s -> StronglySorted (in_order ap) s' ->
  (forall v, filter (fun i => ia_value i =? v) s = filter (fun i => ia_value i =? v) s') -> s = s'.
Proof.
  intros ap s. induction s as [|x s IH]; intros s' H H' F.
  - destruct s' as [|y s']; auto. specialize (F (ia_value y)). cbn [filter] in F. rewrite Z.eqb_refl in F. discriminate.
  - destruct s' as [|y s'].
    { specialize (F (ia_value x)). cbn [filter] in F. rewrite Z.eqb_refl in F. discriminate. }
    inversion H; subst. inversion H'; subst.
    assert (IN : forall i, In i (x :: s) <-> In i (y :: s')).
    { intros i. split; intros I.
      - assert (In i (filter (fun j => ia_value j =? ia_value i) (y :: s'))) by (rewrite <- F; apply filter_In; rewrite Z.eqb_refl; auto).
        apply filter_In in H0. tauto.
      - assert (In i (filter (fun j => ia_value j =? ia_value i) (x :: s))) by (rewrite F; apply filter_In; rewrite Z.eqb_refl; auto).
        apply filter_In in H0. tauto. }
    assert (V : ia_value x = ia_value y).
    { destruct (proj1 (IN x) (or_introl eq_refl)) as [Q|Q]; [congruence|]. destruct (proj2 (IN y) (or_introl eq_refl)) as [Q'|Q']; [congruence|].
      rewrite Forall_forall in *. specialize (H3 _ Q'). specialize (H5 _ Q). destruct ap; cbn in *; lia. }
    assert (x = y). { specialize (F (ia_value x)). cbn [filter] in F. rewrite V in F. rewrite !Z.eqb_refl in F. congruence. }
    subst y. f_equal. apply IH; auto. intros v. specialize (F v). cbn [filter] in F. destruct (ia_value x =? v); congruence.
Qed.
Lemma sorted_for_unique : forall ap l s, sorted_for ap l s -> s = isort ap l.
Proof.
  intros ap l s (_ & S & F). apply (sorted_for_unique' ap); auto using isort_sorted. intros v. rewrite F, isort_filter. auto.
Qed.
End Sort.

(** Selection. *)
Fixpoint iselect (all : bool) (target total : Z) (l : list iarg) : list iarg :=
  match l with
  | [] => []
  | x :: r =>
      let total := total + ia_value x in
      if (target <=? total) && negb all then [x] else x :: iselect all target total r
  end.
Lemma iselect_all : forall target l total, iselect true target total l = l.
Proof. induction l as [|x l IH]; intros; cbn [iselect]; auto. cbv zeta. cbn [negb]. rewrite andb_false_r, IH. auto. Qed.
Lemma in_value_cons : forall x l, in_value (x :: l) = ia_value x + in_value l.
Proof. reflexivity. Qed.
Lemma in_value_app : forall a b, in_value (a ++ b) = in_value a + in_value b.
Proof. intros. unfold in_value. rewrite map_app. apply Zsum_app. Qed.
Lemma iselect_some : forall target l total, l <> [] -> target <= total + in_value l -> exists first last rest,
  iselect false target total l = first ++ [last] /\ l = (first ++ [last]) ++ rest /\
  (first = [] \/ total + in_value first < target) /\ target <= total + in_value (first ++ [last]).
Proof.
  induction l as [|x l IH]; intros total N H; [congruence|]. cbn [iselect]. cbv zeta. cbn [negb]. rewrite andb_true_r.
  destruct (Z.leb_spec target (total + ia_value x)) as [L|L].
  - exists [], x, l. repeat split; auto. rewrite in_value_app, in_value_cons. unfold in_value. cbn. lia.
  - rewrite in_value_cons in H. destruct l as [|y l].
    + unfold in_value in H. cbn in H. lia.
    + destruct (IH (total + ia_value x) ltac:(discriminate) ltac:(lia)) as (f & la & r & E1 & E2 & E3 & E4).
      exists (x :: f), la, r. rewrite E1. split; auto. split. { rewrite E2 at 1. auto. }
      split; [right|cbn [app]; rewrite in_value_cons; lia].
      rewrite in_value_cons. destruct E3 as [->|E3]; [unfold in_value; cbn; lia|lia].
Qed.
Lemma iselect_prefix : forall target last rest first total, Forall (fun i => 0 <= ia_value i) first ->
  (first = [] \/ total + in_value first < target) -> target <= total + in_value (first ++ [last]) ->
  iselect false target total ((first ++ [last]) ++ rest) = first ++ [last].
Proof.
  induction first as [|x f IH]; intros total NN A B; cbn [app iselect]; cbv zeta; cbn [negb]; rewrite andb_true_r.
  - cbn [app] in B. rewrite in_value_cons in B. unfold in_value in B. cbn in B.
    rewrite (proj2 (Z.leb_le _ _)) by lia. auto.
  - inversion NN; subst. destruct A as [A|A]; [discriminate|]. cbn [app] in B. rewrite in_value_cons in A, B.
    assert (0 <= in_value f). { apply Zsum_nonneg. clear - H2. induction H2; cbn; constructor; auto. }
    rewrite (proj2 (Z.leb_gt _ _)) by lia. f_equal. apply IH; auto; [right; lia|lia].
Qed.

Lemma chosen_iff : forall ap target l sel, Forall (fun i => 0 <= ia_value i) l -> 0 <= target <= in_value l ->
  (chosen ap target l sel <->
   sel = if in_value l =? target then l else iselect (match ap with All => true | _ => false end) target 0 l).
Proof.
  intros ap target l sel NN T. split.
  - intros [[[->|Q] ->]|(NA & NQ & f & la & r & -> & -> & C & D)].
    + destruct (in_value l =? target); auto. symmetry. apply iselect_all.
    + rewrite (proj2 (Z.eqb_eq _ _)); auto.
    + rewrite (proj2 (Z.eqb_neq _ _)) by auto. destruct ap; try congruence; symmetry; apply iselect_prefix; auto;
        (apply Forall_app in NN as [NN _]; apply Forall_app in NN as [NN _]; auto).
  - intros ->. destruct (Z.eqb_spec (in_value l) target) as [Q|Q]; [left; auto|].
    destruct (match ap with All => true | _ => false end) eqn:A.
    + left. rewrite iselect_all. split; auto. left. destruct ap; congruence.
    + right. split; [destruct ap; congruence|]. split; auto.
      destruct (iselect_some target l 0) as (f & la & r & E1 & E2 & E3 & E4).
      { intros ->. unfold in_value in *. cbn in *. lia. } { lia. }
      exists f, la, r. rewrite E1. auto.
Qed.

Section WithEnv.
Context {E : Env}.
Hypothesis HH : HashOk E.
Hypothesis HZ : ZeroAddressOk E.
Hypothesis HU : UniOk E.

Definition imade (i : iarg) (x : txin) : Prop := made_input (ia_address i) (ia_txid i) (PInt (ia_index i)) (ia_value i) x.
Definition omade (o : oarg) (y : txout) : Prop := made_output (oa_address o) (oa_value o) y.

Lemma imade_sat : forall i x, imade i x -> ia_value i = ti_sat x.
Proof. intros i x (h & idx & s & _ & _ & _ & _ & _ & _ & _ & ->). reflexivity. Qed.
Lemma imade_known : forall i x, imade i x -> ti_satoshi_amount x = Some (ia_value i).
Proof. intros i x (h & idx & s & _ & _ & _ & _ & _ & _ & _ & ->). reflexivity. Qed.
Lemma imade_address : forall i x, imade i x -> ia_address i = ti_address x.
Proof. intros i x (h & idx & s & _ & _ & _ & _ & _ & _ & _ & ->). reflexivity. Qed.
Lemma omade_sat : forall o y, omade o y -> oa_value o = to_satoshi_amount y.
Proof. intros o y (h & s & _ & _ & _ & ->). reflexivity. Qed.
Lemma omade_address : forall o y, omade o y -> oa_address o = to_address y.
Proof. intros o y (h & s & _ & _ & _ & ->). reflexivity. Qed.

Lemma sort_made : forall ap l xs, Forall2 imade l xs -> Forall2 imade (isort ap l) (sort_inputs ap xs).
Proof.
  assert (A : forall i x l xs, imade i x -> Forall2 imade l xs -> Forall2 imade (iinsert SmallestFirst i l) (insert_asc x xs)).
  { intros i x l xs M H. induction H as [|j y l ys Hj H IH]; cbn [iinsert insert_asc]; [repeat constructor; auto|].
    rewrite (imade_sat _ _ M), (imade_sat _ _ Hj). destruct (_ <=? _); repeat constructor; auto. }
  assert (D : forall ap i x l xs, ap <> SmallestFirst -> imade i x -> Forall2 imade l xs -> Forall2 imade (iinsert ap i l) (insert_desc x xs)).
  { intros ap i x l xs N M H. induction H as [|j y l ys Hj H IH]; cbn [iinsert insert_desc]; [repeat constructor; auto|].
    rewrite (imade_sat _ _ M), (imade_sat _ _ Hj). destruct ap; try congruence; destruct (_ <=? _); repeat constructor; auto. }
  intros ap l xs H. destruct ap; cbn [sort_inputs]; unfold isort, sort_desc, sort_asc; induction H; cbn [fold_right]; auto; apply D; auto; discriminate.
Qed.
Lemma select_made : forall all target l xs total, Forall2 imade l xs -> Forall2 imade (iselect all target total l) (select_loop all target total xs).
Proof.
  intros all target l xs total H. revert total. induction H as [|i x l xs M H IH]; intros total; cbn [iselect select_loop]; [constructor|].
  cbv zeta. rewrite (imade_sat _ _ M). destruct (_ && _); repeat constructor; auto.
Qed.
Lemma in_value_made : forall l xs, Forall2 imade l xs -> Zsum (map ti_sat xs) = in_value l.
Proof. intros l xs H. unfold in_value. f_equal. symmetry. eapply F2_map; eauto. apply imade_sat. Qed.
Lemma out_value_made : forall l ys, Forall2 omade l ys -> Zsum (map to_satoshi_amount ys) = out_value l.
Proof. intros l ys H. unfold out_value. f_equal. symmetry. eapply F2_map; eauto. apply omade_sat. Qed.

(** The request is well-formed. *)
Definition wf (q : order) : Prop :=
  Forall (fun i => address (ia_address i) /\ bytes (ia_txid i) /\ length (ia_txid i) = 32%nat /\ 0 <= ia_index i /\ 0 <= ia_value i <= max_money) (q_inputs q) /\
  Forall (fun o => address (oa_address o) /\ 0 <= oa_value o <= max_money) (q_outputs q) /\
  address (q_change_address q) /\ (q_change_index q = PNone \/ exists z, whole (q_change_index q) z).
Lemma asked_wf : forall a q, asked a q -> wf q.
Proof.
  intros a q (l & d & NI & FI & ND & (( lo & GO & FO) & (GC & CA) & _) & OA & IA). split; [|split; [|split]]; auto.
  - clear - FI HU. induction FI as [|v i l li Hi H IH]; constructor; auto.
    destruct Hi as (d & vi & s & _ & _ & _ & A & _ & B & L & _ & _ & I0 & _ & AA). pose proof (amount_arg_bounds HU _ _ AA). auto.
  - clear - FO HU. induction FO as [|v i l li Hi H IH]; constructor; auto.
    destruct Hi as (d & s & _ & _ & _ & A & _ & AA). pose proof (amount_arg_bounds HU _ _ AA). auto.
  - destruct IA as [[_ A]|[_ A]]; auto.
Qed.

Lemma make_inputs_iff : forall p q xs, prep p q -> wf q ->
  (mapM make_input (p_inputs p) = Ok xs <-> Forall2 imade (q_inputs q) xs).
Proof.
  intros p q xs (P & _) (W & _). revert xs. induction P as [|v i l li Hv P IH]; intros xs; cbn [mapM].
  - split; [intros [= <-]; constructor|inversion 1; auto].
  - inversion W; subst. rewrite Hv. destruct H1 as (A1 & A2 & A3 & A4 & A5). split.
    + intros H. inv_bind H x Hx. inv_bind H ys Hys. injection H as <-. constructor; [|apply IH; auto].
      apply (txin_create_iff HH HZ HU) in Hx as (a & t & Q1 & Q2 & M). injection Q1 as <-.
      assert (T : ia_txid i = t). { destruct M as (h & idx & s & _ & Bt & _). apply hex_of_inj; auto. congruence. }
      subst t. exact M.
    + inversion 1; subst. assert (X : txin_create (PStr (ia_address i)) (PStr (hex_of (ia_txid i))) (PInt (ia_index i)) (ia_value i) = Ok y) by (apply (txin_create_iff HH HZ HU); eauto).
      rewrite X. cbn [bind]. apply IH in H5; auto. rewrite H5. reflexivity.
Qed.
Lemma make_outputs_iff : forall p q ys, prep p q ->
  (mapM make_output (p_outputs p) = Ok ys <-> Forall2 omade (q_outputs q) ys).
Proof.
  intros p q ys (_ & P & _). revert ys. induction P as [|v i l li Hv P IH]; intros ys; cbn [mapM].
  - split; [intros [= <-]; constructor|inversion 1; auto].
  - rewrite Hv. split.
    + intros H. inv_bind H x Hx. inv_bind H zs Hys. injection H as <-. constructor; [|apply IH; auto].
      apply (txout_create_iff HH HZ HU) in Hx as (a & Q1 & M). injection Q1 as <-. exact M.
    + inversion 1; subst. assert (X : txout_create (PStr (oa_address i)) (oa_value i) = Ok y) by (apply (txout_create_iff HH HZ HU); eauto).
      rewrite X. cbn [bind]. apply IH in H4; auto. rewrite H4. reflexivity.
Qed.
(** Objects exist for well-formed requests. *)
Lemma make_input_exists : forall i, address (ia_address i) /\ bytes (ia_txid i) /\ length (ia_txid i) = 32%nat /\ 0 <= ia_index i /\ 0 <= ia_value i <= max_money ->
  ia_index i < 2 ^ 32 -> exists x, imade i x.
Proof.
  intros i ((h & A) & B & L & I & V) I2. destruct (satoshi_to_bitcoin_ok HU (ia_value i) V) as (s & _ & S).
  eexists. exists h, (ia_index i), s. repeat (split; [eauto; try lia; reflexivity|]). reflexivity.
Qed.
Lemma make_output_exists : forall o, address (oa_address o) /\ 0 <= oa_value o <= max_money -> exists y, omade o y.
Proof.
  intros o ((h & A) & V). destruct (satoshi_to_bitcoin_ok HU (oa_value o) V) as (s & _ & S).
  eexists. exists h, s. repeat (split; [eauto; try lia; reflexivity|]). reflexivity.
Qed.
Lemma imade_fun : forall i x x', imade i x -> imade i x' -> x = x'.
Proof.
  intros i x x' (h & idx & s & A & _ & _ & I & _ & R & S & ->) (h' & idx' & s' & A' & _ & _ & I' & _ & _ & S' & ->).
  assert (idx = idx') by congruence. subst idx'. assert (h = h') by exact (is_address_inj HH HZ _ _ _ A A').
  assert (s = s') by exact (btc_fun HU _ _ _ S S' R). subst. reflexivity.
Qed.
Lemma omade_fun : forall i x x', omade i x -> omade i x' -> x = x'.
Proof.
  intros i x x' (h & s & A & R & S & ->) (h' & s' & A' & _ & S' & ->).
  assert (h = h') by exact (is_address_inj HH HZ _ _ _ A A').
  assert (s = s') by exact (btc_fun HU _ _ _ S S' R). subst. reflexivity.
Qed.
Lemma F2_fun : forall A B (R : A -> B -> Prop) l l1 l2, (forall a b b', R a b -> R a b' -> b = b') -> Forall2 R l l1 -> Forall2 R l l2 -> l1 = l2.
Proof. intros A B R l l1 l2 F H. revert l2. induction H; intros l2 H'; inversion H'; subst; f_equal; eauto. Qed.

(** Sums per address. *)
Lemma add_amount_sum : forall k n m, Zsum (map snd (add_amount k n m)) = Zsum (map snd m) + n.
Proof.
  induction m as [|[k' v] m IH]; cbn [add_amount]; [cbn; lia|]. destruct (str_eqb k' k); cbn [map snd Zsum fold_right]; unfold Zsum in *; lia.
Qed.
Lemma add_amount_nonneg : forall k n m, 0 <= n -> Forall (fun x => 0 <= x) (map snd m) -> Forall (fun x => 0 <= x) (map snd (add_amount k n m)).
Proof.
  induction m as [|[k' v] m IH]; cbn [add_amount]; intros N F; [repeat constructor; auto|]. inversion F; subst. cbn [snd] in *.
  destruct (str_eqb k' k); cbn [map snd]; constructor; auto. lia.
Qed.
Lemma add_amount_keys : forall k n m x, In x (map fst (add_amount k n m)) <-> x = k \/ In x (map fst m).
Proof.
  induction m as [|[k' v] m IH]; intros x; cbn [add_amount map fst]; [cbn; intuition|].
  destruct (str_eqb k' k) eqn:Q; cbn [map fst In].
  - apply str_eqb_eq in Q. subst. intuition. - rewrite IH. intuition.
Qed.
Lemma per_address_facts : forall l, Forall (fun x => 0 <= x) (map snd l) ->
  Zsum (map snd (per_address l)) = Zsum (map snd l) /\ Forall (fun x => 0 <= x) (map snd (per_address l)) /\
  forall x, In x (map fst (per_address l)) <-> In x (map fst l).
Proof.
  intros l F. unfold per_address.
  assert (G : forall l m, Forall (fun x => 0 <= x) (map snd l) -> Forall (fun x => 0 <= x) (map snd m) ->
    let m' := fold_left (fun m p => add_amount (fst p) (snd p) m) l m in
    Zsum (map snd m') = Zsum (map snd m) + Zsum (map snd l) /\ Forall (fun x => 0 <= x) (map snd m') /\
    forall x, In x (map fst m') <-> In x (map fst m) \/ In x (map fst l)).
  { clear. induction l as [|[k n] l IH]; intros m F G; cbn [fold_left fst snd].
    - cbv zeta. split; [cbn; lia|]. split; auto. intros. cbn. intuition.
    - inversion F; subst. cbn [snd] in *. destruct (IH (add_amount k n m) H2 (add_amount_nonneg k n m H1 G)) as (A & B & C).
      cbv zeta. split; [rewrite A, add_amount_sum; cbn [map snd Zsum fold_right]; unfold Zsum; lia|]. split; auto.
      intros x. rewrite C, add_amount_keys. cbn [map fst In]. intuition. }
  destruct (G l [] F ltac:(constructor)) as (A & B & C). cbv zeta in *. split; [rewrite A; cbn; auto|]. split; auto.
  intros x. rewrite C. cbn. intuition.
Qed.
Lemma sat_ok : forall n, 0 <= n <= max_money -> exists s, satoshi_to_bitcoin (PInt n) = Ok s.
Proof. intros n H. destruct (satoshi_to_bitcoin_ok HU n H) as (s & A & _). eauto. Qed.
Lemma sat_inv : forall n s, satoshi_to_bitcoin (PInt n) = Ok s -> 0 <= n <= max_money.
Proof. intros n s H. apply (satoshi_to_bitcoin_iff HU) in H as (m & Q & R & _). injection Q as <-. exact R. Qed.
Lemma report_ok : forall l, Forall (fun x => 0 <= x) (map snd l) -> Zsum (map snd l) <= max_money -> report_sums (per_address l) = Ok tt.
Proof.
  intros l F S. destruct (per_address_facts l F) as (A & B & _). unfold report_sums. apply iter_ok. apply Forall_forall. intros [k v] I.
  assert (I' : In v (map snd (per_address l))) by (apply in_map_iff; exists (k, v); auto).
  cbn [snd]. destruct (sat_ok v) as [s ->]; [|reflexivity].
  split; [rewrite Forall_forall in B; auto|]. pose proof (Zsum_ge _ _ B I'). lia.
Qed.

(** Duplicate output addresses. *)
Lemma count_dup : forall (f : txout -> pystr) ys, (forall a, In a (map f ys) -> (length (filter (fun x => str_eqb (f x) a) ys) <= 1)%nat) <-> NoDup (map f ys).
Proof.
  intros f ys. assert (C : forall a ys, length (filter (fun x => str_eqb (f x) a) ys) = count_occ (list_eq_dec Z.eq_dec) (map f ys) a).
  { clear. intros a. induction ys as [|y ys IH]; auto. cbn [filter map count_occ]. destruct (list_eq_dec Z.eq_dec (f y) a) as [Q|Q].
    - rewrite Q, str_eqb_refl. cbn. auto. - rewrite (proj2 (str_eqb_neq _ _) Q). auto. }
  rewrite (NoDup_count_occ (list_eq_dec Z.eq_dec)). split; intros H a.
  - rewrite <- C. destruct (In_dec (list_eq_dec Z.eq_dec) a (map f ys)) as [I|I]; auto.
    rewrite C. apply (count_occ_not_In (list_eq_dec Z.eq_dec)) in I. lia.
  - intros _. rewrite C. auto.
Qed.
Lemma dup_iff : forall allow ys keys, (forall x, In x keys <-> In x (map to_address ys)) ->
  (check_duplicates allow ys keys = Ok tt <-> (allow = false -> NoDup (map to_address ys))) /\
  (check_duplicates allow ys keys <> Ok tt -> check_duplicates allow ys keys = Err DuplicateOutputAddressError).
Proof.
  intros allow ys keys K. split.
  - rewrite <- (count_dup to_address). unfold check_duplicates. rewrite iter_ok, Forall_forall. split.
    + intros H -> a I. apply K in I. specialize (H a I). cbn [negb] in H. rewrite andb_true_r in H.
      destruct (Nat.ltb_spec 1 (length (filter (fun x => str_eqb (to_address x) a) ys))); [discriminate|lia].
    + intros H a I. destruct allow; cbn [negb]; [rewrite andb_false_r; auto|]. rewrite andb_true_r.
      apply K in I. specialize (H eq_refl a I). destruct (Nat.ltb_spec 1 (length (filter (fun x => str_eqb (to_address x) a) ys))); auto; lia.
  - clear K. unfold check_duplicates. induction keys as [|k keys IH]; cbn [iterM]; [congruence|].
    destruct (_ && _); cbn [bind]; auto.
Qed.

(** Fees. *)
Lemma estimate_ok : forall n m, (n <= 252)%nat -> (m <= 252)%nat -> estimate_transaction_size n m = Ok (estimated_size n m).
Proof.
  intros n m Hn Hm. unfold estimate_transaction_size. rewrite !int_to_var_int_ok by lia. cbn [bind].
  rewrite hex_len_ok by (apply bytes1; unfold byte; lia). cbn [bind]. rewrite hex_len_ok by (apply bytes1; unfold byte; lia). cbn [bind length].
  f_equal. unfold estimated_size. lia.
Qed.
Lemma estimate_bad : forall n m z, estimate_transaction_size n m = Ok z -> (n <= 252)%nat /\ (m <= 252)%nat.
Proof.
  intros n m z H. unfold estimate_transaction_size in H.
  destruct (le_lt_dec n 252) as [C1|C1]; [|rewrite int_to_var_int_bad in H by lia; discriminate].
  rewrite (int_to_var_int_ok (Z.of_nat n)) in H by lia. cbn [bind] in H. inv_bind H u U. split; auto.
  destruct (le_lt_dec m 252) as [C2|C2]; auto. rewrite int_to_var_int_bad in H by lia. discriminate.
Qed.
Lemma nonzero_float : forall n f, py_float_int n = Ok f -> 0 < Z.abs n <= 2 ^ 53 -> forall b, f <> S754_zero b.
Proof.
  intros n f H N b ->. destruct (py_float_int_small n ltac:(lia)) as (f & Q & _ & _ & R). rewrite H in Q. injection Q as <-.
  change (s2r (S754_zero b)) with 0%R in R. symmetry in R. apply eq_IZR_R0 in R. lia.
Qed.
Lemma fdiv_ok : forall x n f, py_float_int n = Ok f -> 0 < Z.abs n <= 2 ^ 53 -> exists r, fdiv x f = Ok r.
Proof. intros x n f H N. pose proof (nonzero_float n f H N) as K. unfold fdiv. destruct f; eauto. elim (K s). auto. Qed.
Lemma int_gt_whole : forall n v z, whole v z -> py_int_gt n v = Ok (z <? n).
Proof.
  intros n v z [[-> _]|[[b [-> ->]]|[b [-> ->]]]]; cbn [py_int_gt float_cmp_int]; auto.
Qed.
Lemma money_small : forall n, 0 <= n <= max_money -> Z.abs n <= 2 ^ 53.
Proof. unfold max_money. intros. change (2 ^ 53) with 9007199254740992. lia. Qed.

(** The specification's formulas in terms of the modelled float operations. *)
Definition rate_res (r : spec_float) (size : Z) : res Z := f <- py_float_int size ;; py_ceil (fmul f r).
Definition spend_res (p : spec_float) (total : Z) : res Z :=
  f100 <- py_float_int 100 ;; x <- fdiv p f100 ;; ft <- py_float_int total ;; py_ceil (fmul x ft).
Lemma rate_fee_iff : forall r size f, 0 <= size <= 2 ^ 53 -> (rate_fee r size f <-> rate_res r size = Ok f).
Proof.
  intros r size f S. unfold rate_fee, rate_res. split.
  - intros (s & R & C). apply rounds_small in R; auto. rewrite R. cbn [bind]. apply py_ceil_iff. exact C.
  - intros H. inv_bind H s HR. exists s. split; [apply rounds_small; auto|]. apply py_ceil_iff. exact H.
Qed.
Lemma spend_limit_iff : forall p total l, 0 <= total <= max_money -> (spend_limit p total l <-> spend_res p total = Ok l).
Proof.
  intros p total l T. assert (T' : 0 <= total <= 2 ^ 53) by (pose proof (money_small total T); lia). unfold spend_limit, spend_res.
  destruct (py_float_int_small 100 ltac:(lia)) as (h0 & H0 & _). assert (D : forall q, fdiv q h0 = Ok (SFdiv 53 1024 q h0)).
  { intros q. vm_compute in H0. injection H0 as <-. reflexivity. }
  rewrite H0. cbn [bind]. rewrite D. cbn [bind]. split.
  - intros (h & t & R & R' & C). apply (rounds_small 100) in R; [|lia]. rewrite H0 in R. injection R as <-. apply rounds_small in R'; auto. rewrite R'. cbn [bind]. apply py_ceil_iff. exact C.
  - intros H. inv_bind H t HR. exists h0, t. split; [apply (rounds_small 100); auto; lia|]. split; [apply rounds_small; auto|]. apply py_ceil_iff. exact H.
Qed.
Lemma size_small : forall n m, (n <= 252)%nat -> (m <= 252)%nat -> 0 <= estimated_size n m <= 2 ^ 53.
Proof. intros. unfold estimated_size. change (2 ^ 53) with 9007199254740992. lia. Qed.

Lemma fee_iff : forall p q f, prep p q ->
  (manage_fee p (length (q_inputs q)) (length (q_outputs q)) = Ok f <->
   (length (q_inputs q) <= 252)%nat /\ (length (q_outputs q) <= 252)%nat /\ fee_due q f /\ 0 <= f <= q_max_fee q /\ f <= max_money).
Proof.
  intros p q f (_ & _ & PF & _ & WM & _). unfold manage_fee. split.
  - intros H. inv_bind H size SZ. destruct (estimate_bad _ _ _ SZ) as [L1 L2]. rewrite estimate_ok in SZ by auto. injection SZ as <-.
    inv_bind H ff FF. inv_bind H x X. inv_bind H fs FS. inv_bind H y Y. inv_bind H s SB.
    apply (satoshi_to_bitcoin_iff HU) in SB as (n & -> & R & _). cbn [as_int bind] in H. rewrite (int_gt_whole n _ _ WM) in H. cbn [bind] in H.
    destruct (Z.ltb_spec (q_max_fee q) n); [discriminate|]. injection H as <-. split; auto. split; auto. split; [|unfold max_money in *; lia].
    unfold fee_due. destruct (q_fee q) as [m|r].
    + destruct PF as [P1 P2]. rewrite P1, P2 in FF. cbn [compute_fee] in FF. congruence.
    + rewrite PF in FF. cbn [compute_fee] in FF. apply rate_fee_iff; [apply size_small; auto|]. unfold rate_res. inv_bind FF f1 F1. inv_bind FF n1 N1. injection FF as ->. rewrite F1. cbn [bind]. auto.
  - intros (L1 & L2 & FD & F & FM). rewrite estimate_ok by auto. cbn [bind].
    set (size := estimated_size (length (q_inputs q)) (length (q_outputs q))) in *.
    assert (SZ : 0 < size < 2 ^ 20). { unfold size, estimated_size. change (2 ^ 20) with 1048576. lia. }
    destruct (py_float_int_small size) as (fs & FS & _). { change (2 ^ 53) with 9007199254740992. change (2 ^ 20) with 1048576 in SZ. lia. }
    destruct (py_float_int_small f (money_small f ltac:(lia))) as (ff & FF & _).
    assert (C : compute_fee (p_fee p) (p_fee_rate p) size = Ok (PInt f)).
    { unfold fee_due in FD. fold size in FD. destruct (q_fee q) as [m|r].
      - destruct PF as [P1 P2]. subst. rewrite P2. cbn [compute_fee]. congruence.
      - rewrite PF. cbn [compute_fee]. apply rate_fee_iff in FD; [|apply size_small; auto]. unfold rate_res in FD. inv_bind FD f1 F1. rewrite F1. cbn [bind]. rewrite FD. reflexivity. }
    rewrite C. cbn [bind py_float]. rewrite FF. cbn [bind]. rewrite FS. cbn [bind].
    destruct (fdiv_ok ff size fs FS) as [r R]. { change (2 ^ 53) with 9007199254740992. change (2 ^ 20) with 1048576 in SZ. lia. }
    rewrite R. cbn [bind]. destruct (sat_ok f ltac:(lia)) as [s ->]. cbn [bind as_int]. rewrite (int_gt_whole f _ _ WM). cbn [bind].
    rewrite (proj2 (Z.ltb_ge _ _)) by lia. reflexivity.
Qed.

(** The spending limit. *)
Lemma spend_iff : forall p total spend, 0 < total <= max_money -> 0 <= spend <= max_money ->
  (check_spend p total spend = Ok tt <->
   exists limit, spend_limit p total limit /\ 0 < limit <= max_money /\ spend <= limit).
Proof.
  intros p total spend T S. assert (X : (exists limit, spend_limit p total limit /\ 0 < limit <= max_money /\ spend <= limit) <-> (exists limit, spend_res p total = Ok limit /\ 0 < limit <= max_money /\ spend <= limit)).
  { split; intros (l & H1 & H2); exists l; (split; [apply spend_limit_iff; auto; lia|auto]). }
  rewrite X. clear X. unfold check_spend, spend_res.
  destruct (py_float_int_small total (money_small total ltac:(lia))) as (ft & FT & _).
  destruct (py_float_int_small spend (money_small spend ltac:(lia))) as (fs & FS & _).
  destruct (fdiv_ok fs total ft FT) as [r R]. { pose proof (money_small total ltac:(lia)). lia. }
  destruct (py_float_int 100) as [f100|e] eqn:F100; [|split; [discriminate|intros (l & ? & _); discriminate]]. cbn [bind].
  destruct (fdiv p f100) as [x|e] eqn:X; [|split; [discriminate|intros (l & ? & _); discriminate]]. cbn [bind].
  rewrite FT. cbn [bind]. destruct (py_ceil (fmul x ft)) as [lim|e] eqn:C; [|split; [discriminate|intros (l & ? & _); discriminate]]. cbn [bind].
  split.
  - intros H. inv_bind H s1 S1. apply sat_inv in S1. inv_bind H s2 S2. rewrite FS in H. cbn [bind] in H. rewrite R in H. cbn [bind] in H.
    destruct (Z.leb_spec spend lim); [|discriminate]. exists lim. split; auto. split; auto.
    destruct (Z.eq_dec lim 0) as [->|]; [|lia]. cbn in H. discriminate.
  - intros (l & Q & L & LE). injection Q as ->. destruct (sat_ok l ltac:(lia)) as [s1 ->]. destruct (sat_ok spend S) as [s2 ->]. cbn [bind].
    rewrite FS. cbn [bind]. rewrite R. cbn [bind]. rewrite (proj2 (Z.leb_le _ _)) by lia.
    destruct (py_float_int_small l (money_small l ltac:(lia))) as (fl & FL & _). rewrite FL. cbn [bind].
    destruct (fdiv_ok fs l fl FL) as [r' R']. { pose proof (money_small l ltac:(lia)). lia. } rewrite R'. reflexivity.
Qed.

(** Change. *)
Lemma position_iff : forall idx n k, (idx = PNone \/ exists z, whole idx z) ->
  (change_position idx n = Ok k <-> as_int idx = Some (Z.of_nat k) /\ (k < n)%nat).
Proof.
  assert (G : forall z n k, 0 <= z -> ((if negb (z <? Z.of_nat n) then Err ValueError else if z <? 0 then Err IndexError else Ok (Z.to_nat z)) = Ok k <->
    Some z = Some (Z.of_nat k) /\ (k < n)%nat)).
  { intros z n k Z0. destruct (Z.ltb_spec z (Z.of_nat n)) as [L|L]; cbn [negb].
    - rewrite (proj2 (Z.ltb_ge z 0)) by lia. split; [intros [= <-]; split; [f_equal; lia|lia]|]. intros [[= ->] _]. f_equal. lia.
    - split; [discriminate|]. intros [[= ->] K]. lia. }
  intros idx n k [->|(z & [[-> Z0]|[[b [-> ->]]|[b [-> ->]]]])]; unfold change_position; cbn [as_int bind float_cmp_int].
  - split; [discriminate|intros [? _]; discriminate].
  - apply G. auto.
  - apply G. destruct b; cbn; lia.
  - split; [|intros [? _]; discriminate]. destruct (negb _); discriminate.
Qed.

Lemma update_iff : forall a k surplus outs ys ys' y', Forall2 omade outs ys ->
  (update_change a k surplus ys = Ok (ys', y') <->
   exists pre o post, outs = pre ++ o :: post /\ oa_address o = a /\ length (filter (pays a) pre) = k /\ 0 < oa_value o + surplus /\
     Forall2 omade (pre ++ mk_oarg a (oa_value o + surplus) :: post) ys' /\ omade (mk_oarg a (oa_value o + surplus)) y').
Proof.
  intros a k surplus outs ys ys' y' H. revert k ys' y'. induction H as [|o y outs ys Ho H IH]; intros k ys' y'; cbn [update_change].
  - split; [discriminate|]. intros ([|? ?] & o1 & post & Q & _); discriminate.
  - rewrite <- (omade_address _ _ Ho). destruct (str_eqb (oa_address o) a) eqn:QA.
    + apply str_eqb_eq in QA. destruct k as [|k].
      * split.
        { intros Q. inv_bind Q o' SO. inv_bind Q s1 S1. injection Q as <- <-. rewrite <- (omade_sat _ _ Ho) in SO.
          apply (set_satoshi_iff HH HZ HU _ _ _ _ _ Ho) in SO as [P M]. rewrite QA in M.
          exists [], o, outs. cbn [app filter length]. repeat (split; auto). }
        { intros (pre & o1 & post & Q & A1 & L & P & F & M). destruct pre as [|o2 pre].
          - injection Q as <- <-. cbn [app] in F. inversion F as [|? ? ? ? M' F']; subst.
            pose proof (omade_fun _ _ _ M M'). subst y'. pose proof (F2_fun _ _ _ _ _ _ omade_fun H F'). subst l'.
            assert (SO : set_satoshi_amount y (to_satoshi_amount y + surplus) = Ok y0).
            { rewrite <- (omade_sat _ _ Ho). apply (set_satoshi_iff HH HZ HU _ _ _ _ _ Ho). auto. }
            rewrite SO. cbn [bind]. destruct (sat_ok (to_satoshi_amount y)) as [s1 ->]; [|reflexivity].
            rewrite <- (omade_sat _ _ Ho). destruct Ho as (h & s & _ & R & _). exact R.
          - injection Q as <- ->. cbn [filter] in L. unfold pays in L at 1. rewrite QA, str_eqb_refl in L. discriminate. }
      * split.
        { intros Q. inv_bind Q x X. destruct x as [r' o']. injection Q as <- <-. apply IH in X as (pre & o1 & post & -> & A1 & L & P & F & M).
          exists (o :: pre), o1, post. cbn [app filter]. unfold pays at 1. rewrite QA, str_eqb_refl. cbn [length]. repeat (split; auto). }
        { intros (pre & o1 & post & Q & A1 & L & P & F & M). destruct pre as [|o2 pre]; [cbn in L; discriminate|].
          injection Q as <- ->. cbn [filter] in L. unfold pays in L at 1. rewrite QA, str_eqb_refl in L. cbn [length] in L. injection L as L.
          cbn [app] in F. inversion F as [|? z ? zs M' F']; subst. pose proof (omade_fun _ _ _ Ho M'). subst z.
          assert (X : update_change (oa_address o) (length (filter (pays (oa_address o)) pre)) surplus ys = Ok (zs, y')).
          { apply IH. exists pre, o1, post. rewrite <- A1 in *. repeat (split; auto). }
          rewrite X. reflexivity. }
    + assert (NA : oa_address o <> a) by (intros Q; rewrite Q, str_eqb_refl in QA; discriminate). split.
      { intros Q. inv_bind Q x X. destruct x as [r' o']. injection Q as <- <-. apply IH in X as (pre & o1 & post & -> & A1 & L & P & F & M).
        exists (o :: pre), o1, post. cbn [app filter]. unfold pays at 1. rewrite QA. repeat (split; auto). }
      { intros (pre & o1 & post & Q & A1 & L & P & F & M). destruct pre as [|o2 pre]; [injection Q as -> ->; contradiction|].
        injection Q as <- ->. cbn [filter] in L. unfold pays in L at 1. rewrite QA in L.
        cbn [app] in F. inversion F as [|? z ? zs M' F']; subst. pose proof (omade_fun _ _ _ Ho M'). subst z.
        assert (X : update_change (oa_address o1) (length (filter (pays (oa_address o1)) pre)) surplus ys = Ok (zs, y')).
        { apply IH. exists pre, o1, post. repeat (split; auto). }
        rewrite X. reflexivity. }
Qed.

Lemma made_filter : forall a outs ys, Forall2 omade outs ys ->
  length (filter (fun x => str_eqb (to_address x) a) ys) = length (filter (pays a) outs).
Proof.
  intros a outs ys H. induction H as [|o y outs ys Ho H IH]; auto. cbn [filter]. unfold pays at 1. rewrite <- (omade_address _ _ Ho).
  destruct (str_eqb _ _); cbn [length]; auto.
Qed.
Lemma filter_none : forall a outs, length (filter (pays a) outs) = 0%nat <-> forall o, In o outs -> oa_address o <> a.
Proof.
  intros a. induction outs as [|o outs IH]; cbn [filter]; [split; auto; intros _ o []|]. unfold pays at 1.
  destruct (str_eqb (oa_address o) a) eqn:Q.
  - apply str_eqb_eq in Q. cbn [length]. split; [lia|]. intros K. elim (K o (or_introl eq_refl)). auto.
  - rewrite IH. split.
    + intros K o' [<-|I]; auto. intros Q'. rewrite Q', str_eqb_refl in Q. discriminate.
    + intros K o' I. apply K. right; auto.
Qed.
Lemma filter_split : forall a pre o post, oa_address o = a ->
  length (filter (pays a) (pre ++ o :: post)) = (length (filter (pays a) pre) + 1 + length (filter (pays a) post))%nat.
Proof.
  intros a pre o post A. rewrite filter_app, app_length. cbn [filter]. unfold pays at 2. rewrite A, str_eqb_refl. cbn [length]. lia.
Qed.

Lemma handle_iff : forall a idx outs ys total target ys' chg, Forall2 omade outs ys -> address a -> (idx = PNone \/ exists z, whole idx z) ->
  0 <= total - target <= max_money ->
  (handle_change a idx ys total target = Ok (ys', chg) <->
   exists outs', surplus_paid a idx outs (total - target) outs' chg /\ Forall2 omade outs' ys').
Proof.
  intros a idx outs ys total target ys' chg H A I R. unfold handle_change. rewrite (made_filter a _ _ H).
  destruct (Z.eqb_spec total target) as [Q|Q].
  { split.
    - intros [= <- <-]. exists outs. split; auto. left. repeat split; lia.
    - intros (outs' & [(_ & -> & ->)|[(N & _)|(N & _)]] & F); [|lia|lia]. rewrite (F2_fun _ _ _ _ _ _ omade_fun H F). auto. }
  set (surplus := total - target) in *. assert (S0 : 0 < surplus) by (unfold surplus in *; lia).
  destruct (sat_ok surplus R) as [s ->]. cbn [bind].
  assert (U : forall k, (x <- update_change a k surplus ys ;; (let '(outs, o) := x in Ok (outs, to_satoshi_amount o))) = Ok (ys', chg) <->
    exists pre o post, outs = pre ++ o :: post /\ oa_address o = a /\ length (filter (pays a) pre) = k /\
      chg = oa_value o + surplus /\ Forall2 omade (pre ++ mk_oarg a (oa_value o + surplus) :: post) ys').
  { intros k. split.
    - intros K. inv_bind K x X. destruct x as [zs z]. injection K as -> <-. apply (update_iff _ _ _ _ _ _ _ H) in X as (pre & o & post & E1 & E2 & E3 & E4 & E5 & E6).
      exists pre, o, post. repeat (split; auto). symmetry. apply (omade_sat _ _ E6).
    - intros (pre & o & post & E1 & E2 & E3 & -> & F). assert (exists y', omade (mk_oarg a (oa_value o + surplus)) y').
      { apply Forall2_app_inv_l in F as (l1 & l2 & F1 & F2 & _). inversion F2; subst. eauto. }
      destruct H0 as [y' M]. assert (O0 : 0 <= oa_value o).
      { rewrite E1 in H. apply Forall2_app_inv_l in H as (l1 & l2 & F1 & F2 & _). inversion F2 as [|? ? ? ? M0 F0]; subst. destruct M0 as (h & s' & _ & R' & _). lia. }
      assert (X : update_change a k surplus ys = Ok (ys', y')) by (apply (update_iff _ _ _ _ _ _ _ H); exists pre, o, post; repeat (split; auto); lia).
      rewrite X. cbn [bind]. rewrite <- (omade_sat _ _ M). reflexivity. }
  destruct (Nat.ltb_spec 1 (length (filter (pays a) outs))) as [L1|L1]; [|destruct (Nat.eqb_spec (length (filter (pays a) outs)) 1) as [L2|L2]].
  - split.
    + intros K. inv_bind K k PK. apply (position_iff _ _ _ I) in PK as [PK1 PK2]. apply U in K as (pre & o & post & E1 & E2 & E3 & E4 & E5).
      eexists. split; [|exact E5]. right. right. split; [lia|]. exists pre, o, post. repeat (split; auto). right. rewrite E3. auto.
    + intros (outs' & [(N & _)|[(_ & N & _)|(N & pre & o & post & E1 & E2 & -> & E4 & E5)]] & F); [lia| |].
      { apply filter_none in N. lia. }
      destruct E5 as [E5|E5]; [lia|]. assert (PK : change_position idx (length (filter (pays a) outs)) = Ok (length (filter (pays a) pre))).
      { apply (position_iff _ _ _ I). split; auto. rewrite E1, filter_split by auto. lia. }
      rewrite PK. cbn [bind]. apply U. exists pre, o, post. auto.
  - split.
    + intros K. apply U in K as (pre & o & post & E1 & E2 & E3 & E4 & E5).
      eexists. split; [|exact E5]. right. right. split; [lia|]. exists pre, o, post. repeat (split; auto).
    + intros (outs' & [(N & _)|[(_ & N & _)|(N & pre & o & post & E1 & E2 & -> & E4 & E5)]] & F); [lia| |].
      { apply filter_none in N. lia. }
      apply U. exists pre, o, post. repeat (split; auto). rewrite E1, filter_split in L2 by auto. lia.
  - assert (L0 : length (filter (pays a) outs) = 0%nat) by lia. pose proof (proj1 (filter_none a outs) L0) as NO.
    destruct (make_output_exists (mk_oarg a surplus)) as [y M]. { split; auto. }
    assert (X : txout_create (PStr a) surplus = Ok y) by (apply (txout_create_iff HH HZ HU); exists a; auto).
    rewrite X. cbn [bind]. rewrite <- (omade_sat _ _ M). cbn [oa_value]. split.
    + intros [= <- <-]. exists (mk_oarg a surplus :: outs). split; [|constructor; auto]. right. left. repeat (split; auto). lia.
    + intros (outs' & [(N & _)|[(_ & N & -> & ->)|(N & pre & o & post & E1 & E2 & _)]] & F); [lia| |].
      * inversion F as [|? ? ? ? M0 F0]; subst. rewrite (omade_fun _ _ _ M M0), (F2_fun _ _ _ _ _ _ omade_fun H F0). auto.
      * exfalso. apply (NO o); auto. rewrite E1. apply in_elt.
Qed.

Lemma out_value_app : forall a b, out_value (a ++ b) = out_value a + out_value b.
Proof. intros. unfold out_value. rewrite map_app. apply Zsum_app. Qed.
Lemma out_value_cons : forall o l, out_value (o :: l) = oa_value o + out_value l.
Proof. reflexivity. Qed.
Lemma out_value_nonneg : forall l, Forall (fun o => 0 <= oa_value o) l -> 0 <= out_value l.
Proof. intros l H. apply Zsum_nonneg. induction H; cbn; constructor; auto. Qed.
Lemma in_value_nonneg : forall l, Forall (fun o => 0 <= ia_value o) l -> 0 <= in_value l.
Proof. intros l H. apply Zsum_nonneg. induction H; cbn; constructor; auto. Qed.
Lemma surplus_value : forall a idx outs surplus outs' chg, surplus_paid a idx outs surplus outs' chg ->
  Forall (fun o => 0 <= oa_value o) outs -> 0 <= surplus ->
  out_value outs' = out_value outs + surplus /\ 0 <= chg <= out_value outs' /\ Forall (fun o => 0 <= oa_value o) outs'.
Proof.
  intros a idx outs surplus outs' chg [(-> & -> & ->)|[(N & _ & -> & ->)|(N & pre & o & post & -> & A & -> & -> & _)]] F S.
  - pose proof (out_value_nonneg outs F). split; [lia|]. split; [lia|auto].
  - pose proof (out_value_nonneg outs F). rewrite out_value_cons. cbn [oa_value]. split; [lia|]. split; [lia|]. constructor; auto.
  - apply Forall_app in F as [F1 F2]. inversion F2; subst. pose proof (out_value_nonneg _ F1). pose proof (out_value_nonneg _ H2).
    rewrite !out_value_app, !out_value_cons. cbn [oa_value]. split; [lia|]. split; [lia|]. apply Forall_app. split; auto. constructor; auto. cbn. lia.
Qed.

Lemma made_pairs_in : forall l xs, Forall2 imade l xs -> map snd (map (fun x => (ti_address x, ti_sat x)) xs) = map ia_value l.
Proof. intros l xs H. rewrite map_map. symmetry. eapply F2_map; eauto. intros i x M. apply (imade_sat _ _ M). Qed.
Lemma made_pairs_out : forall l xs, Forall2 omade l xs -> map snd (map (fun x => (to_address x, to_satoshi_amount x)) xs) = map oa_value l /\
  map fst (map (fun x => (to_address x, to_satoshi_amount x)) xs) = map to_address xs /\ map to_address xs = map oa_address l.
Proof.
  intros l xs H. split; [|split].
  - rewrite map_map. symmetry. eapply F2_map; eauto. intros i x M. apply (omade_sat _ _ M).
  - rewrite map_map. reflexivity.
  - symmetry. eapply F2_map; eauto. apply omade_address.
Qed.

Lemma isort_length : forall ap l, length (isort ap l) = length l.
Proof. intros. symmetry. apply Permutation_length, isort_perm. Qed.
Lemma isort_value : forall ap l, in_value (isort ap l) = in_value l.
Proof. intros. unfold in_value. symmetry. apply Zsum_perm, Permutation_map, isort_perm. Qed.
Lemma isort_Forall : forall ap (P : iarg -> Prop) l, Forall P l -> Forall P (isort ap l).
Proof. intros. eapply Permutation_Forall; [apply isort_perm|auto]. Qed.
Lemma iselect_length : forall all t l n, (length (iselect all t n l) <= length l)%nat.
Proof. intros all t. induction l as [|x l IH]; intros n; cbn [iselect]; auto. cbv zeta. destruct (_ && _); cbn [length]; [lia|]. specialize (IH (n + ia_value x)). lia. Qed.
Lemma iselect_value : forall all t l n, Forall (fun i => 0 <= ia_value i) l -> 0 <= in_value (iselect all t n l) <= in_value l.
Proof.
  intros all t l n F. revert n. induction F as [|x l Hx F IH]; intros n; cbn [iselect]; [unfold in_value; cbn; lia|].
  cbv zeta. pose proof (in_value_nonneg _ F). destruct (_ && _); rewrite !in_value_cons; [unfold in_value at 1 2; cbn; lia|]. specialize (IH (n + ia_value x)). lia.
Qed.
Lemma iselect_reach : forall all t l, Forall (fun i => 0 <= ia_value i) l -> 0 <= t <= in_value l -> t <= in_value (iselect all t 0 l).
Proof.
  intros [|] t l F T; [rewrite iselect_all; lia|]. destruct l as [|x l]; [unfold in_value in *; cbn in *; lia|].
  destruct (iselect_some t (x :: l) 0) as (f & la & r & E1 & E2 & E3 & E4); [discriminate|lia|]. rewrite E1. lia.
Qed.

(** What remains of build after the objects have been made, with the sorted inputs. *)
Definition build_rest (p : prepared) (ap : approach) (n_inputs : nat) (inputs : list txin) (outputs : list txout) : res tx :=
  final_fee <- manage_fee p n_inputs (length outputs) ;;
  let total_in := Zsum (map ti_sat inputs) in
  let total_out := Zsum (map to_satoshi_amount outputs) in
  satoshi_to_bitcoin (PInt total_in) ;;;
  satoshi_to_bitcoin (PInt total_out) ;;;
  (if total_in <? total_out then
     satoshi_to_bitcoin (PInt (total_out - total_in)) ;;; Err OutputValueNotCovered
   else Ok tt) ;;;
  let target := total_out + final_fee in
  satoshi_to_bitcoin (PInt target) ;;;
  selected <- select_inputs ap inputs total_in target ;;
  let total_selected := Zsum (map ti_sat selected) in
  satoshi_to_bitcoin (PInt total_selected) ;;;
  change_address <- as_str (p_change_address p) ;;
  '(outputs, change) <- handle_change change_address (p_change_output_index p) outputs total_selected target ;;
  let total_out := Zsum (map to_satoshi_amount outputs) in
  (if total_selected =? target then Ok tt
   else satoshi_to_bitcoin (PInt total_out) ;;;
        satoshi_to_bitcoin (PInt (total_out + final_fee)) ;;; Ok tt) ;;;
  if negb (total_selected =? total_out + final_fee) then Err ValueError
  else
    satoshi_to_bitcoin (PInt change) ;;;
    check_spend (p_max_spend_percentage p) total_in (total_selected - change) ;;;
    t <- tx_create selected outputs ;;
    Ok (set_change_address t (Some change_address)).

Lemma build_front : forall p q xs ys, prep p q -> wf q -> Forall2 imade (q_inputs q) xs -> Forall2 omade (q_outputs q) ys ->
  in_value (q_inputs q) <= max_money -> out_value (q_outputs q) <= max_money ->
  build p = (check_duplicates (p_allow_duplicate p) ys (map fst (per_address (map (fun x => (to_address x, to_satoshi_amount x)) ys))) ;;;
    build_rest p (q_approach q) (length xs) (sort_inputs (q_approach q) xs) ys).
Proof.
  intros p q xs ys P W X Y TI TO. unfold build. rewrite (proj2 (make_inputs_iff p q xs P W) X). cbn [bind].
  rewrite (proj2 (make_outputs_iff p q ys P) Y). cbn [bind]. destruct P as (_ & _ & _ & _ & _ & _ & -> & _). cbn [bind].
  rewrite report_ok; [cbn [bind]; rewrite report_ok; [reflexivity|..]|..].
  - rewrite (proj1 (made_pairs_out _ _ Y)). destruct W as (_ & W & _). clear - W. induction W; constructor; auto. tauto.
  - rewrite (proj1 (made_pairs_out _ _ Y)). exact TO.
  - rewrite (made_pairs_in _ _ (sort_made _ _ _ X)). apply Forall_map. apply isort_Forall. destruct W as (W & _). clear - W. induction W; constructor; auto. tauto.
  - rewrite (made_pairs_in _ _ (sort_made _ _ _ X)). change (in_value (isort (q_approach q) (q_inputs q)) <= max_money). rewrite isort_value. exact TI.
Qed.

Lemma wf_values : forall q, wf q -> Forall (fun i => 0 <= ia_value i) (q_inputs q) /\ Forall (fun i => 0 <= oa_value i) (q_outputs q).
Proof. intros q (W1 & W2 & _). split; eapply Forall_impl; try eassumption; cbn; tauto. Qed.

Lemma check_spend_zero : forall p spend, check_spend p 0 spend <> Ok tt.
Proof.
  intros p spend H. unfold check_spend in H. inv_bind H f100 F1. inv_bind H x X. inv_bind H ft FT. inv_bind H ms MS. inv_bind H s1 S1. inv_bind H s2 S2. inv_bind H fs FS.
  vm_compute in FT. injection FT as <-. discriminate.
Qed.

Lemma build_iff : forall p q t, prep p q -> wf q ->
  (build p = Ok t <-> exists sel outs f chg, plan q sel outs f chg /\ tx_of sel outs (q_change_address q) t).
Proof.
  intros p q t P W. pose proof (wf_values q W) as [VI VO]. pose proof (in_value_nonneg _ VI) as NI. pose proof (out_value_nonneg _ VO) as NO.
  assert (REST : forall xs ys, Forall2 imade (q_inputs q) xs -> Forall2 omade (q_outputs q) ys ->
    (q_allow_duplicates q = false -> NoDup (map oa_address (q_outputs q))) ->
    (build_rest p (q_approach q) (length xs) (sort_inputs (q_approach q) xs) ys = Ok t <->
     exists sel outs f chg, plan q sel outs f chg /\ tx_of sel outs (q_change_address q) t)).
  { intros xs ys X Y ND. unfold build_rest. rewrite <- (F2_len _ _ _ _ _ X), <- (F2_len _ _ _ _ _ Y).
    pose proof (sort_made (q_approach q) _ _ X) as SX. set (sxs := sort_inputs (q_approach q) xs) in *.
    rewrite (in_value_made _ _ SX), (out_value_made _ _ Y), isort_value.
    assert (IX : Forall (fun i => ia_index i < 2 ^ 32) (q_inputs q)).
    { clear - X. induction X as [|i x l xs M X IH]; constructor; auto. destruct M as (h & idx & s & _ & _ & _ & I & R & _). cbn in I. injection I as <-. lia. }
    assert (CA : p_change_address p = PStr (q_change_address q)) by apply P.
    assert (CI : p_change_output_index p = q_change_index q) by apply P.
    assert (CS : p_max_spend_percentage p = q_max_spend q) by apply P.
    rewrite CA, CI, CS. set (ti := in_value (q_inputs q)) in *. set (to := out_value (q_outputs q)) in *.
    assert (SEL : forall f sel, 0 <= f -> to + f <= ti -> ti <= max_money ->
      sel = (if ti =? to + f then isort (q_approach q) (q_inputs q) else iselect (match q_approach q with All => true | _ => false end) (to + f) 0 (isort (q_approach q) (q_inputs q))) ->
      (exists s, sorted_for (q_approach q) (q_inputs q) s /\ chosen (q_approach q) (to + f) s sel) /\
      (length sel <= length (q_inputs q))%nat /\ to + f <= in_value sel <= ti /\
      exists sxs', select_inputs (q_approach q) sxs ti (to + f) = Ok sxs' /\ Forall2 imade sel sxs').
    { intros f sel F0 TF TM ->. pose proof (isort_Forall (q_approach q) _ _ VI) as VS.
      split; [|split; [|split]].
      - exists (isort (q_approach q) (q_inputs q)). split; [apply isort_for|]. apply chosen_iff; auto; rewrite isort_value; auto. fold ti. lia.
      - destruct (ti =? to + f); [rewrite isort_length; auto|]. etransitivity; [apply iselect_length|]. rewrite isort_length. auto.
      - destruct (Z.eqb_spec ti (to + f)); [rewrite isort_value; fold ti; lia|]. split.
        + apply iselect_reach; auto. rewrite isort_value. fold ti. lia.
        + etransitivity; [apply iselect_value; auto|]. rewrite isort_value. fold ti. lia.
      - unfold select_inputs. rewrite (proj2 (Z.ltb_ge _ _)) by lia. destruct (ti =? to + f); [eauto|].
        destruct (sat_ok (ti - (to + f)) ltac:(lia)) as [s ->]. cbn [bind]. eexists. split; [reflexivity|]. apply select_made. auto. }
    split.
    - intros H. apply bind_ok_inv in H. destruct H as (fe & FE & H). rename fe into f. inv_bind H s1 S1. inv_bind H s2 S2. apply sat_inv in S1, S2.
      destruct (Z.ltb_spec ti to) as [LT|LT]; cbn [bind] in H.
      { inv_bind H u U. inv_bind U u2 U2. discriminate. }
      inv_bind H s3 S3. apply sat_inv in S3. inv_bind H selx SEx. inv_bind H s4 S4.
      apply (fee_iff p q f P) in FE as (L1 & L2 & FD & F & FM).
      assert (TT : to + f <= ti).
      { unfold select_inputs in SEx. destruct (Z.ltb_spec ti (to + f)); [|auto]. inv_bind SEx u U. discriminate. }
      destruct (SEL f _ ltac:(lia) TT ltac:(lia) eq_refl) as (SC & SL & SV & sx' & SE & SM).
      set (sel := if ti =? to + f then _ else _) in *.
      rewrite SE in SEx. injection SEx as <-. rewrite (in_value_made _ _ SM) in *. cbn [as_str bind] in H.
      inv_bind H hc HC. destruct hc as [ys' chg]. apply (handle_iff _ _ _ _ _ _ _ _ Y) in HC as (outs' & SP & YO); [|apply W|apply W|lia].
      destruct (surplus_value _ _ _ _ _ _ SP VO ltac:(lia)) as (SVA & SVB & SVC). fold to in SVA.
      rewrite (out_value_made _ _ YO) in H. inv_bind H u1 U1. 
      destruct (Z.eqb_spec (in_value sel) (out_value outs' + f)) as [EQ|EQ]; [|cbn [negb] in H; discriminate]. cbn [negb] in H.
      inv_bind H s5 S5. inv_bind H u2 SPD. destruct u2. inv_bind H t0 TC. injection H as <-.
      assert (TI0 : 0 < ti <= max_money).
      { split; [|lia]. destruct (Z.eq_dec ti 0) as [Z0|]; [|lia]. rewrite Z0 in SPD. elim (check_spend_zero _ _ SPD). }
      apply spend_iff in SPD as (lim & LM1 & LM2 & LM3); [|auto|unfold max_money in *; lia].
      exists sel, outs', f, chg. split.
      + pose proof (tx_create_inv _ _ _ TC) as (N1 & N2 & _). rewrite <- (F2_len _ _ _ _ _ YO) in N2.
        unfold plan. fold ti to. repeat (split; [solve [auto; lia]|]). exists lim. auto.
      + pose proof (tx_create_inv _ _ _ TC) as (N1 & N2 & _). rewrite tx_create_ok in TC by auto. injection TC as <-.
        exists sx', ys'. split; auto.
    - intros (sel & outs & f & chg & PL & TX). destruct PL as (L1 & L2 & L3 & _ & TI & _ & FD & F & TT & (s & SF & SC) & SP & lim & LM1 & LM2 & LM3).
      fold ti in TI, TT, LM1. fold to in TT, SC, SP. apply sorted_for_unique in SF. subst s.
      apply chosen_iff in SC; [|apply isort_Forall; auto|rewrite isort_value; fold ti; lia]. rewrite isort_value in SC. fold ti in SC.
      destruct (SEL f sel ltac:(lia) TT ltac:(lia) SC) as (_ & SL & SV & sx' & SE & SM).
      destruct TX as (ins & os & FI & FO & ->). pose proof (F2_fun _ _ _ _ _ _ imade_fun SM FI). subst ins.
      assert (FE : manage_fee p (length (q_inputs q)) (length (q_outputs q)) = Ok f) by (apply (fee_iff p q f P); repeat split; auto; lia).
      rewrite FE. cbn [bind]. destruct (sat_ok ti ltac:(lia)) as [s1 ->]. destruct (sat_ok to ltac:(lia)) as [s2 ->]. cbn [bind].
      rewrite (proj2 (Z.ltb_ge _ _)) by lia. cbn [bind]. destruct (sat_ok (to + f) ltac:(lia)) as [s3 ->]. cbn [bind].
      rewrite SE. cbn [bind]. rewrite (in_value_made _ _ SM). destruct (sat_ok (in_value sel) ltac:(lia)) as [s4 ->]. cbn [bind as_str].
      assert (HC : handle_change (q_change_address q) (q_change_index q) ys (in_value sel) (to + f) = Ok (os, chg)).
      { apply (handle_iff _ _ _ _ _ _ _ _ Y); [apply W|apply W|lia|]. exists outs. auto. }
      rewrite HC. cbn [bind]. rewrite (out_value_made _ _ FO).
      destruct (surplus_value _ _ _ _ _ _ SP VO ltac:(lia)) as (SVA & SVB & SVC). fold to in SVA.
      assert (OK1 : (if in_value sel =? to + f then Ok tt else satoshi_to_bitcoin (PInt (out_value outs)) ;;; satoshi_to_bitcoin (PInt (out_value outs + f)) ;;; Ok tt) = Ok tt).
      { destruct (in_value sel =? to + f); auto. destruct (sat_ok (out_value outs) ltac:(lia)) as [z1 ->]. destruct (sat_ok (out_value outs + f) ltac:(lia)) as [z2 ->]. reflexivity. }
      rewrite OK1. cbn [bind]. rewrite (proj2 (Z.eqb_eq _ _)) by lia. cbn [negb].
      destruct (sat_ok chg ltac:(lia)) as [s5 ->]. cbn [bind].
      assert (CSP : check_spend (q_max_spend q) ti (in_value sel - chg) = Ok tt) by (apply spend_iff; [lia|unfold max_money in *; lia|exists lim; auto]).
      rewrite CSP. cbn [bind]. rewrite tx_create_ok by (rewrite <- ?(F2_len _ _ _ _ _ FI), <- ?(F2_len _ _ _ _ _ FO); lia). reflexivity. }
  split.
  - intros H. pose proof H as H'. unfold build in H. inv_bind H xs X. inv_bind H ys Y. apply (make_inputs_iff p q xs P W) in X. apply (make_outputs_iff p q ys P) in Y.
    inv_bind H ap AP. inv_bind H r1 RS1. inv_bind H r2 RS2. inv_bind H r3 RS3. destruct r3.
    apply bind_ok_inv in H. destruct H as (f & FE & H). inv_bind H s1 S1. inv_bind H s2 S2. apply sat_inv in S1, S2.
    assert (APQ : ap = q_approach q) by (destruct P as (_ & _ & _ & _ & _ & _ & AQ & _); congruence). subst ap.
    rewrite (in_value_made _ _ (sort_made _ _ _ X)), isort_value in S1. rewrite (out_value_made _ _ Y) in S2.
    rewrite (build_front p q xs ys P W X Y) in H' by lia. rewrite RS3 in H'. cbn [bind] in H'.
    apply (REST xs ys X Y) in H'; auto. destruct (made_pairs_out _ _ Y) as (MP1 & MP2 & MP3).
    rewrite <- MP3. replace (q_allow_duplicates q) with (p_allow_duplicate p) by apply P.
    apply (dup_iff _ ys (map fst (per_address (map (fun x => (to_address x, to_satoshi_amount x)) ys)))); auto.
    rewrite <- MP2. apply per_address_facts. rewrite MP1. apply Forall_map. auto.
  - intros H. pose proof H as (sel & outs & f & chg & PL & TX). destruct PL as (L1 & L2 & L3 & IX & TI & ND & FD & F & TT & _).
    assert (exists xs, Forall2 imade (q_inputs q) xs) as [xs X].
    { apply F2_choose. destruct W as (W & _). apply Forall_forall. intros i I. rewrite Forall_forall in W, IX. apply make_input_exists; auto. }
    assert (exists ys, Forall2 omade (q_outputs q) ys) as [ys Y].
    { apply F2_choose. destruct W as (_ & W & _). apply Forall_forall. intros i I. rewrite Forall_forall in W. apply make_output_exists; auto. }
    rewrite (build_front p q xs ys P W X Y) by lia. destruct (made_pairs_out _ _ Y) as (MP1 & MP2 & MP3).
    assert (DU : check_duplicates (p_allow_duplicate p) ys (map fst (per_address (map (fun x => (to_address x, to_satoshi_amount x)) ys))) = Ok tt).
    { apply dup_iff; [|rewrite MP3; replace (p_allow_duplicate p) with (q_allow_duplicates q) by (symmetry; apply P); auto].
      rewrite <- MP2. apply per_address_facts. rewrite MP1. apply Forall_map. auto. }
    rewrite DU. cbn [bind]. apply (REST xs ys X Y ND). auto.
Qed.

End WithEnv.
