(** What the parts of create_transaction after the argument checks say when they refuse (for C102). *)
From Coq Require Import String Floats.SpecFloat Permutation Sorted Reals Lra Lia Classical.
From Flocq Require Import Core BinarySingleNaN.
From Verif Require Import PyBase Env PyNum Validate Basic Spec EnvOk TxInput TxOutput Tx Create TxSpec FloatSpec NumSpec ValidSpec CreateSpec RefuseSpec ReportSpec Messages Complaints Answer BasicSays DocSays Report OrderSays OrderSaysSpec BuildSays BuildSaysSpec.
From Verif Require Import NumLemmas HexProofs Base58Proofs AddrProofs FloatProofs AmountProofs RateProofs NumProofs WireProofs MakeProofs PrepProofs DesignProofs BuildProofs CreateProofs RefuseProofs OrderProofs ReportProofs ReportTextProofs C_BasicSays C_DocSays OrderSaysProofs C_OrderSays BuildSaysProofs.
Open Scope Z_scope.

Definition first_pass (l : list told_check) : Prop := all_pass (map fst l).
Definition tested {A : Type} (r : answer A) (l : list told_check) : Prop :=
  match r with Gives _ => first_pass l | Says e t => forall e' t', first_said l e' t' <-> e' = e /\ t' = t end.

Lemma said_app : forall l l' e t, first_said (l ++ l') e t <-> first_said l e t \/ (first_pass l /\ first_said l' e t).
Proof.
  unfold first_pass, all_pass. induction l as [|[[P x] T] l IH]; intros l' e t; cbn [app map fst].
  - split; [intros H; right; split; [constructor|auto]|]. intros [H|[_ H]]; auto. inversion H.
  - split.
    + intros H. inversion H; subst; [left; constructor; auto|]. match goal with G : first_said (l ++ l') _ _ |- _ => apply IH in G as [G|[G G']] end.
      * left. apply said_later; auto.
      * right. split; [constructor; auto|auto].
    + intros [H|[H H']].
      * inversion H; subst; [constructor; auto|]. apply said_later; auto. apply IH. auto.
      * inversion H; subst. apply said_later; auto. apply IH. auto.
Qed.
Lemma said_not_pass : forall l e t, first_said l e t -> first_pass l -> False.
Proof. intros l e t H P. unfold first_pass, all_pass in P. induction H; inversion P; subst; auto. Qed.
Lemma tk_bind : forall {A B} (r : answer A) (k : A -> answer B) l l', tested r l -> (forall x, r = Gives x -> tested (k x) l') -> tested (abind r k) (l ++ l').
Proof.
  intros A B r k l l' H K. destruct r as [x|e t]; cbn [abind tested] in *.
  - specialize (K x eq_refl). destruct (k x) as [y|e t]; cbn [tested] in *.
    + unfold first_pass in *. rewrite map_app. apply pass_app. auto.
    + intros e' t'. rewrite said_app, <- K. split; [intros [S|[_ S]]; auto; elim (said_not_pass _ _ _ S H)|auto].
  - intros e' t'. rewrite said_app, <- H. split; [intros [S|[S _]]; auto|auto]. elim (said_not_pass l e t); auto. apply H. auto.
Qed.
Lemma tk_seq : forall {A B} (r : answer A) (k : A -> answer B) c l', tested r [c] -> (forall x, r = Gives x -> tested (k x) l') -> tested (abind r k) (c :: l').
Proof. intros A B r k c l' H K. apply (tk_bind r k [c] l'); auto. Qed.
Lemma tk_nil : forall {A} (x : A), tested (Gives x) [].
Proof. intros. constructor. Qed.
Lemma tk_yes : forall {A} (x : A) (P : Prop) e T, P -> tested (Gives x) [((P, e), T)].
Proof. intros. cbn. constructor; [auto|constructor]. Qed.
Lemma said_one : forall (P : Prop) e (T : pystr -> Prop) e' t, first_said [((P, e), T)] e' t <-> ~ P /\ e' = e /\ T t.
Proof. intros. split; [intros H; inversion H; subst; auto; match goal with G : first_said [] _ _ |- _ => inversion G end|intros (N & -> & H); constructor; auto]. Qed.
Lemma tk_no : forall {A} e t (P : Prop) T, ~ P -> (forall t', T t' <-> t' = t) -> tested (@Says A e t) [((P, e), T)].
Proof. intros A e t P T N H e' t'. rewrite said_one, H. tauto. Qed.
Lemma tk_skip : forall {A} (r : answer A) (P : Prop) e T l, P -> tested r l -> tested r (((P, e), T) :: l).
Proof.
  intros A r P e T l H K. destruct r as [x|e0 t]; cbn [tested] in *; [constructor; auto|]. intros e' t'. rewrite <- K. split; [intros S; inversion S; subst; tauto|intros S; constructor 2; auto].
Qed.
Lemma tk_fail : forall {A} e t (P : Prop) T l, ~ P -> (forall t', T t' <-> t' = t) -> tested (@Says A e t) (((P, e), T) :: l).
Proof. intros A e t P T l N H e' t'. split; [intros S; inversion S; subst; [split; auto; apply H; auto|tauto]|intros [-> ->]; constructor; auto; apply H; auto]. Qed.

Definition alike (c c' : told_check) : Prop := (fst (fst c) <-> fst (fst c')) /\ snd (fst c) = snd (fst c') /\ forall t, snd c t <-> snd c' t.
Lemma tk_conv : forall {A} (r : answer A) l l', Forall2 alike l l' -> tested r l -> tested r l'.
Proof.
  intros A r l l' F. assert (H1 : first_pass l -> first_pass l').
  { unfold first_pass, all_pass. induction F as [|c c' l l' H F IH]; intros G; [constructor|]. cbn [map] in *. inversion G; subst. constructor; auto. now apply H. }
  assert (H2 : forall e t, first_said l e t <-> first_said l' e t).
  { clear H1. intros e t. induction F as [|[[P x] T] [[P' x'] T'] l l' H F IH]; [split; intros G; inversion G|]. destruct H as (H1 & H2 & H3). cbn in *. subst x'.
    split; intros G; inversion G; subst; [constructor|constructor 2|constructor|constructor 2]; try tauto; try (now apply H3); try (now apply IH). }
  destruct r as [x|e t]; cbn [tested]; auto. intros H e' t'. rewrite <- H2. apply H.
Qed.

Section WithEnv.
Context {E : Env}.
Hypothesis HH : HashOk E.
Hypothesis HZ : ZeroAddressOk E.
Hypothesis HU : UniOk E.
Variable repr : pyval -> pystr.

Lemma domain_high : forall most n, 0 <= most < n -> domain_check repr (PInt n) 0 most = Some (ValueError, too_great most n).
Proof.
  intros most n H. unfold domain_check, validate_integer_domain_says. cbn [as_int]. rewrite (proj2 (Z.ltb_ge most 0)) by lia. rewrite (proj2 (Z.leb_gt n most)), andb_false_r by lia.
  rewrite (proj2 (Z.ltb_ge n 0)) by lia. rewrite (proj2 (Z.ltb_lt most n)) by lia. reflexivity.
Qed.
Lemma domain_low : forall most n, 0 <= most -> n < 0 -> domain_check repr (PInt n) 0 most = Some (ValueError, too_small n).
Proof.
  intros most n H N. unfold domain_check, validate_integer_domain_says. cbn [as_int]. rewrite (proj2 (Z.ltb_ge most 0)) by lia. rewrite (proj2 (Z.leb_gt 0 n)) by lia. cbn [andb].
  rewrite (proj2 (Z.ltb_lt n 0)) by lia. reflexivity.
Qed.
Lemma sat_gives : forall n, 0 <= n <= max_money -> satoshi_to_bitcoin_says repr (PInt n) = Gives (btc n).
Proof. intros n N. eapply unsaid_ok; [apply same_satoshi|]. apply (btc_ok HU). auto. Qed.
Lemma sat_high : forall n, max_money < n -> satoshi_to_bitcoin_says repr (PInt n) = Says ValueError (too_much n).
Proof. intros n N. unfold satoshi_to_bitcoin_says. change max_amount_satoshi with max_money. rewrite domain_high by (unfold max_money in *; lia). reflexivity. Qed.
Lemma sat_low : forall n, n < 0 -> satoshi_to_bitcoin_says repr (PInt n) = Says ValueError (too_small n).
Proof. intros n N. unfold satoshi_to_bitcoin_says. change max_amount_satoshi with max_money. rewrite domain_low by (unfold max_money; lia). reflexivity. Qed.
Lemma sat_given : forall n s, satoshi_to_bitcoin_says repr (PInt n) = Gives s -> 0 <= n <= max_money.
Proof.
  intros n s H. destruct (Z_lt_dec n 0); [rewrite sat_low in H by auto; discriminate|]. destruct (Z_lt_dec max_money n); [rewrite sat_high in H by auto; discriminate|]. lia.
Qed.
Lemma sat_tk : forall n (P : Prop) T, 0 <= n -> (n <= max_money <-> P) -> (max_money < n -> forall t, T t <-> t = too_much n) -> tested (satoshi_to_bitcoin_says repr (PInt n)) [((P, ValueError), T)].
Proof.
  intros n P T N H K. destruct (Z_le_dec n max_money).
  - rewrite sat_gives by lia. apply tk_yes. tauto.
  - rewrite sat_high by lia. apply tk_no; [tauto|]. apply K. lia.
Qed.

Lemma first_where_head : forall {A} (P : A -> Prop) x l y, P x -> (first_where P (x :: l) y <-> y = x).
Proof.
  intros A P x l y H. split.
  - intros ([|z pre] & post & Q & Y & F); [injection Q; auto|]. injection Q as <- _. inversion F; subst. tauto.
  - intros ->. exists [], l. auto.
Qed.
Lemma first_where_tail : forall {A} (P : A -> Prop) x l y, ~ P x -> (first_where P (x :: l) y <-> first_where P l y).
Proof.
  intros A P x l y H. split.
  - intros ([|z pre] & post & Q & Y & F); [injection Q as ->; subst; tauto|]. injection Q as <- ->. inversion F; subst. exists pre, post. auto.
  - intros (pre & post & -> & Y & F). exists (x :: pre), post. auto.
Qed.
Lemma first_where_none : forall {A} (P : A -> Prop) l, Forall (fun x => ~ P x) l -> forall y, ~ first_where P l y.
Proof. intros A P l H y (pre & post & -> & Y & _). apply Forall_app in H as [_ H]. inversion H; subst. auto. Qed.

Lemma sums_cases : forall m, Forall (fun x => 0 <= x) (map snd m) ->
  (sums_say repr m = Gives tt /\ Forall (fun n => n <= max_money) (map snd m)) \/
  (exists n, sums_say repr m = Says ValueError (too_much n) /\ forall n', first_where (fun n => max_money < n) (map snd m) n' <-> n' = n).
Proof.
  induction m as [|[k v] m IH]; intros F; [left; split; [reflexivity|constructor]|]. cbn [map snd sums_say] in *. inversion F; subst. destruct (Z_le_dec v max_money) as [L|L].
  - rewrite sat_gives by lia. cbn [abind]. destruct (IH ltac:(assumption)) as [(Q & G)|(n & Q & G)]; [left; split; auto|right]. exists n. split; auto. intros n'. rewrite first_where_tail by lia. apply G.
  - right. exists v. rewrite sat_high by lia. split; [reflexivity|]. intros n'. apply first_where_head. lia.
Qed.
Lemma sums_tk : forall l (P : Prop) T, Forall (fun x => 0 <= x) (map snd l) -> ((forall k, sum_for k l <= max_money) <-> P) ->
  (forall t, T t <-> exists n, first_where (fun n => max_money < n) (map (fun k => sum_for k l) (distinct (map fst l))) n /\ t = too_much n) ->
  tested (sums_say repr (per_address l)) [((P, ValueError), T)].
Proof.
  intros l P T F H K. destruct (report_ck HU l P F H) as [K1 _]. rewrite (sums_same repr) in K1.
  assert (M : map snd (per_address l) = map (fun k => sum_for k l) (distinct (map fst l))) by (rewrite per_address_map, map_map; reflexivity).
  destruct (per_address_facts l F) as (_ & NN & _). destruct (sums_cases _ NN) as [(Q & _)|(n & Q & G)]; rewrite Q in *.
  - apply tk_yes. assert (A : all_pass [(P, ValueError)]) by (apply K1; cbn; eauto). inversion A; auto.
  - apply tk_no.
    + intros p. assert (A : all_pass [(P, ValueError)]) by (constructor; [exact p|constructor]). apply K1 in A as [x A]. discriminate.
    + intros t. rewrite K. rewrite M in G. split; [intros (n' & W & ->); apply G in W; congruence|]. intros ->. exists n. split; auto. now apply G.
Qed.

Lemma duplicates_cases : forall allow ys l,
  (duplicates_say allow ys l = Gives tt) \/
  (allow = false /\ exists a, duplicates_say allow ys l = Says DuplicateOutputAddressError (lit "Multiple outputs (" ++ count (length (filter (fun x => str_eqb (to_address x) a) ys)) ++ lit ") send to this address: " ++ a) /\
     forall a', first_where (fun a => 1 < length (filter (fun x => str_eqb (to_address x) a) ys))%nat l a' <-> a' = a).
Proof.
  intros allow ys. induction l as [|a l IH]; [left; reflexivity|]. cbn [duplicates_say]. cbv zeta. destruct (Nat.ltb_spec 1 (length (filter (fun x => str_eqb (to_address x) a) ys))) as [L|L].
  - destruct allow; cbn [andb negb]; [destruct IH as [IH|(C & _)]; [auto|discriminate]|]. right. split; [reflexivity|]. exists a. split; [reflexivity|]. intros a'. now apply first_where_head.
  - cbn [andb]. destruct IH as [IH|(C & b & Q & G)]; [auto|]. right. split; [exact C|]. exists b. split; [exact Q|]. intros a'. rewrite first_where_tail by lia. apply G.
Qed.
Lemma duplicates_tk : forall q ys, Forall2 omade (q_outputs q) ys -> Forall (fun o => 0 <= oa_value o) (q_outputs q) ->
  tested (duplicates_say (q_allow_duplicates q) ys (map fst (per_address (map (fun x => (to_address x, to_satoshi_amount x)) ys))))
    [((q_allow_duplicates q = false -> NoDup (map oa_address (q_outputs q)), DuplicateOutputAddressError),
      fun t => exists a, first_where (fun a => 1 < length (filter (pays a) (q_outputs q)))%nat (distinct (map oa_address (q_outputs q))) a /\ t = duplicate_text q a)].
Proof.
  intros q ys Y VO. destruct (made_pairs_out _ _ Y) as (MP1 & MP2 & MP3).
  assert (KS : map fst (per_address (map (fun x => (to_address x, to_satoshi_amount x)) ys)) = distinct (map oa_address (q_outputs q))).
  { rewrite per_address_map, map_map. cbn [fst]. rewrite map_id, MP2, MP3. reflexivity. }
  rewrite KS. destruct (dup_iff (q_allow_duplicates q) ys (distinct (map oa_address (q_outputs q)))) as [D1 D2]; [intros x; rewrite distinct_in, MP3; tauto|]. rewrite MP3 in D1.
  rewrite duplicates_same in D1. destruct (duplicates_cases (q_allow_duplicates q) ys (distinct (map oa_address (q_outputs q)))) as [Q|(C & a & Q & G)]; rewrite Q in *.
  - apply tk_yes. now apply D1.
  - apply tk_no; [intros H; apply D1 in H; discriminate|]. intros t.
    assert (G' : forall a', first_where (fun a => 1 < length (filter (pays a) (q_outputs q)))%nat (distinct (map oa_address (q_outputs q))) a' <-> a' = a).
    { intros a'. rewrite <- (G a'). unfold first_where. split; intros (pre & post & X1 & X2 & X3); exists pre, post; (split; [exact X1|]); rewrite (made_filter a' _ _ Y) in *; (split; [exact X2|]);
        (eapply Forall_impl; [|exact X3]); cbn; intros b; rewrite (made_filter b _ _ Y); auto. }
    rewrite (made_filter a _ _ Y). split; [intros (a' & W & ->); apply G' in W as ->; reflexivity|]. intros ->. exists a. split; [now apply G'|reflexivity].
Qed.

(** Fees. *)
Lemma count_says : forall n, int_to_var_int_says repr (PInt (Z.of_nat n)) = if Nat.leb n 252 then Gives (hex_of [Z.of_nat n]) else Says ValueError (too_many n).
Proof.
  intros n. destruct (Nat.leb_spec n 252) as [L|L].
  - eapply unsaid_ok; [apply same_count|]. apply int_to_var_int_ok. lia.
  - unfold int_to_var_int_says. rewrite domain_high by lia. reflexivity.
Qed.
Lemma estimate_tk : forall n m, tested (estimate_says repr n m)
  [(((n <= 252)%nat, ValueError), fun t => t = too_many n); (((m <= 252)%nat, ValueError), fun t => t = too_many m)].
Proof.
  intros n m. unfold estimate_says. rewrite !count_says. destruct (Nat.leb_spec n 252) as [L|L]; [|apply tk_fail; [lia|tauto]]. apply tk_skip; auto. cbn [abind].
  rewrite (unsaid_ok _ _ _ (same_hex_len repr _) (hex_len_ok [Z.of_nat n] ltac:(apply bytes1; unfold byte; lia))). cbn [abind].
  destruct (Nat.leb_spec m 252) as [L'|L']; [|apply tk_no; [lia|tauto]]. cbn [abind].
  rewrite (unsaid_ok _ _ _ (same_hex_len repr _) (hex_len_ok [Z.of_nat m] ltac:(apply bytes1; unfold byte; lia))). cbn [abind]. apply tk_yes. auto.
Qed.
Lemma estimate_gives : forall n m z, estimate_says repr n m = Gives z -> (n <= 252)%nat /\ (m <= 252)%nat /\ z = estimated_size n m.
Proof.
  intros n m z H. pose proof (estimate_same repr n m) as S. rewrite H in S. cbn [unsaid] in S. destruct (estimate_bad _ _ _ S) as [L1 L2]. rewrite estimate_ok in S by auto. repeat split; auto. congruence.
Qed.
Lemma tx_create_tk : forall xs ys, (length xs <= 252)%nat -> tested (tx_create_says repr xs ys) [(((length ys <= 252)%nat, ValueError), fun t => t = too_many (length ys))].
Proof.
  intros xs ys L. unfold tx_create_says. rewrite !count_says. rewrite (proj2 (Nat.leb_le _ _) L). cbn [abind]. destruct (Nat.leb_spec (length ys) 252); [apply tk_yes; auto|apply tk_no; [lia|tauto]].
Qed.

Lemma due_text : forall q f (g : Z -> pystr) t, (length (q_inputs q) <= 252)%nat -> (length (q_outputs q) <= 252)%nat -> fee_due q f -> (exists f, fee_due q f /\ t = g f) <-> t = g f.
Proof. intros q f g t L1 L2 F. split; [intros (f' & F' & ->); now rewrite (fee_due_fun q f' f L1 L2 F' F)|]. intros ->. eauto. Qed.

Lemma fee_tk : forall a p q mf, asked a q -> prep p q -> show repr (p_max_fee p) = mf ->
  tested (fee_answer repr p (length (q_inputs q)) (length (q_outputs q)))
    [ (((length (q_inputs q) <= 252)%nat, ValueError), fun t => t = too_many (length (q_inputs q)));
      (((length (q_outputs q) <= 252)%nat, ValueError), fun t => t = too_many (length (q_outputs q)));
      ((exists f, fee_due q f, OverflowError), fun t => t = lit "cannot convert float infinity to integer");
      ((due q (fun f => exists g, rounds (IZR f) false g /\ is_finite_SF g = true), OverflowError), fun t => t = lit "int too large to convert to float");
      ((due q (fun f => f <= max_money), ValueError), fun t => exists f, fee_due q f /\ t = too_much f);
      ((due q (fun f => f <= q_max_fee q), ValueError), fun t => exists f, fee_due q f /\ t = max_fee_text f mf) ].
Proof.
  intros a p q mf A (_ & _ & PF & _ & WM & _) SH. pose proof (asked_fee a q A) as AF. unfold fee_answer.
  set (size := estimated_size (length (q_inputs q)) (length (q_outputs q))).
  match goal with |- tested _ (?c1 :: ?c2 :: ?r) => change (c1 :: c2 :: r) with ([c1; c2] ++ r) end. apply tk_bind; [apply estimate_tk|].
  intros z ES. apply estimate_gives in ES as (L1 & L2 & ->). fold size.
  assert (SZ : 0 < size <= 2 ^ 53). { pose proof (size_small _ _ L1 L2). unfold size in *. unfold estimated_size in *. lia. }
  destruct (py_float_int_small size) as (fs & FS & _); [lia|].
  assert (FSS : float_says repr (PInt size) = Gives fs) by (eapply unsaid_ok; [apply same_float_int|exact FS]).
  assert (C : (exists f, 0 <= f /\ fee_due q f /\ final_fee_says repr (p_fee p) (p_fee_rate p) size = Gives (PInt f)) \/
              ((forall f, ~ fee_due q f) /\ final_fee_says repr (p_fee p) (p_fee_rate p) size = Says OverflowError (lit "cannot convert float infinity to integer"))).
  { unfold fee_due. destruct (q_fee q) as [m|r].
    - left. exists m. destruct PF as [P1 P2]. rewrite P1, P2. repeat split; auto. lia.
    - rewrite PF. cbn [final_fee_says]. fold size. pose proof (size_small _ _ L1 L2) as SS. fold size in SS. rewrite FSS. cbn [abind]. unfold ceil_says. destruct (rate_outcome r size AF SZ) as [(f & R & F0)|R].
      + left. exists f. split; auto. split; [apply rate_fee_iff; auto|]. unfold rate_res in R. rewrite FS in *. cbn [bind] in *. rewrite R. reflexivity.
      + right. split; [intros f H; apply rate_fee_iff in H; auto; congruence|]. unfold rate_res in R. rewrite FS in *. cbn [bind] in *. rewrite R. destruct (fmul fs r); try discriminate. reflexivity. }
  destruct C as [(f & F0 & FD & C)|[N C]]; rewrite C.
  2: { cbn [abind]. apply tk_fail; [intros [f H]; elim (N f H)|tauto]. }
  cbn [abind]. apply tk_skip; [eauto|].
  pose proof (fun P => due_iff q f P L1 L2 FD) as DU. pose proof (fun g t => due_text q f g t L1 L2 FD) as DT.
  apply tk_seq.
  { unfold float_says. cbn [py_float]. destruct (py_float_int f) as [g|e] eqn:PFI.
    - apply tk_yes. apply DU. exists g. apply float_int_iff in PFI. rewrite (proj2 (Z.ltb_ge f 0)) in PFI by auto. auto.
    - assert (e = OverflowError) by (unfold py_float_int in PFI; cbv zeta in PFI; destruct (SpecFloat.binary_normalize prec emax f 0 false); congruence). subst e. apply tk_no; [|tauto].
      rewrite DU. intros (g & G). assert (PG : py_float_int f = Ok g) by (apply float_int_iff; rewrite (proj2 (Z.ltb_ge f 0)) by auto; exact G). congruence. }
  intros ff FF. rewrite FSS. cbn [abind]. destruct (BuildProofs.fdiv_ok ff size fs FS) as [r R]; [lia|]. unfold div_says. rewrite R. cbn [abind].
  apply tk_seq; [apply sat_tk; [auto|rewrite DU; tauto|intros _ t; apply DT]|]. intros s SB. cbn [as_int abind]. rewrite (int_gt_whole f _ _ WM).
  destruct (Z.ltb_spec (q_max_fee q) f) as [L|L].
  - apply tk_no; [rewrite DU; lia|]. intros t. rewrite DT. rewrite SH. reflexivity.
  - apply tk_yes. apply DU. lia.
Qed.

(** The change. *)
Definition change_text (idx : pyval) (n : nat) (a : pystr) : pystr :=
  match idx with
  | PNone => lit "Multiple outputs (" ++ number n ++ lit ") send to the change address: " ++ a
  | PFloat _ => lit "list indices must be integers or slices, not float"
  | _ => lit "change_output_index (" ++ match idx with PInt z => int_str z | v => repr v end ++ lit ") must be less than the number of change outputs (" ++ number n ++ lit ")."
  end.
Lemma change_tk : forall a idx outs ys total target, Forall2 omade outs ys -> Forall (fun o => address (oa_address o) /\ 0 <= oa_value o) outs -> address a -> (idx = PNone \/ exists z, whole idx z) ->
  0 <= total - target -> out_value outs + (total - target) <= max_money ->
  tested (change_answer repr a idx ys total target)
    [((exists outs' chg, surplus_paid a idx outs (total - target) outs' chg, match idx with PFloat _ => TypeError | _ => ValueError end), fun t => t = change_text idx (length (filter (pays a) outs)) a)].
Proof.
  intros a idx outs ys total target Y WO A I R M. pose proof (handle_ck HH HZ HU a idx outs ys total target Y WO A I R M) as [CK _].
  assert (VO : Forall (fun o => 0 <= oa_value o) outs) by (eapply Forall_impl; [|exact WO]; cbn; tauto). pose proof (out_value_nonneg _ VO) as NO.
  destruct (classic (exists outs' chg, surplus_paid a idx outs (total - target) outs' chg)) as [P|N].
  { assert (X : all_pass [(exists outs' chg, surplus_paid a idx outs (total - target) outs' chg, match idx with PFloat _ => TypeError | _ => ValueError end)]) by (constructor; [exact P|constructor]).
    apply CK in X as [x X]. rewrite (change_same repr) in X. destruct (change_answer repr a idx ys total target) as [y|e t]; [|discriminate]. apply tk_yes. exact P. }
  clear CK. unfold change_answer. rewrite (made_filter a _ _ Y).
  destruct (Z.eqb_spec total target) as [Q|Q]; [elim N; exists outs, 0; left; repeat split; lia|].
  rewrite sat_gives by lia. cbn [abind]. cbv zeta.
  destruct (Nat.ltb_spec 1 (length (filter (pays a) outs))) as [L1|L1].
  - set (n := length (filter (pays a) outs)) in *.
    assert (PE : change_position idx n = Err (match idx with PFloat _ => TypeError | _ => ValueError end)).
    { destruct I as [->|(z & W)]; [reflexivity|]. destruct (Z_lt_dec z (Z.of_nat n)) as [LT|GE].
      - destruct W as [[-> Z0]|[[b [-> ->]]|[b [-> ->]]]].
        3: { unfold change_position. cbn [as_int float_cmp_int bind]. rewrite (proj2 (Z.compare_lt_iff 0 (Z.of_nat n))) by lia. reflexivity. }
        all: exfalso; apply N.
        + destruct (nth_payer a outs (Z.to_nat z)) as (pre & o & post & Q1 & Q2 & Q3); [fold n; lia|]. eexists. eexists. right. right. split; [lia|].
          exists pre, o, post. repeat (split; [eauto; reflexivity|]). right. cbn [as_int]. f_equal. lia.
        + destruct (nth_payer a outs (Z.to_nat (b2z b))) as (pre & o & post & Q1 & Q2 & Q3); [fold n; lia|]. eexists. eexists. right. right. split; [lia|].
          exists pre, o, post. repeat (split; [eauto; reflexivity|]). right. cbn [as_int]. f_equal. destruct b; cbn in *; lia.
      - rewrite position_none; [|right; exists z; split; auto; lia]. destruct W as [[-> Z0]|[[b [-> ->]]|[b [-> ->]]]]; auto. lia. }
    unfold position_says. rewrite PE. destruct I as [->|(z & W)]; [cbn [abind]; apply tk_no; [exact N|reflexivity]|].
    destruct W as [[-> Z0]|[[b [-> ->]]|[b [-> ->]]]]; cbn [abind]; (apply tk_no; [exact N|reflexivity]).
  - exfalso. apply N. destruct (Nat.eqb_spec (length (filter (pays a) outs)) 1) as [L2|L2].
    + destruct (nth_payer a outs 0) as (pre & o & post & Q1 & Q2 & Q3); [lia|]. eexists. eexists. right. right. split; [lia|].
      exists pre, o, post. repeat (split; [eauto; reflexivity|]). left. auto.
    + eexists. eexists. right. left. split; [lia|]. split; [apply filter_none; lia|]. split; reflexivity.
Qed.

Lemma spend_tk : forall q n spent, double (q_max_spend q) -> truncates (q_max_spend q) n -> 0 <= n <= 100 -> 0 <= in_value (q_inputs q) <= max_money -> 0 <= spent <= max_money ->
  tested (spend_answer repr (q_max_spend q) (in_value (q_inputs q)) spent)
    [ ((exists limit, spend_limit (q_max_spend q) (in_value (q_inputs q)) limit /\ 0 <= limit <= max_money, ValueError),
       fun t => exists limit, spend_limit (q_max_spend q) (in_value (q_inputs q)) limit /\ t = if limit <? 0 then too_small limit else too_much limit);
      ((0 < in_value (q_inputs q), ZeroDivisionError), fun t => t = lit "float division by zero");
      ((forall limit, spend_limit (q_max_spend q) (in_value (q_inputs q)) limit -> spent <= limit, ValueError),
       fun t => exists limit, spend_limit (q_max_spend q) (in_value (q_inputs q)) limit /\ exists advice, advised q spent advice /\ t = spend_text q limit spent advice);
      ((forall limit, spend_limit (q_max_spend q) (in_value (q_inputs q)) limit -> 0 < limit, ZeroDivisionError), fun t => t = lit "float division by zero") ].
Proof.
  intros q n spent V TR N M S. set (ti := in_value (q_inputs q)) in *. destruct (spend_outcome (q_max_spend q) n ti V TR N M) as [l L].
  assert (LI : forall limit, spend_limit (q_max_spend q) ti limit <-> limit = l) by (intros limit; rewrite spend_limit_iff by auto; rewrite L; split; congruence).
  assert (FM : is_finite_SF (q_max_spend q) = true) by (apply TR).
  pose proof (money_small ti M) as T53. pose proof (money_small spent S) as S53.
  assert (FS : forall k, Z.abs k <= 2 ^ 53 -> float_says repr (PInt k) = Gives (float_of k)) by (intros k K; eapply unsaid_ok; [apply same_float_int|]; apply float_of_small; auto).
  unfold spend_answer. unfold spend_res in L. inv_bind L f100 F1. inv_bind L x X. inv_bind L ft FT.
  assert (f100 = float_of 100) as -> by (pose proof (proj1 (float_of_small 100 ltac:(lia))); congruence). assert (ft = float_of ti) as -> by (pose proof (proj1 (float_of_small ti T53)); congruence). clear F1 FT.
  rewrite !FS by (auto; lia). cbn [abind]. unfold div_says at 1. rewrite X. cbn [abind]. unfold ceil_says. rewrite L. cbn [abind].
  apply tk_seq.
  { destruct (Z_lt_dec l 0) as [LT|GE]; [rewrite sat_low by auto|destruct (Z_lt_dec max_money l) as [GT|LE]; [rewrite sat_high by auto|rewrite sat_gives by lia]].
    - apply tk_no; [intros (k & K1 & K2); apply LI in K1; lia|]. intros t. split; [intros (k & K & ->); apply LI in K; subst k; rewrite (proj2 (Z.ltb_lt l 0)) by auto; auto|]. intros ->. exists l. split; [now apply LI|]. rewrite (proj2 (Z.ltb_lt l 0)) by auto. auto.
    - apply tk_no; [intros (k & K1 & K2); apply LI in K1; lia|]. intros t. split; [intros (k & K & ->); apply LI in K; subst k; rewrite (proj2 (Z.ltb_ge l 0)) by lia; auto|]. intros ->. exists l. split; [now apply LI|]. rewrite (proj2 (Z.ltb_ge l 0)) by lia. auto.
    - apply tk_yes. exists l. split; [now apply LI|lia]. }
  intros s1 SB1. pose proof (sat_given _ _ SB1) as L0. rewrite sat_gives in SB1 by auto. injection SB1 as <-. rewrite (sat_gives spent S). cbn [abind].
  destruct (Z.eq_dec ti 0) as [T0|NZ].
  { apply tk_conv with (l := [((0 < ti, ZeroDivisionError), fun t => t = lit "float division by zero")] ++ [((forall limit, spend_limit (q_max_spend q) ti limit -> spent <= limit, ValueError),
       fun t => exists limit, spend_limit (q_max_spend q) ti limit /\ exists advice, advised q spent advice /\ t = spend_text q limit spent advice);
      ((forall limit, spend_limit (q_max_spend q) ti limit -> 0 < limit, ZeroDivisionError), fun t => t = lit "float division by zero") ]).
    { repeat constructor; auto; tauto. }
    rewrite T0. unfold div_says at 1. change (float_of 0) with (S754_zero false). cbn [fdiv abind app]. apply tk_fail; [lia|tauto]. }
  destruct (ratio_ok spent ti ltac:(lia) ltac:(lia)) as (R1 & _). destruct (percent_ok spent ti ltac:(lia) ltac:(lia)) as (P1 & P2 & P3 & _).
  unfold div_says at 1. rewrite R1. cbn [abind]. apply tk_skip; [lia|]. destruct (Z.leb_spec spent l) as [LE|LE].
  - apply tk_skip; [intros k K; apply LI in K; lia|]. rewrite FS by (pose proof (money_small l L0); lia). cbn [abind]. unfold div_says. destruct (Z.eq_dec l 0) as [->|NZ'].
    + change (float_of 0) with (S754_zero false). cbn [fdiv abind]. apply tk_no; [intros H; specialize (H 0 (proj2 (LI 0) eq_refl)); lia|tauto].
    + destruct (ratio_ok spent l ltac:(lia) ltac:(pose proof (money_small l L0); lia)) as (R1' & _). rewrite R1'. cbn [abind]. apply tk_yes. intros k K. apply LI in K. lia.
  - assert (PT : exists m, py_trunc (percent spent ti) = Ok m). { destruct (percent spent ti); try discriminate; eexists; reflexivity. }
    destruct PT as [m PT]. rewrite P1, PT, (fixed_ok 0 _ FM). apply tk_fail; [intros H; specialize (H l (proj2 (LI l) eq_refl)); lia|].
    intros t. split.
    + intros (k & K & ad & AD & ->). apply LI in K. subst k. unfold advised in AD. fold ti in AD. apply py_trunc_iff in AD. assert (m = ad - 1) by congruence. replace (m + 1) with ad by lia. reflexivity.
    + intros ->. exists l. split; [now apply LI|]. exists (m + 1). split; [|reflexivity]. unfold advised. replace (m + 1 - 1) with m by lia. apply py_trunc_iff. exact PT.
Qed.

Lemma order_tk : forall a p q mf, asked a q -> prep p q -> show repr (p_max_fee p) = mf -> double (q_max_spend q) -> Forall (fun i => ia_index i < 2 ^ 32) (q_inputs q) ->
  Forall (fun v => make_input v = unsaid (make_input_says repr v)) (p_inputs p) -> Forall (fun v => make_output v = unsaid (make_output_says repr v)) (p_outputs p) ->
  tested (build_answer repr p) (order_says repr q mf).
Proof.
  intros a p q mf A P SH DB IX FI0 FO0. pose proof (asked_wf HU _ _ A) as W. destruct (ready_made HU q W IX) as (xs & ys & X & Y).
  assert (TR : exists n, truncates (q_max_spend q) n /\ 0 <= n <= 100).
  { destruct A as (l & d & _ & _ & _ & (_ & _ & _ & (v & n & _ & _ & T & N) & _) & _). eauto. }
  destruct TR as (n & TR & TN).
  pose proof (wf_values q W) as [VI VO]. pose proof (in_value_nonneg _ VI) as NI. pose proof (out_value_nonneg _ VO) as NO.
  pose proof (sort_made (q_approach q) _ _ X) as SX. pose proof (fee_tk a p q mf A P SH) as FC.
  assert (FI := fee_iff HU p q). specialize (fun f => FI f P).
  unfold build_answer.
  rewrite (unsaid_ok _ _ _ (same_all_in _ _ _ FI0) (proj2 (make_inputs_iff HH HZ HU p q xs P W) X)). cbn [abind].
  rewrite (unsaid_ok _ _ _ (same_all_in _ _ _ FO0) (proj2 (make_outputs_iff HH HZ HU p q ys P) Y)). cbn [abind].
  destruct P as (_ & _ & _ & CA & _ & CS & CH & AD & CI). rewrite (unsaid_ok _ _ _ (choose_same repr _) CH). cbn [abind]. cbv zeta.
  set (sxs := sort_inputs (q_approach q) xs) in *. unfold order_says, order_checks, order_texts. cbv zeta. cbn [combine].
  rewrite <- (F2_len _ _ _ _ _ X), <- (F2_len _ _ _ _ _ Y).
  rewrite (in_value_made _ _ SX), (out_value_made _ _ Y), isort_value. rewrite CS, CA, CI, AD.
  (* sums per address *)
  apply tk_seq.
  { apply sums_tk.
    - rewrite (made_pairs_in _ _ SX). apply Forall_map. apply isort_Forall. auto.
    - split; intros H k; specialize (H k); rewrite (sum_for_inputs k _ _ SX) in *;
        unfold in_value in *; rewrite (Zsum_perm _ _ (Permutation_map ia_value (filter_perm _ (at_address k) _ _ (isort_perm (q_approach q) (q_inputs q))))) in *; auto.
    - intros t.
      assert (M : map (fun k => sum_for k (map (fun x => (ti_address x, ti_sat x)) sxs)) (distinct (map fst (map (fun x => (ti_address x, ti_sat x)) sxs))) =
                  map (fun a => in_value (filter (at_address a) (isort (q_approach q) (q_inputs q)))) (distinct (map ia_address (isort (q_approach q) (q_inputs q))))).
      { rewrite map_map. cbn [fst]. assert (MA : map ia_address (isort (q_approach q) (q_inputs q)) = map (fun x => ti_address x) sxs) by (eapply F2_map; [exact SX|]; intros i0 x0 HM; apply (imade_address _ _ HM)). rewrite MA. clear MA.
        apply map_ext. intros k. apply sum_for_inputs. exact SX. }
      rewrite M. split.
      + intros (s & k & SF & FW & ->). apply sorted_for_unique in SF. subst s. eauto.
      + intros (k & FW & ->). exists (isort (q_approach q) (q_inputs q)), k. split; [apply isort_for|auto]. }
  intros _ _. apply tk_seq.
  { apply sums_tk.
    - rewrite (proj1 (made_pairs_out _ _ Y)). apply Forall_map. auto.
    - split; intros H k; specialize (H k); rewrite (sum_for_outputs k _ _ Y) in *; auto.
    - intros t. destruct (made_pairs_out _ _ Y) as (_ & MP2 & MP3). rewrite MP2, MP3.
      assert (M : map (fun k => sum_for k (map (fun x => (to_address x, to_satoshi_amount x)) ys)) (distinct (map oa_address (q_outputs q))) =
                  map (fun a => out_value (filter (pays a) (q_outputs q))) (distinct (map oa_address (q_outputs q)))) by (apply map_ext; intros k; apply sum_for_outputs; exact Y).
      rewrite M. tauto. }
  intros _ _. apply tk_seq; [apply (duplicates_tk q ys Y VO)|].
  intros _ _.
  match goal with |- tested _ (?c1 :: ?c2 :: ?c3 :: ?c4 :: ?c5 :: ?c6 :: ?r) => change (c1 :: c2 :: c3 :: c4 :: c5 :: c6 :: r) with ([c1; c2; c3; c4; c5; c6] ++ r) end.
  apply tk_bind; [exact FC|]. intros f FF.
  assert (FF' : manage_fee p (length (q_inputs q)) (length (q_outputs q)) = Ok f) by (rewrite (fee_same repr), FF; reflexivity). apply FI in FF' as (L1 & L2 & FD & F0 & FM).
  pose proof (fun P => due_iff q f P L1 L2 FD) as DU. pose proof (fun g t => due_text q f g t L1 L2 FD) as DT.
  set (ti := in_value (q_inputs q)) in *. set (to := out_value (q_outputs q)) in *.
  apply tk_seq; [apply sat_tk; auto; tauto|]. intros s1 S1. apply sat_given in S1.
  apply tk_seq; [apply sat_tk; auto; tauto|]. intros s2 S2. apply sat_given in S2.
  apply tk_seq.
  { destruct (Z.ltb_spec ti to) as [LT|LT].
    - rewrite sat_gives by lia. cbn [abind]. apply tk_no; [lia|]. intros t. unfold shortfall_text. rewrite lines_cons, lines_one. reflexivity.
    - apply tk_yes. lia. }
  intros u1 U1. assert (TT : to <= ti).
  { destruct (Z.ltb_spec ti to) as [LT|LT]; auto. rewrite sat_gives in U1 by lia. discriminate. }
  apply tk_seq; [apply sat_tk; [lia|rewrite DU; tauto|intros _ t; apply (DT (fun f => too_much (to + f)))]|]. intros s3 S3. apply sat_given in S3.
  (* selection *)
  unfold selection_answer. fold sxs.
  match goal with |- tested (abind ?r ?k) _ => set (kk := k) end.
  destruct (Z.ltb_spec ti (to + f)) as [LT|LT].
  { rewrite sat_gives by lia. cbn [abind]. apply tk_fail; [rewrite DU; lia|]. intros t. rewrite (DT (fun f => shortfall_text "output + fee" (to + f - ti))). unfold shortfall_text. rewrite lines_cons, lines_one. reflexivity. }
  apply tk_skip; [apply (proj2 (DU (fun f0 => to + f0 <= ti))); exact LT|].
  set (s := isort (q_approach q) (q_inputs q)) in *. set (tg := to + f) in *.
  set (sel := if in_value s =? tg then s else iselect (match q_approach q with All => true | _ => false end) tg 0 s).
  assert (VS : Forall (fun i => 0 <= ia_value i) s) by (apply isort_Forall; auto).
  assert (SV : in_value s = ti) by apply isort_value.
  assert (T0 : 0 <= tg <= ti) by (unfold tg; lia).
  assert (CHS : chosen (q_approach q) tg s sel) by (apply chosen_iff; auto; lia).
  assert (SI : exists sx, (if ti =? tg then Gives sxs else abind (satoshi_to_bitcoin_says repr (PInt (ti - tg))) (fun _ => Gives (select_loop (match q_approach q with All => true | _ => false end) tg 0 sxs))) = Gives sx /\ Forall2 imade sel sx).
  { unfold sel. rewrite SV. destruct (ti =? tg); [eauto|].
    rewrite sat_gives by lia. cbn [abind]. eexists. split; [reflexivity|]. apply select_made. auto. }
  destruct SI as (sx & SI & SM).
  assert (SR : tg <= in_value sel <= ti).
  { unfold sel. rewrite SV. destruct (Z.eqb_spec ti tg); [lia|]. split.
    - apply iselect_reach; auto. lia.
    - rewrite <- SV. apply iselect_value; auto. }
  assert (SL : (length sel <= length (q_inputs q))%nat).
  { unfold sel. assert (LS : length s = length (q_inputs q)) by apply isort_length. destruct (in_value s =? tg); [lia|]. rewrite <- LS. apply iselect_length. }
  assert (SU : forall f' s' sel', fee_due q f' -> sorted_for (q_approach q) (q_inputs q) s' -> chosen (q_approach q) (to + f') s' sel' -> f' = f /\ sel' = sel).
  { intros f' s' sel' G SF SC. rewrite (fee_due_fun q f' f L1 L2 G FD) in *. fold tg in SC. split; [reflexivity|].
    apply sorted_for_unique in SF. subst s'. fold s in SC. apply (chosen_fun (q_approach q) tg s); auto. rewrite SV. exact T0. }
  assert (SE : forall P, selected q P <-> P sel (in_value sel - tg)).
  { intros P. split; [intros H; apply (H f s sel); auto; apply isort_for|]. intros H f' s' sel' G SF SC. fold to in SC |- *. destruct (SU f' s' sel' G SF SC) as [-> ->]. exact H. }
  rewrite SI. unfold kk. clear kk. cbn [abind]. rewrite (in_value_made _ _ SM). rewrite sat_gives by lia. cbn [abind].
  (* change *)
  destruct W as (_ & WO & WC & WI).
  apply tk_seq.
  { eapply tk_conv; [|apply (change_tk (q_change_address q) (q_change_index q) (q_outputs q) ys (in_value sel) tg Y)].
    - constructor; [|constructor]. split; [|split; [reflexivity|]]; cbn [fst snd].
      + rewrite SE. tauto.
      + intros t. unfold change_text, ambiguous_text, index_text. destruct (q_change_index q); reflexivity.
    - eapply Forall_impl; [|exact WO]. cbn. intros o0. tauto.
    - exact WC.
    - exact WI.
    - lia.
    - fold to. unfold tg in *. lia. }
  intros [ys' chg] HC.
  assert (HC' : handle_change (q_change_address q) (q_change_index q) ys (in_value sel) tg = Ok (ys', chg)) by (rewrite (change_same repr), HC; reflexivity).
  apply (handle_iff HH HZ HU _ _ _ _ _ _ _ _ Y) in HC' as (outs' & SP & Y'); auto; [|lia].
  destruct (surplus_value _ _ _ _ _ _ SP VO ltac:(lia)) as (SVA & SVB & SVC). fold to in SVA.
  assert (CU : forall outs2 chg2, surplus_paid (q_change_address q) (q_change_index q) (q_outputs q) (in_value sel - tg) outs2 chg2 -> outs2 = outs' /\ chg2 = chg).
  { intros outs2 chg2 SP2.
    destruct (surplus_value _ _ _ _ _ _ SP2 VO ltac:(lia)) as (SVA2 & SVB2 & SVC2). fold to in SVA2.
    destruct (omade_exists_all HU q _ _ _ _ (conj (proj1 (asked_wf HU _ _ A)) (conj WO (conj WC WI))) SP2 ltac:(lia) ltac:(fold to; unfold tg in *; lia)) as [ys2 Y2].
    assert (H1 : handle_change (q_change_address q) (q_change_index q) ys (in_value sel) tg = Ok (ys2, chg2)) by (apply (handle_iff HH HZ HU _ _ _ _ _ _ _ _ Y); auto; [lia|eauto]).
    assert (H2 : handle_change (q_change_address q) (q_change_index q) ys (in_value sel) tg = Ok (ys', chg)) by (apply (handle_iff HH HZ HU _ _ _ _ _ _ _ _ Y); auto; [lia|eauto]).
    rewrite H1 in H2. injection H2 as -> ->. split; [exact (F2_inj _ _ _ outs2 outs' ys' omade_inj Y2 Y')|reflexivity]. }
  assert (CE : forall P, changed q P <-> P outs' (in_value sel - chg)).
  { intros P. unfold changed. rewrite SE. split; [intros H; apply H; auto|]. intros H outs2 chg2 SP2. destruct (CU outs2 chg2 SP2) as [-> ->]. auto. }
  assert (CX : forall P, after_change q P <-> P outs' (in_value sel - chg)).
  { intros P. unfold after_change, surplus, target. fold to. split.
    - intros (f' & s' & sel' & outs2 & chg2 & G & SF & SC & SP2 & H). destruct (SU f' s' sel' G SF SC) as [-> ->]. fold tg in SP2. destruct (CU outs2 chg2 SP2) as [-> ->]. exact H.
    - intros H. exists f, s, sel, outs', chg. split; [exact FD|]. split; [apply isort_for|]. auto. }
  rewrite (out_value_made _ _ Y').
  assert (OK1 : (if in_value sel =? tg then Gives tt else abind (satoshi_to_bitcoin_says repr (PInt (out_value outs'))) (fun _ => abind (satoshi_to_bitcoin_says repr (PInt (out_value outs' + f))) (fun _ => Gives tt))) = Gives tt).
  { destruct (in_value sel =? tg); auto. rewrite sat_gives by (unfold tg in *; lia). cbn [abind]. rewrite sat_gives by (unfold tg in *; lia). reflexivity. }
  rewrite OK1. cbn [abind]. rewrite (proj2 (Z.eqb_eq _ _)) by (unfold tg in *; lia). cbn [negb].
  rewrite (sat_gives chg) by (unfold tg in *; lia). cbn [abind].
  match goal with |- tested _ (?c1 :: ?c2 :: ?c3 :: ?c4 :: ?r) => change (c1 :: c2 :: c3 :: c4 :: r) with ([c1; c2; c3; c4] ++ r) end.
  apply tk_bind.
  { eapply tk_conv; [|apply (spend_tk q n (in_value sel - chg) DB TR TN); fold ti; unfold tg in *; lia]. fold ti.
    constructor; [split; [|split; [|intros t0]]; cbn [fst snd]; try reflexivity; tauto|]. constructor; [split; [|split; [|intros t0]]; cbn [fst snd]; try reflexivity; tauto|]. constructor; [|constructor; [split; [|split; [|intros t0]]; cbn [fst snd]; try reflexivity; tauto|constructor]].
    split; [|split; [reflexivity|]]; cbn [fst snd]; [rewrite CE; tauto|]. intros t. split; intros (k & K & H); exists k; (split; [exact K|]); [apply CX; exact H|apply CX in H; exact H]. }
  intros _ _. assert (LX : length ys' = length outs') by (symmetry; apply (F2_len _ _ _ _ _ Y')).
  apply (tk_bind (tx_create_says repr sx ys') _ [_] []); [|intros t _; apply tk_nil].
  eapply tk_conv; [|apply (tx_create_tk sx ys'); rewrite <- (F2_len _ _ _ _ _ SM); lia].
  constructor; [|constructor]. rewrite LX. split; [|split; [reflexivity|]]; cbn [fst snd]; [rewrite CE; tauto|]. intros t. rewrite CX. tauto.
Qed.

End WithEnv.
