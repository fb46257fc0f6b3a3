(** C102: what create_transaction says of a well-formed order that cannot be met, and of anything else it refuses. *)
From Coq Require Import String Floats.SpecFloat Permutation Lia.
From Verif Require Import PyBase Env PyNum Validate Basic Spec EnvOk TxInput TxOutput Tx Create TxSpec FloatSpec NumSpec ValidSpec CreateSpec RefuseSpec ReportSpec Messages MessagesSpec Complaints ComplaintsSpec Answer BasicSays BasicSaysSpec DocSays DocSaysSpec Report OrderSays OrderSaysSpec BuildSays BuildSaysSpec Demo DemoTx DemoCreate DemoRefuse DemoOrderSays.
From Verif Require Import NumLemmas HexProofs PrepProofs DesignProofs BuildProofs CreateProofs RefuseProofs OrderProofs C_BasicSays C_DocSays C_Refuse OrderSaysProofs C_OrderSays BuildSaysProofs BuildToldProofs TrueFeeProofs DemoProofs DemoTxProofs DemoCreateProofs.
From Verif Require ReportProofs ReportMainProofs.
Open Scope Z_scope.

Section WithEnv.
Context {E : Env}.

(** C102.  The answers, without the texts, are the outcomes of create_transaction. *)
Lemma c102_same : forall repr attrs a, lists_attributes attrs a -> fst (create_transaction a) = unsaid (create_answer repr attrs a).
Proof. intros repr attrs a LA. now apply create_same. Qed.

(** C102.  Of malformed arguments it is said what C101 says. *)
Lemma c102_argument : HashOk E -> ZeroAddressOk E -> UniOk E -> forall repr attrs a e text,
  argument_test repr attrs a (Some (e, text)) -> create_answer repr attrs a = Says e text.
Proof.
  intros HH HZ HU repr attrs a e text T. apply (proj1 (c101_said HH HZ HU repr attrs a)) in T. unfold front_says in T. unfold create_answer, build_answer.
  destruct (prepare_says repr attrs a) as [p|e0 t0]; cbn [abind] in *; [|injection T as -> ->; reflexivity]. destruct (all_say (make_input_says repr) (p_inputs p)) as [xs|e0 t0]; cbn [abind] in *; [|injection T as -> ->; reflexivity].
  destruct (all_say (make_output_says repr) (p_outputs p)) as [ys|e0 t0]; cbn [abind] in *; [|injection T as -> ->; reflexivity]. destruct (choose_says repr (p_approaches p)) as [ap|e0 t0]; cbn [abind] in *; [discriminate|injection T as -> ->; reflexivity].
Qed.

Lemma order_tested : HashOk E -> ZeroAddressOk E -> UniOk E -> forall repr attrs a q mf, lists_attributes attrs a ->
  asked a q -> double (q_max_spend q) -> Forall (fun i => ia_index i < 2 ^ 32) (q_inputs q) -> max_fee_written repr a q mf ->
  tested (create_answer repr attrs a) (order_says repr q mf).
Proof.
  intros HH HZ HU repr attrs a q mf LA A DB IX (d & v & ND & GV & MF). destruct (ReportMainProofs.texts_exist HU repr a q A) as (ta & tb & mf' & TX).
  assert (MM : mf' = mf). { destruct TX as (l & d' & lo & sb & v' & _ & ND' & _ & _ & _ & _ & GV' & MF'). assert (d' = d) by congruence. subst d'. assert (v' = v) by congruence. subst v'. congruence. }
  subst mf'. destruct (ReportProofs.prepare_says HH HZ HU repr a q ta tb mf A TX) as (p & a' & PR & PP & _ & _ & _ & SH & _).
  pose proof (prepare_same repr attrs a LA) as PS. rewrite PR in PS. cbn [fst] in PS. unfold create_answer. destruct (prepare_says repr attrs a) as [p'|e t] eqn:P; cbn [unsaid abind] in *; [|discriminate]. injection PS as <-.
  destruct (prepare_inv _ _ _ _ P) as [(l2 & L) (lo2 & O)]. apply (order_tk HH HZ HU repr a p q mf A PP SH DB IX).
  - apply all_say_F2 in L. clear - L. induction L as [|w w' l l' H L IH]; constructor; auto. now apply (make_input_same repr w).
  - apply all_say_F2 in O. clear - O. induction O as [|w w' l l' H O IH]; constructor; auto. now apply (make_output_same repr w).
Qed.

(** C102.  What is said of a well-formed order: the class and the text of the first check that fails, and nothing if none does. *)
Lemma c102_said : HashOk E -> ZeroAddressOk E -> UniOk E -> forall repr attrs a q mf, lists_attributes attrs a ->
  asked a q -> double (q_max_spend q) -> Forall (fun i => ia_index i < 2 ^ 32) (q_inputs q) -> max_fee_written repr a q mf ->
  (forall e text, create_answer repr attrs a = Says e text <-> first_said (order_says repr q mf) e text) /\
  ((exists t, create_answer repr attrs a = Gives t) <-> all_pass (order_checks q)).
Proof.
  intros HH HZ HU repr attrs a q mf LA A DB IX MF. pose proof (order_tested HH HZ HU repr attrs a q mf LA A DB IX MF) as T.
  assert (OC : first_pass (order_says repr q mf) = all_pass (order_checks q)) by reflexivity. rewrite <- OC.
  destruct (create_answer repr attrs a) as [t|e0 t0] eqn:Q; cbn [tested] in T.
  - split.
    + intros e text. split; [discriminate|]. intros S. elim (said_not_pass _ _ _ S T).
    + split; [auto|eauto].
  - split.
    + intros e text. rewrite T. split; [intros [= -> ->]; auto|intros [-> ->]; reflexivity].
    + split; [intros [t H]; discriminate|]. intros FP. elim (said_not_pass _ e0 t0 (proj2 (T e0 t0) (conj eq_refl eq_refl)) FP).
Qed.

Lemma max_fee_exists : UniOk E -> forall repr a q, asked a q -> exists mf, max_fee_written repr a q mf.
Proof.
  intros HU repr a q A. destruct (ReportMainProofs.texts_exist HU repr a q A) as (ta & tb & mf & TX). destruct TX as (l & d & lo & sb & v & _ & ND & _ & _ & _ & _ & GV & MF). exists mf, d, v. auto.
Qed.

(** C102.  Every exception of create_transaction with its text: it is about the arguments, or about the order. *)
Lemma c102_every_text : HashOk E -> ZeroAddressOk E -> UniOk E -> forall repr attrs a e text, lists_attributes attrs a -> ~ fee_is_true a ->
  (forall d f, ns_design a = Some (PDict d) -> percentage d f -> double f) ->
  (create_answer repr attrs a = Says e text <->
   argument_test repr attrs a (Some (e, text)) \/
   (exists q mf, asked a q /\ Forall (fun i => ia_index i < 2 ^ 32) (q_inputs q) /\ max_fee_written repr a q mf /\ first_said (order_says repr q mf) e text)).
Proof.
  intros HH HZ HU repr attrs a e text LA N DB.
  assert (DQ : forall q, asked a q -> double (q_max_spend q)).
  { intros q (l & d & _ & _ & ND & (_ & _ & _ & (v & n & GP & PF & _) & _) & _). apply (DB d); auto. exists v. auto. }
  split.
  - intros H. destruct (pass_or_problem (argument_checks a)) as [AP|[e' FP]].
    + right. apply (c69_well_formed HH HZ HU a N) in AP as (q & A & I). destruct (max_fee_exists HU repr a q A) as (mf & MF). exists q, mf. repeat (split; auto). apply (c102_said HH HZ HU repr attrs a q mf); auto.
    + left. apply (proj1 (proj2 (c101_first_problem HH HZ HU repr attrs a LA))) in FP as (text' & T). pose proof (c102_argument HH HZ HU repr attrs a e' text' T) as Q. rewrite Q in H. injection H as -> ->. exact T.
  - intros [T|(q & mf & A & I & MF & S)]; [now apply c102_argument|]. apply (c102_said HH HZ HU repr attrs a q mf); auto.
Qed.

(** A fee of True passes the checks of the arguments as the number 1 does. *)
Lemma order_true_tested : HashOk E -> ZeroAddressOk E -> UniOk E -> forall repr attrs a a1 q, lists_attributes attrs a -> fee_one a a1 ->
  asked a1 q -> Forall (fun i => ia_index i < 2 ^ 32) (q_inputs q) -> tested (create_answer repr attrs a) (true_fee_says repr q).
Proof.
  intros HH HZ HU repr attrs a a1 q LA O A IX. destruct (DesignProofs.prepare_ok HH HZ HU a1 q A) as (p1 & a1' & PR & PP & _).
  pose proof (one_prepare a a1 O) as OP. rewrite PR in OP. cbn [fst] in OP. pose proof (prepare_same repr attrs a LA) as PS.
  destruct (fst (prepare a)) as [p|e] eqn:P0; [|discriminate]. destruct OP as (Q & PF & RF). injection Q as ->.
  unfold create_answer. destruct (prepare_says repr attrs a) as [p'|e t] eqn:P; cbn [unsaid abind] in *; [|discriminate]. injection PS as <-.
  destruct (prepare_inv _ _ _ _ P) as [(l2 & L) (lo2 & O2)]. apply (order_true_tk HH HZ HU repr a1 p q A PP PF RF IX).
  - apply all_say_F2 in L. clear - L. induction L as [|w w' l l' H L IH]; constructor; auto. now apply (make_input_same repr w).
  - apply all_say_F2 in O2. clear - O2. induction O2 as [|w w' l l' H O2 IH]; constructor; auto. now apply (make_output_same repr w).
Qed.

(** C102.  The one exception to that: a fee of True.  It counts as 1 in the checks of the arguments, and is refused at the latest when it is to be written as an amount. *)
Lemma c102_fee_true : HashOk E -> ZeroAddressOk E -> UniOk E -> forall repr attrs a, lists_attributes attrs a -> fee_is_true a ->
  (exists e text, create_answer repr attrs a = Says e text) /\
  forall e text, create_answer repr attrs a = Says e text <->
    argument_test repr attrs a (Some (e, text)) \/
    (exists a1 q, fee_one a a1 /\ asked a1 q /\ Forall (fun i => ia_index i < 2 ^ 32) (q_inputs q) /\ first_said (true_fee_says repr q) e text).
Proof.
  intros HH HZ HU repr attrs a LA FT. split.
  - destruct (c69_fee_true HH HZ HU a FT) as [e C]. rewrite (c102_same repr attrs a LA) in C. destruct (create_answer repr attrs a) as [t|e' t]; [discriminate|eauto].
  - assert (B : forall a1 q e text, fee_one a a1 -> asked a1 q -> Forall (fun i => ia_index i < 2 ^ 32) (q_inputs q) -> (create_answer repr attrs a = Says e text <-> first_said (true_fee_says repr q) e text)).
    { intros a1 q e text O A I. pose proof (order_true_tested HH HZ HU repr attrs a a1 q LA O A I) as T. destruct (create_answer repr attrs a) as [t|e0 t0]; cbn [tested] in T.
      - split; [discriminate|]. intros S. elim (said_not_pass _ _ _ S T).
      - rewrite T. split; [intros [= -> ->]; auto|intros [-> ->]; auto]. }
    intros e text. split.
    + intros H. destruct (pass_or_problem (argument_checks a)) as [AP|[e' FP]].
      * right. destruct (one_exists a FT) as [a1 O]. assert (AP1 : all_pass (argument_checks a1)).
        { apply (proj1 (front_ck HH HZ HU a1)). apply (one_front a a1 O). apply (proj1 (front_ck HH HZ HU a)). exact AP. }
        apply (c69_well_formed HH HZ HU a1 (one_not_true a a1 O)) in AP1 as (q & A & I). exists a1, q. repeat (split; auto). apply (B a1 q e text); auto.
      * left. apply (proj1 (proj2 (c101_first_problem HH HZ HU repr attrs a LA))) in FP as (text' & T). pose proof (c102_argument HH HZ HU repr attrs a e' text' T) as Q. rewrite Q in H. injection H as -> ->. exact T.
    + intros [T|(a1 & q & O & A & I & S)]; [now apply c102_argument|]. apply (B a1 q e text); auto.
Qed.

End WithEnv.

Lemma repeated_max_fee : max_fee_written plain_repr repeated repeated_order (lit "250000").
Proof. eexists. eexists. split; [reflexivity|]. split; [reflexivity|]. vm_compute. reflexivity. Qed.
(** Two of the outputs pay the same address. *)
Example ex102_repeated : @asked demo_env repeated repeated_order /\
  @create_answer demo_env plain_repr demo_attrs repeated = Says DuplicateOutputAddressError (lit "Multiple outputs (2) send to this address: " ++ addr3).
Proof.
  split; [exact repeated_asked|].
  apply (@c102_said demo_env demo_hash demo_zero_address demo_uni plain_repr demo_attrs repeated repeated_order (lit "250000")); [apply demo_lists|exact repeated_asked|reflexivity|repeat constructor|exact repeated_max_fee|].
  unfold order_says, order_checks, order_texts. cbv zeta. cbn [combine]. apply said_later.
  { intros a. etransitivity; [apply in_value_filter; repeat constructor; cbn; lia|]. cbn. unfold max_money. lia. }
  apply said_later.
  { intros a. etransitivity; [apply out_value_filter; repeat constructor; cbn; lia|]. cbn. unfold max_money. lia. }
  apply said_here.
  - intros H. specialize (H eq_refl). cbn in H. inversion H; subst. apply H2. left. auto.
  - eexists. split; [exists [], []; vm_compute; repeat split; auto|]. vm_compute. reflexivity.
Qed.
Example ex102_two_problems : @create_answer demo_env plain_repr demo_attrs two_problems = Says ValueError (lit "invalid literal for int() with base 10: 'a lot'").
Proof. apply (@c102_argument demo_env demo_hash demo_zero_address demo_uni). apply ex101_two_problems. Qed.
Example ex102_demo : lists_attributes demo_attrs demo_ns /\ @asked demo_env demo_ns demo_order /\ (exists mf, max_fee_written plain_repr demo_ns demo_order mf) /\
  exists t, @create_answer demo_env plain_repr demo_attrs demo_ns = Gives t.
Proof.
  split; [apply demo_lists|]. split; [exact demo_asked|]. destruct (@max_fee_exists demo_env demo_uni plain_repr _ _ demo_asked) as (mf & MF). split; [eauto|].
  apply (@c102_said demo_env demo_hash demo_zero_address demo_uni plain_repr demo_attrs demo_ns demo_order mf); [apply demo_lists|exact demo_asked|reflexivity|repeat constructor|exact MF|]. apply ex70_demo.
Qed.
Example ex102_fee_true : fee_is_true true_fee /\
  @create_answer demo_env plain_repr demo_attrs true_fee = Says ValueError (lit "Apart from an optional period ('.'), amount can contain only digits. Amount: 0.0000True").
Proof. split; [eexists; split; reflexivity|]. vm_compute. reflexivity. Qed.
