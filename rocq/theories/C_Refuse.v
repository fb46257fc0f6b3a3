(** C69-C71: which exception create_transaction raises, for every argument object. *)
From Coq Require Import String Floats.SpecFloat Permutation Sorted Lia Classical.
From Verif Require Import PyBase Env PyNum Validate Basic Spec EnvOk TxInput TxOutput Tx Create TxSpec FloatSpec NumSpec ValidSpec CreateSpec RefuseSpec Demo DemoTx DemoCreate DemoRefuse.
From Verif Require Import NumLemmas HexProofs Base58Proofs AddrProofs AmountProofs NumProofs WireProofs MakeProofs PrepProofs DesignProofs BuildProofs CreateProofs RefuseProofs OrderProofs DemoProofs DemoTxProofs DemoCreateProofs.
Open Scope Z_scope.

Lemma pass_or_problem : forall cs, all_pass cs \/ exists e, first_problem cs e.
Proof.
  induction cs as [|[P e] cs [IH|[e' IH]]]; [left; constructor|..]; destruct (classic P) as [H|H].
  - left. constructor; auto.
  - right. exists e. constructor. auto.
  - right. exists e'. constructor; auto.
  - right. exists e. constructor. auto.
Qed.
Lemma pass_no_problem : forall cs e, all_pass cs -> first_problem cs e -> False.
Proof. intros cs e A F. induction F as [P e l N|P e l e' H F IH]; inversion A; subst; auto. Qed.

Section WithEnv.
Context {E : Env}.

(** C69.  The first of the argument checks that fails decides the exception. *)
Lemma c69_first_problem : HashOk E -> ZeroAddressOk E -> UniOk E -> forall a e,
  first_problem (argument_checks a) e -> fst (create_transaction a) = Err e.
Proof. intros HH HZ HU. apply (refuse_argument HH HZ HU). Qed.

(** C69.  Passing all of them is exactly being a well-formed order whose indices fit in 4 bytes (or fee=True). *)
Lemma c69_well_formed : HashOk E -> ZeroAddressOk E -> UniOk E -> forall a, ~ fee_is_true a ->
  (all_pass (argument_checks a) <-> exists q, asked a q /\ Forall (fun i => ia_index i < 2 ^ 32) (q_inputs q)).
Proof.
  intros HH HZ HU a N. split.
  - intros H. apply (pass_asked HH HZ HU a H N).
  - intros (q & A & I). apply (asked_pass HH HZ HU a q A I).
Qed.

(** C69.  A fee of True is never accepted. *)
Lemma c69_fee_true : HashOk E -> ZeroAddressOk E -> UniOk E -> forall a, fee_is_true a -> exists e, fst (create_transaction a) = Err e.
Proof.
  intros HH HZ HU a (d & ND & FE). destruct (fst (create_transaction a)) as [t|e] eqn:C; [|eauto]. exfalso.
  apply (create_iff HH HZ HU) in C as (q & _ & _ & _ & _ & (l & d' & _ & _ & ND' & (_ & _ & _ & _ & FA & _) & _) & _).
  rewrite ND in ND'. injection ND' as <-. unfold entry in FE. rewrite FE in FA. destruct (q_fee q) as [z|r]; cbn in FA.
  - destruct FA as (_ & _ & [W|(s & W & _)]); discriminate.
  - destruct FA as [NF _]. cbn [no_fee] in NF. apply falsy_iff in NF. discriminate.
Qed.

(** C70.  For a well-formed order: the first of the order checks that fails decides the exception, and if none fails
    there is a transaction. *)
Lemma c70_first_problem : HashOk E -> ZeroAddressOk E -> UniOk E -> forall a q,
  asked a q -> double (q_max_spend q) -> Forall (fun i => ia_index i < 2 ^ 32) (q_inputs q) ->
  ((exists t, fst (create_transaction a) = Ok t) <-> all_pass (order_checks q)) /\
  (forall e, fst (create_transaction a) = Err e <-> first_problem (order_checks q) e).
Proof.
  intros HH HZ HU a q A DB IX. destruct (create_build HH HZ HU a q A) as (p & P & ->).
  destruct (order_ck HH HZ HU a p q A P DB IX) as [O1 O2]. split; auto. intros e. split; auto.
  intros H. destruct (pass_or_problem (order_checks q)) as [AP|[e' FP]].
  - apply O1 in AP as [t T]. congruence.
  - rewrite (O2 _ FP) in H. injection H as <-. auto.
Qed.

(** C71.  Nothing else can happen: a call that raises e has a first problem with that exception, in the arguments or in
    the order. *)
Lemma c71_every_error : HashOk E -> ZeroAddressOk E -> UniOk E -> forall a e, ~ fee_is_true a ->
  (forall d f, ns_design a = Some (PDict d) -> percentage d f -> double f) ->
  (fst (create_transaction a) = Err e <->
   first_problem (argument_checks a) e \/
   (exists q, asked a q /\ Forall (fun i => ia_index i < 2 ^ 32) (q_inputs q) /\ first_problem (order_checks q) e)).
Proof.
  intros HH HZ HU a e N DB.
  assert (DQ : forall q, asked a q -> double (q_max_spend q)).
  { intros q (l & d & _ & _ & ND & (_ & _ & _ & (v & n & GP & PF & _) & _) & _). apply (DB d); auto. exists v. auto. }
  split.
  - intros H. destruct (pass_or_problem (argument_checks a)) as [AP|[e' FP]].
    + right. apply (c69_well_formed HH HZ HU a N) in AP as (q & A & I). exists q. repeat (split; auto). apply (c70_first_problem HH HZ HU a q A); auto.
    + left. rewrite (refuse_argument HH HZ HU a e' FP) in H. injection H as <-. auto.
  - intros [H|(q & A & I & H)]; [apply (refuse_argument HH HZ HU a e H)|]. apply (c70_first_problem HH HZ HU a q A); auto.
Qed.

End WithEnv.

Lemma in_value_filter : forall p l, Forall (fun i => 0 <= ia_value i) l -> in_value (filter p l) <= in_value l.
Proof.
  intros p l F. induction F as [|x l Hx F IH]; [cbn; lia|]. cbn [filter]. rewrite in_value_cons. destruct (p x); rewrite ?in_value_cons; lia.
Qed.
Lemma out_value_filter : forall p l, Forall (fun i => 0 <= oa_value i) l -> out_value (filter p l) <= out_value l.
Proof.
  intros p l F. induction F as [|x l Hx F IH]; [cbn; lia|]. cbn [filter]. rewrite out_value_cons. destruct (p x); rewrite ?out_value_cons; lia.
Qed.

(** Two things are wrong; the one that is looked at first is reported. *)
Example ex69_two_problems : first_problem (@argument_checks demo_env two_problems) ValueError /\ fst (@create_transaction demo_env two_problems) = Err ValueError.
Proof.
  assert (P : first_problem (@argument_checks demo_env two_problems) ValueError).
  { unfold argument_checks, two_problems. cbn [ns_inputs ns_design app]. apply fails_later.
    - intros s H. discriminate.
    - apply fails_here. intros H. destruct (H (lit "a lot") eq_refl) as [n N]. apply (@int_text_iff demo_env demo_uni) in N. vm_compute in N. discriminate. }
  split; [exact P|]. apply (@c69_first_problem demo_env demo_hash demo_zero_address demo_uni). exact P.
Qed.
Example ex69_change_address : first_problem (@argument_checks demo_env bad_change_address) TypeError /\ fst (@create_transaction demo_env bad_change_address) = Err TypeError.
Proof.
  assert (P : first_problem (@argument_checks demo_env bad_change_address) TypeError).
  { assert (A : all_pass (@argument_checks demo_env demo_ns)).
    { apply (@asked_pass demo_env demo_hash demo_zero_address demo_uni demo_ns demo_order demo_asked). repeat constructor. }
    unfold argument_checks, demo_ns in A. cbn [ns_inputs ns_design] in A. unfold all_pass in A. rewrite !Forall_app in A. destruct A as (A1 & A2 & A3 & _).
    unfold argument_checks, bad_change_address. cbn [ns_inputs ns_design]. apply problem_app. right. split.
    { constructor; [intros s H; discriminate|]. constructor; [intros s H; discriminate|constructor]. }
    apply problem_app. right. split; [exact A2|]. apply problem_app. right. split; [exact A3|]. apply problem_app. left.
    unfold design_checks. apply fails_later.
    { intros k H. unfold bad_design. cbn [map In fst] in H |- *. tauto. }
    apply fails_here. intros (s & H & _). discriminate. }
  split; [exact P|]. apply (@c69_first_problem demo_env demo_hash demo_zero_address demo_uni). exact P.
Qed.
Example ex69_demo : all_pass (@argument_checks demo_env demo_ns) /\ ~ fee_is_true demo_ns.
Proof.
  split.
  - apply (@asked_pass demo_env demo_hash demo_zero_address demo_uni demo_ns demo_order demo_asked). repeat constructor.
  - intros (d & H & F). injection H as <-. discriminate.
Qed.
Example ex69_fee_true : fee_is_true true_fee /\ exists e, fst (@create_transaction demo_env true_fee) = Err e.
Proof.
  assert (T : fee_is_true true_fee) by (eexists; split; reflexivity). split; [exact T|].
  apply (@c69_fee_true demo_env demo_hash demo_zero_address demo_uni). exact T.
Qed.
Example ex70_repeated : @asked demo_env repeated repeated_order /\ first_problem (@order_checks repeated_order) DuplicateOutputAddressError /\
  fst (@create_transaction demo_env repeated) = Err DuplicateOutputAddressError.
Proof.
  assert (P : first_problem (@order_checks repeated_order) DuplicateOutputAddressError).
  { unfold order_checks. cbv zeta. apply fails_later.
    { intros a. etransitivity; [apply in_value_filter; repeat constructor; cbn; lia|]. cbn. unfold max_money. lia. }
    apply fails_later.
    { intros a. etransitivity; [apply out_value_filter; repeat constructor; cbn; lia|]. cbn. unfold max_money. lia. }
    apply fails_here. intros H. specialize (H eq_refl). cbn in H. inversion H; subst. apply H2. left. auto. }
  split; [exact repeated_asked|]. split; [exact P|].
  apply (@c70_first_problem demo_env demo_hash demo_zero_address demo_uni _ _ repeated_asked); [reflexivity|repeat constructor|exact P].
Qed.
Example ex70_demo : @asked demo_env demo_ns demo_order /\ all_pass (order_checks demo_order).
Proof.
  split; [exact demo_asked|].
  apply (@c70_first_problem demo_env demo_hash demo_zero_address demo_uni _ _ demo_asked); [reflexivity|repeat constructor|]. exists created. exact created_ok.
Qed.
Example ex71_repeated : ~ fee_is_true repeated /\ (forall d f, ns_design repeated = Some (PDict d) -> @percentage demo_env d f -> double f).
Proof.
  split.
  - intros (d & H & F). injection H as <-. discriminate.
  - intros d f H (v & V & F). injection H as <-. injection V as <-. cbn [float_of_value] in F. apply (@float_text_iff demo_env demo_uni) in F. vm_compute in F. injection F as <-. reflexivity.
Qed.
