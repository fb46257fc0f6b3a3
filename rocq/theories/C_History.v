(** C81, C82: calling create_transaction several times with one argument object; what a call leaves in it. *)
From Coq Require Import String Floats.SpecFloat Permutation Sorted Lia.
From Verif Require Import PyBase Env PyNum Validate Basic Spec EnvOk TxInput TxOutput Tx Create TxSpec SignSpec FloatSpec NumSpec CreateSpec RefuseSpec HistorySpec Demo DemoTx DemoCreate DemoRefuse DemoHistory.
From Verif Require Import NumLemmas HexProofs Base58Proofs AddrProofs AmountProofs ScriptProofs WireProofs MakeProofs NumProofs PrepProofs DesignProofs BuildProofs CreateProofs RefuseProofs HistoryProofs DemoProofs DemoTxProofs DemoCreateProofs C_Create C_Refuse.
Open Scope Z_scope.

Section WithEnv.
Context {E : Env}.

(** C81.  One call settles the argument object: a second call, whatever the outcome of either, changes nothing in it. *)
Lemma c81_settles : HashOk E -> ZeroAddressOk E -> UniOk E -> forall a,
  snd (create_transaction (snd (create_transaction a))) = snd (create_transaction a).
Proof.
  intros HH HZ HU a. unfold create_transaction at 2 3. destruct (prepare a) as [r a1] eqn:P.
  assert (S : forall (x : res prepared), snd (match x with Ok p => (build p, a1) | Err e => (Err e, a1) end) = a1) by (intros [p|e]; reflexivity).
  rewrite S. unfold create_transaction.
  destruct (prepare_settle HH HZ HU a r a1 P) as [(e & _ & -> & _)|(p & _ & _ & [(_ & _ & -> & _)|(_ & ->)])]; reflexivity.
Qed.

(** C81.  So every later call ends like the second one. *)
Lemma c81_history : HashOk E -> ZeroAddressOk E -> UniOk E -> forall a n,
  fst (create_transaction (Nat.iter (S n) (fun x => snd (create_transaction x)) a)) = fst (create_transaction (snd (create_transaction a))).
Proof.
  intros HH HZ HU a n. f_equal. f_equal. induction n as [|n IH]; [reflexivity|]. change (Nat.iter (S (S n)) (fun x => snd (create_transaction x)) a) with (snd (create_transaction (Nat.iter (S n) (fun x => snd (create_transaction x)) a))).
  rewrite IH. apply c81_settles; auto.
Qed.

(** C81.  A call refused for the form of its arguments is refused again with the same exception. *)
Lemma c81_refused_again : HashOk E -> ZeroAddressOk E -> UniOk E -> forall a e,
  first_problem (form_checks a) e ->
  fst (create_transaction a) = Err e /\ fst (create_transaction (snd (create_transaction a))) = Err e.
Proof.
  intros HH HZ HU a e F. pose proof (proj2 (form_ck HH HZ HU a) e F) as P. unfold create_transaction at 1 3. destruct (prepare a) as [r a1] eqn:PR. cbn [fst] in P. subst r.
  split; [reflexivity|]. cbn [snd]. destruct (prepare_settle HH HZ HU a (Err e) a1 PR) as [(e' & [= <-] & Q & _)|(p & X & _)]; [|discriminate].
  unfold create_transaction. rewrite Q. reflexivity.
Qed.

(** C81.  After any other call, successful or not, the argument object is refused with ValueError (if it names an input or an output). *)
Lemma c81_used_up : HashOk E -> ZeroAddressOk E -> UniOk E -> forall a,
  all_pass (form_checks a) -> ~ empty_request a ->
  fst (create_transaction (snd (create_transaction a))) = Err ValueError.
Proof.
  intros HH HZ HU a F N. apply (proj1 (form_ck HH HZ HU a)) in F as [p P]. unfold create_transaction at 2. destruct (prepare a) as [r a1] eqn:PR. cbn [fst] in P. subst r. cbn [snd].
  destruct (prepare_settle HH HZ HU a (Ok p) a1 PR) as [(e' & X & _)|(p' & [= <-] & _ & [(_ & _ & _ & X)|(_ & Q)])]; [discriminate|contradiction|].
  unfold create_transaction. rewrite Q. reflexivity.
Qed.
(** C81.  A request that names neither an input nor an output can be repeated: every call ends like the first. *)
Lemma c81_empty : HashOk E -> ZeroAddressOk E -> UniOk E -> forall a,
  all_pass (form_checks a) -> empty_request a ->
  fst (create_transaction (snd (create_transaction a))) = fst (create_transaction a).
Proof.
  intros HH HZ HU a F N. apply (proj1 (form_ck HH HZ HU a)) in F as [p P]. unfold create_transaction at 2 3. destruct (prepare a) as [r a1] eqn:PR. cbn [fst] in P. subst r. cbn [snd fst].
  destruct (prepare_settle HH HZ HU a (Ok p) a1 PR) as [(e' & X & _)|(p' & [= <-] & _ & [(_ & _ & Q & _)|(X & _)])]; [discriminate| |contradiction].
  unfold create_transaction. rewrite Q. reflexivity.
Qed.

(** C81.  The checks of form are those of C69 that are made before any amount is converted. *)
Lemma c81_form_first : forall a, argument_checks a = form_checks a ++ late_checks a.
Proof. exact form_late. Qed.

(** C82.  After a call that passed the checks of form, successful or not, the argument object is known entry by entry. *)
Lemma c82_done : HashOk E -> ZeroAddressOk E -> UniOk E -> forall a, all_pass (form_checks a) -> arguments_done a (snd (create_transaction a)).
Proof.
  intros HH HZ HU a F. apply (proj1 (form_ck HH HZ HU a)) in F as [p P]. unfold create_transaction. destruct (prepare a) as [r a1] eqn:PR. cbn [fst] in P. subst r. cbn [snd].
  destruct (prepare_settle HH HZ HU a (Ok p) a1 PR) as [(e' & X & _)|(p' & _ & D & _)]; [discriminate|exact D].
Qed.
(** C82.  After a call refused for the form of its arguments, each entry is as it was or has been rewritten in the same way; none has been added or removed. *)
Lemma c82_tried : HashOk E -> ZeroAddressOk E -> UniOk E -> forall a e, first_problem (form_checks a) e -> arguments_tried a (snd (create_transaction a)).
Proof.
  intros HH HZ HU a e F. pose proof (proj2 (form_ck HH HZ HU a) e F) as P. unfold create_transaction. destruct (prepare a) as [r a1] eqn:PR. cbn [fst] in P. subst r. cbn [snd].
  destruct (prepare_settle HH HZ HU a (Err e) a1 PR) as [(e' & _ & _ & D)|(p & X & _)]; [exact D|discriminate].
Qed.

End WithEnv.

(** C81.  Not every refusal is repeated: a selection approach that is not implemented is reported once; the second call reports something else. *)
Lemma c81_same_refusal_refuted : exists a, fst (@create_transaction demo_env a) = Err NotImplementedError /\
  fst (@create_transaction demo_env (snd (@create_transaction demo_env a))) = Err ValueError.
Proof. exists unimplemented. split; vm_compute; reflexivity. Qed.

Example ex81_refused_again : first_problem (@form_checks demo_env two_problems) ValueError /\
  fst (@create_transaction demo_env (snd (@create_transaction demo_env two_problems))) = Err ValueError.
Proof.
  assert (P : first_problem (@form_checks demo_env two_problems) ValueError).
  { unfold form_checks, two_problems. cbn [ns_inputs ns_design app]. apply fails_later.
    - intros s H. discriminate.
    - apply fails_here. intros H. destruct (H (lit "a lot") eq_refl) as [n N]. apply (@int_text_iff demo_env demo_uni) in N. vm_compute in N. discriminate. }
  split; [exact P|]. apply (@c81_refused_again demo_env demo_hash demo_zero_address demo_uni). exact P.
Qed.
Lemma demo_form : all_pass (@form_checks demo_env demo_ns) /\ ~ empty_request demo_ns.
Proof.
  split.
  - assert (A : all_pass (@argument_checks demo_env demo_ns)).
    { apply (@asked_pass demo_env demo_hash demo_zero_address demo_uni demo_ns demo_order demo_asked). repeat constructor. }
    rewrite (@form_late demo_env) in A. apply Forall_app in A. apply A.
  - intros (H & _). discriminate.
Qed.
Example ex81_used_up : (all_pass (@form_checks demo_env demo_ns) /\ ~ empty_request demo_ns) /\ fst (@create_transaction demo_env demo_ns) = Ok created /\
  forall n, fst (@create_transaction demo_env (Nat.iter (S n) (fun x => snd (@create_transaction demo_env x)) demo_ns)) = Err ValueError.
Proof.
  split; [exact demo_form|]. split; [exact created_ok|]. intros n. rewrite (@c81_history demo_env demo_hash demo_zero_address demo_uni).
  apply (@c81_used_up demo_env demo_hash demo_zero_address demo_uni); apply demo_form.
Qed.
(** A request without inputs and outputs can be repeated. *)
Example ex81_empty : empty_request nothing /\ fst (@create_transaction demo_env nothing) = Err OutputAndFeeValueNotCovered /\
  fst (@create_transaction demo_env (snd (@create_transaction demo_env nothing))) = Err OutputAndFeeValueNotCovered.
Proof. split; [split; [reflexivity|eexists; split; reflexivity]|]. split; vm_compute; reflexivity. Qed.
(** What is left of a request: the index "7" became 7, the fee "10000" became 10000, the amount "0.501" became "0.50100000", and the satoshi were added. *)
Example ex82_done : @arguments_done demo_env demo_ns (snd (@create_transaction demo_env demo_ns)) /\ snd (@create_transaction demo_env spelled) = spelled_after.
Proof.
  split; [apply (@c82_done demo_env demo_hash demo_zero_address demo_uni), demo_form|]. vm_compute. reflexivity.
Qed.
