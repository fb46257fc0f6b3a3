(** The errors of create_transaction, in order. *)
From Coq Require Import String Floats.SpecFloat Permutation Sorted Reals Lra Lia.
From Flocq Require Import Core BinarySingleNaN.
From Verif Require Import PyBase Env PyNum Validate Basic Spec EnvOk TxInput TxOutput Tx Create TxSpec FloatSpec NumSpec ValidSpec CreateSpec RefuseSpec.
From Verif Require Import NumLemmas HexProofs Base58Proofs AddrProofs FloatProofs AmountProofs ScriptProofs WireProofs MakeProofs NumProofs PrepProofs DesignProofs BuildProofs CreateProofs C_Hex C_Base58 C_Amount C_Valid.
Open Scope Z_scope.

(** r succeeds exactly if all checks pass, and otherwise fails with the exception of the first one that does not. *)
Definition checked {A : Type} (r : res A) (cs : list check) : Prop :=
  ((exists x, r = Ok x) <-> all_pass cs) /\ (forall e, first_problem cs e -> r = Err e).

Lemma problem_app : forall l l' e, first_problem (l ++ l') e <-> first_problem l e \/ (all_pass l /\ first_problem l' e).
Proof.
  induction l as [|[P x] l IH]; intros l' e; cbn [app].
  - split; [intros H; right; split; [constructor|auto]|]. intros [H|[_ H]]; auto. inversion H.
  - split.
    + intros H. inversion H; subst; [left; constructor; auto|]. apply IH in H5 as [H5|[H5 H6]].
      * left. apply fails_later; auto. * right. split; auto. constructor; auto.
    + intros [H|[H H']].
      * inversion H; subst; [constructor; auto|]. apply fails_later; auto. apply IH. auto.
      * inversion H; subst. apply fails_later; auto. apply IH. auto.
Qed.
Lemma pass_app : forall l l', all_pass (l ++ l') <-> all_pass l /\ all_pass l'.
Proof. intros. unfold all_pass. apply Forall_app. Qed.

Lemma problem_one : forall (P : Prop) e x, first_problem [(P, e)] x -> ~ P /\ x = e.
Proof. intros P e x H. remember [(P, e)] as l. destruct H as [Q y l N|Q y l e' Q' H]; injection Heql as -> -> ->; auto. inversion H. Qed.

Lemma ck_nil : forall A (x : A), checked (Ok x) [].
Proof. intros A x. split; [split; [intros _; constructor|eauto]|]. intros e H. inversion H. Qed.
Lemma ck_one : forall A (r : res A) (P : Prop) e, ((exists x, r = Ok x) <-> P) -> (~ P -> r = Err e) -> checked r [(P, e)].
Proof.
  intros A r P e H1 H2. split.
  - rewrite H1. split; [intros H; constructor; [exact H|constructor]|]. intros H. inversion H; subst. auto.
  - intros x H. apply problem_one in H as [N ->]. auto.
Qed.
Lemma ck_unit : forall (r : res unit) (P : Prop) e, (r = Ok tt <-> P) -> (r <> Ok tt -> r = Err e) -> checked r [(P, e)].
Proof.
  intros r P e H1 H2. apply ck_one.
  - rewrite <- H1. split; [intros [[] H]; auto|eauto].
  - intros N. apply H2. intros Q. apply N, H1, Q.
Qed.
Lemma ck_bind : forall A B (r : res A) (k : A -> res B) cs cs', checked r cs -> (forall x, r = Ok x -> checked (k x) cs') -> checked (bind r k) (cs ++ cs').
Proof.
  intros A B r k cs cs' [H1 H2] K. split.
  - rewrite pass_app. split.
    + intros [y H]. destruct r as [x|e]; [|discriminate]. cbn [bind] in H. destruct (K x eq_refl) as [K1 _]. split; [apply H1; eauto|apply K1; eauto].
    + intros [P1 P2]. apply H1 in P1 as [x ->]. cbn [bind]. apply (K x eq_refl). auto.
  - intros e H. apply problem_app in H as [H|[P H]].
    + rewrite (H2 _ H). reflexivity.
    + apply H1 in P as [x ->]. cbn [bind]. apply (K x eq_refl). auto.
Qed.
Lemma ck_seq : forall A B (r : res A) (k : A -> res B) c cs', checked r [c] -> (forall x, r = Ok x -> checked (k x) cs') -> checked (bind r k) (c :: cs').
Proof. intros. change (c :: cs') with ([c] ++ cs'). apply ck_bind; auto. Qed.
Lemma ck_skip : forall A B (r : res A) (k : A -> res B) cs x, r = Ok x -> checked (k x) cs -> checked (bind r k) cs.
Proof. intros A B r k cs x -> H. exact H. Qed.
Lemma ck_ok : forall A (r : res A) x, r = Ok x -> checked r [].
Proof. intros A r x ->. apply ck_nil. Qed.
Lemma ck_ret : forall A B (r : res A) (f : A -> B) cs, checked r cs -> checked (x <- r ;; Ok (f x)) cs.
Proof. intros A B r f cs H. rewrite <- (app_nil_r cs). apply ck_bind; auto. intros. apply ck_nil. Qed.
Lemma ck_same : forall A B (r : res A) (r' : res B) cs, ((exists x, r = Ok x) <-> (exists y, r' = Ok y)) -> (forall e, r = Err e -> r' = Err e) -> checked r cs -> checked r' cs.
Proof. intros A B r r' cs H1 H2 [C1 C2]. split; [rewrite <- H1; auto|]. auto. Qed.
Lemma ck_iter : forall A (f : A -> res unit) cs l, (forall x, In x l -> checked (f x) (cs x)) -> checked (iterM f l) (flat_map cs l).
Proof.
  intros A f cs l. induction l as [|x l IH]; intros H; cbn [iterM flat_map]; [apply ck_nil|].
  apply ck_bind; [apply H; left; auto|]. intros _ _. apply IH. intros y I. apply H. right. auto.
Qed.
Lemma for_each_fst : forall A (f : A -> res unit * A) l, fst (for_each f l) = iterM (fun x => fst (f x)) l.
Proof.
  intros A f l. induction l as [|x l IH]; auto. cbn [for_each iterM]. destruct (f x) as [[[]|e] x']; cbn [fst bind]; auto.
  rewrite <- IH. destruct (for_each f l). reflexivity.
Qed.
Lemma ck_map : forall A B (f : A -> res B) cs l, (forall x, In x l -> checked (f x) (cs x)) -> checked (mapM f l) (flat_map cs l).
Proof.
  intros A B f cs l. induction l as [|x l IH]; intros H; cbn [mapM flat_map]; [apply ck_nil|].
  apply ck_bind; [apply H; left; auto|]. intros y _. apply ck_ret. apply IH. intros z I. apply H. right. auto.
Qed.

Definition same_check (c c' : check) : Prop := (fst c <-> fst c') /\ snd c = snd c'.
Lemma ck_conv : forall A (r : res A) cs cs', Forall2 same_check cs cs' -> checked r cs -> checked r cs'.
Proof.
  intros A r cs cs' F [C1 C2].
  assert (P : all_pass cs <-> all_pass cs').
  { clear - F. induction F as [|c c' l l' [H1 H2] F IH]; [tauto|]. split; intros H; inversion H; subst; (constructor; [apply H1; auto|apply IH; auto]). }
  split; [rewrite C1; exact P|]. intros e H. apply C2. clear - F H. revert e H. induction F as [|[P x] [P' x'] l l' [H1 H2] F IH]; intros e H; [inversion H|]. cbn [fst snd] in *. subst x'.
  apply (problem_app [(P', x)] l') in H as [H|[H H']].
  - apply problem_one in H as [N ->]. apply fails_here. tauto.
  - inversion H; subst. apply fails_later; [apply H1; auto|auto].
Qed.

Section WithEnv.
Context {E : Env}.
Hypothesis HH : HashOk E.
Hypothesis HZ : ZeroAddressOk E.
Hypothesis HU : UniOk E.

(** Entries that must be texts. *)
Lemma ck_text : forall (f : pyval -> res unit) (P : pystr -> Prop) v,
  (forall s, f (PStr s) = Ok tt <-> P s) -> (forall s, f (PStr s) = Ok tt \/ f (PStr s) = Err ValueError) ->
  (forall v, (forall s, v <> PStr s) -> f v = Err TypeError) -> checked (f v) [text_entry P (Some v)].
Proof.
  intros f P v H1 H2 H3. apply ck_unit.
  - split.
    + intros H. destruct v as [| | | |s| |]; try (rewrite H3 in H by discriminate; discriminate). exists s. split; auto. apply H1. auto.
    + intros (s & Q & H). injection Q as ->. apply H1. auto.
  - intros N. destruct v as [| | | |s| |]; try (rewrite H3 by discriminate; reflexivity). destruct (H2 s); auto. contradiction.
Qed.
Lemma ck_address : forall v, checked (validate_bitcoin_address v) [text_entry address (Some v)].
Proof.
  intros v. destruct (c10_address_validation HH HZ) as (A & _ & B & C). apply ck_text.
  - exact A.
  - intros s. destruct (B s) as [H|[H _]]; auto. left. apply A. auto.
  - intros w H. apply C. auto.
Qed.
Lemma ck_txid : forall v, checked (validate_hex_length v 32) [text_entry (fun s => exists b, s = hex_of b /\ bytes b /\ length b = 32%nat) (Some v)].
Proof.
  intros v. destruct c01_validate_hex as (_ & _ & _ & _ & B & C). apply ck_text with (f := fun v => validate_hex_length v 32).
  - intros s. split.
    + intros H. apply validate_hex_length_inv in H as (b & B1 & L & Q). injection Q as ->. eauto.
    + intros (b & -> & B1 & L). apply validate_hex_length_ok; auto.
  - intros s. apply B.
  - intros w H. apply C. auto.
Qed.
Lemma ck_amount : forall v, checked (validate_positive_bitcoin_amount v) [text_entry (fun s => exists n, amount_arg s n) (Some v)].
Proof.
  intros v. destruct (c17_validate_amount HU) as (_ & _ & A & B & _ & C). apply ck_text.
  - intros s. rewrite (positive_amount_iff HU). split; [intros (s' & n & Q & H); injection Q as ->; eauto|intros [n H]; exists s, n; auto].
  - exact B.
  - intros w H. apply C. auto.
Qed.

(** Numbers. *)
Lemma int_value_error : forall v, checked (py_int v) [(exists n, int_value v n,
  match v with PStr _ | PFloat S754_nan => ValueError | PFloat (S754_infinity _) => OverflowError | _ => TypeError end)].
Proof.
  intros v. apply ck_one.
  - split; intros [n H]; exists n; apply (py_int_iff HU); auto.
  - intros N. destruct (py_int v) as [n|e] eqn:Q; [elim N; exists n; apply (py_int_iff HU); auto|].
    destruct v as [|b|z|f|s|l|d]; cbn [py_int] in Q; try (injection Q as <-; auto).
    + destruct b; discriminate.
    + discriminate.
    + destruct f; cbn in Q; try discriminate; injection Q as <-; auto.
    + f_equal. eapply py_int_str_err; eauto.
Qed.
Lemma index_ck : forall v, checked (fst (adjust_input v)) (index_checks v).
Proof.
  intros v. assert (B : forall e, @checked unit (Err e) [(False, e)]).
  { intros e. apply ck_one; [|auto]. split; [intros [x H]; discriminate|contradiction]. }
  destruct v as [| | | | | |d]; cbn [adjust_input index_checks fst]; auto. unfold entry.
  destruct (dict_find (lit "previous_output_index") d) as [w|]; cbn [fst]; auto.
  apply ck_same with (r := py_int w); [| |apply int_value_error].
  - destruct (py_int w); cbn [fst]; split; (intros [? ?]); solve [discriminate|eauto].
  - intros e ->. reflexivity.
Qed.

(** Inputs. *)
Lemma find_of_perm : forall (d : dict) ks k, Permutation (map fst d) ks -> In k ks -> exists v, dict_find k d = Some v.
Proof.
  intros d ks k P I. destruct (dict_find k d) as [v|] eqn:F; eauto. apply find_none in F. elim F. eapply Permutation_in; [apply Permutation_sym; exact P|exact I].
Qed.
Lemma input_ck : forall v v', adjust_input v = (Ok tt, v') -> checked (validate_input v') (input_checks v).
Proof.
  intros v v' H. destruct v as [| | | | | |d]; try discriminate. cbn [adjust_input] in H.
  destruct (dict_find (lit "previous_output_index") d) as [w|] eqn:F; [|discriminate]. destruct (py_int w) as [n|e] eqn:W; [|discriminate].
  injection H as <-. unfold validate_input. cbn [as_dict bind input_checks]. unfold entry, dict_keys. rewrite (keys_set_present _ _ _ _ F).
  apply ck_seq.
  { apply ck_unit; [apply identical_iff|]. intros N. apply identical_err. intros P. apply N, identical_iff, P. }
  intros [] P. apply identical_iff in P.
  assert (G : forall k, k <> lit "previous_output_index" -> In k (map lit ["address"; "transaction_id"; "previous_output_index"; "bitcoin_amount"]%string) ->
    exists x, dict_find k d = Some x /\ dict_get k (dict_set (lit "previous_output_index") (PInt n) d) = Ok x).
  { intros k N I. destruct (find_of_perm d _ k P I) as [x X]. exists x. split; auto. apply get_ok. rewrite set_other; auto. }
  destruct (G (lit "address")) as (x1 & F1 & ->); [discriminate|left; reflexivity|]. destruct (G (lit "transaction_id")) as (x2 & F2 & ->); [discriminate|right; left; reflexivity|].
  destruct (G (lit "bitcoin_amount")) as (x3 & F3 & ->); [discriminate|right; right; right; left; reflexivity|]. clear G. rewrite F1, F2, F3, F. cbn [bind].
  apply ck_seq; [apply ck_address|]. intros _ _. apply ck_seq; [apply ck_txid|]. intros _ _.
  apply ck_skip with (x := PInt n); [apply get_ok, find_set_same|]. apply ck_seq.
  { apply (py_int_iff HU) in W. apply ck_unit.
    - rewrite whole_iff. split.
      + intros (z & [[Q Z0]|[[b [Q _]]|[b [Q _]]]]); try discriminate. injection Q as ->. eauto.
      + intros (w' & n' & Q & I & N0). injection Q as <-. exists n. left. split; auto. apply (py_int_iff HU) in W, I. congruence.
    - intros N. unfold validate_whole_number, validate_positive_integer in *. cbn [py_eq_int as_int] in *. destruct (n =? 0); [congruence|]. destruct (n <? 1); congruence. }
  intros _ _. apply ck_amount.
Qed.
Lemma inputs_ck : forall l l', for_each adjust_input l = (Ok tt, l') -> checked (validate_inputs (PList l')) (flat_map input_checks l).
Proof.
  intros l l' H. unfold validate_inputs. cbn [validate_list bind as_list]. apply for_each_ok in H.
  induction H as [|v v' l l' HV H IH]; cbn [iterM flat_map]; [apply ck_nil|]. apply ck_bind; [eapply input_ck; eauto|auto].
Qed.

(** Outputs. *)
Lemma output_ck : forall v, checked (fst (validate_output v)) (output_checks v).
Proof.
  intros v. assert (B : forall e, @checked unit (Err e) [(False, e)]).
  { intros e. apply ck_one; [|auto]. split; [intros [x H]; discriminate|contradiction]. }
  destruct v as [| | | | | |d]; cbn [validate_output output_checks fst]; auto. unfold entry, dict_keys.
  eapply ck_same with (r := validate_lists_are_identical (map fst d) (map lit ["address"; "bitcoin_amount"]%string) ;;;
             address <- dict_get (lit "address") d ;;
             validate_bitcoin_address address ;;;
             bitcoin_amount <- dict_get (lit "bitcoin_amount") d ;;
             validate_positive_bitcoin_amount bitcoin_amount ;;;
             s <- as_str bitcoin_amount ;;
             ensure_8_decimal_places s).
  - destruct (_ ;;; _); cbn [fst]; [split; eauto|split; intros [? ?]; discriminate].
  - intros e ->. reflexivity.
  - apply ck_seq.
    { apply ck_unit; [apply identical_iff|]. intros N. apply identical_err. intros P. apply N, identical_iff, P. }
    intros [] P. apply identical_iff in P. destruct (find_of_perm d _ (lit "address") P) as [x1 F1]; [left; reflexivity|].
    destruct (find_of_perm d _ (lit "bitcoin_amount") P) as [x2 F2]; [right; left; reflexivity|]. unfold dict_get. rewrite F1, F2. cbn [bind].
    apply ck_seq; [apply ck_address|]. intros _ _. apply ck_seq; [apply ck_amount|]. intros [] H.
    apply (positive_amount_iff HU) in H as (s & n & -> & H). cbn [as_str bind].
    destruct (ensure8_ok HU s n (proj1 H)) as (t & -> & _). apply ck_nil.
Qed.

(** The numbers of the design. *)
Definition adjust_design_res (d : dict) : res unit :=
  (match dict_find (lit "fee") d with Some (PStr s) => n <- py_int_str 10 s ;; Ok tt | _ => Ok tt end) ;;;
  (match dict_find (lit "max_fee") d with Some (PStr s) => n <- py_int_str 10 s ;; Ok tt | _ => Ok tt end).
Lemma adjust_design_fst : forall d, fst (adjust_design d) = adjust_design_res d.
Proof.
  intros d. unfold adjust_design, adjust_design_res.
  set (s1 := match dict_find (lit "fee") d with Some (PStr s) => match py_int_str 10 s with Ok n => inl (dict_set (lit "fee") (PInt n) d) | Err e => inr e end | _ => inl d end).
  assert (S1 : match s1 with
    | inl d' => match dict_find (lit "fee") d with Some (PStr s) => n <- py_int_str 10 s ;; Ok tt | _ => Ok tt end = Ok tt /\ dict_find (lit "max_fee") d' = dict_find (lit "max_fee") d
    | inr e => match dict_find (lit "fee") d with Some (PStr s) => n <- py_int_str 10 s ;; Ok tt | _ => Ok tt end = Err e end).
  { subst s1. destruct (dict_find (lit "fee") d) as [[| | | |s| |]|]; auto. destruct (py_int_str 10 s); cbn [bind]; auto. split; auto. apply set_other. discriminate. }
  destruct s1 as [d'|e]; [|rewrite S1; reflexivity]. destruct S1 as [-> S2]. cbn [bind].
  set (d2 := match dict_find (lit "fee_rate") d' with Some _ => _ | None => _ end).
  assert (S3 : dict_find (lit "max_fee") d2 = dict_find (lit "max_fee") d).
  { rewrite <- S2. subst d2. destruct (dict_find (lit "fee_rate") d') as [[| | | | | |]|]; auto; apply set_other; discriminate. }
  rewrite <- S3. destruct (dict_find (lit "max_fee") d2) as [[| | | |s| |]|]; auto. destruct (py_int_str 10 s); reflexivity.
Qed.
Lemma number_ck : forall k d, checked (match dict_find (lit k) d with Some (PStr s) => n <- py_int_str 10 s ;; Ok tt | _ => Ok tt end) [number_entry k d].
Proof.
  intros k d. unfold number_entry, entry. destruct (dict_find (lit k) d) as [[| | | |s| |]|];
    try (apply ck_one; [split; [intros _ s' Q; discriminate|eauto]|intros N; elim N; intros s' Q; discriminate]).
  apply ck_one.
  - split.
    + intros [x H] s' Q. injection Q as <-. inv_bind H n IT. apply (int_text_iff HU) in IT. eauto.
    + intros H. destruct (H s eq_refl) as [n I]. apply (int_text_iff HU) in I. rewrite I. cbn. eauto.
  - intros N. destruct (py_int_str 10 s) as [n|e] eqn:I; cbn [bind].
    + elim N. intros s' Q. injection Q as <-. exists n. apply (int_text_iff HU). auto.
    + f_equal. eapply py_int_str_err; eauto.
Qed.
Lemma adjust_ck : forall d, checked (fst (adjust_design d)) [number_entry "fee" d; number_entry "max_fee" d].
Proof. intros d. rewrite adjust_design_fst. unfold adjust_design_res. apply ck_seq; [apply number_ck|]. intros _ _. apply number_ck. Qed.

Lemma trunc_ck : forall f, checked (py_trunc f) [(f <> S754_nan, ValueError); ((forall b, f <> S754_infinity b), OverflowError)].
Proof.
  intros f. split.
  - split.
    + intros [n H]. constructor; [intros ->; discriminate|]. constructor; [intros b ->; discriminate|constructor].
    + intros H. inversion H as [|? ? H1 H2]; subst. inversion H2 as [|? ? H3 H4]; subst. cbn [fst] in *. destruct f as [b|b| |b m e]; try (cbn; eauto; fail); congruence.
  - intros e H. apply (problem_app [_] [_]) in H as [H|[_ H]]; apply problem_one in H as [N ->]; destruct f as [b|b| |b m x]; try reflexivity; elim N; try discriminate.
    all: intros; discriminate.
Qed.
Lemma float_ck : forall v, checked (py_float v) [(exists f, float_of_value v f, match v with PStr _ => ValueError | PInt _ => OverflowError | _ => TypeError end)].
Proof.
  intros v. apply ck_one.
  - split; intros [f H]; exists f; apply (py_float_iff HU); auto.
  - intros N. destruct (py_float v) as [f|e] eqn:Q; [elim N; exists f; apply (py_float_iff HU); auto|].
    destruct v as [|b|z|f|s|l|d]; cbn [py_float] in Q; try (injection Q as <-; auto); try discriminate.
    + destruct (py_float_int_small (b2z b)) as (g & G & _); [destruct b; cbn; lia|]. congruence.
    + unfold py_float_int in Q. destruct (SpecFloat.binary_normalize _ _ _ _ _); try discriminate; congruence.
    + f_equal. eapply py_float_str_err; eauto.
Qed.
Lemma whole_ck : forall v, checked (validate_whole_number v) [(exists z, whole v z, match v with PInt _ => ValueError | _ => TypeError end)].
Proof.
  intros v. apply ck_unit; [apply whole_iff|]. intros N. unfold validate_whole_number, validate_positive_integer in *.
  destruct v as [|b|z|f| | |]; cbn [py_eq_int as_int] in *; auto.
  - destruct b; cbn in N; congruence.
  - destruct (z =? 0); [congruence|]. destruct (z <? 1); congruence.
  - destruct (match float_cmp_int f 0 with Some Eq => true | _ => false end); congruence.
Qed.

(** The design. *)
Lemma adjusted_whole : forall o w, adjusted_fee o = Some (Some w) -> checked (validate_whole_number w) [(exists v z, o = Some v /\ whole_arg v z, whole_error o)].
Proof.
  intros o w H. assert (W := whole_ck w). destruct o as [v|]; [|discriminate].
  assert (S : whole_error (Some v) = match w with PInt _ => ValueError | _ => TypeError end).
  { destruct v as [| | | |s| |]; cbn [adjusted_fee] in H; try (injection H as <-; reflexivity). destruct (py_int_str 10 s); [|discriminate]. injection H as <-. reflexivity. }
  eapply ck_conv; [|exact W]. constructor; [|constructor]. split; cbn [fst snd]; [|congruence]. split.
  - intros [z Z]. destruct (max_fee_inv HU _ _ _ H Z) as (v' & Q & WA). eauto.
  - intros (v' & z & Q & WA). injection Q as <-. destruct (max_fee_ok HU _ _ WA) as (w' & Q & Z). rewrite H in Q. injection Q as <-. eauto.
Qed.
Lemma in_find : forall k (d : dict), In k (map fst d) <-> dict_find k d <> None.
Proof.
  intros k d. pose proof (find_none k d) as F. destruct (dict_find k d) as [v|].
  - split; [discriminate|]. intros _. destruct (In_dec (list_eq_dec Z.eq_dec) k (map fst d)) as [I|I]; auto. apply F in I. discriminate.
  - split; [|congruence]. intros I. elim (proj1 F eq_refl I).
Qed.
Lemma head_ck : forall d d1, adjust_design d = (Ok tt, d1) -> checked (validate_design_head d1) (design_checks d).
Proof.
  intros d d1 AD. destruct (adjust_design_inv d d1 AD) as (_ & _ & D3 & D4). unfold validate_design_head, design_checks, entry.
  set (ks := map lit ["change_address"; "max_fee"; "max_spend_percentage"; "outputs"]%string).
  assert (KS : forall k, In k ks -> (In k (dict_keys d1) <-> In k (map fst d))).
  { intros k I. unfold dict_keys. rewrite !in_find. cbn [ks map In] in I.
    destruct I as [<-|[<-|[<-|[<-|[]]]]]; try (rewrite D4 by discriminate; tauto).
    destruct (dict_find (lit "max_fee") d) as [v|]; cbn [adjusted_fee] in D3.
    - assert (dict_find (lit "max_fee") d1 <> None); [|split; congruence]. destruct v; try congruence. destruct (py_int_str 10 s); congruence.
    - injection D3 as <-. tauto. }
  apply ck_seq.
  { apply ck_unit.
    - rewrite contains_iff. split; intros H k I; apply KS; auto.
    - intros N. unfold validate_list_contains_items in *. destruct (Nat.eqb _ 0); congruence. }
  intros [] C. rewrite contains_iff in C.
  assert (G : forall k, In k ks -> exists v, dict_get k d1 = Ok v /\ dict_find k d1 = Some v).
  { intros k I. specialize (C k I). unfold dict_keys in C. apply in_find in C. unfold dict_get. destruct (dict_find k d1); [eauto|congruence]. }
  destruct (G (lit "change_address")) as (ca & -> & F1); [left; reflexivity|]. destruct (G (lit "max_fee")) as (mf & -> & F2); [right; left; reflexivity|].
  destruct (G (lit "max_spend_percentage")) as (pc & -> & F3); [right; right; left; reflexivity|]. destruct (G (lit "outputs")) as (os & -> & F4); [right; right; right; left; reflexivity|].
  clear G. cbn [bind]. rewrite D4 in F1, F3, F4 by discriminate. rewrite F2 in D3. unfold percentage, entry. rewrite F1, F3, F4.
  apply ck_seq; [apply ck_address|]. intros _ _. apply ck_seq; [apply adjusted_whole; exact D3|]. intros _ _.
  apply ck_seq.
  { eapply ck_conv; [|apply float_ck]. constructor; [|constructor]. split; cbn [fst snd]; [|reflexivity].
    split; [intros [f F]; eauto|]. intros (f & v & Q & F). injection Q as <-. eauto. }
  intros f F. apply (py_float_iff HU) in F.
  assert (U : forall g, (exists v, Some pc = Some v /\ float_of_value v g) <-> f = g).
  { intros g. split; [|intros <-; eauto]. intros (v & Q & G). injection Q as <-. apply (py_float_iff HU) in F, G. congruence. }
  match goal with |- checked _ (?c1 :: ?c2 :: ?r) => change (c1 :: c2 :: r) with ([c1; c2] ++ r) end.
  apply ck_bind.
  { eapply ck_conv; [|apply trunc_ck]. constructor; [|constructor; [|constructor]]; (split; cbn [fst snd]; [|reflexivity]).
    - rewrite U. tauto. - split; intros H b; specialize (H b); rewrite U in *; auto. }
  intros n T. apply py_trunc_iff in T.
  apply ck_seq.
  { apply ck_unit.
    - split.
      + intros H. exists f, n. split; [apply U; auto|]. split; auto. destruct (Z_le_dec 0 n), (Z_le_dec n 100); try lia; rewrite validate_integer_domain_bad in H by lia; discriminate.
      + intros (g & m & G & T' & R). apply U in G. subst g. apply py_trunc_iff in T, T'. assert (m = n) by congruence. subst m. apply validate_integer_domain_ok. auto.
    - intros N. destruct (Z_le_dec 0 n), (Z_le_dec n 100); try (apply validate_integer_domain_bad; lia). elim N. apply validate_integer_domain_ok. auto. }
  intros _ _. apply ck_one.
  - split; [intros [x H]; destruct os; try discriminate; eauto|]. intros [l Q]. injection Q as ->. cbn. eauto.
  - intros N. destruct os; try reflexivity. elim N. eauto.
Qed.

(** Fees. *)
Lemma fee_truthy : forall fo f1, adjusted_fee fo = Some f1 -> (truthy (oget f1) = false <-> no_fee fo).
Proof.
  intros fo f1 H. destruct fo as [v|]; [|injection H as <-; cbn; tauto].
  destruct v as [| | | |s| |]; cbn [adjusted_fee no_fee] in *; try (injection H as <-; cbn [oget]; apply falsy_iff).
  destruct (py_int_str 10 s) as [n|] eqn:Q; [|discriminate]. injection H as <-. cbn [oget truthy]. rewrite <- (int_text_iff HU), Q.
  rewrite negb_false_iff, Z.eqb_eq. split; [intros ->; auto|congruence].
Qed.
Lemma rate_truthy : forall ro, truthy (oget (adjusted_rate ro)) = false <-> no_rate ro.
Proof.
  intros ro. destruct ro as [v|]; [|cbn; tauto]. destruct v as [|b|z| | | |]; cbn [adjusted_rate oget no_rate as_int]; try (rewrite falsy_iff; tauto).
  - split; [destruct b; discriminate|intros [_ ?]; discriminate].
  - split; [|intros [_ ?]; discriminate]. intros T. exfalso. cbn [py_str_int] in T. destruct (int_str z) eqn:X; [|discriminate]. revert X. unfold int_str.
    destruct (Z.ltb_spec z 0); [discriminate|]. destruct (nat_text10 z ltac:(lia)) as (ds & -> & _ & Nn & _). destruct ds; [congruence|discriminate].
Qed.
Lemma fees_ck : forall fo ro f1, adjusted_fee fo = Some f1 ->
  checked (validate_fees (oget f1) (oget (adjusted_rate ro))) (fee_checks fo ro).
Proof.
  intros fo ro f1 F. pose proof (fee_truthy fo f1 F) as TF. pose proof (rate_truthy ro) as TR. unfold validate_fees, fee_checks.
  set (f := oget f1) in *. set (r := oget (adjusted_rate ro)) in *.
  assert (AF : is_none f = true <-> absent fo).
  { subst f. unfold absent. destruct fo as [v|]; [|injection F as <-; cbn; tauto]. destruct v as [| | | |s| |]; cbn [adjusted_fee] in F; try (injection F as <-; cbn; split; [auto; discriminate|intros [|]; congruence]).
    destruct (py_int_str 10 s); [|discriminate]. injection F as <-. cbn. split; [discriminate|intros [|]; discriminate]. }
  assert (AR : is_none r = true <-> absent ro).
  { subst r. unfold absent. destruct ro as [[| | | | | |]|]; cbn [adjusted_rate oget is_none]; split; auto; try discriminate; intros [|]; discriminate. }
  replace (if truthy f && truthy r || is_none f && is_none r then Err ValueError else (if truthy f then validate_whole_number f else Ok tt) ;;; (if truthy r then validate_string_is_whole_number_or_decimal r else Ok tt))
    with ((if truthy f && truthy r then Err ValueError else Ok tt) ;;; (if is_none f && is_none r then Err ValueError else Ok tt) ;;; (if truthy f then validate_whole_number f else Ok tt) ;;; (if truthy r then validate_string_is_whole_number_or_decimal r else Ok tt))
    by (destruct (truthy f && truthy r); [reflexivity|]; destruct (is_none f && is_none r); reflexivity).
  apply ck_seq.
  { apply ck_unit.
    - rewrite <- TF, <- TR. destruct (truthy f), (truthy r); cbn; intuition congruence.
    - destruct (truthy f && truthy r); congruence. }
  intros _ _. apply ck_seq.
  { apply ck_unit.
    - rewrite <- AF, <- AR. destruct (is_none f), (is_none r); cbn; intuition congruence.
    - destruct (is_none f && is_none r); congruence. }
  intros _ _. apply ck_seq.
  { destruct (truthy f) eqn:T.
    - assert (NF : ~ no_fee fo) by (rewrite <- TF; congruence).
      assert (exists w, f1 = Some w) as [w ->]. { subst f. destruct f1; [eauto|discriminate]. }
      eapply ck_conv; [|apply (adjusted_whole fo w F)]. constructor; [|constructor]. split; cbn [fst snd]; [tauto|auto].
    - apply ck_one; [|tauto]. split; [tauto|eauto]. }
  intros _ _. destruct (truthy r) eqn:T; [|apply ck_one; [|tauto]; split; [tauto|eauto]].
  assert (NR : ~ no_rate ro) by (rewrite <- TR; congruence). subst r.
  assert (SK : forall s, checked (validate_string_is_whole_number_or_decimal (PStr s)) [(Forall digit_char s \/ exists a b, s = a ++ [46] ++ b /\ a <> [] /\ b <> [] /\ Forall digit_char a /\ Forall digit_char b, ValueError)]).
  { intros s. destruct (c53_either s) as [A B]. apply ck_unit; [exact A|]. intros N. destruct B; auto. contradiction. }
  assert (BAD : forall v, (forall s, v <> PStr s) -> (forall z, v <> PInt z) -> validate_string_is_whole_number_or_decimal v = Err TypeError -> checked (validate_string_is_whole_number_or_decimal v) [(no_rate ro \/ rate_form (Some v), TypeError)]).
  { intros v N1 N2 Q. apply ck_one; [|auto]. rewrite Q. split; [intros [? ?]; discriminate|]. intros [H|[(s & H & _)|(z & H & _)]]; [tauto| |]; injection H as H; [elim (N1 _ H)|elim (N2 _ H)]. }
  destruct ro as [v|]; [|discriminate]. destruct v as [|b|z|f0|s|l|d]; cbn [adjusted_rate oget] in *; try (apply BAD; [discriminate|discriminate|reflexivity]).
  - apply ck_one.
    + split; [intros [x H]|].
      * exfalso. destruct b; vm_compute in H; discriminate.
      * intros [H|[(s & H & _)|(z & H & _)]]; [tauto| |]; discriminate.
    + intros _. destruct b; vm_compute; reflexivity.
  - cbn [py_str_int]. eapply ck_conv; [|apply SK]. constructor; [|constructor]. split; cbn [fst snd]; [|reflexivity]. destruct (c53_either (int_str z)) as [A B]. rewrite <- A. split.
    + intros H. right. right. exists z. split; auto. destruct (Z.ltb_spec z 0) as [L|L]; auto. elim (int_str_neg z L H).
    + intros [H|[(s & H & _)|(z' & H & Z0)]]; [tauto|discriminate|]. injection H as <-. destruct (int_str_rate z Z0) as (ip & RT & V & NE).
      apply (proj2 (rate_str_iff HU (int_str z) (float_of_dec false z 0) NE)). exists ip, []. split; auto. rewrite app_nil_r, V. auto.
  - eapply ck_conv; [|apply SK]. constructor; [|constructor]. split; cbn [fst snd]; [|reflexivity]. split.
    + intros H. right. left. eauto.
    + intros [H|[(s' & H & K)|(z & H & _)]]; [tauto| |discriminate]. injection H as <-. auto.
Qed.

(** Approaches. *)
Lemma in_approaches_iff : forall k l, in_approaches k l = true <-> In (PStr (lit k)) l.
Proof.
  intros k l. unfold in_approaches. rewrite existsb_exists. split.
  - intros (v & I & Q). destruct v; try discriminate. cbn [py_eq_str] in Q. apply str_eqb_eq in Q. subst. auto.
  - intros I. exists (PStr (lit k)). split; auto. cbn [py_eq_str]. apply str_eqb_refl.
Qed.
Lemma known_iff : forall v, existsb (py_eq_str v) available_approaches = true <-> exists n, v = PStr n /\ In n approach_names.
Proof.
  intros v. change available_approaches with approach_names. rewrite existsb_exists. split.
  - intros (n & I & Q). destruct v; try discriminate. cbn [py_eq_str] in Q. apply str_eqb_eq in Q. subst. eauto.
  - intros (n & -> & I). exists n. split; auto. cbn [py_eq_str]. apply str_eqb_refl.
Qed.
Lemma if_ck : forall (b : bool) (P : Prop) e, (b = false <-> P) -> @checked unit (if b then Err e else Ok tt) [(P, e)].
Proof. intros b P e H. apply ck_unit; [rewrite <- H; destruct b; split; auto; discriminate|]. destruct b; congruence. Qed.
Lemma approaches_ck : forall o, checked (validate_approaches (oget o)) (approach_checks o).
Proof.
  intros o. assert (FINE : forall r : res unit, r = Ok tt -> all_pass (approach_checks o) -> checked r (approach_checks o)).
  { intros r -> P. split; [split; eauto|]. intros e H. exfalso. revert P H. generalize (approach_checks o). clear.
    intros l P H. induction H as [P0 e l N|P0 e l e' Q H IH]; inversion P; subst; auto. }
  assert (NOLIST : (forall l, o <> Some (PList l)) -> (forall v, o = Some v -> truthy v = true -> False) -> all_pass (approach_checks o)).
  { intros N T. assert (M : forall k, ~ names k o) by (intros k (l & Q & _); elim (N l Q)).
    constructor; [intros v Q T'; elim (T v Q); apply not_false_is_true; rewrite falsy_iff; exact T'|]. constructor; [intros l v Q; elim (N l Q)|]. constructor; [intros l Q; elim (N l Q)|].
    repeat (constructor; [intros [H _]; elim (M _ H)|]). constructor. }
  unfold validate_approaches. destruct (truthy (oget o)) eqn:T; cbn [negb].
  2: { destruct o as [v|]; cbn [oget] in T; [|apply FINE; auto; apply NOLIST; discriminate].
       destruct v as [| | | | |l|]; try (apply FINE; auto; apply NOLIST; [discriminate|intros v Q T'; injection Q as <-; congruence]).
       destruct l; [|discriminate]. apply FINE; auto. assert (M : forall k, ~ names k (Some (PList []))) by (intros k (l & Q & I); injection Q as <-; destruct I).
       constructor; [intros v Q _; injection Q as <-; eauto|]. constructor; [intros l v Q I; injection Q as <-; destruct I|]. constructor; [intros l Q H; elim (M _ H)|].
       repeat (constructor; [intros [H _]; elim (M _ H)|]). constructor. }
  destruct o as [v|]; [|discriminate]. cbn [oget] in *. apply ck_seq.
  { apply ck_unit.
    - split; [intros H v' Q _; injection Q as <-; destruct v; try discriminate; eauto|]. intros H. destruct (H v eq_refl) as [l ->]; [rewrite <- falsy_iff; congruence|]. reflexivity.
    - destruct v; auto. cbn. congruence. }
  intros [] VL. destruct v as [| | | | |l|]; try discriminate. cbn [as_list bind].
  assert (NM : forall k, names k (Some (PList l)) <-> in_approaches k l = true).
  { intros k. rewrite in_approaches_iff. unfold names. split; [intros (l' & Q & I); injection Q as <-; auto|eauto]. }
  assert (TWO : forall k k', in_approaches k l && in_approaches k' l = false <-> ~ (names k (Some (PList l)) /\ names k' (Some (PList l)))).
  { intros k k'. rewrite !NM. destruct (in_approaches k l), (in_approaches k' l); cbn; intuition congruence. }
  match goal with |- checked (if ?b1 then _ else if ?b2 then _ else if ?b3 then _ else if ?b4 then _ else if ?b5 then _ else _) _ =>
    replace (if b1 then Err ValueError else if b2 then Err ValueError else if b3 then Err ValueError else if b4 then Err ValueError else if b5 then Err ValueError else Ok tt)
      with ((if b1 then Err ValueError else Ok tt) ;;; (if b2 then Err ValueError else Ok tt) ;;; (if b3 then Err ValueError else Ok tt) ;;; (if b4 then Err ValueError else Ok tt) ;;; (if b5 then Err ValueError else Ok tt))
      by (destruct b1, b2, b3, b4, b5; reflexivity) end.
  apply ck_seq.
  { apply if_ck. split.
    - intros H l' v Q I. injection Q as <-. apply known_iff. destruct (existsb (py_eq_str v) available_approaches) eqn:X; auto.
      assert (existsb (fun v => negb (existsb (py_eq_str v) available_approaches)) l = true); [|congruence]. apply existsb_exists. exists v. rewrite X. auto.
    - intros H. destruct (existsb _ l) eqn:X; auto. apply existsb_exists in X as (v & I & X). rewrite (proj2 (known_iff v)) in X; [discriminate|]. eapply H; eauto. }
  intros _ _. apply ck_seq.
  { apply if_ck. split.
    - intros H l' Q M. injection Q as <-. apply NM in M. rewrite M in H. cbn [andb] in H. apply Nat.ltb_ge in H. apply in_approaches_iff in M. destruct l as [|x [|y r]]; cbn in *; auto; [destruct M|lia].
    - intros H. destruct (in_approaches "all" l) eqn:X; auto. cbn [andb]. apply Nat.ltb_ge. rewrite (H l eq_refl); auto. apply NM. auto. }
  intros _ _. apply ck_seq; [apply if_ck, TWO|]. intros _ _. apply ck_seq; [apply if_ck, TWO|]. intros _ _. apply if_ck, TWO.
Qed.
Lemma chosen_ck : forall o, checked (validate_approaches (oget o)) (approach_checks o) -> validate_approaches (oget o) = Ok tt ->
  checked (choose_approach (default_approaches o)) (chosen_checks o).
Proof.
  intros o _ V. apply ck_one.
  - split; [intros [ap H]; exists ap; apply approaches_inv; auto|]. intros [ap H]. exists ap. apply approaches_ok. auto.
  - intros N. destruct o as [v|]; [|elim N; exists LargestFirst; left; auto].
    assert (T : truthy v = true -> exists l, v = PList l).
    { intros T. unfold validate_approaches in V. cbn [oget] in V. rewrite T in V. cbn [negb] in V. destruct v; try discriminate. eauto. }
    cbn [default_approaches]. destruct v as [| | | |s|l|d]; try reflexivity.
    + destruct s; [reflexivity|]. destruct (T eq_refl). discriminate.
    + destruct l as [|x [|y r]]; try reflexivity. cbn [choose_approach]. destruct (choose_approach (PList [x])) as [ap|e] eqn:C.
      * elim N. exists ap. right. f_equal. apply choose_inv. auto.
      * cbn [choose_approach] in C. destruct (py_eq_str x (lit "largest_first")); [discriminate|]. destruct (py_eq_str x (lit "smallest_first")); [discriminate|]. destruct (py_eq_str x (lit "all")); [discriminate|]. reflexivity.
    + destruct d; [reflexivity|]. destruct (T eq_refl). discriminate.
Qed.

(** Options. *)
Lemma options_ck : forall a, checked (validate_options a) (option_checks a).
Proof.
  intros a. unfold validate_options, option_checks. apply ck_seq.
  - apply ck_unit.
    + split.
      * intros H. unfold option_arg. destruct (ns_allow_duplicate_output_address a) as [[|b| | | | |]|]; try discriminate; eauto.
      * intros [b [[[->| ->] _]| ->]]; reflexivity.
    + destruct (ns_allow_duplicate_output_address a) as [[| | | | | |]|]; cbn; congruence.
  - intros _ _. destruct (ns_change_output_index a) as [v|].
    + assert (K : v = PNone \/ v <> PNone) by (destruct v; auto; right; discriminate). destruct K as [->|K].
      * apply ck_unit; [|congruence]. split; auto. intros _. exists PNone. left. auto.
      * replace (match v with PNone => Ok tt | _ => validate_whole_number v end) with (validate_whole_number v) by (destruct v; congruence).
        eapply ck_conv; [|apply whole_ck]. constructor; [|constructor]. split; cbn [fst snd]; [|destruct v; reflexivity].
        split; [intros [z Z]; exists v; right; split; eauto|]. intros [i [[[Q|Q] _]|[Q Z]]]; try congruence. injection Q as ->. auto.
    + apply ck_unit; [|congruence]. split; auto. intros _. exists PNone. left. auto.
Qed.

(** float(fee_rate), if there is no fee. *)
Lemma rate_ck : forall fo ro f1, adjusted_fee fo = Some f1 -> validate_fees (oget f1) (oget (adjusted_rate ro)) = Ok tt ->
  checked (if truthy (oget f1) then Ok None else r <- py_float (oget (adjusted_rate ro)) ;; Ok (Some r)) (rate_checks fo ro).
Proof.
  intros fo ro f1 F V. pose proof (fee_truthy fo f1 F) as TF. destruct (truthy (oget f1)) eqn:T.
  - apply ck_one; [|intros N; elim N; intros H; apply TF in H; discriminate]. split; [|eauto]. intros _ H. apply TF in H. discriminate.
  - assert (NF : no_fee fo) by (apply TF; auto).
    assert (IFF : forall r, py_float (oget (adjusted_rate ro)) = Ok r -> exists v r, ro = Some v /\ rate_arg v r).
    { intros r R. destruct (fees_inv HU fo ro f1 F V) as [c FA]; eauto.
      - intros Q. rewrite Q in T. discriminate.
      - destruct c as [n|r']; cbn [fee_arg] in FA.
        + exfalso. destruct FA as (N & _ & [->|(s & -> & P)]); cbn [no_fee] in NF; [apply falsy_iff in NF; cbn in NF; destruct n; try lia; discriminate|]. apply (int_text_iff HU) in P, NF. rewrite P in NF. injection NF as ->. lia.
        + destruct FA as (_ & v & -> & RA). eauto. }
    apply ck_one.
    + split.
      * intros [x H] _. inv_bind H r HR. eauto.
      * intros H. destruct (H NF) as (v & r & -> & RA). destruct (fees_ok HU fo (Some v) (FeeRate r)) as (f2 & F2 & _ & FO); [split; eauto|].
        rewrite F in F2. injection F2 as <-. destruct FO as [_ FO]. rewrite FO. cbn. eauto.
    + intros N. destruct (py_float (oget (adjusted_rate ro))) as [r|e] eqn:Q; cbn [bind].
      * elim N. intros _. eauto.
      * f_equal. destruct ro as [v|]; [|cbn in Q; congruence].
        assert (NT : truthy (oget (adjusted_rate (Some v))) = true -> exists s, oget (adjusted_rate (Some v)) = PStr s).
        { intros TT. unfold validate_fees in V. rewrite T, TT in V. cbn [andb orb] in V. destruct (is_none (oget f1) && _); [discriminate|]. cbn [bind] in V. destruct (oget (adjusted_rate (Some v))); try discriminate. eauto. }
        destruct v as [|b|z|f|s|l|d]; cbn [adjusted_rate oget py_float] in *; try congruence; try (injection Q as <-; reflexivity).
        -- exfalso. unfold validate_fees in V. rewrite T in V. destruct b; vm_compute in V; (match type of V with (if ?x then _ else _) = _ => destruct x; discriminate end).
        -- exfalso. unfold validate_fees in V. rewrite T in V. assert (Z0 : 0 <= z).
           { destruct (Z.ltb_spec z 0) as [L|L]; auto. exfalso. apply (int_str_neg z L). revert V. cbn [py_str_int].
             assert (TS : truthy (PStr (int_str z)) = true) by (unfold int_str; rewrite (proj2 (Z.ltb_lt z 0) L); reflexivity). rewrite TS. cbn [andb orb is_none]. rewrite andb_false_r. auto. }
           destruct (int_str_rate z Z0) as (ip & RT & VV & NE).
           destruct (proj2 (rate_str_iff HU (int_str z) (float_of_dec false z 0) NE)) as [_ V2]; [exists ip, []; split; auto; rewrite app_nil_r, VV; auto|].
           cbn [py_str_int] in Q. congruence.
        -- eapply py_float_str_err; eauto.
Qed.


(** The part of create_transaction that looks at the argument object. *)
Lemma ck_match : forall A B C (S : Type) (r : res A) (k : A -> res B * S) (b : S) (kk : B -> res C) cs cs',
  checked r cs -> (forall x, r = Ok x -> checked (bind (fst (k x)) kk) cs') ->
  checked (bind (fst (match r with Ok x => k x | Err e => (Err e, b) end)) kk) (cs ++ cs').
Proof.
  intros A B C S r k b kk cs cs' H K. assert (Q : bind (fst (match r with Ok x => k x | Err e => (Err e, b) end)) kk = bind r (fun x => bind (fst (k x)) kk)) by (destruct r; reflexivity).
  rewrite Q. apply ck_bind; auto.
Qed.
Lemma ck_false : forall A e, @checked A (Err e) [(False, e)].
Proof. intros A e. apply ck_one; [|auto]. split; [intros [x H]; discriminate|contradiction]. Qed.

Definition front (a : namespace) : res (prepared * approach) :=
  p <- fst (prepare a) ;; xs <- mapM make_input (p_inputs p) ;; ys <- mapM make_output (p_outputs p) ;; ap <- choose_approach (p_approaches p) ;; Ok (p, ap).

Lemma made_ck : forall v i v4, input_arg v i ->
  make_input v4 = txin_create (PStr (ia_address i)) (PStr (hex_of (ia_txid i))) (PInt (ia_index i)) (ia_value i) ->
  checked (make_input v4) [fits_4_bytes v].
Proof.
  intros v i v4 A M. assert (IX : fst (fits_4_bytes v) <-> ia_index i < 2 ^ 32).
  { destruct A as (d & vi & s & -> & _ & _ & _ & _ & _ & _ & GI & VI & _). unfold fits_4_bytes, entry. cbn [fst]. split; [eauto|].
    intros L d' w n Q F V. injection Q as <-. rewrite GI in F. injection F as <-. apply (py_int_iff HU) in V, VI. rewrite V in VI. injection VI as ->. auto. }
  assert (W : address (ia_address i) /\ bytes (ia_txid i) /\ length (ia_txid i) = 32%nat /\ 0 <= ia_index i /\ 0 <= ia_value i <= max_money).
  { destruct A as (d & vi & s & _ & _ & _ & A & _ & B & L & _ & _ & I0 & _ & AA). pose proof (amount_arg_bounds HU _ _ AA). auto. }
  apply ck_one.
  - rewrite IX, M. split.
    + intros [x H]. apply (txin_create_iff HH HZ HU) in H as (a & t & Q1 & Q2 & H). destruct H as (h & idx & s & _ & _ & _ & I1 & I2 & _). injection I1 as <-. change (2 ^ 32) with 4294967296 in *. lia.
    + intros L. destruct (make_input_exists HU i W L) as [x X]. exists x. apply (txin_create_iff HH HZ HU). eauto.
  - intros N. rewrite IX in N. rewrite M. destruct W as ((h & IA) & Bt & Lt & _). unfold txin_create.
    rewrite (validate_address_ok HH HZ h _ IA). cbn [bind].
    rewrite validate_hex_length_ok by auto. cbn [bind]. rewrite reverse_hex_order_ok by auto. cbn [bind validate_integer as_int].
    rewrite le_field_def. rewrite le_field_bad; [reflexivity|]. right. change (256 ^ Z.of_nat 4) with (2 ^ 32). lia.
Qed.

Definition outs_checks (d : dict) : list check := match entry "outputs" d with Some (PList lo) => flat_map output_checks lo | _ => [] end.
Lemma ck_match1 : forall A (S : Type) (r : res A) (k : A -> res unit * S) (b : S) cs cs',
  checked r cs -> (forall x, r = Ok x -> checked (fst (k x)) cs') ->
  checked (fst (match r with Ok x => k x | Err e => (Err e, b) end)) (cs ++ cs').
Proof.
  intros A S r k b cs cs' H K. assert (Q : fst (match r with Ok x => k x | Err e => (Err e, b) end) = bind r (fun x => fst (k x))) by (destruct r; reflexivity).
  rewrite Q. apply ck_bind; auto.
Qed.
Lemma design_ck : forall d d1, adjust_design d = (Ok tt, d1) ->
  checked (fst (validate_design d1)) (design_checks d ++ outs_checks d ++ fee_checks (entry "fee" d) (entry "fee_rate" d) ++ approach_checks (entry "input_selection_approaches" d)).
Proof.
  intros d d1 AD. destruct (adjust_design_inv d d1 AD) as (D1 & D2 & D3 & D4). unfold validate_design.
  apply ck_match1; [eapply head_ck; eauto|]. intros l HD.
  destruct (head_inv HH HZ d1 l HD) as (cha & w & z & mv & pf & n & G1 & A1 & G2 & W & G3 & P1 & T1 & N1 & G4). rewrite D4 in G4 by discriminate.
  unfold outs_checks, entry. rewrite G4.
  pose proof (for_each_fst _ validate_output l) as FF. destruct (for_each validate_output l) as [o lo'] eqn:FV. cbn [fst] in FF.
  apply ck_match1; [rewrite FF; apply ck_iter; intros v _; apply output_ck|].
  intros [] ->. cbn [fst]. unfold get_or_none. rewrite D2, (D4 (lit "input_selection_approaches")) by discriminate. apply ck_bind.
  - apply (fees_ck (dict_find (lit "fee") d) (dict_find (lit "fee_rate") d) (dict_find (lit "fee") d1)). auto.
  - intros _ _. apply (approaches_ck (dict_find (lit "input_selection_approaches") d)).
Qed.

Lemma ck_map2 : forall A B C (f : B -> res C) (c : A -> check) l l', Forall2 (fun v w => checked (f w) [c v]) l l' -> checked (mapM f l') (map c l).
Proof.
  intros A B C f c l l' H. induction H as [|v w l l' Hv H IH]; cbn [mapM map]; [apply ck_nil|]. apply ck_seq; auto. intros x _. apply ck_ret. auto.
Qed.
Lemma add_sat_all : forall A (R : A -> pyval -> Prop) (S : A -> pyval -> Prop) l l2, Forall2 R l l2 ->
  (forall v c, R v c -> exists w, add_satoshi_amount c = (Ok tt, w) /\ S v w) ->
  exists l4, for_each add_satoshi_amount l2 = (Ok tt, l4) /\ Forall2 S l l4.
Proof.
  intros A R S l l2 H K. induction H as [|v c l l2 Hv H IH]; [exists []; split; constructor|].
  destruct IH as (l4 & F & IH). destruct (K v c Hv) as (w & W & SW). exists (w :: l4). split; [|constructor; auto]. cbn [for_each]. rewrite W, F. reflexivity.
Qed.
Lemma make_all : forall l, Forall (fun w => exists o, (address (oa_address o) /\ 0 <= oa_value o <= max_money) /\ make_output w = txout_create (PStr (oa_address o)) (oa_value o)) l ->
  exists ys, mapM make_output l = Ok ys.
Proof.
  intros l H. induction H as [|w l (o & W & M) H [ys IH]]; [exists []; reflexivity|]. destruct (make_output_exists HU o W) as [y Y].
  exists (y :: ys). cbn [mapM]. rewrite M. rewrite (proj2 (txout_create_iff HH HZ HU (PStr (oa_address o)) (oa_value o) y)) by eauto. cbn [bind]. rewrite IH. reflexivity.
Qed.

Lemma front_ck : forall a, checked (front a) (argument_checks a).
Proof.
  intros a. unfold front, prepare, argument_checks.
  destruct (ns_inputs a) as [vin|] eqn:NI; [|apply ck_false].
  destruct (ns_design a) as [[| | | | | |d]|] eqn:ND; try apply ck_false.
  pose proof (adjust_ck d) as CK. destruct (adjust_design d) as [o1 d1] eqn:AD. cbn [fst] in CK.
  apply ck_match; [exact CK|]. intros [] ->.
  destruct vin as [| | | | |l|]; try apply ck_false.
  destruct (for_each adjust_input l) as [o2 l2] eqn:FE.
  assert (C2 : checked o2 (flat_map index_checks l)).
  { replace o2 with (fst (for_each adjust_input l)) by (rewrite FE; reflexivity). rewrite for_each_fst. apply ck_iter. intros v _. apply index_ck. }
  cbv zeta. rewrite app_assoc. apply ck_match.
  { apply ck_bind; auto. intros [] ->. eapply inputs_ck; eauto. }
  intros [] V2. destruct o2 as [[]|]; [|discriminate]. cbn [bind] in V2.
  destruct (adjust_design_inv d d1 AD) as (D1 & D2 & D3 & D4).
  pose proof (design_ck d d1 AD) as CD. destruct (validate_design d1) as [o3 d3] eqn:VD. cbn [fst] in CD.
  change (match entry "outputs" d with Some (PList lo) => flat_map output_checks lo | _ => [] end) with (outs_checks d).
  rewrite (app_assoc (fee_checks _ _)), (app_assoc (outs_checks d)), (app_assoc (design_checks d)).
  match goal with |- checked _ (?x ++ ?y ++ ?z ++ ?w) => rewrite (app_assoc y z w), (app_assoc x (y ++ z) w) end.
  apply ck_match.
  { apply ck_bind; [exact CD|]. intros [] ->.
    (* what is known of the design *)
    unfold validate_design in VD. destruct (validate_design_head d1) as [lv|e] eqn:HD; [|discriminate].
    destruct (for_each validate_output lv) as [ov lo'] eqn:FV. destruct ov as [[]|e]; [|discriminate]. injection VD as VD <-.
    inv_bind VD u1 VF. destruct u1.
    destruct (head_inv HH HZ d1 lv HD) as (cha & w & z & mv & pf & n & G1 & A1 & G2 & W & G3 & P1 & T1 & N1 & G4).
    assert (D5 : forall k, k <> lit "outputs" -> dict_find k (dict_set (lit "outputs") (PList lo') d1) = dict_find k d1) by (intros; apply set_other; auto).
    apply ck_bind; [apply options_ck|]. intros [] _. unfold unpack, dict_get, get_or_none. rewrite !D5 by discriminate. rewrite D2, G1, G2, G3. cbn [bind]. rewrite P1. cbn [bind].
    rewrite find_set_same. cbn [bind as_list].
    match goal with |- checked (bind (bind ?r ?k) ?kk) ?cs => eapply (ck_same _ _ r (bind (bind r k) kk) cs) end.
    - match goal with |- (exists x, ?r = Ok x) <-> _ => destruct r as [x|e] end; cbn [bind]; split; intros [y Y]; try discriminate; eauto.
    - intros e ->. reflexivity.
    - apply (rate_ck (dict_find (lit "fee") d) (dict_find (lit "fee_rate") d) (dict_find (lit "fee") d1)); auto.
      unfold get_or_none in VF. rewrite D2 in VF. exact VF. }
  intros [u lo] U. inv_bind U u3 U3. destruct u3. destruct o3 as [[]|]; [|discriminate]. clear U3.
  unfold validate_design in VD. destruct (validate_design_head d1) as [lv|e] eqn:HD; [|discriminate].
  destruct (for_each validate_output lv) as [ov lo'] eqn:FV. destruct ov as [[]|e]; [|discriminate]. injection VD as VD <-.
  inv_bind VD u1 VF. destruct u1.
  destruct (head_inv HH HZ d1 lv HD) as (cha & w & z & mv & pf & n & G1 & A1 & G2 & W & G3 & P1 & T1 & N1 & G4).
  assert (D5 : forall k, k <> lit "outputs" -> dict_find k (dict_set (lit "outputs") (PList lo') d1) = dict_find k d1) by (intros; apply set_other; auto).
  inv_bind U u4 VO. destruct u4. unfold unpack, dict_get in U. rewrite !D5 in U by discriminate. rewrite G1, G2, G3 in U. cbn [bind] in U. rewrite P1 in U. cbn [bind] in U.
  rewrite find_set_same in U. inv_bind U u5 UN. inv_bind UN rt RT. injection UN as <-. cbn [bind as_list] in U. injection U as <- <-.
  rewrite (D4 (lit "input_selection_approaches")) by discriminate.
  change (match dict_find (lit "input_selection_approaches") d with Some v => v | None => PList [PStr (lit "largest_first")] end) with (default_approaches (dict_find (lit "input_selection_approaches") d)).
  apply for_each_ok in FE, FV.
  assert (LI : exists l4, for_each add_satoshi_amount l2 = (Ok tt, l4) /\ Forall2 (fun v w => checked (make_input w) [fits_4_bytes v]) l l4).
  { unfold validate_inputs in V2. cbn [validate_list bind as_list] in V2. apply iter_ok in V2.
    apply (add_sat_all _ (fun v c => adjust_input v = (Ok tt, c) /\ validate_input c = Ok tt)).
    - clear - FE V2. induction FE; constructor; inversion V2; subst; auto.
    - intros v c [Q1 Q2]. destruct (input_steps_inv HH HZ HU v c Q1 Q2) as [i IA]. destruct (input_steps_ok HH HZ HU v i IA) as (d0 & -> & S1 & S2 & S3 & S4).
      rewrite Q1 in S1. injection S1 as ->. eexists. split; [exact S3|]. eapply made_ck; eauto. }
  assert (LO : exists l4, for_each add_satoshi_amount lo' = (Ok tt, l4) /\ Forall2 (fun v w => exists o, (address (oa_address o) /\ 0 <= oa_value o <= max_money) /\ make_output w = txout_create (PStr (oa_address o)) (oa_value o)) lv l4).
  { apply (add_sat_all _ (fun v c => validate_output v = (Ok tt, c)) _ lv lo' FV). intros v c Q1.
    destruct (output_steps_inv HH HZ HU v c Q1) as [o OA]. destruct (output_steps_ok HH HZ HU v o OA) as (d0 & s & -> & S1 & S2 & S3).
    rewrite Q1 in S1. injection S1 as ->. eexists. split; [exact S2|]. exists o. split; [|exact S3].
    destruct OA as (d' & s' & _ & _ & _ & A & _ & AA). pose proof (amount_arg_bounds HU _ _ AA). auto. }
  destruct LI as (l4 & F4 & K4), LO as (lo4 & F5 & K5). rewrite F4, F5. cbn [fst bind p_inputs p_outputs p_approaches].
  apply ck_bind; [apply ck_map2; exact K4|]. intros xs _.
  destruct (make_all lo4) as [ys Y]. { clear - K5. induction K5; constructor; auto. }
  rewrite Y. cbn [bind]. apply ck_ret. apply chosen_ck; [apply approaches_ck|]. unfold get_or_none in VD. rewrite D4 in VD by discriminate. exact VD.
Qed.

Lemma create_front : forall a e, front a = Err e -> fst (create_transaction a) = Err e.
Proof.
  intros a e H. unfold front in H. unfold create_transaction. destruct (prepare a) as [[p|x] a']; cbn [fst bind] in *; [|congruence].
  unfold build. destruct (mapM make_input (p_inputs p)) as [xs|x]; cbn [bind] in *; [|congruence].
  destruct (mapM make_output (p_outputs p)) as [ys|x]; cbn [bind] in *; [|congruence].
  destruct (choose_approach (p_approaches p)); cbn [bind] in *; congruence.
Qed.
Lemma refuse_argument : forall a e, first_problem (argument_checks a) e -> fst (create_transaction a) = Err e.
Proof. intros a e H. apply create_front. apply (proj2 (front_ck a)). auto. Qed.

(** Passing the checks is being an order. *)
Lemma asked_pass : forall a q, asked a q -> Forall (fun i => ia_index i < 2 ^ 32) (q_inputs q) -> all_pass (argument_checks a).
Proof.
  intros a q A IX. apply (proj1 (front_ck a)). destruct (prepare_ok HH HZ HU a q A) as (p & a' & P & PR & _).
  destruct (ready_made HU q (asked_wf HU _ _ A) IX) as (xs & ys & X & Y). unfold front. rewrite P. cbn [fst bind].
  rewrite (proj2 (make_inputs_iff HH HZ HU p q xs PR (asked_wf HU _ _ A)) X). cbn [bind].
  rewrite (proj2 (make_outputs_iff HH HZ HU p q ys PR) Y). cbn [bind]. destruct PR as (_ & _ & _ & _ & _ & _ & CH & _). rewrite CH. cbn. eauto.
Qed.
Lemma fee_true_prepare : forall a p a', prepare a = (Ok p, a') -> p_fee p = PBool true -> fee_is_true a.
Proof.
  intros a p a' P FB. unfold prepare in P.
  destruct (ns_inputs a) as [vin|]; [|discriminate]. destruct (ns_design a) as [[| | | | | |d]|] eqn:ND; try discriminate.
  destruct (adjust_design d) as [o1 d1] eqn:AD. destruct o1 as [[]|e]; [|discriminate].
  destruct vin as [| | | | |l|]; try discriminate. destruct (for_each adjust_input l) as [o2 l2].
  destruct (o2 ;;; validate_inputs (PList l2)) as [[]|e]; [|discriminate].
  destruct (validate_design d1) as [o3 d3] eqn:VD.
  match type of P with (match ?x with _ => _ end) = _ => destruct x as [[u lo]|e] eqn:U end; [|discriminate].
  destruct (for_each add_satoshi_amount l2) as [o4 l4]. destruct o4 as [[]|e]; [|discriminate].
  destruct (for_each add_satoshi_amount lo) as [o5 lo5]. destruct o5 as [[]|e]; [|discriminate].
  destruct u as [[[[[msp rate] fe] ca] mf] aps]. injection P as <- _. cbn in FB. subst fe.
  inv_bind U u1 U1. inv_bind U u2 U2. inv_bind U u3 U3. inv_bind U u4 U4. inv_bind U u5 U5. injection U as -> ->.
  unfold unpack in U3. inv_bind U3 v1 V1. inv_bind U3 v2 V2. inv_bind U3 v3 V3. inv_bind U3 v4 V4. inv_bind U3 v5 V5.
  assert (E1 : get_or_none (lit "fee") d3 = PBool true) by congruence.
  unfold validate_design in VD. destruct (validate_design_head d1) as [lv|e] eqn:HD; [|injection VD as VD _; destruct u1; congruence].
  destruct (for_each validate_output lv) as [ov lo'] eqn:FV. destruct ov as [[]|e]; injection VD as VD <-; [|destruct u1; congruence].
  unfold get_or_none in E1. rewrite set_other in E1 by discriminate. destruct (adjust_design_inv d d1 AD) as (D1 & _).
  exists d. split; auto. unfold entry. destruct (dict_find (lit "fee") d1) as [v|]; [|discriminate]. subst v.
  destruct (dict_find (lit "fee") d) as [[| | | |s| |]|]; cbn [adjusted_fee] in D1; try congruence. destruct (py_int_str 10 s); discriminate.
Qed.
Lemma pass_asked : forall a, all_pass (argument_checks a) -> ~ fee_is_true a ->
  exists q, asked a q /\ Forall (fun i => ia_index i < 2 ^ 32) (q_inputs q).
Proof.
  intros a H NT. apply (proj1 (front_ck a)) in H as [x H]. unfold front in H. destruct (prepare a) as [[p|e] a'] eqn:P; cbn [fst bind] in H; [|discriminate].
  inv_bind H xs X. inv_bind H ys Y. inv_bind H ap AP.
  destruct (prepare_inv HH HZ HU a p a' ap P AP) as (q & A & PR). { intros Q. apply NT. eapply fee_true_prepare; eauto. }
  exists q. split; auto. apply (make_inputs_iff HH HZ HU p q xs PR (asked_wf HU _ _ A)) in X. clear - X. induction X as [|i x l xs Hi X IH]; constructor; auto.
  destruct Hi as (h & idx & s & _ & _ & _ & I1 & I2 & _). injection I1 as <-. change (2 ^ 32) with 4294967296. lia.
Qed.

End WithEnv.
