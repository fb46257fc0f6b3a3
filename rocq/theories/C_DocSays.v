(** C98: what is said of a transaction document that is refused. *)
From Coq Require Import String Floats.SpecFloat Lia.
From Verif Require Import PyBase Env PyNum Validate Basic Spec EnvOk ValidSpec TxInput TxOutput Tx TxSpec SignSpec JsonSpec Cli Messages MessagesSpec Complaints ComplaintsSpec Answer BasicSays BasicSaysSpec DocSays DocSaysSpec Demo DemoTx DemoDoc.
From Verif Require Import NumLemmas HexProofs Base58Proofs AddrProofs PrepProofs AmountProofs DesignProofs ScriptProofs WireProofs MakeProofs SignProofs JsonProofs DemoProofs C_Valid C_Messages C_Complaints C_Amount C_BasicSays.
Open Scope Z_scope.

Section WithEnv.
Context {E : Env}.

(** *** The same as without texts. *)
Lemma same_item : forall repr d k, dict_get (lit k) d = unsaid (item repr d k).
Proof. intros. unfold dict_get, item. destruct (dict_find (lit k) d); reflexivity. Qed.
Lemma same_dict : forall v, as_dict v = unsaid (dict_says v).
Proof. intros []; reflexivity. Qed.
Lemma same_items : forall l l', validate_list_contains_items l l' = outcome_of (validate_list_contains_items_says l l').
Proof. intros. apply (c94_same (fun _ => []) PNone None PNone PNone). Qed.
Lemma same_assert : forall {A} b (k : answer A) (m : res A), (b = true -> m = unsaid k) -> bind (assert_ b) (fun _ => m) = unsaid (assert_says b k).
Proof. intros A b k m H. unfold assert_says. apply same_check; [destruct b; reflexivity|]. intros Q. apply H. destruct b; [reflexivity|discriminate]. Qed.
Lemma same_reverse : forall repr v, reverse_hex_order v = unsaid (reverse_hex_order_says repr v).
Proof.
  intros repr v. unfold reverse_hex_order, reverse_hex_order_says. apply same_check; [apply same_hex|]. intros H. apply hex_checked in H as (bs & _ & ->). cbn [as_str bind str_of]. cbv zeta.
  apply same_check; [apply same_hex|reflexivity].
Qed.
Lemma same_le : forall repr v k, le_field v k = unsaid (le_field_says repr v (Z.of_nat k)).
Proof.
  intros repr v k. unfold le_field, le_field_says, int_to_hex_le, int_to_hex_le_says. apply same_bind.
  - apply same_bind; [apply same_to_hex|]. intros x _. apply same_reverse.
  - intros x _. apply same_pad_le.
Qed.
Lemma same_validate_address : forall repr v, validate_bitcoin_address v = outcome_of (validate_bitcoin_address_says repr v).
Proof. intros repr v. unfold validate_bitcoin_address, validate_bitcoin_address_says. rewrite (same_address repr v). destruct (bitcoin_address_to_public_key_hash_hex_says repr v); reflexivity. Qed.
Lemma same_script : forall repr x, public_key_hash_hex_to_script_pub_key x = unsaid (public_key_hash_hex_to_script_pub_key_says repr x).
Proof. intros repr x. unfold public_key_hash_hex_to_script_pub_key, public_key_hash_hex_to_script_pub_key_says. cbv zeta. apply same_bind; [apply same_hex_len|]. intros n _. apply same_bind; [apply same_count|]. reflexivity. Qed.
Lemma same_length_says : forall repr lv iv, (if is_none lv then Ok tt else validate_hex lv ;;; n <- var_int_to_int lv ;; assert_ (py_eq_int iv n)) = unsaid (length_says repr lv iv).
Proof.
  intros. unfold length_says. destruct (is_none lv); [reflexivity|]. apply same_check; [apply same_hex|]. intros _. apply same_bind; [apply same_count_read|]. intros n _. destruct (py_eq_int iv n); reflexivity.
Qed.
Lemma same_sig_says : forall repr lv sv, (if is_none sv then Ok tt else validate_hex sv ;;; n <- var_int_to_int lv ;; m <- hex_len sv ;; if n =? Z.of_nat m then Ok tt else Err ValueError) = unsaid (script_sig_says repr lv sv).
Proof.
  intros. unfold script_sig_says. destruct (is_none sv); [reflexivity|]. apply same_check; [apply same_hex|]. intros _. apply same_bind; [apply same_count_read|]. intros n _. apply same_bind; [apply same_hex_len|]. intros m _.
  destruct (n =? Z.of_nat m); reflexivity.
Qed.
Lemma same_spk_says : forall repr lv sv, (if is_none sv then Ok tt else validate_hex sv ;;; n <- var_int_to_int lv ;; m <- hex_len sv ;; assert_ (n =? Z.of_nat m)) = unsaid (script_pub_key_says repr lv sv).
Proof.
  intros. unfold script_pub_key_says. destruct (is_none sv); [reflexivity|]. apply same_check; [apply same_hex|]. intros _. apply same_bind; [apply same_count_read|]. intros n _. apply same_bind; [apply same_hex_len|]. intros m _.
  destruct (n =? Z.of_nat m); reflexivity.
Qed.
Lemma hex_length_checked : forall repr v n, hex_length_check repr v (Z.of_nat n) = None -> exists bs, bytes bs /\ length bs = n /\ v = PStr (hex_of bs).
Proof. intros repr v n H. pose proof (same_length repr v n) as S. rewrite H in S. apply validate_hex_length_inv in S as (bs & B & L & Q). eauto. Qed.
Lemma address_checked : forall repr v, validate_bitcoin_address_says repr v = None -> exists s, v = PStr s.
Proof.
  intros repr v H. unfold validate_bitcoin_address_says, bitcoin_address_to_public_key_hash_hex_says, base58check_to_hex_says in H. destruct (string_check repr v) as [[e t]|] eqn:S; [discriminate|]. eapply string_checked; eauto.
Qed.
Lemma amount_checked : forall repr v, validate_positive_bitcoin_amount_says repr v = None -> exists s, v = PStr s.
Proof. intros repr v H. unfold validate_positive_bitcoin_amount_says in H. destruct (string_check repr v) eqn:S; [discriminate|]. eapply string_checked; eauto. Qed.
Lemma integer_checked : forall repr v, integer_check repr v = None -> exists z, as_int v = Some z.
Proof. intros repr v H. pose proof (same_integer repr v) as S. rewrite H in S. unfold validate_integer in S. destruct (as_int v); [eauto|discriminate]. Qed.
Lemma present_hex : forall repr v (k : answer unit), (if is_none v then Gives tt else check (hex_check repr v) k) = Gives tt -> as_opt_str v = Ok (opt_str_of v).
Proof. intros repr v k H. destruct v; try reflexivity; cbn [is_none] in H; destruct (hex_check repr _) eqn:Q; try (cbn [check] in H; destruct p; discriminate H); apply hex_checked in Q as (bs & _ & Q); discriminate Q. Qed.

Lemma same_txin : forall repr v, txin_from_dict v = unsaid (txin_from_dict_says repr v).
Proof.
  intros repr v. unfold txin_from_dict, txin_from_dict_says.
  apply same_bind; [apply same_dict|]. intros d _. apply same_check; [apply same_items|]. intros _.
  apply same_bind; [apply same_item|]. intros v1 _. apply same_check; [apply (same_length repr v1 32)|]. intros F1.
  apply same_bind; [apply same_item|]. intros v2 _. apply same_check; [apply same_hex|]. intros F2.
  apply same_bind; [apply same_item|]. intros v3 _. apply same_check; [apply same_integer|]. intros F3.
  rewrite le_field_def. apply same_bind; [apply (same_le repr v3 4)|]. intros poi _. apply same_assert. intros _.
  apply same_bind; [apply same_item|]. intros v4 _. apply same_bind; [apply same_item|]. intros v5 _. apply same_bind; [apply same_length_says|]. intros [] F5.
  apply same_bind; [apply same_item|]. intros v6 _. apply same_bind; [apply same_sig_says|]. intros [] F6.
  apply same_bind; [apply same_item|]. intros v7 _. apply same_assert. intros F7.
  apply same_bind; [apply same_item|]. intros v8 _. apply same_check; [destruct (is_none v8); [reflexivity|apply (same_length repr v8 64)]|]. intros _.
  apply same_bind; [apply same_item|]. intros v9 _. apply same_bind; [apply same_item|]. intros v10 _. apply same_bind; [apply same_length_says|]. intros [] F10.
  apply same_bind; [apply same_item|]. intros v11 _. apply same_bind; [apply same_spk_says|]. intros [] F11.
  apply same_bind; [apply same_item|]. intros v12 _. apply same_check; [apply same_validate_address|]. intros F12.
  apply same_bind; [apply same_item|]. intros v13 _. apply same_bind; [apply same_reverse|]. intros poh F13. apply same_assert. intros _.
  apply same_bind; [apply same_item|]. intros v14 _. apply same_check; [apply same_integer|]. intros F14.
  apply same_bind; [apply same_item|]. intros v15 _. apply same_check; [apply same_positive_amount|]. intros F15.
  apply same_bind; [apply same_satoshi|]. intros ba _. apply same_assert. intros _.
  apply (hex_length_checked repr v1 32) in F1 as (b1 & _ & _ & ->). apply hex_checked in F2 as (b2 & _ & ->). apply eq_str_inv in F7. subst v7. apply address_checked in F12 as (s12 & ->).
  apply integer_checked in F14 as (z14 & F14). apply amount_checked in F15 as (s15 & ->). apply present_hex in F5, F6, F10, F11.
  assert (X : exists s13, v13 = PStr s13).
  { unfold reverse_hex_order_says in F13. destruct (hex_check repr v13) as [[e t]|] eqn:Q; [discriminate|]. apply hex_checked in Q as (b & _ & ->). eauto. }
  destruct X as (s13 & ->). cbn [as_str bind]. rewrite F5. cbn [bind]. rewrite F6. cbn [bind]. rewrite F10. cbn [bind]. rewrite F11. cbn [bind]. unfold int_of. rewrite F14. reflexivity.
Qed.
Lemma same_txout : forall repr v, txout_from_dict v = unsaid (txout_from_dict_says repr v).
Proof.
  intros repr v. unfold txout_from_dict, txout_from_dict_says.
  apply same_bind; [apply same_dict|]. intros d _. apply same_check; [apply same_items|]. intros _.
  apply same_bind; [apply same_item|]. intros v1 _. apply same_check; [apply same_hex|]. intros F1.
  apply same_bind; [apply same_item|]. intros v2 _. apply same_check; [apply same_hex|]. intros F2.
  apply same_bind; [apply same_item|]. intros v3 _. apply same_check; [apply same_integer|]. intros F3.
  apply same_bind; [apply same_item|]. intros v4 _. apply same_check; [apply same_hex|]. intros F4.
  apply same_bind; [apply same_item|]. intros v5 _. apply same_check; [apply same_validate_address|]. intros F5.
  apply same_bind; [apply same_item|]. intros v6 _. apply same_check; [apply same_positive_amount|]. intros F6.
  apply same_bind; [apply same_count_read|]. intros n _. apply same_assert. intros _.
  apply same_bind; [apply same_item|]. intros v7 _. apply same_bind; [apply same_satoshi|]. intros ba F7. apply same_assert. intros _.
  rewrite le_field_def. apply same_bind; [apply (same_le repr v7 8)|]. intros val _. apply same_assert. intros _.
  apply same_bind; [apply same_address|]. intros h _. apply same_bind; [apply same_script|]. intros [spk sl] _. apply same_assert. intros _. apply same_assert. intros _.
  apply hex_checked in F1 as (b1 & _ & ->), F2 as (b2 & _ & ->), F4 as (b4 & _ & ->). apply address_checked in F5 as (s5 & ->). apply amount_checked in F6 as (s6 & ->). cbn [as_str bind].
  assert (X : exists z, as_int v7 = Some z).
  { unfold satoshi_to_bitcoin_says in F7. pose proof (same_domain repr v7 0 max_amount_satoshi) as S. destruct (domain_check repr v7 0 max_amount_satoshi) as [[e t]|]; [discriminate|].
    unfold validate_integer_domain, validate_integer in S. destruct (as_int v7); [eauto|discriminate]. }
  destruct X as (z & Z0). unfold int_of. rewrite Z0. reflexivity.
Qed.
Lemma same_all : forall A B (f : A -> res B) (g : A -> answer B), (forall x, f x = unsaid (g x)) -> forall l, mapM f l = unsaid (all_say g l).
Proof.
  intros A B f g H l. induction l as [|x l IH]; [reflexivity|]. cbn [mapM all_say]. apply same_bind; [apply H|]. intros y _. apply same_bind; [apply IH|]. reflexivity.
Qed.
Lemma same_list : forall repr v, validate_list v = outcome_of (list_check repr v).
Proof. intros. apply c94_same. Qed.
Lemma same_boolean : forall repr v, validate_boolean v = outcome_of (boolean_check repr v).
Proof. intros. apply c94_same. Qed.

(** C98.  Without the texts these are the functions of C33: the same values, the same exceptions. *)
Lemma c98_same : forall repr v,
  txin_from_dict v = unsaid (txin_from_dict_says repr v) /\ txout_from_dict v = unsaid (txout_from_dict_says repr v) /\ from_dict v = unsaid (from_dict_says repr v).
Proof.
  intros repr v. split; [apply same_txin|]. split; [apply same_txout|]. unfold from_dict, from_dict_says.
  apply same_bind; [apply same_dict|]. intros d _. apply same_check; [apply same_items|]. intros _.
  apply same_bind; [apply same_item|]. intros v1 _. apply same_check; [apply same_hex|]. intros _.
  apply same_bind; [apply same_item|]. intros v2 _. apply same_check; [apply same_list|]. intros F2.
  apply same_bind; [apply same_item|]. intros v3 _. apply same_check; [apply same_list|]. intros F3.
  assert (LI : exists l, v2 = PList l) by (pose proof (same_list repr v2) as S; rewrite F2 in S; destruct v2; try discriminate; eauto). destruct LI as (li & ->).
  assert (LO : exists l, v3 = PList l) by (pose proof (same_list repr v3) as S; rewrite F3 in S; destruct v3; try discriminate; eauto). destruct LO as (lo & ->). cbn [as_list bind list_of].
  apply same_bind; [apply same_count_read|]. intros n1 _. apply same_assert. intros _.
  apply same_bind; [apply same_item|]. intros v4 _. apply same_bind; [apply same_count_read|]. intros n2 _. apply same_assert. intros _.
  apply same_bind; [apply same_all; apply same_txin|]. intros ins _. apply same_bind; [apply same_all; apply same_txout|]. intros outs _.
  apply same_bind; [apply same_item|]. intros v5 _. apply same_assert. intros _.
  apply same_bind; [apply same_item|]. intros v6 _. apply same_assert. intros _.
  apply same_bind; [apply same_item|]. intros v7 _. apply same_assert. intros _.
  apply same_bind; [apply same_item|]. intros v8 _. apply same_check; [apply same_boolean|]. intros F8. cbv zeta. apply same_assert. intros _.
  unfold tx_create. rewrite (same_count repr), (same_count repr (PInt (Z.of_nat (length outs)))).
  destruct (int_to_var_int_says repr (PInt (Z.of_nat (length ins)))) as [c1|e t]; [|reflexivity]. cbn [unsaid bind abind].
  destruct (int_to_var_int_says repr (PInt (Z.of_nat (length outs)))) as [c2|e t]; [|reflexivity]. cbn [unsaid bind abind].
  unfold assert_says. destruct v8 as [|[]| | | | |]; try reflexivity. unfold tx_signed. cbn [tx_inputs]. destruct (forallb txin_signed ins); reflexivity.
Qed.

(** *** Tests, one after the other. *)
Definition says_of {A} (a : answer A) : option (exn * pystr) := match a with Gives _ => None | Says e t => Some (e, t) end.
Definition is_test (m : option (exn * pystr)) (t : test) : Prop := forall r, m = r <-> t r.
Definition agrees {A} (a : answer A) (ts : list test) : Prop := is_test (says_of a) (first_of ts).

Lemma agrees_end : forall {A} (x : A), agrees (Gives x) [].
Proof. intros A x r. cbn [says_of]. split; [intros <-; constructor|intros H; inversion H; reflexivity]. Qed.
Lemma agrees_cons : forall {A} (a : answer A) c (t : test) ts, is_test c t -> (forall e text, c = Some (e, text) -> says_of a = Some (e, text)) -> (c = None -> agrees a ts) -> agrees a (t :: ts).
Proof.
  intros A a c t ts T S N r. split.
  - intros <-. destruct c as [[e x]|].
    + rewrite (S e x eq_refl). apply complaint. now apply T.
    + apply passed_on; [now apply T|]. now apply N.
  - intros H. inversion H as [|t0 ts0 e x F|t0 ts0 r0 F G]; subst.
    + apply T in F. now apply S.
    + apply T in F. apply (N F). exact G.
Qed.
Lemma agrees_check : forall {A} c (k : answer A) (t : test) ts, is_test c t -> (c = None -> agrees k ts) -> agrees (check c k) (t :: ts).
Proof. intros A c k t ts T N. apply (agrees_cons _ c); auto; [intros e x ->; reflexivity|intros ->; now apply N]. Qed.
Lemma agrees_bind : forall {A} (m : answer unit) (k : answer A) (t : test) ts, is_test (says_of m) t -> (m = Gives tt -> agrees k ts) -> agrees (abind m (fun _ => k)) (t :: ts).
Proof. intros A m k t ts T N. apply (agrees_cons _ (says_of m)); auto; destruct m as [[]|e x]; try discriminate; auto. Qed.
(** A computation followed by a test of its result, as one test. *)
Definition both {A} (m : answer A) (c : A -> option (exn * pystr)) : option (exn * pystr) := match m with Gives x => c x | Says e t => Some (e, t) end.
Lemma agrees_both : forall {A B} (m : answer A) c (k : A -> answer B) (t : test) ts, is_test (both m c) t -> (forall x, m = Gives x -> c x = None -> agrees (k x) ts) ->
  agrees (abind m (fun x => check (c x) (k x))) (t :: ts).
Proof.
  intros A B m c k t ts T N. apply (agrees_cons _ (both m c)); auto; destruct m as [y|e x]; cbn [both abind says_of]; try discriminate; auto.
  - intros e x Q. now rewrite Q.
  - intros Q. specialize (N y eq_refl Q). now rewrite Q.
Qed.
Lemma both_test : forall {A} (m : answer A) c (R : answer A -> Prop) P, (forall r, m = r <-> R r) -> (forall x, m = Gives x -> is_test (c x) (P x)) -> is_test (both m c) (answers R P).
Proof.
  intros A m c R P H T r. unfold both, answers. split.
  - intros <-. destruct m as [x|e t]; [right; exists x; split; [now apply H|]; now apply (T x eq_refl)|left; exists e, t; split; [now apply H|reflexivity]].
  - intros [(e & t & Q & ->)|(x & Q & F)]; apply H in Q; subst m; [reflexivity|]. now apply (T x eq_refl).
Qed.
Lemma entry_test : forall d k v m P, has d k v -> is_test m (P v) -> is_test m (entry d k P).
Proof. intros d k v m P H T r. rewrite (T r). unfold entry. split; [eauto|]. intros (v' & H' & F). unfold has in *. congruence. Qed.
Lemma asserted_test : forall (b : bool) P, (b = true <-> P) -> is_test (if b then None else Some (AssertionError, [])) (asserted P).
Proof.
  intros b P H r. unfold asserted. destruct b.
  - assert (Q : P) by now apply H. split; [intros <-; auto|intros [[_ ->]|[N _]]; tauto].
  - assert (Q : ~ P) by (intros Q; apply H in Q; discriminate). split; [intros <-; auto|intros [[N _]|[_ ->]]; tauto].
Qed.
Lemma present_test : forall v m P, is_test m (P v) -> is_test (if is_none v then None else m) (if_present P v).
Proof.
  intros v m P T r. unfold if_present. destruct v; cbn [is_none]; try (rewrite (T r); split; [intros H; right; split; [discriminate|exact H]|intros [[H _]|[_ H]]; [discriminate|exact H]]).
  split; [intros <-; auto|intros [[_ ->]|[H _]]; [reflexivity|congruence]].
Qed.
Lemma object_test : forall {A} v (k : dict -> answer A) P, (forall d, v = PDict d -> is_test (says_of (k d)) (P d)) -> is_test (says_of (abind (dict_says v) k)) (object P v).
Proof.
  intros A v k P T r. unfold object.
  assert (X : (exists d, v = PDict d) \/ (forall d, v <> PDict d) /\ dict_says v = Says AttributeError (lit "'" ++ type_name v ++ lit "' object has no attribute 'keys'")) by (destruct v; solve [eauto|right; split; [discriminate|reflexivity]]).
  destruct X as [(d & ->)|(N & ->)]; cbn [dict_says abind says_of].
  - rewrite (T d eq_refl r). split; [eauto|]. intros [(d' & Q & F)|(t & N & _)]; [injection Q as <-; exact F|exfalso; now apply (N d)].
  - destruct (type_called_total v) as (t & C & L). split.
    + intros <-. right. exists t. rewrite L. auto.
    + intros [(d & -> & _)|(t' & _ & C' & ->)]; [exfalso; now apply (N d)|]. apply type_name_iff in C'. now rewrite C'.
Qed.
Lemma item_has : forall repr d k v, has d k v -> item repr d k = Gives v.
Proof. intros repr d k v H. unfold item. now rewrite H. Qed.
Lemma missing_none : forall l' l x, missing l' l [] -> In x l -> In x l'.
Proof. intros l' l x H. remember [] as m eqn:M. induction H; intros I; [destruct I| |discriminate]. destruct I as [->|I]; auto. Qed.
Lemma in_keys : forall d k, In (lit k) (map fst d) -> exists v, has d k v.
Proof.
  intros d k. unfold has. induction d as [|[k' v] d IH]; intros I; [destruct I|]. cbn [dict_find fst map] in *. destruct (str_eqb k' (lit k)) eqn:Q; [eauto|]. destruct I as [->|I]; [now rewrite str_eqb_refl in Q|auto].
Qed.
Lemma entries_test : forall d keys, is_test (validate_list_contains_items_says (dict_keys d) (map lit keys)) (all_entries d keys).
Proof. intros d keys r. unfold all_entries. apply (proj1 c94_lists). Qed.
Lemma entries_there : forall d keys, validate_list_contains_items_says (dict_keys d) (map lit keys) = None -> forall k, In k keys -> exists v, has d k v.
Proof.
  intros d keys H k I. apply entries_test in H. destruct H as [[M _]|(m & _ & _ & Q)]; [|discriminate]. apply in_keys. eapply missing_none; [exact M|]. now apply in_map.
Qed.

(** *** Single tests. *)
Lemma hex_test : forall repr v, is_test (hex_check repr v) (a_hex repr v).
Proof. intros repr v r. unfold a_hex. apply by_finding; [|intros f g; apply hexadecimal_fun]. apply hexadecimal_report. Qed.
Lemma hex_of_test : forall repr v n, is_test (hex_length_check repr v n) (a_hex_of repr n v).
Proof.
  intros repr v n r. unfold hex_length_check, a_hex_of. rewrite c94_hex_length. split.
  - intros (k & K & x & name & kind & f & H & R). inversion K as [|t W]; subst; [congruence|]. inversion W as [|z|v0 _ Z0]; subst; [exists x, name, kind, f; auto|exfalso; now apply (Z0 n)].
  - intros (x & name & kind & f & H & R). eexists. split; [apply kind_made; constructor|]. exists x, name, kind, f. auto.
Qed.
Lemma integer_test : forall repr v, is_test (integer_check repr v) (an_integer repr v).
Proof. intros repr v r. apply c94_types. Qed.
Lemma list_test : forall repr v, is_test (list_check repr v) (a_list repr v).
Proof. intros repr v r. apply c94_types. Qed.
Lemma bool_test : forall repr v, is_test (boolean_check repr v) (a_bool repr v).
Proof. intros repr v r. apply c94_types. Qed.
Lemma address_test : HashOk E -> forall repr v, is_test (validate_bitcoin_address_says repr v) (an_address repr v).
Proof.
  intros HH repr v r. unfold an_address, answers, no_test. destruct (c95_address HH repr v) as (_ & S & N). destruct r as [[e t]|].
  - rewrite S. split; [intros H; left; eauto|intros [(e' & t' & H & Q)|(x & _ & Q)]; [injection Q as -> ->; exact H|discriminate]].
  - rewrite N. split; [intros (h & H); right; eauto|intros [(e' & t' & _ & Q)|(x & H & _)]; [discriminate|eauto]].
Qed.
Lemma amount_test : UniOk E -> forall repr v, is_test (validate_positive_bitcoin_amount_says repr v) (a_positive_amount repr v).
Proof. intros HU repr v r. apply (c95_amounts HU). Qed.

Lemma reversed_iff : forall repr v r, reverse_hex_order_says repr v = r <-> reversed repr v r.
Proof.
  intros repr v. apply by_answer.
  - destruct (hex_reported repr v) as [(f & e & t & H & T)|(_ & bs & B & ->)]; eexists; [eapply reversed_refused; exists f; split; [exact H|exact T]|now apply reversed_given].
  - intros r [bs -> B|e t H].
    + eapply unsaid_ok; [apply same_reverse|]. now apply reverse_hex_order_ok.
    + apply hex_test in H. unfold reverse_hex_order_says. now rewrite H.
Qed.
Lemma int_value_as : forall v z, int_value v z -> as_int v = Some z.
Proof. intros v z []; reflexivity. Qed.
Lemma as_int_value : forall v z, as_int v = Some z -> int_value v z.
Proof. intros v z H. destruct v as [|[]| | | | |]; try discriminate; cbn [as_int] in H; injection H as <-; constructor. Qed.
Lemma le_number_iff : forall repr n v r, (1 <= n)%nat -> le_field_says repr v (Z.of_nat n) = r <-> le_number repr n v r.
Proof.
  intros repr n v r N. revert r. apply by_answer.
  - destruct (int_to_hex_says repr v) as [x|e t] eqn:Q; apply c95_int_to_hex in Q; [|eexists; eapply le_refused; exact Q]. inversion Q as [z bs I P B M V| |]; subst.
    destruct (Z_lt_le_dec (be_val bs) (256 ^ Z.of_nat n)); eexists; [eapply le_given; eauto|eapply le_long; eauto].
  - intros r [z I B|z bs I L B M V|e t H].
    + eapply unsaid_ok; [apply same_le|]. rewrite (le_field_as_int v z n (int_value_as v z I)). now apply le_field_ok.
    + unfold le_field_says, int_to_hex_le_says. assert (P : 0 <= z) by (pose proof (Z.pow_nonneg 256 (Z.of_nat n)); lia).
      rewrite (proj2 (c95_int_to_hex repr v _) (to_hex_given repr v z bs I P B M V)). cbn [abind].
      rewrite (proj2 (reversed_iff repr (PStr (hex_of bs)) _) (reversed_given repr _ bs eq_refl B)). cbn [abind]. apply (proj2 (c95_pad_hex repr _ _ _)).
      eapply padded_long; [reflexivity|now apply bytes_rev|constructor|]. rewrite rev_length. subst z. pose proof (be_bytes_long _ _ L) as Q. rewrite be_bytes_unique in Q by auto. lia.
    + apply c95_int_to_hex in H. unfold le_field_says, int_to_hex_le_says. rewrite H. reflexivity.
Qed.
Lemma str_test : forall d k v x, has d k v -> is_test (if py_eq_str v x then None else Some (AssertionError, [])) (asserted (has d k (PStr x))).
Proof.
  intros d k v x H. apply asserted_test. split; [intros Q; apply eq_str_inv in Q; now subst|]. intros H'. unfold has in *. rewrite H in H'. injection H' as ->. apply eq_str_refl.
Qed.
Lemma is_test_eq : forall m m' t, is_test m t -> m' = m -> is_test m' t.
Proof. intros m m' t H ->. exact H. Qed.
Lemma length_test : forall repr d k lv iv, has d k iv -> is_test (says_of (length_says repr lv iv)) (if_present (a_length repr d k) lv).
Proof.
  intros repr d k lv iv H. unfold length_says.
  apply (is_test_eq (if is_none lv then None else says_of (check (hex_check repr lv) (abind (var_int_to_int_says repr lv) (fun n => assert_says (py_eq_int iv n) (Gives tt)))))); [|destruct (is_none lv); reflexivity].
  apply (present_test lv _ (a_length repr d k)). unfold a_length. apply agrees_check; [apply hex_test|]. intros _. unfold assert_says. apply agrees_both.
  - apply both_test; [apply c95_var_int|]. intros n _. apply asserted_test. split; [eauto|]. intros (iv' & H' & Q). unfold has in *. congruence.
  - intros n _ _. apply agrees_end.
Qed.
Lemma script_test : forall repr d k lv sv mismatch (c : Z -> Z -> answer unit), has d k lv ->
  (forall n m, c n m = if n =? m then Gives tt else Says (fst (mismatch n m)) (snd (mismatch n m))) ->
  is_test (says_of (if is_none sv then Gives tt else check (hex_check repr sv) (abind (var_int_to_int_says repr lv) (fun n => abind (hex_len_says repr sv) (fun m => c n (Z.of_nat m))))))
    (if_present (a_script repr d k mismatch) sv).
Proof.
  intros repr d k lv sv mismatch c H C.
  apply (is_test_eq (if is_none sv then None else says_of (check (hex_check repr sv) (abind (var_int_to_int_says repr lv) (fun n => abind (hex_len_says repr sv) (fun m => c n (Z.of_nat m))))))); [|destruct (is_none sv); reflexivity].
  apply (present_test sv _ (a_script repr d k mismatch)). unfold a_script. apply agrees_check; [apply hex_test|]. intros Q. apply hex_checked in Q as (bs & B & ->). rewrite (hex_length_says repr bs B). cbn [abind].
  apply (agrees_cons _ (both (var_int_to_int_says repr lv) (fun n => says_of (c n (Z.of_nat (length bs)))))).
  - apply (entry_test d k lv _ _ H). apply both_test; [apply c95_var_int|]. intros n _ r. rewrite C. destruct (Z.eqb_spec n (Z.of_nat (length bs))) as [Q|Q]; cbn [says_of].
    + split; [intros <-; exists bs; repeat split; auto|]. intros (bs' & B' & I & [[_ ->]|[N _]]); [reflexivity|]. injection I as I. apply hex_of_inj in I; auto. subst bs'. exfalso. apply N. unfold len. lia.
    + rewrite <- surjective_pairing. split; [intros <-; exists bs; split; [auto|]; split; [auto|]; right; split; [unfold len; lia|reflexivity]|]. intros (bs' & B' & I & [[L _]|[_ ->]]); injection I as I; apply hex_of_inj in I; auto; subst bs'; [exfalso; unfold len in L; lia|reflexivity].
  - intros e t. unfold both. destruct (var_int_to_int_says repr lv) as [n|]; cbn [abind]; auto.
  - unfold both. destruct (var_int_to_int_says repr lv) as [n|]; cbn [abind]; [|discriminate]. destruct (c n _) as [[]|]; [intros _; apply agrees_end|discriminate].
Qed.

(** *** Inputs and outputs. *)
Lemma input_agrees : HashOk E -> UniOk E -> forall repr v, is_test (says_of (txin_from_dict_says repr v)) (input_test repr v).
Proof.
  intros HH HU repr v. unfold txin_from_dict_says, input_test. apply object_test. intros d _. unfold input_tests. apply agrees_check; [apply entries_test|]. intros K. pose proof (entries_there d _ K) as T. clear K.
  assert (G : forall k, In k ["previous_output_hash"; "previous_output_index"; "previous_output_index_int"; "script_length"; "script_length_int"; "script_sig"; "sequence"; "public_key_hex";
      "script_pub_key_length"; "script_pub_key_length_int"; "script_pub_key"; "address"; "txid"; "satoshi_amount"; "bitcoin_amount"]%string -> exists v, has d k v) by exact T. clear T.
  destruct (G "previous_output_hash"%string ltac:(cbn; tauto)) as (v1 & H1). rewrite (item_has repr d _ _ H1). cbn [abind]. apply agrees_check; [apply (entry_test d _ v1 _ _ H1), hex_of_test|]. intros _.
  destruct (G "previous_output_index"%string ltac:(cbn; tauto)) as (v2 & H2). rewrite (item_has repr d _ _ H2). cbn [abind]. apply agrees_check; [apply (entry_test d _ v2 _ _ H2), hex_test|]. intros _.
  destruct (G "previous_output_index_int"%string ltac:(cbn; tauto)) as (v3 & H3). rewrite (item_has repr d _ _ H3). cbn [abind]. apply agrees_check; [apply (entry_test d _ v3 _ _ H3), integer_test|]. intros _.
  unfold assert_says at 1. apply agrees_both; [apply (entry_test d _ v3 _ _ H3); apply both_test; [intros r; apply (le_number_iff repr 4); lia|intros x _; now apply str_test]|]. intros _ _ _.
  destruct (G "script_length"%string ltac:(cbn; tauto)) as (v4 & H4). rewrite (item_has repr d _ _ H4). cbn [abind].
  destruct (G "script_length_int"%string ltac:(cbn; tauto)) as (v5 & H5). rewrite (item_has repr d _ _ H5). cbn [abind].
  apply agrees_bind; [apply (entry_test d _ v4 _ _ H4); now apply length_test|]. intros _.
  destruct (G "script_sig"%string ltac:(cbn; tauto)) as (v6 & H6). rewrite (item_has repr d _ _ H6). cbn [abind].
  apply agrees_bind.
  { apply (entry_test d _ v6 _ _ H6). unfold script_sig_says. apply (script_test repr d "script_length" v4 v6 _ (fun n m => if n =? m then Gives tt else Says ValueError (lit "Script length value (" ++ int_str n ++ lit ") != calculated hex byte length of script_sig value (" ++ int_str m ++ lit ").")) H4). reflexivity. }
  intros _. destruct (G "sequence"%string ltac:(cbn; tauto)) as (v7 & H7). rewrite (item_has repr d _ _ H7). cbn [abind]. apply agrees_check.
  { apply (entry_test d _ v7 _ _ H7). apply asserted_test. split; [apply eq_str_inv|intros ->; apply eq_str_refl]. }
  intros _. destruct (G "public_key_hex"%string ltac:(cbn; tauto)) as (v8 & H8). rewrite (item_has repr d _ _ H8). cbn [abind]. apply agrees_check; [apply (entry_test d _ v8 _ _ H8), (present_test v8 _ (a_hex_of repr 64)), hex_of_test|]. intros _.
  destruct (G "script_pub_key_length"%string ltac:(cbn; tauto)) as (v9 & H9). rewrite (item_has repr d _ _ H9). cbn [abind].
  destruct (G "script_pub_key_length_int"%string ltac:(cbn; tauto)) as (v10 & H10). rewrite (item_has repr d _ _ H10). cbn [abind].
  apply agrees_bind; [apply (entry_test d _ v9 _ _ H9); now apply length_test|]. intros _.
  destruct (G "script_pub_key"%string ltac:(cbn; tauto)) as (v11 & H11). rewrite (item_has repr d _ _ H11). cbn [abind].
  apply agrees_bind.
  { apply (entry_test d _ v11 _ _ H11). unfold script_pub_key_says. apply (script_test repr d "script_pub_key_length" v9 v11 _ (fun n m => assert_says (n =? m) (Gives tt)) H9). intros n m. unfold assert_says. destruct (n =? m); reflexivity. }
  intros _. destruct (G "address"%string ltac:(cbn; tauto)) as (v12 & H12). rewrite (item_has repr d _ _ H12). cbn [abind]. apply agrees_check; [apply (entry_test d _ v12 _ _ H12); now apply address_test|]. intros _.
  destruct (G "txid"%string ltac:(cbn; tauto)) as (v13 & H13). rewrite (item_has repr d _ _ H13). cbn [abind].
  unfold assert_says at 1. apply agrees_both; [apply (entry_test d _ v13 _ _ H13); apply both_test; [apply reversed_iff|intros x _; now apply str_test]|]. intros _ _ _.
  destruct (G "satoshi_amount"%string ltac:(cbn; tauto)) as (v14 & H14). rewrite (item_has repr d _ _ H14). cbn [abind]. apply agrees_check; [apply (entry_test d _ v14 _ _ H14), integer_test|]. intros _.
  destruct (G "bitcoin_amount"%string ltac:(cbn; tauto)) as (v15 & H15). rewrite (item_has repr d _ _ H15). cbn [abind]. apply agrees_check; [apply (entry_test d _ v15 _ _ H15); now apply amount_test|]. intros _.
  unfold assert_says at 1. apply agrees_both; [apply (entry_test d _ v14 _ _ H14); apply both_test; [intros r; now apply c95_satoshi_to_bitcoin|intros x _; now apply str_test]|]. intros _ _ _.
  apply agrees_end.
Qed.
Lemma output_agrees : HashOk E -> ZeroAddressOk E -> UniOk E -> forall repr v, is_test (says_of (txout_from_dict_says repr v)) (output_test repr v).
Proof.
  intros HH HZ HU repr v. unfold txout_from_dict_says, output_test. apply object_test. intros d _. unfold output_tests. apply agrees_check; [apply entries_test|]. intros K. pose proof (entries_there d _ K) as T. clear K.
  assert (G : forall k, In k ["value"; "script_length"; "script_length_int"; "script_pub_key"; "address"; "satoshi_amount"; "bitcoin_amount"]%string -> exists v, has d k v) by exact T. clear T.
  destruct (G "value"%string ltac:(cbn; tauto)) as (v1 & H1). rewrite (item_has repr d _ _ H1). cbn [abind]. apply agrees_check; [apply (entry_test d _ v1 _ _ H1), hex_test|]. intros _.
  destruct (G "script_length"%string ltac:(cbn; tauto)) as (v2 & H2). rewrite (item_has repr d _ _ H2). cbn [abind]. apply agrees_check; [apply (entry_test d _ v2 _ _ H2), hex_test|]. intros _.
  destruct (G "script_length_int"%string ltac:(cbn; tauto)) as (v3 & H3). rewrite (item_has repr d _ _ H3). cbn [abind]. apply agrees_check; [apply (entry_test d _ v3 _ _ H3), integer_test|]. intros F3.
  destruct (G "script_pub_key"%string ltac:(cbn; tauto)) as (v4 & H4). rewrite (item_has repr d _ _ H4). cbn [abind]. apply agrees_check; [apply (entry_test d _ v4 _ _ H4), hex_test|]. intros _.
  destruct (G "address"%string ltac:(cbn; tauto)) as (v5 & H5). rewrite (item_has repr d _ _ H5). cbn [abind]. apply agrees_check; [apply (entry_test d _ v5 _ _ H5); now apply address_test|]. intros F5.
  destruct (G "bitcoin_amount"%string ltac:(cbn; tauto)) as (v6 & H6). rewrite (item_has repr d _ _ H6). cbn [abind]. apply agrees_check; [apply (entry_test d _ v6 _ _ H6); now apply amount_test|]. intros _.
  unfold assert_says at 1. apply agrees_both.
  { apply (entry_test d _ v2 _ _ H2). apply both_test; [apply c95_var_int|]. intros n _. apply asserted_test. apply integer_checked in F3 as (z & F3). rewrite (eq_int_int v3 n z F3). split.
    - intros <-. exists v3. split; [exact H3|now apply as_int_value].
    - intros (iv & HI & I). unfold has in *. rewrite H3 in HI. injection HI as <-. apply int_value_as in I. congruence. }
  intros _ _ _. destruct (G "satoshi_amount"%string ltac:(cbn; tauto)) as (v7 & H7). rewrite (item_has repr d _ _ H7). cbn [abind].
  unfold assert_says at 1. apply agrees_both; [apply (entry_test d _ v7 _ _ H7); apply both_test; [intros r; now apply c95_satoshi_to_bitcoin|intros x _; now apply str_test]|]. intros _ _ _.
  unfold assert_says at 1. apply agrees_both; [apply (entry_test d _ v7 _ _ H7); apply both_test; [intros r; apply (le_number_iff repr 8); lia|intros x _; now apply str_test]|]. intros _ _ _.
  assert (A : exists h a, v5 = PStr a /\ is_address h a). { apply (validate_address_inv HH HZ). rewrite (same_validate_address repr), F5. reflexivity. } destruct A as (h & a & -> & IA).
  rewrite (unsaid_ok _ _ _ (same_address repr (PStr a)) (address_hash_ok HH HZ h a IA)). cbn [abind].
  rewrite (unsaid_ok _ _ _ (same_script repr (hex_of h)) (hash_to_script20 h (proj1 IA) (proj1 (proj2 IA)))). cbn [abind].
  unfold assert_says at 1. apply agrees_check.
  { apply asserted_test. split.
    - intros Q. apply eq_str_inv in Q. subst v4. exists a, h. auto.
    - intros (a' & h' & HA & IA' & HS). unfold has in *. rewrite H5 in HA. injection HA as <-. rewrite H4 in HS. injection HS as ->.
      pose proof (address_hash_ok HH HZ h a IA) as X. rewrite (address_hash_ok HH HZ h' a IA') in X. assert (X' : hex_of h' = hex_of h) by congruence. apply hex_of_inj in X'; [|apply IA'|apply IA]. subst h'. apply eq_str_refl. }
  intros _. unfold assert_says. apply agrees_check; [now apply str_test|]. intros _. apply agrees_end.
Qed.

(** *** Transactions. *)
Lemma each_test : forall {B} (f : pyval -> answer B) P l, (forall x, is_test (says_of (f x)) (P x)) -> is_test (says_of (all_say f l)) (each P (PList l)).
Proof.
  intros B f P l T r. unfold each. transitivity (Forall (fun x => P x None) l /\ r = None \/ exists pre x post e text, l = pre ++ x :: post /\ Forall (fun x => P x None) pre /\ P x (Some (e, text)) /\ r = Some (e, text)).
  2: { split; [eauto|]. intros (l' & Q & H). injection Q as <-. exact H. }
  induction l as [|x l IH]; cbn [all_say says_of].
  - split; [intros <-; left; auto|]. intros [[_ ->]|(pre & x & post & e & t & Q & _)]; [reflexivity|]. destruct pre; discriminate Q.
  - pose proof (T x) as TX. destruct (f x) as [y|e t]; cbn [abind says_of] in *.
    + transitivity (says_of (all_say f l) = r); [destruct (all_say f l); reflexivity|]. rewrite IH. assert (N : P x None) by now apply TX. split.
      * intros [[F ->]|(pre & z & post & e & t & -> & F & Z & ->)]; [left; auto|right]. exists (x :: pre), z, post, e, t. repeat split; auto.
      * intros [[F ->]|(pre & z & post & e & t & Q & F & Z & ->)]; [left; inversion F; auto|]. destruct pre as [|x' pre]; injection Q as <- ->; [apply TX in Z; discriminate|]. right. exists pre, z, post, e, t. inversion F; auto.
    + split.
      * intros <-. right. exists [], x, l, e, t. repeat split; auto. now apply TX.
      * intros [[F ->]|(pre & z & post & e' & t' & Q & F & Z & ->)]; [inversion F as [|? ? N]; apply TX in N; discriminate|]. destruct pre as [|x' pre]; injection Q as <- ->; [apply TX in Z; congruence|]. inversion F as [|? ? N]; apply TX in N; discriminate.
Qed.
Lemma has_fun : forall d k v v', has d k v -> has d k v' -> v = v'.
Proof. unfold has. congruence. Qed.
Lemma worth_fun : forall l ns ns', worth l ns -> worth l ns' -> ns = ns'.
Proof.
  unfold worth. intros l ns ns' H. revert ns'. induction H as [|v n l ns (d & -> & G) H IH]; intros ns' H'; inversion H' as [|? n' ? ns0 (d' & Q & G') H0]; subst; [reflexivity|]. injection Q as <-.
  pose proof (has_fun _ _ _ _ G G') as X. injection X as <-. f_equal. now apply IH.
Qed.
Lemma worth_inputs : forall l xs, Forall2 json_input l xs -> worth l (map ti_sat xs).
Proof.
  unfold worth. intros l xs H. induction H as [|v x l xs J H IH]; cbn [map]; constructor; auto. destruct J as (d & txid & iv & idx & n & bt & pk & lv1 & iv1 & sv1 & l1 & s1 & lv2 & iv2 & sv2 & l2 & s2 & a & h & -> & J).
  exists d. split; [reflexivity|]. decompose [and] J. subst x. cbn [ti_sat ti_satoshi_amount]. assumption.
Qed.
Lemma worth_outputs : forall l ys, Forall2 json_output l ys -> worth l (map to_satoshi_amount ys).
Proof.
  unfold worth. intros l ys H. induction H as [|v y l ys J H IH]; cbn [map]; constructor; auto. destruct J as (d & iv & n & bt & a & h & -> & J). exists d. split; [reflexivity|]. decompose [and] J. subst y. cbn [to_satoshi_amount]. assumption.
Qed.
Lemma signed_inputs : forall l xs, Forall2 json_input l xs -> (forallb txin_signed xs = true <-> Forall (fun v => exists d', v = PDict d' /\ ~ has d' "script_length" PNone /\ ~ has d' "script_sig" PNone) l).
Proof.
  intros l xs H. induction H as [|v x l xs J H IH]; cbn [forallb]; [split; auto|]. rewrite andb_true_iff, IH. clear IH.
  destruct J as (d & txid & iv & idx & n & bt & pk & lv1 & iv1 & sv1 & l1 & s1 & lv2 & iv2 & sv2 & l2 & s2 & a & h & -> & J). decompose [and] J. clear J. subst x. unfold txin_signed. cbn [ti_script_length ti_script_sig].
  assert (X : match l1, s1 with Some _, Some _ => true | _, _ => false end = true <-> ~ has d "script_length" PNone /\ ~ has d "script_sig" PNone).
  { match goal with H : json_script lv1 iv1 sv1 l1 s1 |- _ => destruct H as [(-> & -> & -> & ->)|(m & _ & -> & -> & _ & [(-> & ->)|(bs & _ & _ & -> & ->)])] end.
    - split; [discriminate|]. intros [N _]. exfalso. now apply N.
    - split; [discriminate|]. intros [_ N]. exfalso. now apply N.
    - split; [intros _|reflexivity]. split; intros Q.
      + match goal with G : has d "script_length" (PStr _) |- _ => pose proof (has_fun _ _ _ _ G Q); discriminate end.
      + match goal with G : has d "script_sig" (PStr _) |- _ => pose proof (has_fun _ _ _ _ G Q); discriminate end. }
  rewrite X. split.
  - intros [P F]. constructor; [exists d; auto|exact F].
  - intros F. inversion F as [|? ? (d' & Q & P) F']; subst. injection Q as <-. auto.
Qed.
Lemma all_inputs : HashOk E -> ZeroAddressOk E -> UniOk E -> forall repr l xs, all_say (txin_from_dict_says repr) l = Gives xs -> Forall2 json_input l xs.
Proof. intros HH HZ HU repr l xs H. apply (mapM_F2 _ _ txin_from_dict json_input (txin_from_dict_iff HH HZ HU)). rewrite (same_all _ _ _ _ (same_txin repr)), H. reflexivity. Qed.
Lemma all_outputs : HashOk E -> ZeroAddressOk E -> UniOk E -> forall repr l ys, all_say (txout_from_dict_says repr) l = Gives ys -> Forall2 json_output l ys.
Proof. intros HH HZ HU repr l ys H. apply (mapM_F2 _ _ txout_from_dict json_output (txout_from_dict_iff HH HZ HU)). rewrite (same_all _ _ _ _ (same_txout repr)), H. reflexivity. Qed.
Lemma agrees_all : forall {A B} (m : answer A) (k : A -> answer B) (t : test) ts, is_test (says_of m) t -> (forall x, m = Gives x -> agrees (k x) ts) -> agrees (abind m k) (t :: ts).
Proof.
  intros A B m k t ts T N. apply (agrees_cons _ (says_of m)); [exact T| |]; destruct m as [x|e t0]; try discriminate; cbn [abind says_of]; auto.
Qed.
Lemma document_agrees : HashOk E -> ZeroAddressOk E -> UniOk E -> forall repr v, is_test (says_of (from_dict_says repr v)) (document_test repr v).
Proof.
  intros HH HZ HU repr v. unfold from_dict_says, document_test. apply object_test. intros d _. unfold document_tests. apply agrees_check; [apply entries_test|]. intros K. pose proof (entries_there d _ K) as T. clear K.
  assert (G : forall k, In k ["version"; "input_count"; "inputs"; "output_count"; "outputs"; "block_lock_time"; "hash_type_4_byte"; "hash_type_1_byte"; "signed"]%string -> exists v, has d k v) by exact T. clear T.
  destruct (G "input_count"%string ltac:(cbn; tauto)) as (v1 & H1). rewrite (item_has repr d _ _ H1). cbn [abind]. apply agrees_check; [apply (entry_test d _ v1 _ _ H1), hex_test|]. intros _.
  destruct (G "inputs"%string ltac:(cbn; tauto)) as (v2 & H2). rewrite (item_has repr d _ _ H2). cbn [abind]. apply agrees_check; [apply (entry_test d _ v2 _ _ H2), list_test|]. intros F2.
  destruct (G "outputs"%string ltac:(cbn; tauto)) as (v3 & H3). rewrite (item_has repr d _ _ H3). cbn [abind]. apply agrees_check; [apply (entry_test d _ v3 _ _ H3), list_test|]. intros F3.
  assert (LI : exists l, v2 = PList l) by (pose proof (same_list repr v2) as S; rewrite F2 in S; destruct v2; try discriminate; eauto). destruct LI as (li & ->).
  assert (LO : exists l, v3 = PList l) by (pose proof (same_list repr v3) as S; rewrite F3 in S; destruct v3; try discriminate; eauto). destruct LO as (lo & ->). cbn [list_of]. clear F2 F3.
  assert (C : forall k v l n, has d k (PList l) -> var_int_to_int_says repr v = Gives n -> is_test (if n =? Z.of_nat (length l) then None else Some (AssertionError, [])) (asserted (exists l, has d k (PList l) /\ Z.of_nat (length l) = n))).
  { intros k w l n H _. apply asserted_test. rewrite Z.eqb_eq. split; [eauto|]. intros (l' & H' & Q). pose proof (has_fun _ _ _ _ H H') as X. injection X as <-. auto. }
  unfold assert_says at 1. apply agrees_both; [apply (entry_test d _ v1 _ _ H1); apply both_test; [apply c95_var_int|intros n Q; eapply C; eauto]|]. intros n1 Q1 L1.
  destruct (G "output_count"%string ltac:(cbn; tauto)) as (v4 & H4). rewrite (item_has repr d _ _ H4). cbn [abind].
  unfold assert_says at 1. apply agrees_both; [apply (entry_test d _ v4 _ _ H4); apply both_test; [apply c95_var_int|intros n Q; eapply C; eauto]|]. intros n2 Q2 L2.
  apply agrees_all; [apply (entry_test d _ _ _ _ H2), each_test; intros x; now apply input_agrees|]. intros ins AI.
  apply agrees_all; [apply (entry_test d _ _ _ _ H3), each_test; intros x; now apply output_agrees|]. intros outs AO. apply all_inputs in AI; auto. apply all_outputs in AO; auto.
  destruct (G "block_lock_time"%string ltac:(cbn; tauto)) as (v5 & H5). rewrite (item_has repr d _ _ H5). cbn [abind]. apply agrees_check; [apply (entry_test d _ v5 _ _ H5), asserted_test; split; [apply eq_str_inv|intros ->; apply eq_str_refl]|]. intros _.
  destruct (G "hash_type_4_byte"%string ltac:(cbn; tauto)) as (v6 & H6). rewrite (item_has repr d _ _ H6). cbn [abind]. apply agrees_check; [apply (entry_test d _ v6 _ _ H6), asserted_test; split; [apply eq_str_inv|intros ->; apply eq_str_refl]|]. intros _.
  destruct (G "hash_type_1_byte"%string ltac:(cbn; tauto)) as (v7 & H7). rewrite (item_has repr d _ _ H7). cbn [abind]. apply agrees_check; [apply (entry_test d _ v7 _ _ H7), asserted_test; split; [apply eq_str_inv|intros ->; apply eq_str_refl]|]. intros _.
  destruct (G "signed"%string ltac:(cbn; tauto)) as (v8 & H8). rewrite (item_has repr d _ _ H8). cbn [abind]. apply agrees_check; [apply (entry_test d _ v8 _ _ H8), bool_test|]. intros _.
  apply agrees_check.
  { apply asserted_test. rewrite Z.leb_le. split.
    - intros L. exists li, lo, (map ti_sat ins), (map to_satoshi_amount outs). split; [auto|]. split; [auto|]. split; [now apply worth_inputs|]. split; [now apply worth_outputs|exact L].
    - intros (vi & vo & wi & wo & HI & HO & WI & WO & L). pose proof (has_fun _ _ _ _ H2 HI) as X. injection X as <-. pose proof (has_fun _ _ _ _ H3 HO) as X. injection X as <-.
      rewrite (worth_fun _ _ _ WI (worth_inputs _ _ AI)), (worth_fun _ _ _ WO (worth_outputs _ _ AO)) in L. exact L. }
  intros _. assert (CW : forall A B (v : pyval) n (l : list A) (l' : list B), var_int_to_int_says repr v = Gives n -> (if n =? Z.of_nat (length l) then None else Some (AssertionError, [])) = @None (exn * pystr) -> length l = length l' ->
    int_to_var_int_says repr (PInt (Z.of_nat (length l'))) = Gives (hex_of [n])).
  { intros A B w n l l' Q L LL. apply c95_var_int in Q. inversion Q as [m R W| |]; subst m. destruct (Z.eqb_spec n (Z.of_nat (length l))); [|discriminate]. rewrite <- LL. apply (proj1 (c95_var_int repr _)). rewrite <- e. apply count_given; [constructor|exact R]. }
  rewrite (CW _ _ v1 n1 li ins Q1 L1 (F2_len _ _ _ _ _ AI)). cbn [abind]. rewrite (CW _ _ v4 n2 lo outs Q2 L2 (F2_len _ _ _ _ _ AO)). cbn [abind]. cbv zeta.
  apply agrees_check; [|intros _; apply agrees_end]. apply asserted_test. unfold tx_signed. cbn [tx_inputs].
  assert (S : forallb txin_signed ins = true <-> exists vi, has d "inputs" (PList vi) /\ Forall (fun v => exists d', v = PDict d' /\ ~ has d' "script_length" PNone /\ ~ has d' "script_sig" PNone) vi).
  { rewrite (signed_inputs _ _ AI). split; [eauto|]. intros (vi & HI & F). pose proof (has_fun _ _ _ _ H2 HI) as X. injection X as <-. exact F. }
  assert (X : v8 = PBool true \/ v8 <> PBool true) by (destruct v8 as [|[]| | | | |]; auto; right; discriminate). destruct X as [->|N].
  - rewrite S. tauto.
  - split; [intros _ H; exfalso; apply N; eapply has_fun; eauto|intros _]. destruct v8 as [|[]| | | | |]; solve [auto|congruence].
Qed.
Lemma said : forall {A} (a : answer A) (t : test), is_test (says_of a) t -> (forall e text, a = Says e text <-> t (Some (e, text))) /\ ((exists x, a = Gives x) <-> t None).
Proof.
  intros A a t T. split.
  - intros e x. rewrite <- (T (Some (e, x))). destruct a; cbn [says_of]; split; congruence.
  - rewrite <- (T None). destruct a; cbn [says_of]; split; try discriminate; eauto; intros (y & Q); discriminate.
Qed.

(** C98.  An input is refused with the complaint of the first test that it does not pass; it is accepted if it passes all. *)
Lemma c98_input : HashOk E -> UniOk E -> forall repr v,
  (forall e text, txin_from_dict_says repr v = Says e text <-> input_test repr v (Some (e, text))) /\ ((exists x, txin_from_dict_says repr v = Gives x) <-> input_test repr v None).
Proof. intros. apply said. now apply input_agrees. Qed.
(** C98.  So is an output. *)
Lemma c98_output : HashOk E -> ZeroAddressOk E -> UniOk E -> forall repr v,
  (forall e text, txout_from_dict_says repr v = Says e text <-> output_test repr v (Some (e, text))) /\ ((exists y, txout_from_dict_says repr v = Gives y) <-> output_test repr v None).
Proof. intros. apply said. now apply output_agrees. Qed.
(** C98.  So is a transaction; its inputs are tested before its outputs, both before the rest of the document. *)
Lemma c98_document : HashOk E -> ZeroAddressOk E -> UniOk E -> forall repr v,
  (forall e text, from_dict_says repr v = Says e text <-> document_test repr v (Some (e, text))) /\ ((exists t, from_dict_says repr v = Gives t) <-> document_test repr v None).
Proof. intros. apply said. now apply document_agrees. Qed.
(** C98.  A text is refused by from_json with the exception of json.loads, or with that of the first failed test of the document. *)
Lemma c98_json : HashOk E -> ZeroAddressOk E -> UniOk E -> forall repr s e,
  from_json s = Err e <-> json_loads s = Err e \/ exists v text, json_loads s = Ok v /\ document_test repr v (Some (e, text)).
Proof.
  intros HH HZ HU repr s e. unfold from_json. destruct (json_loads s) as [v|e'] eqn:J; cbn [bind].
  - rewrite (proj2 (proj2 (c98_same repr v))). split.
    + intros H. right. destruct (from_dict_says repr v) as [t|e' text] eqn:Q; [discriminate|]. injection H as ->. exists v, text. split; [reflexivity|]. now apply (c98_document HH HZ HU).
    + intros [H|(v' & text & H & D)]; [discriminate|]. injection H as <-. apply (c98_document HH HZ HU) in D. rewrite D. reflexivity.
  - split; [left; congruence|intros [H|(v' & text & H & _)]; congruence].
Qed.

End WithEnv.

Example ex98_says :
  @from_dict_says demo_env plain_repr (PList []) = Says AttributeError (lit "'list' object has no attribute 'keys'") /\
  @from_dict_says demo_env plain_repr (PDict [(lit "version", PInt 1)]) = Says ValueError (listing "Some items are not in the list." [] ++ [10] ++ listing "List items:" [lit "version"] ++ [10] ++ listing "Items not found:"
    (map lit ["input_count"; "inputs"; "output_count"; "outputs"; "block_lock_time"; "hash_type_4_byte"; "hash_type_1_byte"; "signed"]%string)) /\
  @txin_from_dict_says demo_env plain_repr (with_entry "script_sig" (PStr (lit "00ff")) demo_input) = Says ValueError (lit "Script length value (139) != calculated hex byte length of script_sig value (2).") /\
  @txin_from_dict_says demo_env plain_repr (with_entry "previous_output_index_int" (PInt 4294967296) demo_input) =
    Says ValueError (lit "Hex value is already longer than desired padded length. Hex value: 0000000001") /\
  @txin_from_dict_says demo_env plain_repr (with_entry "sequence" (PStr (lit "fffffffe")) demo_input) = Says AssertionError [].
Proof. vm_compute. repeat split. Qed.
Example ex98_met : HashOk demo_env /\ ZeroAddressOk demo_env /\ UniOk demo_env /\
  @input_test demo_env plain_repr (with_entry "sequence" (PStr (lit "fffffffe")) demo_input) (Some (AssertionError, [])) /\
  @output_test demo_env plain_repr demo_output None.
Proof.
  split; [apply demo_hash|]. split; [apply demo_zero_address|]. split; [apply demo_uni|]. split.
  - apply (c98_input demo_hash demo_uni). vm_compute. reflexivity.
  - apply (c98_output demo_hash demo_zero_address demo_uni). eexists. vm_compute. reflexivity.
Qed.
