(** C101: create_transaction's checks of its arguments with and without the texts. *)
From Coq Require Import String Floats.SpecFloat Permutation Lia.
From Verif Require Import PyBase Env PyNum Validate Basic Spec EnvOk TxInput TxOutput Tx Create FloatSpec NumSpec ValidSpec CreateSpec RefuseSpec Messages MessagesSpec Complaints ComplaintsSpec Answer BasicSays BasicSaysSpec TxSpec JsonSpec DocSays DocSaysSpec OrderSays OrderSaysSpec.
From Verif Require Import NumLemmas HexProofs Base58Proofs AddrProofs FloatProofs AmountProofs ScriptProofs WireProofs MakeProofs NumProofs PrepProofs DesignProofs BuildProofs CreateProofs RefuseProofs C_Valid C_Messages C_Complaints C_Amount C_BasicSays C_DocSays.
Open Scope Z_scope.

Section WithEnv.
Context {E : Env}.

Lemma same_read_int : forall repr v, py_int v = unsaid (int_says repr v).
Proof.
  intros repr v. destruct v as [| |z|f|s| |]; try reflexivity; cbn [py_int int_says].
  - destruct (py_trunc f); reflexivity.
  - apply same_int.
Qed.
Lemma same_read_float : forall repr v, py_float v = unsaid (float_says repr v).
Proof. intros repr v. unfold float_says. destruct (py_float v); reflexivity. Qed.
Lemma same_trunc : forall repr f, py_trunc f = unsaid (int_says repr (PFloat f)).
Proof. intros. apply (same_read_int repr (PFloat f)). Qed.
Lemma same_names_check : forall repr l l', validate_lists_are_identical l l' = outcome_of (validate_lists_are_identical_says repr l l').
Proof. intros. apply (c94_same repr PNone None PNone PNone). Qed.
Lemma same_rate : forall repr v, validate_string_is_whole_number_or_decimal v = outcome_of (rate_check repr v).
Proof. intros. unfold rate_check. apply c94_same. Qed.

(** Loops that change the elements. *)
Lemma loop_same : forall {A} (f : A -> res unit * A) (g : A -> answer A), (forall x, match g x with Gives y => f x = (Ok tt, y) | Says e _ => fst (f x) = Err e end) ->
  forall l, match all_say g l with Gives l' => for_each f l = (Ok tt, l') | Says e _ => fst (for_each f l) = Err e end.
Proof.
  intros A f g H l. induction l as [|x l IH]; [reflexivity|]. cbn [all_say for_each]. pose proof (H x) as X. destruct (g x) as [y|e t]; cbn [abind].
  - rewrite X. destruct (all_say g l) as [l'|e t]; cbn [abind].
    + now rewrite IH.
    + destruct (for_each f l) as [o s]. cbn [fst] in *. now rewrite IH.
  - destruct (f x) as [o s]. cbn [fst] in X. now rewrite X.
Qed.
Lemma loop_check : forall {A B} (f : A -> res unit) (g : A -> answer B), (forall x, match g x with Gives y => f x = Ok tt | Says e _ => f x = Err e end) ->
  forall l, match all_say g l with Gives _ => iterM f l = Ok tt | Says e _ => iterM f l = Err e end.
Proof.
  intros A B f g H l. induction l as [|x l IH]; [reflexivity|]. cbn [all_say iterM]. pose proof (H x) as X. destruct (g x) as [y|e t]; cbn [abind]; rewrite X; cbn [bind]; [|reflexivity].
  destruct (all_say g l); cbn [abind]; exact IH.
Qed.

Lemma bind_assoc : forall {A B C} (m : res A) (f : A -> res B) (g : B -> res C), bind (bind m f) g = bind m (fun x => bind (f x) g).
Proof. intros A B C [x|e] f g; reflexivity. Qed.

Lemma adjust_same : forall repr d, match adjust_says repr d with Gives d' => adjust_design d = (Ok tt, d') | Says e _ => fst (adjust_design d) = Err e end.
Proof.
  intros repr d. unfold adjust_says, adjust_design, number_says at 1.
  assert (M : forall d', match number_says repr "max_fee" d' with
    | Gives d2 => (match dict_find (lit "max_fee") d' with Some (PStr s) => match py_int_str 10 s with Ok n => (Ok tt, dict_set (lit "max_fee") (PInt n) d') | Err e => (Err e, d') end | _ => (Ok tt, d') end) = (Ok tt, d2)
    | Says e _ => fst (match dict_find (lit "max_fee") d' with Some (PStr s) => match py_int_str 10 s with Ok n => (Ok tt, dict_set (lit "max_fee") (PInt n) d') | Err e => (Err e, d') end | _ => (Ok tt, d') end) = Err e end).
  { intros d'. unfold number_says. destruct (dict_find (lit "max_fee") d') as [[| | | |s| |]|]; try reflexivity. rewrite (same_int repr). destruct (int_text repr 10 s); reflexivity. }
  destruct (dict_find (lit "fee") d) as [[| | | |s| |]|]; cbn [abind]; try apply M.
  rewrite (same_int repr). destruct (int_text repr 10 s) as [n|e t]; cbn [abind unsaid]; [apply M|reflexivity].
Qed.
Lemma index_same : forall repr v, match index_says repr v with Gives y => adjust_input v = (Ok tt, y) | Says e _ => fst (adjust_input v) = Err e end.
Proof.
  intros repr v. unfold index_says, adjust_input. destruct v as [| | | | | |d]; try reflexivity. cbn [subscript_says]. unfold item.
  destruct (dict_find (lit "previous_output_index") d) as [w|]; [|reflexivity]. cbn [abind]. rewrite (same_read_int repr). destruct (int_says repr w); reflexivity.
Qed.
Lemma input_same : forall repr v, validate_input v = unsaid (input_says repr v).
Proof.
  intros repr v. unfold validate_input, input_says. apply same_bind; [apply same_dict|]. intros d _. apply same_check; [apply same_names_check|]. intros _.
  apply same_bind; [apply same_item|]. intros v1 _. apply same_check; [apply same_validate_address|]. intros _.
  apply same_bind; [apply same_item|]. intros v2 _. apply same_check; [apply (same_length repr v2 32)|]. intros _.
  apply same_bind; [apply same_item|]. intros v3 _. apply same_check; [apply same_whole|]. intros _.
  apply same_bind; [apply same_item|]. intros v4 _. rewrite (same_positive_amount repr). destruct (validate_positive_bitcoin_amount_says repr v4) as [[e t]|]; reflexivity.
Qed.
Lemma output_same : forall repr v, match output_says repr v with Gives y => validate_output v = (Ok tt, y) | Says e _ => fst (validate_output v) = Err e end.
Proof.
  intros repr v. unfold output_says, validate_output. destruct v as [| | | | | |d]; try reflexivity. cbn [dict_says abind].
  match goal with |- match ?m with _ => _ end => set (says := m) end.
  match goal with |- context [match ?m with Ok s => (Ok tt, _) | Err e => _ end] => assert (Q : (s <- m ;; Ok (PDict (dict_set (lit "bitcoin_amount") (PStr s) d))) = unsaid says) end.
  { subst says. rewrite ?bind_assoc. apply same_check; [apply same_names_check|]. intros _. rewrite ?bind_assoc.
    apply same_bind; [apply same_item|]. intros v1 _. rewrite ?bind_assoc. apply same_check; [apply same_validate_address|]. intros _. rewrite ?bind_assoc.
    apply same_bind; [apply same_item|]. intros v2 _. rewrite ?bind_assoc. apply same_check; [apply same_positive_amount|]. intros F. apply amount_checked in F as (s & ->). cbn [as_str bind str_of].
    apply same_bind; [apply same_eight|]. intros s' _. reflexivity. }
  destruct (bind (validate_lists_are_identical _ _) _) as [s|e]; cbn [bind] in Q; destruct says; cbn [unsaid] in Q; try discriminate; [injection Q as <-; reflexivity|injection Q as <-; reflexivity].
Qed.
Lemma head_same : forall repr d, validate_design_head d = unsaid (head_says repr d).
Proof.
  intros repr d. unfold validate_design_head, head_says. apply same_check; [apply same_items|]. intros _.
  apply same_bind; [apply same_item|]. intros v1 _. apply same_bind; [apply same_item|]. intros v2 _. apply same_bind; [apply same_item|]. intros v3 _. apply same_bind; [apply same_item|]. intros v4 _.
  apply same_check; [apply same_validate_address|]. intros _. apply same_check; [apply same_whole|]. intros _. apply same_bind; [apply same_read_float|]. intros f _. apply same_bind; [apply same_trunc|]. intros n _.
  apply same_check; [apply same_domain|]. intros _. apply same_check; [apply same_list|]. intros F. pose proof (same_list repr v4) as S. rewrite F in S. destruct v4; try discriminate. reflexivity.
Qed.
Lemma fees_same : forall repr fee rate, validate_fees fee rate = unsaid (fees_says repr fee rate).
Proof.
  intros repr fee rate. unfold validate_fees, fees_says. destruct (truthy fee && truthy rate || is_none fee && is_none rate); [reflexivity|]. cbn [check].
  apply same_check; [destruct (truthy fee); [apply same_whole|reflexivity]|]. intros _. destruct (truthy rate); [|reflexivity]. rewrite (same_rate repr). destruct (rate_check repr rate) as [[e t]|]; reflexivity.
Qed.
Lemma approaches_same : forall repr v, validate_approaches v = unsaid (approaches_says repr v).
Proof.
  intros repr v. unfold validate_approaches, approaches_says. destruct (negb (truthy v)); [reflexivity|]. apply same_check; [apply same_list|]. intros F. pose proof (same_list repr v) as S. rewrite F in S. destruct v; try discriminate.
  cbn [as_list bind list_of]. cbv zeta. unfold conflict_check. destruct (existsb _ l); [reflexivity|]. destruct (in_approaches "all" l && (1 <? length l)%nat); [reflexivity|].
  destruct (in_approaches "largest_first" l && in_approaches "smallest_first" l); [reflexivity|]. destruct (in_approaches "any_address" l && in_approaches "one_address_at_a_time" l); [reflexivity|].
  destruct (in_approaches "largest_address_first" l && in_approaches "smallest_address_first" l); reflexivity.
Qed.
Lemma options_same : forall repr a, validate_options a = unsaid (options_says repr a).
Proof.
  intros repr a. unfold validate_options, options_says. apply same_check; [destruct (ns_allow_duplicate_output_address a) as [v|]; [destruct v; try reflexivity; apply same_boolean|reflexivity]|]. intros _.
  destruct (ns_change_output_index a) as [v|]; [|reflexivity].
  assert (X : forall w, validate_whole_number w = unsaid (check (whole_check repr w) (Gives tt))) by (intros w; rewrite (same_whole repr); destruct (whole_check repr w) as [[e t]|]; reflexivity). destruct v; try reflexivity; apply X.
Qed.
Lemma satoshi_same : forall repr v, match satoshi_says repr v with Gives y => add_satoshi_amount v = (Ok tt, y) | Says e _ => fst (add_satoshi_amount v) = Err e end.
Proof.
  intros repr v. unfold satoshi_says, add_satoshi_amount. destruct v as [| | | | | |d]; try reflexivity. cbn [subscript_says]. unfold dict_get, item.
  destruct (dict_find (lit "bitcoin_amount") d) as [w|]; [|reflexivity]. cbn [abind bind]. rewrite (same_bitcoin repr). destruct (bitcoin_to_satoshi_says repr w); reflexivity.
Qed.
Lemma script_same : forall repr v, address_to_script_pub_key v = unsaid (address_to_script_says repr v).
Proof. intros. unfold address_to_script_pub_key, address_to_script_says. apply same_bind; [apply same_address|]. intros h _. apply same_script. Qed.
Lemma txin_create_same : forall repr a t i n, txin_create a t i n = unsaid (txin_create_says repr a t i n).
Proof.
  intros repr a t i n. unfold txin_create, txin_create_says. apply same_check; [apply same_validate_address|]. intros F1. apply same_check; [apply (same_length repr t 32)|]. intros F2.
  apply same_bind; [apply same_reverse|]. intros x1 _. apply same_check; [apply same_integer|]. intros _. rewrite le_field_def. apply same_bind; [apply (same_le repr i 4)|]. intros x2 _.
  apply same_bind; [apply script_same|]. intros [x3 x4] _. apply same_bind; [apply same_count_read|]. intros x5 _. apply same_bind; [apply same_satoshi|]. intros x6 _.
  apply address_checked in F1 as (s1 & ->). apply (hex_length_checked repr t 32) in F2 as (b & _ & _ & ->). reflexivity.
Qed.
Lemma txout_create_same : forall repr a n, txout_create a n = unsaid (txout_create_says repr a n).
Proof.
  intros repr a n. unfold txout_create, txout_create_says. rewrite le_field_def. apply same_bind; [apply (same_le repr (PInt n) 8)|]. intros x1 _. apply same_bind; [apply script_same|]. intros [x2 x3] F. apply same_bind; [apply same_count_read|]. intros x4 _.
  apply same_bind; [apply same_satoshi|]. intros x5 _. assert (X : exists s, a = PStr s).
  { apply (address_checked repr). unfold address_to_script_says in F. unfold validate_bitcoin_address_says. destruct (bitcoin_address_to_public_key_hash_hex_says repr a); [reflexivity|discriminate]. }
  destruct X as (s & ->). reflexivity.
Qed.
Lemma choose_same : forall repr v, choose_approach v = unsaid (choose_says repr v).
Proof.
  intros repr v. destruct v as [| | | |[|c [|c' s]]|[|x [|y l]]|[|p [|q d]]]; try reflexivity. cbn [choose_approach choose_says]. destruct (py_eq_str x (lit "largest_first")); [reflexivity|]. destruct (py_eq_str x (lit "smallest_first")); [reflexivity|].
  destruct (py_eq_str x (lit "all")); reflexivity.
Qed.

End WithEnv.
