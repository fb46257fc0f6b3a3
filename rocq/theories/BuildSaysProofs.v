(** create_answer (BuildSays.v) raises what create_transaction raises. *)
From Coq Require Import String Floats.SpecFloat Lia.
From Verif Require Import PyBase Env PyNum Validate Basic Messages Complaints Answer BasicSays DocSays TxInput TxOutput Tx Create Report OrderSays OrderSaysSpec BuildSays EnvOk.
From Verif Require Import NumLemmas ScriptProofs WireProofs MakeProofs C_BasicSays C_DocSays OrderSaysProofs C_OrderSays.
Open Scope Z_scope.

Section WithEnv.
Context {E : Env}.

Lemma same_div : forall x y, fdiv x y = unsaid (div_says x y).
Proof. intros. unfold div_says. destruct (fdiv x y); reflexivity. Qed.
Lemma same_ceil : forall f, py_ceil f = unsaid (ceil_says f).
Proof. intros. unfold ceil_says. destruct (py_ceil f); reflexivity. Qed.
Lemma same_float_int : forall repr n, py_float_int n = unsaid (float_says repr (PInt n)).
Proof. intros. exact (same_read_float repr (PInt n)). Qed.
Lemma sums_same : forall repr m, report_sums m = unsaid (sums_say repr m).
Proof.
  intros repr. unfold report_sums. induction m as [|[k v] m IH]; [reflexivity|]. cbn [iterM sums_say snd]. rewrite IH. rewrite (same_satoshi repr).
  destruct (satoshi_to_bitcoin_says repr (PInt v)); reflexivity.
Qed.
Lemma duplicates_same : forall allow outs l, check_duplicates allow outs l = unsaid (duplicates_say allow outs l).
Proof.
  intros allow outs. unfold check_duplicates. induction l as [|a l IH]; [reflexivity|]. cbn [iterM duplicates_say]. cbv zeta. rewrite IH. destruct (Nat.ltb 1 _ && negb allow); reflexivity.
Qed.
Lemma estimate_same : forall repr n m, estimate_transaction_size n m = unsaid (estimate_says repr n m).
Proof.
  intros. unfold estimate_transaction_size, estimate_says. apply same_bind; [apply same_count|]. intros ic _. apply same_bind; [apply same_hex_len|]. intros b1 _. cbv zeta.
  apply same_bind; [apply same_count|]. intros oc _. apply same_bind; [apply same_hex_len|]. reflexivity.
Qed.
Lemma final_fee_same : forall repr fee rate size, compute_fee fee rate size = unsaid (final_fee_says repr fee rate size).
Proof.
  intros. destruct rate as [r|]; [|reflexivity]. cbn [compute_fee final_fee_says]. apply same_bind; [apply same_float_int|]. intros fs _. apply same_bind; [apply same_ceil|]. reflexivity.
Qed.
Lemma fee_same : forall repr p n m, manage_fee p n m = unsaid (fee_answer repr p n m).
Proof.
  intros. unfold manage_fee, fee_answer. apply same_bind; [apply estimate_same|]. intros size _. apply same_bind; [apply final_fee_same|]. intros ff _.
  apply same_bind; [apply same_read_float|]. intros x1 _. apply same_bind; [apply same_float_int|]. intros x2 _. apply same_bind; [apply same_div|]. intros x3 _.
  apply same_bind; [apply same_satoshi|]. intros x4 _. destruct (as_int ff) as [z|]; cbn [bind]; [|reflexivity]. destruct (py_int_gt z (p_max_fee p)) as [[]|]; reflexivity.
Qed.
Lemma selection_same : forall repr ap l ti t, select_inputs ap l ti t = unsaid (selection_answer repr ap l ti t).
Proof.
  intros. unfold select_inputs, selection_answer. destruct (ti <? t); [apply same_bind; [apply same_satoshi|reflexivity]|]. destruct (ti =? t); [reflexivity|]. apply same_bind; [apply same_satoshi|reflexivity].
Qed.
Lemma position_same : forall repr idx n a, change_position idx n = unsaid (position_says repr idx n a).
Proof. intros. unfold position_says. destruct (change_position idx n) as [k|[]]; reflexivity. Qed.
Lemma set_amount_same : forall repr o n, set_satoshi_amount o n = unsaid (set_amount_says repr o n).
Proof.
  intros. unfold set_satoshi_amount, set_amount_says. apply same_check; [apply same_positive|]. intros _. rewrite le_field_def. apply same_bind; [apply (same_le repr (PInt n) 8)|]. intros v _.
  apply same_bind; [apply same_satoshi|]. reflexivity.
Qed.
Lemma update_same : forall repr a k s l, update_change a k s l = unsaid (update_says repr a k s l).
Proof.
  intros repr a k s l. revert k. induction l as [|o l IH]; intros k; [reflexivity|]. cbn [update_change update_says]. destruct (str_eqb (to_address o) a).
  - destruct k as [|k].
    + apply same_bind; [apply set_amount_same|]. intros o' _. apply same_bind; [apply same_satoshi|]. reflexivity.
    + apply same_bind; [apply IH|]. intros [r' o'] _. reflexivity.
  - apply same_bind; [apply IH|]. intros [r' o'] _. reflexivity.
Qed.
Lemma change_same : forall repr a idx outs ts t, handle_change a idx outs ts t = unsaid (change_answer repr a idx outs ts t).
Proof.
  intros. unfold handle_change, change_answer. destruct (ts =? t); [reflexivity|]. cbv zeta. apply same_bind; [apply same_satoshi|]. intros _ _. destruct (Nat.ltb 1 _).
  - apply same_bind; [apply position_same|]. intros k _. apply same_bind; [apply update_same|]. intros [? ?] _. reflexivity.
  - destruct (Nat.eqb _ 1).
    + apply same_bind; [apply update_same|]. intros [? ?] _. reflexivity.
    + apply same_bind; [apply txout_create_same|]. reflexivity.
Qed.
Lemma spend_same : forall repr msp ti s, check_spend msp ti s = unsaid (spend_answer repr msp ti s).
Proof.
  intros. unfold check_spend, spend_answer. apply same_bind; [apply same_float_int|]. intros x1 _. apply same_bind; [apply same_div|]. intros x2 _. apply same_bind; [apply same_float_int|]. intros x3 _.
  apply same_bind; [apply same_ceil|]. intros x4 _. apply same_bind; [apply same_satoshi|]. intros x5 _. apply same_bind; [apply same_satoshi|]. intros x6 _. apply same_bind; [apply same_float_int|]. intros x7 _.
  apply same_bind; [apply same_div|]. intros x8 _. destruct (s <=? x4); [|reflexivity]. apply same_bind; [apply same_float_int|]. intros x9 _. apply same_bind; [apply same_div|]. reflexivity.
Qed.
Lemma tx_create_same : forall repr xs ys, tx_create xs ys = unsaid (tx_create_says repr xs ys).
Proof. intros. unfold tx_create, tx_create_says. apply same_bind; [apply same_count|]. intros x1 _. apply same_bind; [apply same_count|]. reflexivity. Qed.

Lemma build_same : forall repr p, Forall (fun v => make_input v = unsaid (make_input_says repr v)) (p_inputs p) -> Forall (fun v => make_output v = unsaid (make_output_says repr v)) (p_outputs p) ->
  build p = unsaid (build_answer repr p).
Proof.
  intros repr p FI FO. unfold build, build_answer. apply same_bind; [now apply same_all_in|]. intros xs _. apply same_bind; [now apply same_all_in|]. intros ys _. cbv zeta.
  apply same_bind; [apply choose_same|]. intros ap _. apply same_bind; [apply sums_same|]. intros _ _. apply same_bind; [apply sums_same|]. intros _ _. apply same_bind; [apply duplicates_same|]. intros _ _.
  apply same_bind; [apply fee_same|]. intros f _. apply same_bind; [apply same_satoshi|]. intros _ _. apply same_bind; [apply same_satoshi|]. intros _ _.
  apply same_bind. { destruct (Zsum _ <? Zsum _); [|reflexivity]. apply same_bind; [apply same_satoshi|]. reflexivity. }
  intros _ _. apply same_bind; [apply same_satoshi|]. intros _ _. apply same_bind; [apply selection_same|]. intros sel _. apply same_bind; [apply same_satoshi|]. intros _ _.
  destruct (p_change_address p) as [| | | |ca| |]; try reflexivity. cbn [as_str bind].
  apply same_bind; [apply change_same|]. intros [outs chg] _. apply same_bind.
  { destruct (_ =? _); [reflexivity|]. apply same_bind; [apply same_satoshi|]. intros _ _. apply same_bind; [apply same_satoshi|]. reflexivity. }
  intros _ _. destruct (negb _); [reflexivity|]. apply same_bind; [apply same_satoshi|]. intros _ _. apply same_bind; [apply spend_same|]. intros _ _. apply same_bind; [apply tx_create_same|]. reflexivity.
Qed.
Lemma create_same : forall repr attrs a, lists_attributes attrs a -> fst (create_transaction a) = unsaid (create_answer repr attrs a).
Proof.
  intros repr attrs a LA. unfold create_transaction, create_answer. pose proof (prepare_same repr attrs a LA) as PS. destruct (prepare a) as [[p|e] a']; cbn [fst] in *.
  - destruct (prepare_says repr attrs a) as [p'|e t] eqn:P; cbn [unsaid abind] in *; [|discriminate]. injection PS as <-. destruct (prepare_inv _ _ _ _ P) as [(l2 & L) (lo2 & O)]. apply build_same.
    + apply all_say_F2 in L. induction L as [|v v' l l' H L IH]; constructor; auto. now apply (make_input_same repr v).
    + apply all_say_F2 in O. induction O as [|v v' l l' H O IH]; constructor; auto. now apply (make_output_same repr v).
  - destruct (prepare_says repr attrs a) as [p'|e' t] eqn:P; cbn [unsaid abind] in *; congruence.
Qed.

End WithEnv.
