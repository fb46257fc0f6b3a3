(** Calling create_transaction again with the same argument object. *)
From Coq Require Import String Floats.SpecFloat Permutation Sorted Lia.
From Verif Require Import PyBase Env PyNum Validate Basic Spec EnvOk TxInput TxOutput Tx Create TxSpec FloatSpec NumSpec ValidSpec CreateSpec RefuseSpec HistorySpec.
From Verif Require Import NumLemmas HexProofs Base58Proofs AddrProofs AmountProofs NumProofs PrepProofs DesignProofs RefuseProofs.
Open Scope Z_scope.

Lemma set_same : forall k v d, dict_find k d = Some v -> dict_set k v d = d.
Proof.
  induction d as [|[k' w] d IH]; cbn [dict_find dict_set]; [discriminate|]. intros H. destruct (str_eqb k' k); [congruence|]. rewrite IH; auto.
Qed.
Lemma set_set : forall k v w d, dict_set k v (dict_set k w d) = dict_set k v d.
Proof.
  induction d as [|[k' x] d IH]; cbn [dict_set].
  - rewrite str_eqb_refl. reflexivity.
  - destruct (str_eqb k' k) eqn:Q; cbn [dict_set]; rewrite Q; [reflexivity|]. rewrite IH. reflexivity.
Qed.
Lemma set_absent : forall k v d, dict_find k d = None -> dict_set k v d = d ++ [(k, v)].
Proof.
  induction d as [|[k' w] d IH]; cbn [dict_find dict_set app]; [reflexivity|]. intros H. destruct (str_eqb k' k); [discriminate|]. rewrite IH; auto.
Qed.

(** A loop whose body is settled after one run is settled itself. *)
Definition settled {A : Type} (f : A -> res unit * A) : Prop := forall x o x', f x = (o, x') -> f x' = (o, x').
Lemma for_each_settled : forall A (f : A -> res unit * A), settled f -> settled (for_each f).
Proof.
  intros A f S. unfold settled. induction x as [|x l IH]; intros o l' H; cbn [for_each] in H; [injection H as <- <-; reflexivity|].
  destruct (f x) as [[[]|e] x'] eqn:F.
  - destruct (for_each f l) as [o' r'] eqn:FE. injection H as <- <-. cbn [for_each]. rewrite (S _ _ _ F), (IH _ _ eq_refl). reflexivity.
  - injection H as <- <-. cbn [for_each]. rewrite (S _ _ _ F). reflexivity.
Qed.
Lemma for_each_err : forall A (f : A -> res unit * A) (R : A -> A -> Prop) l o l', (forall x o x', f x = (o, x') -> R x x') -> (forall x, R x x) ->
  for_each f l = (o, l') -> Forall2 R l l'.
Proof.
  intros A f R l o l' K Re. revert o l'. induction l as [|x l IH]; intros o l' H; cbn [for_each] in H; [injection H as <- <-; constructor|].
  assert (RR : forall m : list A, Forall2 R m m) by (induction m; constructor; auto).
  destruct (f x) as [[[]|e] x'] eqn:F.
  - destruct (for_each f l) as [o' r'] eqn:FE. injection H as <- <-. constructor; eauto.
  - injection H as <- <-. constructor; eauto.
Qed.

Section WithEnv.
Context {E : Env}.
Hypothesis HH : HashOk E.
Hypothesis HZ : ZeroAddressOk E.
Hypothesis HU : UniOk E.

Lemma adjust_input_settled : settled adjust_input.
Proof.
  intros v o v' H. destruct v as [| | | | | |d]; cbn [adjust_input] in H; try (injection H as <- <-; reflexivity).
  destruct (dict_find (lit "previous_output_index") d) as [x|] eqn:F.
  - destruct (py_int x) as [n|e] eqn:P; injection H as <- <-; cbn [adjust_input].
    + rewrite find_set_same. cbn [py_int]. rewrite set_set. reflexivity.
    + rewrite F, P. reflexivity.
  - injection H as <- <-. cbn [adjust_input]. rewrite F. reflexivity.
Qed.


(** Eight decimals stay as they are. *)
Lemma ensure8_again : forall s n, amount_of s n -> exists t x y, ensure_8_decimal_places s = Ok t /\ amount_of t n /\ (zero_text t <-> zero_text s) /\
  t = x ++ [46] ++ y /\ length y = 8%nat /\ ~ In 46 y /\ ensure_8_decimal_places t = Ok t.
Proof.
  intros s n A. destruct (ensure8_ok HU s n A) as (t & T & AT & ZT & x & y & -> & L & N). exists (x ++ [46] ++ y), x, y. split; [exact T|]. split; [exact AT|]. split; [exact ZT|].
  split; [reflexivity|]. split; [exact L|]. split; [exact N|].
  assert (NX : ~ In 46 x).
  { assert (C : le (count_char 46 (x ++ [46] ++ y)) 1).
    { destruct AT as (ip & fp & [[D _]|(a & b & Q & Da & Db & _)] & _).
      - destruct (dec_run HU _ _ D) as (_ & _ & _ & I & _). rewrite (proj1 (count_none _ I)). lia.
      - rewrite Q. destruct (dec_run HU a ip Da) as (_ & _ & _ & I & _). destruct (dec_run HU b fp Db) as (_ & _ & _ & J & _). rewrite (proj1 (one_dot a b I J)). lia. }
    rewrite (proj1 (count_app x _)), (proj1 (count_app [46] y)) in C. change (count_char 46 [46]) with 1%nat in C. apply count0. lia. }
  destruct (one_dot x y NX N) as (C1 & _ & C3). unfold ensure_8_decimal_places. rewrite C1. cbn [Nat.eqb]. rewrite C3, L. cbn [Nat.ltb Nat.leb Nat.sub rep_str]. rewrite app_nil_r. reflexivity.
Qed.

Lemma output_settle : forall d o, output_arg (PDict d) o -> exists t, amount_left d (adjusted_output d t) /\
  validate_output (PDict d) = (Ok tt, PDict (adjusted_output d t)) /\ validate_output (PDict (adjusted_output d t)) = (Ok tt, PDict (adjusted_output d t)) /\
  add_satoshi_amount (PDict (adjusted_output d t)) = (Ok tt, PDict (final_output d t (oa_value o))) /\ satoshi_added (adjusted_output d t) (final_output d t (oa_value o)).
Proof.
  intros d o (d0 & s & [= <-] & P & F1 & (h & A) & F2 & (AA & M & NZ)).
  destruct (ensure8_again s (oa_value o) AA) as (t & x & y & T & AT & ZT & TX & L & N & T2). exists t.
  assert (K : map fst (adjusted_output d t) = map fst d) by (eapply keys_set_present; eauto).
  assert (G1 : dict_find (lit "address") (adjusted_output d t) = dict_find (lit "address") d) by (unfold adjusted_output; apply set_other; discriminate).
  assert (G2 : dict_find (lit "bitcoin_amount") (adjusted_output d t) = Some (PStr t)) by apply find_set_same.
  assert (W : validate_positive_bitcoin_amount (PStr s) = Ok tt) by (apply (positive_amount_iff HU); exists s, (oa_value o); repeat split; auto).
  assert (AT2 : amount_arg t (oa_value o)) by (split; auto; split; auto; rewrite ZT; auto).
  assert (W2 : validate_positive_bitcoin_amount (PStr t) = Ok tt) by (apply (positive_amount_iff HU); eauto).
  apply identical_iff in P as P1.
  split; [|split; [|split; [|split]]].
  - split; [exact K|]. split.
    + intros k Hk. apply set_other. intros ->. apply Hk. left. reflexivity.
    + exists s, (oa_value o), t, x, y. unfold entry. rewrite G2, F2. repeat split; auto.
  - unfold validate_output, dict_keys. rewrite P1. cbn [bind]. unfold dict_get. rewrite F1. cbn [bind]. rewrite (validate_address_ok HH HZ h) by auto. cbn [bind].
    rewrite F2. cbn [bind]. rewrite W. cbn [bind as_str]. rewrite T. reflexivity.
  - unfold validate_output, dict_keys. rewrite K, P1. cbn [bind]. unfold dict_get. rewrite G1, F1. cbn [bind]. rewrite (validate_address_ok HH HZ h) by auto. cbn [bind].
    rewrite G2. cbn [bind]. rewrite W2. cbn [bind as_str]. rewrite T2. unfold adjusted_output. rewrite set_set. reflexivity.
  - unfold add_satoshi_amount, dict_get. rewrite G2. cbn [bind]. rewrite (amount_arg_sat HU t (oa_value o)) by auto. reflexivity.
  - exists t, (oa_value o). unfold entry. split; [exact G2|]. split; [exact AT|]. unfold final_output. apply set_absent. apply find_none. rewrite K.
    intros I. apply (Permutation_in _ P) in I. cbn [map In] in I. repeat (destruct I as [I|I]; [discriminate|]). exact I.
Qed.
Lemma validate_output_dict : forall v v', validate_output v = (Ok tt, v') -> exists d, v = PDict d.
Proof. intros v v' H. destruct v; try discriminate. eauto. Qed.
Lemma validate_output_fail : forall v e v', validate_output v = (Err e, v') -> v' = v.
Proof.
  intros v e v' H. destruct v as [| | | | | |d]; try (injection H as _ <-; reflexivity). unfold validate_output in H. cbv beta iota in H.
  match type of H with (match ?m with _ => _ end = _) => destruct m as [t|x] end; [discriminate|]. injection H as _ <-. reflexivity.
Qed.
Lemma validate_output_settled : settled validate_output.
Proof.
  intros v o v' H. destruct o as [[]|e].
  - destruct (output_steps_inv HH HZ HU v v' H) as [o O]. destruct (validate_output_dict v v' H) as [d ->].
    destruct (output_settle d o O) as (t & _ & V & V2 & _). rewrite V in H. injection H as <-. exact V2.
  - rewrite (validate_output_fail _ _ _ H). rewrite (validate_output_fail _ _ _ H) in H. exact H.
Qed.
Lemma output_tried_ok : forall v o v', validate_output v = (o, v') -> output_tried v v'.
Proof.
  intros v o v' H. destruct o as [[]|e]; [|left; eapply validate_output_fail; eauto].
  destruct (output_steps_inv HH HZ HU v v' H) as [o O]. destruct (validate_output_dict v v' H) as [d ->].
  destruct (output_settle d o O) as (t & L & V & _). rewrite V in H. injection H as <-. right. eauto.
Qed.
Lemma input_tried_ok : forall v o v', adjust_input v = (o, v') -> input_tried v v'.
Proof.
  intros v o v' H. destruct v as [| | | | | |d]; cbn [adjust_input] in H; try (injection H as <- <-; left; reflexivity).
  destruct (dict_find (lit "previous_output_index") d) as [x|] eqn:F; [|injection H as <- <-; left; reflexivity].
  destruct (py_int x) as [n|e] eqn:P; injection H as <- <-; [|left; reflexivity]. right. exists d. eexists. split; [reflexivity|]. split; [reflexivity|].
  split; [eapply keys_set_present; eauto|]. split.
  - intros k Hk. apply set_other. intros ->. apply Hk. left. reflexivity.
  - exists x, n. unfold entry. rewrite F, find_set_same. apply (py_int_iff HU) in P. auto.
Qed.

(** The design. *)
Definition adjust_fee (k : string) (d : dict) : res unit * dict :=
  match dict_find (lit k) d with
  | Some (PStr s) => match py_int_str 10 s with Ok n => (Ok tt, dict_set (lit k) (PInt n) d) | Err e => (Err e, d) end
  | _ => (Ok tt, d)
  end.
Definition adjust_rate (d : dict) : dict :=
  match dict_find (lit "fee_rate") d with
  | Some (PInt z) => dict_set (lit "fee_rate") (PStr (py_str_int (PInt z))) d
  | Some (PBool b) => dict_set (lit "fee_rate") (PStr (py_str_int (PBool b))) d
  | _ => d
  end.
Lemma adjust_design_eq : forall d, adjust_design d =
  match adjust_fee "fee" d with (Err e, _) => (Err e, d) | (Ok _, d1) => adjust_fee "max_fee" (adjust_rate d1) end.
Proof.
  intros d. unfold adjust_design, adjust_fee at 1. destruct (dict_find (lit "fee") d) as [[| | | |s| |]|]; try reflexivity. destruct (py_int_str 10 s); reflexivity.
Qed.

Definition not_str (o : option pyval) : Prop := forall s, o <> Some (PStr s).
Definition not_int (o : option pyval) : Prop := (forall z, o <> Some (PInt z)) /\ (forall b, o <> Some (PBool b)).
Lemma adjust_fee_id : forall k d, not_str (dict_find (lit k) d) -> adjust_fee k d = (Ok tt, d).
Proof. intros k d H. unfold adjust_fee. destruct (dict_find (lit k) d) as [[| | | |s| |]|]; try reflexivity. exfalso. apply (H s). reflexivity. Qed.
Lemma adjust_fee_ok : forall k d d', adjust_fee k d = (Ok tt, d') ->
  not_str (dict_find (lit k) d') /\ number_left (dict_find (lit k) d) (dict_find (lit k) d') /\ map fst d' = map fst d /\ (forall k', k' <> lit k -> dict_find k' d' = dict_find k' d).
Proof.
  intros k d d' H. unfold adjust_fee in H. destruct (dict_find (lit k) d) as [[| | | |s| |]|] eqn:F;
    try (injection H as <-; rewrite F; split; [intros s; discriminate|]; split; [reflexivity|]; auto).
  destruct (py_int_str 10 s) as [n|e] eqn:P; [|discriminate]. injection H as <-. rewrite find_set_same. split; [intros x; discriminate|]. split.
  - exists n. split; [apply (int_text_iff HU); exact P|reflexivity].
  - split; [eapply keys_set_present; eauto|]. intros. apply set_other; auto.
Qed.
Lemma adjust_fee_err : forall k d e d', adjust_fee k d = (Err e, d') -> d' = d.
Proof.
  intros k d e d' H. unfold adjust_fee in H. destruct (dict_find (lit k) d) as [[| | | |s| |]|]; try discriminate.
  destruct (py_int_str 10 s); [discriminate|]. injection H as _ <-. reflexivity.
Qed.
Lemma int_str_decimal : forall z, decimal_int z (int_str z).
Proof.
  intros z. unfold decimal_int, int_str. destruct (nat_text10 (Z.abs z) ltac:(lia)) as (ds & T & D & N & V & L). exists ds. split; [auto|]. split; [tauto|]. split; [auto|].
  destruct (Z.ltb_spec z 0) as [Hz|Hz]; cbn [app].
  - rewrite <- T. replace (Z.abs z) with (- z) by lia. reflexivity.
  - rewrite <- T. replace (Z.abs z) with z by lia. reflexivity.
Qed.
Lemma adjust_rate_ok : forall d, not_int (dict_find (lit "fee_rate") (adjust_rate d)) /\ rate_left (dict_find (lit "fee_rate") d) (dict_find (lit "fee_rate") (adjust_rate d)) /\
  map fst (adjust_rate d) = map fst d /\ (forall k', k' <> lit "fee_rate" -> dict_find k' (adjust_rate d) = dict_find k' d).
Proof.
  intros d. unfold adjust_rate. destruct (dict_find (lit "fee_rate") d) as [[|b|z| | | |]|] eqn:F;
    try (rewrite F; split; [split; intros; discriminate|]; split; [reflexivity|]; auto);
    (rewrite find_set_same; split; [split; intros; discriminate|]; split; [|split; [eapply keys_set_present; eauto|intros; apply set_other; auto]]).
  - cbn [rate_left py_str_int]. destruct b; reflexivity.
  - cbn [rate_left py_str_int]. exists (int_str z). split; [apply int_str_decimal|reflexivity].
Qed.
Lemma adjust_rate_id : forall d, not_int (dict_find (lit "fee_rate") d) -> adjust_rate d = d.
Proof.
  intros d [H1 H2]. unfold adjust_rate. destruct (dict_find (lit "fee_rate") d) as [[|b|z| | | |]|]; try reflexivity; exfalso; [apply (H2 b)|apply (H1 z)]; reflexivity.
Qed.
Lemma adjust_design_id : forall d, not_str (dict_find (lit "fee") d) -> not_int (dict_find (lit "fee_rate") d) -> adjust_design d = adjust_fee "max_fee" d.
Proof. intros d F R. rewrite adjust_design_eq, adjust_fee_id by auto. rewrite adjust_rate_id; auto. Qed.

(** What adjust_design leaves. *)
Definition adjusted (d d' : dict) : Prop :=
  map fst d' = map fst d /\ only_changes ["fee"; "fee_rate"; "max_fee"]%string d d' /\ same_or number_left (entry "fee" d) (entry "fee" d') /\
  same_or rate_left (entry "fee_rate" d) (entry "fee_rate" d') /\ same_or number_left (entry "max_fee" d) (entry "max_fee" d').
Lemma not_in3 : forall k, ~ In k (map lit ["fee"; "fee_rate"; "max_fee"]%string) -> k <> lit "fee" /\ k <> lit "fee_rate" /\ k <> lit "max_fee".
Proof. intros k H. cbn [map In] in H. repeat split; intros ->; apply H; auto. Qed.
Lemma adjust_design_left : forall d o d', adjust_design d = (o, d') -> adjust_design d' = (o, d') /\ adjusted d d' /\
  (o = Ok tt -> not_str (entry "fee" d') /\ not_int (entry "fee_rate" d') /\ not_str (entry "max_fee" d') /\
     number_left (entry "fee" d) (entry "fee" d') /\ rate_left (entry "fee_rate" d) (entry "fee_rate" d') /\ number_left (entry "max_fee" d) (entry "max_fee" d')).
Proof.
  intros d o d' H. rewrite adjust_design_eq in H. destruct (adjust_fee "fee" d) as [[[]|e] d1] eqn:AF.
  - destruct (adjust_fee_ok "fee" d d1 AF) as (N1 & L1 & K1 & O1). destruct (adjust_rate_ok d1) as (N2 & L2 & K2 & O2). set (d2 := adjust_rate d1) in *.
    rewrite (O1 (lit "fee_rate")) in L2 by discriminate.
    destruct o as [[]|e].
    + destruct (adjust_fee_ok "max_fee" d2 d' H) as (N3 & L3 & K3 & O3). rewrite (O2 (lit "max_fee")), (O1 (lit "max_fee")) in L3 by discriminate.
      assert (Q1 : entry "fee" d' = dict_find (lit "fee") d1) by (unfold entry; rewrite O3, O2 by discriminate; reflexivity).
      assert (Q2 : entry "fee_rate" d' = dict_find (lit "fee_rate") d2) by (unfold entry; rewrite O3 by discriminate; reflexivity).
      rewrite adjust_design_id; [|unfold entry in Q1; rewrite Q1; exact N1|unfold entry in Q2; rewrite Q2; exact N2]. rewrite adjust_fee_id by exact N3.
      split; [reflexivity|]. split.
      * split; [congruence|]. split. { intros k Hk. apply not_in3 in Hk as (X1 & X2 & X3). rewrite O3, O2, O1; auto. }
        rewrite Q1, Q2. unfold entry. repeat split; right; auto.
      * intros _. rewrite Q1, Q2. unfold entry. auto 8.
    + pose proof (adjust_fee_err _ _ _ _ H) as ->.
      assert (Q1 : entry "fee" d2 = dict_find (lit "fee") d1) by (unfold entry; rewrite O2 by discriminate; reflexivity).
      assert (Q3 : entry "max_fee" d2 = entry "max_fee" d) by (unfold entry; rewrite O2, O1 by discriminate; reflexivity).
      rewrite adjust_design_id; [|unfold entry in Q1; rewrite Q1; exact N1|exact N2]. split; [exact H|]. split; [|discriminate].
      split; [congruence|]. split. { intros k Hk. apply not_in3 in Hk as (X1 & X2 & X3). rewrite O2, O1; auto. }
      rewrite Q1, Q3. unfold entry. split; [right; auto|]. split; [right; auto|left; reflexivity].
  - injection H as <- <-. split; [rewrite adjust_design_eq, AF; reflexivity|]. split; [|discriminate]. split; [reflexivity|]. split; [intros k _; reflexivity|]. repeat split; left; reflexivity.
Qed.

Lemma head_outputs : forall d l, validate_design_head d = Ok l -> dict_find (lit "outputs") d = Some (PList l).
Proof.
  intros d l H. destruct (head_inv HH HZ d l H) as (cha & w & z & mv & pf & n & G1 & A1 & G2 & W & G3 & P1 & T1 & N1 & G4). exact G4.
Qed.
Lemma head_set : forall d l l', validate_design_head d = Ok l -> validate_design_head (dict_set (lit "outputs") (PList l') d) = Ok l'.
Proof.
  intros d l l' H. pose proof (head_outputs d l H) as G. unfold validate_design_head in *.
  unfold dict_keys in *. rewrite (keys_set_present _ _ _ _ G). unfold dict_get in *. rewrite find_set_same. rewrite !set_other by discriminate. rewrite G in H.
  repeat (match type of H with bind ?m _ = _ => destruct m as [?|?] eqn:?; [|discriminate H] end; cbn [bind] in H |- *). reflexivity.
Qed.
Lemma validate_design_left : forall d o d', validate_design d = (o, d') -> validate_design d' = (o, d') /\ map fst d' = map fst d /\
  (forall k, k <> lit "outputs" -> dict_find k d' = dict_find k d) /\ same_or outputs_tried (entry "outputs" d) (entry "outputs" d') /\
  (o = Ok tt -> exists l l', entry "outputs" d = Some (PList l) /\ for_each validate_output l = (Ok tt, l') /\ d' = dict_set (lit "outputs") (PList l') d /\
     validate_design_head d = Ok l /\ validate_fees (get_or_none (lit "fee") d) (get_or_none (lit "fee_rate") d) = Ok tt /\ validate_approaches (get_or_none (lit "input_selection_approaches") d) = Ok tt).
Proof.
  intros d o d' H. pose proof H as H0. unfold validate_design in H. destruct (validate_design_head d) as [l|e] eqn:HD.
  - pose proof (head_outputs d l HD) as G. destruct (for_each validate_output l) as [ov l'] eqn:FV. cbv zeta in H.
    assert (D : d' = dict_set (lit "outputs") (PList l') d) by (destruct ov as [[]|]; injection H as _ <-; reflexivity). subst d'.
    split; [|split; [eapply keys_set_present; eauto|split; [intros; apply set_other; auto|split]]].
    + unfold validate_design. rewrite (head_set d l l' HD). rewrite (for_each_settled _ _ validate_output_settled _ _ _ FV). cbv zeta. rewrite set_set. unfold get_or_none in *. rewrite !set_other by discriminate.
      destruct ov as [[]|]; injection H as <-; reflexivity.
    + right. exists l, l'. unfold entry. rewrite find_set_same. split; [exact G|]. split; [reflexivity|]. eapply for_each_err; [|left; reflexivity|exact FV]. intros. eapply output_tried_ok; eauto.
    + intros ->. exists l, l'. destruct ov as [[]|]; [|discriminate]. injection H as H. inv_bind H u VF. destruct u. repeat split; auto.
  - injection H as <- <-. split; [exact H0|]. split; [reflexivity|]. split; [reflexivity|]. split; [left; reflexivity|discriminate].
Qed.


Lemma input_settle : forall v v', adjust_input v = (Ok tt, v') -> validate_input v' = Ok tt ->
  exists w, add_satoshi_amount v' = (Ok tt, w) /\ input_done v w /\ adjust_input w = (Ok tt, w) /\ validate_input w = Err ValueError.
Proof.
  intros v v' A V. destruct (input_steps_inv HH HZ HU v v' A V) as [i I]. destruct (input_steps_ok HH HZ HU v i I) as (d & -> & S1 & S2 & S3 & _).
  rewrite A in S1. injection S1 as ->. eexists. split; [exact S3|].
  destruct I as (d0 & vi & s & [= <-] & P & F1 & AD & F2 & B & L & F3 & I & I0 & F4 & AA).
  assert (K : map fst (adjusted_input d i) = map fst d) by (eapply keys_set_present; eauto).
  assert (NS : ~ In (lit "satoshi_amount") (map fst d)).
  { intros N. apply (Permutation_in _ P) in N. cbn [map In] in N. repeat (destruct N as [N|N]; [discriminate|]). exact N. }
  assert (AB : final_input d i = adjusted_input d i ++ [(lit "satoshi_amount", PInt (ia_value i))]).
  { unfold final_input. apply set_absent. apply find_none. rewrite K. exact NS. }
  assert (FP : dict_find (lit "previous_output_index") (final_input d i) = Some (PInt (ia_index i))).
  { unfold final_input. rewrite set_other by discriminate. apply find_set_same. }
  split; [|split].
  - exists d, (adjusted_input d i), (final_input d i). split; [reflexivity|]. split; [reflexivity|]. split.
    + split; [exact K|]. split.
      * intros k Hk. apply set_other. intros ->. apply Hk. left. reflexivity.
      * exists vi, (ia_index i). unfold entry. split; [exact F3|]. split; [exact I|]. apply find_set_same.
    + exists s, (ia_value i). split; [|split; [apply AA|exact AB]]. unfold entry, adjusted_input. rewrite set_other by discriminate. exact F4.
  - cbn [adjust_input]. rewrite FP. cbn [py_int]. rewrite set_same by exact FP. reflexivity.
  - unfold validate_input. cbn [as_dict bind]. unfold dict_keys. rewrite identical_err; [reflexivity|]. rewrite AB, map_app, K. intros Q.
    assert (N : In (lit "satoshi_amount") (map fst d ++ map fst [(lit "satoshi_amount", PInt (ia_value i))])) by (apply in_or_app; right; left; reflexivity).
    apply (Permutation_in _ Q) in N. cbn [map In] in N. repeat (destruct N as [N|N]; [discriminate|]). exact N.
Qed.
Lemma output_settle2 : forall v v', validate_output v = (Ok tt, v') ->
  exists w, add_satoshi_amount v' = (Ok tt, w) /\ output_done v w /\ validate_output w = (Err ValueError, w).
Proof.
  intros v v' V. destruct (output_steps_inv HH HZ HU v v' V) as [o O]. destruct (validate_output_dict v v' V) as [d ->].
  destruct (output_settle d o O) as (t & L & V1 & _ & S & SA). rewrite V in V1. injection V1 as ->. eexists. split; [exact S|]. split.
  - exists d, (adjusted_output d t), (final_output d t (oa_value o)). auto.
  - unfold validate_output. cbv beta iota. unfold dict_keys. rewrite identical_err; [reflexivity|]. destruct SA as (s & n & _ & _ & ->). rewrite map_app. intros Q.
    assert (N : In (lit "satoshi_amount") (map fst (adjusted_output d t) ++ map fst [(lit "satoshi_amount", PInt n)])) by (apply in_or_app; right; left; reflexivity).
    apply (Permutation_in _ Q) in N. cbn [map In] in N. repeat (destruct N as [N|N]; [discriminate|]). exact N.
Qed.

Lemma inputs_settle : forall l l2, for_each adjust_input l = (Ok tt, l2) -> validate_inputs (PList l2) = Ok tt ->
  exists l4, for_each add_satoshi_amount l2 = (Ok tt, l4) /\ Forall2 input_done l l4 /\ for_each adjust_input l4 = (Ok tt, l4) /\
    validate_inputs (PList l4) = match l4 with [] => Ok tt | _ => Err ValueError end.
Proof.
  intros l l2 FE V. unfold validate_inputs in V. cbn [validate_list bind as_list] in V. revert l2 FE V.
  induction l as [|v l IH]; intros l2 FE V; cbn [for_each] in FE.
  - injection FE as <-. exists []. repeat split; constructor.
  - destruct (adjust_input v) as [[[]|e] v'] eqn:A; [|discriminate]. destruct (for_each adjust_input l) as [o' r'] eqn:F. injection FE as -> <-.
    cbn [iterM] in V. inv_bind V u V1. destruct u. destruct (IH r' eq_refl V) as (l4 & S4 & D4 & A4 & _).
    destruct (input_settle v v' A V1) as (w & SW & DW & AW & VW). exists (w :: l4). cbn [for_each]. rewrite SW, S4, AW, A4. split; [reflexivity|]. split; [constructor; auto|]. split; [reflexivity|].
    unfold validate_inputs. cbn [validate_list bind as_list iterM]. rewrite VW. reflexivity.
Qed.
Lemma outputs_settle : forall l l2, for_each validate_output l = (Ok tt, l2) ->
  exists l4, for_each add_satoshi_amount l2 = (Ok tt, l4) /\ Forall2 output_done l l4 /\
    for_each validate_output l4 = (match l4 with [] => Ok tt | _ => Err ValueError end, l4).
Proof.
  induction l as [|v l IH]; intros l2 FE; cbn [for_each] in FE.
  - injection FE as <-. exists []. repeat split; constructor.
  - destruct (validate_output v) as [[[]|e] v'] eqn:A; [|discriminate]. destruct (for_each validate_output l) as [o' r'] eqn:F. injection FE as -> <-.
    destruct (IH r' eq_refl) as (l4 & S4 & D4 & _). destruct (output_settle2 v v' A) as (w & SW & DW & VW). exists (w :: l4). cbn [for_each]. rewrite SW, S4, VW. split; [reflexivity|]. split; [constructor; auto|reflexivity].
Qed.

Lemma prepare_settle : forall a r a1, prepare a = (r, a1) ->
  (exists e, r = Err e /\ prepare a1 = (Err e, a1) /\ arguments_tried a a1) \/
  (exists p, r = Ok p /\ arguments_done a a1 /\
     ((p_inputs p = [] /\ p_outputs p = [] /\ prepare a1 = (Ok p, a1) /\ empty_request a) \/
      (~ empty_request a /\ prepare a1 = (Err ValueError, a1)))).
Proof.
  intros a r a1 H. destruct a as [[vin|] [vd|] dup idx]; unfold prepare in H; cbn [ns_inputs ns_design ns_allow_duplicate_output_address ns_change_output_index] in H;
    try (left; injection H as <- <-; eexists; split; [reflexivity|]; split; [reflexivity|]; split; [split; reflexivity|]; split; left; reflexivity).
  destruct vd as [| | | | | |d]; try (left; injection H as <- <-; eexists; split; [reflexivity|]; split; [reflexivity|]; split; [split; reflexivity|]; split; left; reflexivity).
  destruct (adjust_design d) as [o1 d1] eqn:AD. destruct (adjust_design_left d o1 d1 AD) as (AD1 & (K1 & OC1 & T1 & T2 & T3) & L1).
  assert (DT1 : design_tried d d1).
  { split; [split; [exact K1|]|]. { intros k Hk. apply OC1. intros I. apply Hk. cbn [map In] in I |- *. tauto. }
    split; [exact T1|]. split; [exact T2|]. split; [exact T3|]. left. unfold entry. apply OC1. intros I. cbn [map In] in I. repeat (destruct I as [I|I]; [discriminate|]). exact I. }
  cbv zeta in H. unfold set_ns_design, set_ns_inputs in H. cbn [ns_inputs ns_design ns_allow_duplicate_output_address ns_change_output_index] in H.
  destruct o1 as [[]|e].
  2: { left. injection H as <- <-. exists e. split; [reflexivity|]. split.
       - unfold prepare. cbn [ns_inputs ns_design]. rewrite AD1. reflexivity.
       - split; [split; reflexivity|]. split; [left; reflexivity|right]. exists d, d1. auto. }
  destruct vin as [| | | | |l|]; try (left; injection H as <- <-; exists TypeError; split; [reflexivity|]; split;
    [unfold prepare; cbn [ns_inputs ns_design]; rewrite AD1; reflexivity|split; [split; reflexivity|]; split; [left; reflexivity|right; exists d, d1; auto]]).
  destruct (for_each adjust_input l) as [o2 l2] eqn:FE.
  assert (IT : Forall2 input_tried l l2) by (eapply for_each_err; [intros; eapply input_tried_ok; eauto|left; reflexivity|exact FE]).
  pose proof (for_each_settled _ _ adjust_input_settled _ _ _ FE) as FE2.
  destruct (o2;;; validate_inputs (PList l2)) as [[]|e] eqn:V2.
  2: { left. injection H as <- <-. exists e. split; [reflexivity|]. split.
       - unfold prepare. cbn [ns_inputs ns_design]. rewrite AD1. rewrite FE2. cbv zeta. rewrite V2. reflexivity.
       - split; [split; reflexivity|]. split; right; [exists l, l2; auto|exists d, d1; auto]. }
  destruct (L1 eq_refl) as (NF & NR & NM & F1 & F2 & F3). clear L1.
  destruct (validate_design d1) as [o3 d3] eqn:VD. destruct (validate_design_left d1 o3 d3 VD) as (VD3 & K3 & O3 & T4 & L3).
  assert (AD3 : adjust_design d3 = (Ok tt, d3)).
  { rewrite adjust_design_id; [apply adjust_fee_id| |]; rewrite O3 by discriminate; assumption. }
  assert (DK3 : design_keys d d3).
  { split; [congruence|]. intros k Hk. rewrite O3. - apply OC1. intros I. apply Hk. cbn [map In] in I |- *. tauto. - intros ->. apply Hk. cbn. tauto. }
  assert (X1 : entry "fee" d3 = entry "fee" d1) by (unfold entry; apply O3; discriminate).
  assert (X2 : entry "fee_rate" d3 = entry "fee_rate" d1) by (unfold entry; apply O3; discriminate).
  assert (X3 : entry "max_fee" d3 = entry "max_fee" d1) by (unfold entry; apply O3; discriminate).
  assert (X4 : entry "outputs" d1 = entry "outputs" d).
  { unfold entry. apply OC1. intros I. cbn [map In] in I. repeat (destruct I as [I|I]; [discriminate|]). exact I. }
  assert (DT3 : design_tried d d3).
  { split; [exact DK3|]. rewrite X1, X2, X3. split; [exact T1|]. split; [exact T2|]. split; [exact T3|]. rewrite X4 in T4. exact T4. }
  assert (VO : forall x y, validate_options (mk_ns x y dup idx) = validate_options (mk_ns None None dup idx)) by reflexivity.
  assert (UP : forall a b x, unpack a x = unpack b x) by reflexivity.
  match type of H with (match ?m with _ => _ end = _) => destruct m as [[u lo]|e] eqn:U end.
  2: { left. injection H as <- <-. exists e. split; [reflexivity|]. split.
       - unfold prepare. cbn [ns_inputs ns_design]. rewrite AD3. rewrite FE2. cbv zeta. rewrite V2. rewrite VD3. unfold set_ns_design, set_ns_inputs. cbn [ns_inputs ns_design ns_allow_duplicate_output_address ns_change_output_index].
         rewrite VO in U. rewrite VO. rewrite (UP _ (mk_ns None None dup idx)) in U. rewrite (UP _ (mk_ns None None dup idx)). rewrite U. reflexivity.
       - split; [split; reflexivity|]. split; right; [exists l, l2; auto|exists d, d3; auto]. }
  destruct o2 as [[]|e]; [|discriminate V2]. cbn [bind] in V2. destruct (inputs_settle l l2 FE V2) as (l4 & S4 & D4 & A4 & VI4). rewrite S4 in H.
  destruct o3 as [[]|e]; [|discriminate U]. destruct (L3 eq_refl) as (lv & lv' & EO & FV & -> & HD & VF & VA). cbn [bind] in U.
  destruct (outputs_settle lv lv' FV) as (lo4 & S5 & D5 & V5).
  inv_bind U uo VOK. destruct uo. inv_bind U uu UPK. unfold dict_get in U. rewrite find_set_same in U. cbn [bind as_list] in U. injection U as -> <-.
  rewrite S5 in H. rewrite set_set in H. right.
  destruct u as [[[[[msp rate] fee] ca] mf] ap].
  set (d5 := dict_set (lit "outputs") (PList lo4) d1) in *. cbn [ns_inputs ns_design ns_allow_duplicate_output_address ns_change_output_index] in H.
  injection H as <- <-. eexists. split; [reflexivity|]. cbn [p_inputs p_outputs].
  assert (O5 : forall k, k <> lit "outputs" -> dict_find k d5 = dict_find k d1) by (intros; apply set_other; auto).
  assert (AD5 : adjust_design d5 = (Ok tt, d5)).
  { rewrite adjust_design_id; [apply adjust_fee_id| |]; rewrite O5 by discriminate; assumption. }
  split.
  - split; [split; reflexivity|]. exists l, l4, d, d5. split; [reflexivity|]. split; [reflexivity|]. split; [exact D4|]. split; [reflexivity|]. split; [reflexivity|].
    split; [split|].
    + unfold d5. rewrite (keys_set_present _ _ _ _ (head_outputs d1 lv HD)). exact K1.
    + intros k Hk. rewrite O5. * apply OC1. intros I. apply Hk. cbn [map In] in I |- *. tauto. * intros ->. apply Hk. cbn. tauto.
    + unfold entry. rewrite !O5 by discriminate. split; [exact F1|]. split; [exact F2|]. split; [exact F3|]. exists lv, lo4. unfold d5. rewrite find_set_same. split; [exact (eq_trans (eq_sym X4) EO)|]. auto.
  - assert (HD5 : validate_design_head d5 = Ok lo4) by (apply (head_set d1 lv lo4 HD)).
    assert (S55 : dict_set (lit "outputs") (PList lo4) d5 = d5) by (unfold d5; apply set_set).
    destruct l4 as [|w4 l4].
    + inversion D4; subst l. destruct lo4 as [|w5 lo4].
      * left. split; [reflexivity|]. split; [reflexivity|]. inversion D5; subst lv. split.
        -- unfold prepare. cbn [ns_inputs ns_design]. rewrite AD5. cbn [for_each]. cbv zeta. rewrite VI4. cbn [bind]. unfold validate_design. rewrite HD5. cbn [for_each]. rewrite S55.
           unfold get_or_none. rewrite !O5 by discriminate. unfold get_or_none in VF, VA. rewrite VF, VA. cbn [bind].
           unfold set_ns_design, set_ns_inputs. cbn [ns_inputs ns_design ns_allow_duplicate_output_address ns_change_output_index]. rewrite VO in VOK. rewrite VO. rewrite VOK. cbn [bind].
           injection FV as <-. fold d5 in UPK. rewrite (UP _ (mk_ns None None dup idx)) in UPK. rewrite (UP _ (mk_ns None None dup idx)). rewrite UPK. cbn [bind]. unfold dict_get, d5. rewrite find_set_same. cbn [bind as_list for_each]. rewrite !set_set. reflexivity.
        -- split; [reflexivity|]. exists d. split; [reflexivity|]. rewrite <- X4. exact EO.
      * right. split. { intros (_ & d' & [= <-] & Q). rewrite <- X4, EO in Q. injection Q as ->. inversion D5. }
        unfold prepare. cbn [ns_inputs ns_design]. rewrite AD5. cbn [for_each]. cbv zeta. rewrite VI4. cbn [bind]. unfold validate_design. rewrite HD5, V5. rewrite S55. reflexivity.
    + right. split. { intros ([= ->] & _). inversion D4. }
      unfold prepare. cbn [ns_inputs ns_design]. rewrite AD5. rewrite A4. cbv zeta. rewrite VI4. reflexivity.
Qed.


Lemma form_ck : forall a, checked (fst (prepare a)) (form_checks a).
Proof.
  intros a. apply (ck_same _ _ (bind (fst (prepare a)) (fun _ => Ok tt))).
  { destruct (fst (prepare a)) as [p|e]; cbn [bind]; split; intros [x X]; try discriminate; eauto. }
  { intros e H. destruct (fst (prepare a)) as [p|x]; cbn [bind] in H; [discriminate|congruence]. }
  unfold prepare, form_checks.
  destruct (ns_inputs a) as [vin|] eqn:NI; [|apply ck_false].
  destruct (ns_design a) as [[| | | | | |d]|] eqn:ND; try apply ck_false.
  pose proof (adjust_ck HU d) as CK. destruct (adjust_design d) as [o1 d1] eqn:AD. cbn [fst] in CK. cbv zeta.
  apply ck_match; [exact CK|]. intros [] ->.
  destruct vin as [| | | | |l|]; try apply ck_false.
  destruct (for_each adjust_input l) as [o2 l2] eqn:FE.
  assert (C2 : checked o2 (flat_map index_checks l)).
  { replace o2 with (fst (for_each adjust_input l)) by (rewrite FE; reflexivity). rewrite for_each_fst. apply ck_iter. intros v _. apply (index_ck HU). }
  rewrite app_assoc. apply ck_match.
  { apply ck_bind; auto. intros [] ->. eapply inputs_ck; eauto. }
  intros [] V2. destruct o2 as [[]|]; [|discriminate]. cbn [bind] in V2.
  destruct (adjust_design_inv d d1 AD) as (D1 & D2 & D3 & D4).
  pose proof (design_ck HH HZ HU d d1 AD) as CD. destruct (validate_design d1) as [o3 d3] eqn:VD. cbn [fst] in CD.
  change (match entry "outputs" d with Some (PList lo) => flat_map output_checks lo | _ => [] end) with (outs_checks d).
  rewrite (app_assoc (fee_checks _ _)), (app_assoc (outs_checks d)), (app_assoc (design_checks d)).
  match goal with |- checked _ ?x => rewrite <- (app_nil_r x) end.
  apply ck_match.
  { apply ck_bind; [exact CD|]. intros [] ->.
    unfold validate_design in VD. destruct (validate_design_head d1) as [lv|e] eqn:HD; [|discriminate].
    destruct (for_each validate_output lv) as [ov lo'] eqn:FV. destruct ov as [[]|e]; [|discriminate]. injection VD as VD <-.
    inv_bind VD u1 VF. destruct u1.
    destruct (head_inv HH HZ d1 lv HD) as (cha & w & z & mv & pf & n & G1 & A1 & G2 & W & G3 & P1 & T1 & N1 & G4).
    assert (D5 : forall k, k <> lit "outputs" -> dict_find k (dict_set (lit "outputs") (PList lo') d1) = dict_find k d1) by (intros; apply set_other; auto).
    apply ck_bind; [apply options_ck|]. intros [] _. unfold unpack, dict_get, get_or_none. rewrite !D5 by discriminate. rewrite D2, G1, G2, G3. cbn [bind]. rewrite P1. cbn [bind].
    rewrite find_set_same. cbn [bind as_list].
    match goal with |- checked (bind (bind ?r ?k) ?kk) ?cs => eapply (ck_same _ _ r (bind (bind r k) kk) cs) end.
    - match goal with |- (exists x, ?r = Ok x) <-> _ => destruct r as [x|e] end; cbn [bind]; split; intros [y Y]; try discriminate; eauto.
    - intros e ->. reflexivity.
    - apply (rate_ck HU (dict_find (lit "fee") d) (dict_find (lit "fee_rate") d) (dict_find (lit "fee") d1)); auto.
      unfold get_or_none in VF. rewrite D2 in VF. exact VF. }
  intros [u lo] U. inv_bind U u3 U3. destruct u3. destruct o3 as [[]|]; [|discriminate]. clear U3.
  destruct (validate_design_left d1 (Ok tt) d3 VD) as (_ & _ & _ & _ & L3). destruct (L3 eq_refl) as (lv & lv' & _ & FV & -> & _).
  inv_bind U u4 VO. inv_bind U u5 UN. unfold dict_get in U. rewrite find_set_same in U. cbn [bind as_list] in U. injection U as <- <-.
  destruct (inputs_settle l l2 FE V2) as (l4 & -> & _). destruct (outputs_settle lv lv' FV) as (lo4 & -> & _).
  destruct u5 as [[[[[? ?] ?] ?] ?] ?]. cbn [fst bind]. apply ck_nil.
Qed.
Lemma form_late : forall a, argument_checks a = form_checks a ++ late_checks a.
Proof.
  intros a. unfold argument_checks, form_checks, late_checks. destruct (ns_inputs a) as [[| | | | |l|]|]; destruct (ns_design a) as [[| | | | | |dd]|]; try reflexivity; try (rewrite app_nil_r; reflexivity).
  rewrite <- !app_assoc. reflexivity.
Qed.
End WithEnv.
