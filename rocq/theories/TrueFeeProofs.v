(** create_transaction with a fee of True (for C102). *)
From Coq Require Import String Floats.SpecFloat Lia.
From Verif Require Import PyBase Env PyNum Validate Basic Spec EnvOk TxInput TxOutput Tx Create TxSpec FloatSpec NumSpec ValidSpec CreateSpec RefuseSpec ReportSpec Messages Complaints Answer BasicSays DocSays Report OrderSays OrderSaysSpec BuildSays BuildSaysSpec.
From Verif Require Import NumLemmas HexProofs Base58Proofs AddrProofs FloatProofs AmountProofs RateProofs NumProofs WireProofs MakeProofs PrepProofs DesignProofs BuildProofs CreateProofs RefuseProofs OrderProofs ReportProofs ReportTextProofs C_BasicSays C_DocSays OrderSaysProofs C_OrderSays BuildSaysProofs BuildToldProofs.
Open Scope Z_scope.

Section WithEnv.
Context {E : Env}.

Definition but_fee (d d1 : dict) : Prop :=
  map fst d1 = map fst d /\ (forall k, k <> lit "fee" -> dict_find k d1 = dict_find k d) /\ dict_find (lit "fee") d = Some (PBool true) /\ dict_find (lit "fee") d1 = Some (PInt 1).

Lemma but_set : forall k v d d1, k <> lit "fee" -> but_fee d d1 -> but_fee (dict_set k v d) (dict_set k v d1).
Proof.
  intros k v d d1 N (K & F & T & O). repeat split.
  - specialize (F k N). destruct (dict_find k d) as [w|] eqn:D.
    + rewrite (keys_set_present k v d w D), (keys_set_present k v d1 w F). auto.
    + rewrite (keys_set_absent k v d D), (keys_set_absent k v d1 F), K. auto.
  - intros k' N'. rewrite !find_set. destruct (str_eqb k k'); auto.
  - rewrite set_other; auto.
  - rewrite set_other; auto.
Qed.
Lemma but_adjust : forall d d1, but_fee d d1 ->
  fst (adjust_design d1) = fst (adjust_design d) /\ (but_fee (snd (adjust_design d)) (snd (adjust_design d1))).
Proof.
  intros d d1 B. assert (B0 := B). destruct B as (K & F & T & O). unfold adjust_design. rewrite T, O. cbv zeta. rewrite (F (lit "fee_rate")) by discriminate.
  set (e := match dict_find (lit "fee_rate") d with Some (PInt z) => dict_set (lit "fee_rate") (PStr (py_str_int (PInt z))) d | Some (PBool b) => dict_set (lit "fee_rate") (PStr (py_str_int (PBool b))) d | _ => d end).
  set (e1 := match dict_find (lit "fee_rate") d with Some (PInt z) => dict_set (lit "fee_rate") (PStr (py_str_int (PInt z))) d1 | Some (PBool b) => dict_set (lit "fee_rate") (PStr (py_str_int (PBool b))) d1 | _ => d1 end).
  assert (B : but_fee e e1). { unfold e, e1. destruct (dict_find (lit "fee_rate") d) as [[]|]; auto; apply but_set; auto; discriminate. }
  clearbody e e1. assert (B1 := B). destruct B as (K' & F' & T' & O'). rewrite (F' (lit "max_fee")) by discriminate.
  destruct (dict_find (lit "max_fee") e) as [[| | | |s| |]|]; cbn [fst snd]; auto. destruct (py_int_str 10 s); cbn [fst snd]; auto. split; auto. apply but_set; auto. discriminate.
Qed.
Lemma but_get : forall k d d1, but_fee d d1 -> k <> lit "fee" -> dict_get k d1 = dict_get k d.
Proof. intros k d d1 (_ & F & _) N. unfold dict_get. rewrite F; auto. Qed.
Lemma but_head : forall d d1, but_fee d d1 -> validate_design_head d1 = validate_design_head d.
Proof.
  intros d d1 B. unfold validate_design_head. rewrite !(but_get _ d d1 B) by discriminate. unfold dict_keys. destruct B as (-> & _). reflexivity.
Qed.
Lemma but_validate : forall d d1, but_fee d d1 ->
  fst (validate_design d1) = fst (validate_design d) /\ but_fee (snd (validate_design d)) (snd (validate_design d1)).
Proof.
  intros d d1 B. unfold validate_design. rewrite (but_head d d1 B). destruct (validate_design_head d) as [l|e]; cbn [fst snd]; auto.
  destruct (for_each validate_output l) as [o l']. destruct o as [[]|e]; cbn [fst snd].
  - split; [|apply but_set; auto; discriminate]. destruct B as (_ & F & T & O). unfold get_or_none. rewrite (F (lit "fee_rate")), (F (lit "input_selection_approaches")) by discriminate. rewrite T, O. reflexivity.
  - split; auto. apply but_set; auto. discriminate.
Qed.

Definition one_fee (p : prepared) : prepared :=
  {| p_inputs := p_inputs p; p_outputs := p_outputs p; p_fee := PInt 1; p_fee_rate := p_fee_rate p; p_change_address := p_change_address p; p_max_fee := p_max_fee p;
     p_max_spend_percentage := p_max_spend_percentage p; p_approaches := p_approaches p; p_allow_duplicate := p_allow_duplicate p; p_change_output_index := p_change_output_index p |}.
Lemma one_prepare : forall a a1, fee_one a a1 ->
  match fst (prepare a) with Ok p => fst (prepare a1) = Ok (one_fee p) /\ p_fee p = PBool true /\ p_fee_rate p = None | Err e => fst (prepare a1) = Err e end.
Proof.
  intros a a1 (d & d1 & D & D1 & K & F & T & O & NI & NA & NC). unfold prepare. rewrite NI, D, D1. destruct (ns_inputs a) as [vin|]; [|reflexivity].
  assert (B : but_fee d d1) by (repeat split; auto). destruct (but_adjust d d1 B) as [A1 A2].
  destruct (adjust_design d) as [o1 e]; destruct (adjust_design d1) as [o1' e1]. cbn [fst snd] in A1, A2. subst o1'. destruct o1 as [[]|x]; [|reflexivity].
  destruct vin as [| | | | |l|]; try reflexivity. destruct (for_each adjust_input l) as [o2 l2]. destruct (o2 ;;; validate_inputs (PList l2)) as [[]|x]; [|reflexivity].
  destruct (but_validate e e1 A2) as [V1 V2]. destruct (validate_design e) as [o3 e3]; destruct (validate_design e1) as [o3' e3']. cbn [fst snd] in V1, V2. subst o3'.
  destruct o3 as [[]|x]; [|reflexivity]. cbn [bind]. assert (VO : validate_options a1 = validate_options a) by (unfold validate_options; rewrite NA, NC; reflexivity). rewrite VO. destruct (validate_options a) as [[]|x]; [|reflexivity]. cbn [bind].
  assert (U : match unpack a e3 with Ok (m, r, f, c, mf, ap) => unpack a1 e3' = Ok (m, r, PInt 1, c, mf, ap) /\ f = PBool true /\ r = None | Err x => unpack a1 e3' = Err x end).
  { unfold unpack, get_or_none. rewrite !(but_get _ e3 e3' V2) by discriminate. destruct V2 as (_ & F3 & T3 & O3). rewrite T3, O3, (F3 (lit "input_selection_approaches")) by discriminate. cbn [truthy].
    change (truthy (PInt 1)) with true. cbn [bind].
    destruct (dict_get (lit "change_address") e3); cbn [bind]; auto. destruct (dict_get (lit "max_fee") e3); cbn [bind]; auto. destruct (dict_get (lit "max_spend_percentage") e3) as [v|]; cbn [bind]; auto.
    destruct (py_float v); cbn [bind]; auto. }
  destruct (unpack a e3) as [[[[[[m r] f] c] mf] ap]|x]; [destruct U as (-> & -> & ->)|rewrite U; reflexivity]. cbn [bind]. rewrite (but_get _ e3 e3' V2) by discriminate.
  destruct (dict_get (lit "outputs") e3) as [outs|x]; [|reflexivity]. cbn [bind]. destruct (as_list outs) as [lo|x]; [|reflexivity]. cbn [bind].
  destruct (for_each add_satoshi_amount l2) as [o4 l4]. destruct o4; [|reflexivity]. destruct (for_each add_satoshi_amount lo) as [o5 lo5]. destruct o5; [|reflexivity].
  cbn [fst]. rewrite NA, NC. auto.
Qed.
Lemma one_not_true : forall a a1, fee_one a a1 -> ~ fee_is_true a1.
Proof. intros a a1 (d & d1 & _ & D1 & _ & _ & _ & O & _) (d' & D' & T). rewrite D1 in D'. injection D' as <-. congruence. Qed.
Lemma one_front : forall a a1, fee_one a a1 -> ((exists x, front a = Ok x) <-> exists x, front a1 = Ok x).
Proof.
  intros a a1 O. pose proof (one_prepare a a1 O) as P. unfold front. destruct (fst (prepare a)) as [p|e]; [destruct P as (-> & _)|rewrite P; tauto]. cbn [bind one_fee p_inputs p_outputs p_approaches].
  split; intros [x H]; inv_bind H xs X; inv_bind H ys Y; inv_bind H ap AP; rewrite X, Y, AP; cbn [bind]; eauto.
Qed.
Lemma one_exists : forall a, fee_is_true a -> exists a1, fee_one a a1.
Proof.
  intros a (d & D & T). exists (set_ns_design a (PDict (dict_set (lit "fee") (PInt 1) d))), d, (dict_set (lit "fee") (PInt 1) d). unfold entry in *. repeat split; auto.
  - apply (keys_set_present _ _ _ _ T).
  - intros k N. apply set_other. auto.
  - apply find_set_same.
Qed.

Hypothesis HH : HashOk E.
Hypothesis HZ : ZeroAddressOk E.
Hypothesis HU : UniOk E.
Variable repr : pyval -> pystr.

Lemma fee_true_tk : forall p n m, p_fee p = PBool true -> p_fee_rate p = None ->
  tested (fee_answer repr p n m)
    [ (((n <= 252)%nat, ValueError), fun t => t = too_many n); (((m <= 252)%nat, ValueError), fun t => t = too_many m);
      ((False, ValueError), fun t => t = lit "Apart from an optional period ('.'), amount can contain only digits. Amount: 0.0000True") ].
Proof.
  intros p n m PF PR. unfold fee_answer. set (size := estimated_size n m).
  match goal with |- tested _ (?c1 :: ?c2 :: ?r) => change (c1 :: c2 :: r) with ([c1; c2] ++ r) end. apply tk_bind; [apply estimate_tk|].
  intros z ES. apply estimate_gives in ES as (L1 & L2 & ->). fold size.
  assert (SZ : 0 < size <= 2 ^ 53). { pose proof (size_small _ _ L1 L2). unfold size in *. unfold estimated_size in *. lia. }
  rewrite PF, PR. cbn [final_fee_says abind].
  assert (F1 : exists g, float_says repr (PBool true) = Gives g) by (eexists; vm_compute; reflexivity). destruct F1 as [g F1]. rewrite F1. cbn [abind].
  destruct (py_float_int_small size) as (fs & FS & _); [lia|].
  assert (FSS : float_says repr (PInt size) = Gives fs) by (eapply unsaid_ok; [apply same_float_int|exact FS]). rewrite FSS. cbn [abind].
  destruct (BuildProofs.fdiv_ok g size fs FS) as [r R]; [lia|]. unfold div_says. rewrite R. cbn [abind].
  apply tk_no; [tauto|]. intros t'. split; intros H; rewrite H; reflexivity.
Qed.

Lemma order_true_tk : forall a p q, asked a q -> prep (one_fee p) q -> p_fee p = PBool true -> p_fee_rate p = None -> Forall (fun i => ia_index i < 2 ^ 32) (q_inputs q) ->
  Forall (fun v => make_input v = unsaid (make_input_says repr v)) (p_inputs p) -> Forall (fun v => make_output v = unsaid (make_output_says repr v)) (p_outputs p) ->
  tested (build_answer repr p) (true_fee_says repr q).
Proof.
  intros a p q A P PF PR IX FI0 FO0. pose proof (asked_wf HU _ _ A) as W. destruct (ready_made HU q W IX) as (xs & ys & X & Y).
  pose proof (wf_values q W) as [VI VO].
  pose proof (sort_made (q_approach q) _ _ X) as SX.
  unfold build_answer.
  rewrite (unsaid_ok _ _ _ (same_all_in _ _ _ FI0) (proj2 (make_inputs_iff HH HZ HU (one_fee p) q xs P W) X)). cbn [abind].
  rewrite (unsaid_ok _ _ _ (same_all_in _ _ _ FO0) (proj2 (make_outputs_iff HH HZ HU (one_fee p) q ys P) Y)). cbn [abind].
  destruct P as (_ & _ & _ & CA & _ & CS & CH & AD & CI). cbn [one_fee p_approaches p_allow_duplicate] in CH, AD. rewrite (unsaid_ok _ _ _ (choose_same repr _) CH). cbn [abind]. cbv zeta.
  set (sxs := sort_inputs (q_approach q) xs) in *. unfold true_fee_says, order_says, order_checks, order_texts. cbv zeta. cbn [combine firstn app].
  rewrite <- (F2_len _ _ _ _ _ X), <- (F2_len _ _ _ _ _ Y). rewrite AD.
  (* sums per address *)
  apply tk_seq.
  { apply sums_tk; auto.
    - rewrite (made_pairs_in _ _ SX). apply Forall_map. apply isort_Forall. auto.
    - split; intros H k; specialize (H k); rewrite (sum_for_inputs k _ _ SX) in *;
        unfold in_value in *; rewrite (Zsum_perm _ _ (Permutation.Permutation_map ia_value (filter_perm _ (at_address k) _ _ (isort_perm (q_approach q) (q_inputs q))))) in *; auto.
    - intros t.
      assert (M : map (fun k => sum_for k (map (fun x => (ti_address x, ti_sat x)) sxs)) (distinct (map fst (map (fun x => (ti_address x, ti_sat x)) sxs))) =
                  map (fun a => in_value (filter (at_address a) (isort (q_approach q) (q_inputs q)))) (distinct (map ia_address (isort (q_approach q) (q_inputs q))))).
      { rewrite map_map. cbn [fst]. assert (MA : map ia_address (isort (q_approach q) (q_inputs q)) = map (fun x => ti_address x) sxs) by (eapply F2_map; [exact SX|]; intros i0 x0 HM; apply (imade_address _ _ HM)). rewrite MA. clear MA.
        apply map_ext. intros k. apply sum_for_inputs. exact SX. }
      rewrite M. split.
      + intros (s & k & SF & FW & ->). apply sorted_for_unique in SF. subst s. eauto.
      + intros (k & FW & ->). exists (isort (q_approach q) (q_inputs q)), k. split; [apply isort_for|auto]. }
  intros _ _. apply tk_seq.
  { apply sums_tk; auto.
    - rewrite (proj1 (made_pairs_out _ _ Y)). apply Forall_map. auto.
    - split; intros H k; specialize (H k); rewrite (sum_for_outputs k _ _ Y) in *; auto.
    - intros t. destruct (made_pairs_out _ _ Y) as (_ & MP2 & MP3). rewrite MP2, MP3.
      assert (M : map (fun k => sum_for k (map (fun x => (to_address x, to_satoshi_amount x)) ys)) (distinct (map oa_address (q_outputs q))) =
                  map (fun a => out_value (filter (pays a) (q_outputs q))) (distinct (map oa_address (q_outputs q)))) by (apply map_ext; intros k; apply sum_for_outputs; exact Y).
      rewrite M. tauto. }
  intros _ _. apply tk_seq; [apply (duplicates_tk q ys Y VO)|].
  intros _ _.
  match goal with |- tested _ (?c1 :: ?c2 :: ?c3 :: []) => change (c1 :: c2 :: c3 :: []) with ([c1; c2; c3] ++ []) end.
  apply tk_bind; [apply fee_true_tk; auto|]. intros f FF. exfalso.
  pose proof (fee_true_tk p (length (q_inputs q)) (length (q_outputs q)) PF PR) as K. rewrite FF in K. cbn [tested] in K. unfold first_pass, all_pass in K. cbn [map fst] in K. inversion K as [|? ? _ K1]; subst. inversion K1 as [|? ? _ K2]; subst. inversion K2; subst. tauto.
Qed.

End WithEnv.
