(** The report of create_transaction from beginning to end. *)
From Coq Require Import String Floats.SpecFloat Permutation Sorted Reals Lra Lia.
From Flocq Require Import Core BinarySingleNaN.
From Verif Require Import PyBase Env PyNum Validate Basic Spec EnvOk TxInput TxOutput Tx Create Report TxSpec FloatSpec NumSpec ValidSpec CreateSpec RefuseSpec JsonSpec ReportSpec.
From Verif Require Import NumLemmas HexProofs Base58Proofs AddrProofs FloatProofs AmountProofs RateProofs NumProofs WireProofs MakeProofs PrepProofs DesignProofs BuildProofs CreateProofs RefuseProofs OrderProofs JsonProofs ReportTextProofs ReportProofs ReportWalkProofs.
Open Scope Z_scope.

Lemma distinct_app : forall u v, distinct (u ++ v) = distinct u ++ filter (fun b => negb (existsb (str_eqb b) u)) (distinct v).
Proof.
  induction u as [|a u IH]; intros v; cbn [app distinct]; [|cbn [app]; f_equal].
  - cbn [existsb negb]. induction (distinct v) as [|x l I]; [reflexivity|]. cbn [filter]. rewrite <- I. reflexivity.
  - rewrite IH, filter_app. f_equal. induction (distinct v) as [|x l I]; [reflexivity|]. cbn [filter existsb]. destruct (existsb (str_eqb x) u), (str_eqb x a) eqn:Q; cbn [negb orb filter]; rewrite ?Q; cbn [negb]; rewrite ?I; reflexivity.
Qed.
Lemma distinct_first : forall u a v, ~ In a u -> exists r, distinct (u ++ a :: v) = distinct u ++ a :: r.
Proof.
  intros u a v N. rewrite distinct_app. cbn [distinct filter]. destruct (existsb (str_eqb a) u) eqn:X; [|eexists; reflexivity].
  apply existsb_exists in X as (y & Y & Q). apply str_eqb_eq in Q. subst. contradiction.
Qed.
Lemma pre_raise : forall A l e t, pre l (raise_with e t : logged A) = (l, Raised e (Some t)).
Proof. intros. unfold pre, raise_with. cbn. rewrite app_nil_r. reflexivity. Qed.

Section WithEnv.
Context {E : Env}.
Hypothesis HH : HashOk E.
Hypothesis HZ : ZeroAddressOk E.
Hypothesis HU : UniOk E.
Context (repr : pyval -> pystr).

(** The texts exist and are determined. *)
Lemma input_text : forall v i, input_arg v i -> exists s, amount_entry v s.
Proof. intros v i (d & vi & s & -> & _ & _ & _ & _ & _ & _ & _ & _ & _ & F & _). exists s, d. auto. Qed.
Lemma output_text : forall v o, output_arg v o -> exists s, amount_entry v s /\ amount_of s (oa_value o).
Proof. intros v o (d & s & -> & _ & _ & _ & F & (A & _)). exists s. split; [exists d; auto|exact A]. Qed.
Lemma completed_exists : forall s n, amount_of s n -> exists t, completed s t.
Proof.
  intros s n A. destruct A as [ip [fp [[[D [-> Hx]]|[a [b [-> [Da [Db Hx]]]]]] [L ->]]]].
  - destruct (dec_run HU s ip D) as [I1 [I2 [I3 [I4 I5]]]]. eexists. exists s, []. split; [auto|]. split; [auto|]. split; [auto|]. split; [cbn; lia|]. reflexivity.
  - destruct (dec_run HU a ip Da) as [I1 [I2 [I3 [I4 I5]]]]. destruct (dec_run HU b fp Db) as [J1 [J2 [J3 [J4 J5]]]].
    eexists. exists a, b. split; [auto|]. split; [auto|]. split; [auto|]. split; [lia|]. reflexivity.
Qed.
Lemma texts_exist : forall a q, asked a q -> exists ta tb mf, texts repr a q ta tb mf.
Proof.
  intros a q (l & d & NI & FI & ND & (( lo & GO & FO) & _ & (mv & GM & WM) & _) & _).
  assert (exists ta, Forall2 amount_entry l ta) as [ta TA]. { apply F2_choose. eapply F2_right; [exact FI|]. intros v i Hi. eapply input_text; eauto. }
  assert (exists sb tb, Forall2 amount_entry lo sb /\ Forall2 completed sb tb) as (sb & tb & SB & TB).
  { clear - FO HU. induction FO as [|v o lo os Ho FO (sb & tb & IS & IT)]; [exists [], []; auto|]. destruct (output_text v o Ho) as (s & S & A). destruct (completed_exists s _ A) as (t & T). exists (s :: sb), (t :: tb). auto. }
  exists ta, tb. eexists. exists l, d, lo, sb, mv. unfold entry. repeat (split; [eassumption|]). reflexivity.
Qed.

(** Everything up to the check for duplicates. *)
Lemma says_front : forall a q ta tb mf s, asked a q -> texts repr a q ta tb mf -> sorted_for (q_approach q) (q_inputs q) s ->
  Forall (fun i => ia_index i < 2 ^ 32) (q_inputs q) -> in_value (q_inputs q) <= max_money -> out_value (q_outputs q) <= max_money ->
  exists p xs ys, prep p q /\ wf q /\ Forall2 imade s (sort_inputs (q_approach q) xs) /\ Forall2 omade (q_outputs q) ys /\ s = isort (q_approach q) (q_inputs q) /\
    p_approaches p = PList [PStr (approach_name (q_approach q))] /\ show repr (p_max_fee p) = mf /\
    create_transaction_says repr a = pre (until_duplicates repr a q ta tb s)
      (says_duplicates (q_allow_duplicates q) ys (distinct (map oa_address (q_outputs q))) ~;
       after_duplicates repr p (q_approach q) (length (q_inputs q)) (sort_inputs (q_approach q) xs) ys).
Proof.
  intros a q ta tb mf s A TX SF IX TI TO. destruct (prepare_says HH HZ HU repr a q ta tb mf A TX) as (p & a' & PR & P & SI & SO & AP & MF & VS).
  pose proof (asked_wf HU _ _ A) as W. destruct (ready_made HU q W IX) as (xs & ys & X & Y). pose proof (sorted_for_unique _ _ _ SF) as SQ.
  exists p, xs, ys. split; [auto|]. split; [auto|]. split; [subst s; apply sort_made; auto|]. split; [auto|]. split; [auto|]. split; [auto|]. split; [auto|].
  unfold create_transaction_says. rewrite PR. cbn [fst]. rewrite bind_ok, (front_says HH HZ HU repr p q ta tb xs ys P W SI SO AP X Y TI TO). unfold until_duplicates. rewrite <- pre_pre, <- SQ.
  assert (V : forall (m : logged tx), lbind (validation_says repr a) (fun _ => m) = pre (validation_part repr a q) m) by (intros m; rewrite VS; unfold lbind, pre; destruct m; reflexivity).
  apply V.
Qed.

(** Everything up to the maximum fee. *)
Lemma no_duplicates : forall q ys, Forall2 omade (q_outputs q) ys -> (q_allow_duplicates q = false -> NoDup (map oa_address (q_outputs q))) ->
  says_duplicates (q_allow_duplicates q) ys (distinct (map oa_address (q_outputs q))) = quiet (Ok tt).
Proof.
  intros q ys Y ND. apply duplicates_fine. intros AL a I. apply (proj2 (count_dup to_address ys)); rewrite (map_omade _ _ Y); auto. apply distinct_in. auto.
Qed.
Lemma says_to_fee : forall a q ta tb mf s f, asked a q -> texts repr a q ta tb mf -> sorted_for (q_approach q) (q_inputs q) s -> ready q -> fee_due q f -> 0 <= f <= max_money ->
  exists p sxs ys, prep p q /\ wf q /\ Forall2 imade s sxs /\ Forall2 omade (q_outputs q) ys /\ s = isort (q_approach q) (q_inputs q) /\
    p_approaches p = PList [PStr (approach_name (q_approach q))] /\
    create_transaction_says repr a = pre (until_max_fee repr a q ta tb s f mf)
      (if q_max_fee q <? f then raise_with ValueError (max_fee_text f mf) else after_fee repr p (q_approach q) sxs ys f).
Proof.
  intros a q ta tb mf s f A TX SF (L1 & L2 & IX & TI & TO & ND) FD F0. destruct (says_front a q ta tb mf s A TX SF IX TI TO) as (p & xs & ys & P & W & SX & Y & SQ & AP & MF & ->).
  exists p, (sort_inputs (q_approach q) xs), ys. repeat (split; [assumption|]). rewrite no_duplicates, bind_ok by auto. unfold after_duplicates. rewrite <- (F2_len _ _ _ _ _ Y).
  rewrite (fee_says HU repr p q f mf P MF L1 L2 FD F0). unfold until_max_fee. rewrite bind_pre, pre_pre. f_equal. destruct (q_max_fee q <? f); [apply bind_raise|apply bind_ok].
Qed.

Lemma made_totals : forall q s sxs ys, wf q -> s = isort (q_approach q) (q_inputs q) -> Forall2 imade s sxs -> Forall2 omade (q_outputs q) ys ->
  Zsum (map ti_sat sxs) = in_value (q_inputs q) /\ Zsum (map to_satoshi_amount ys) = out_value (q_outputs q) /\ 0 <= in_value (q_inputs q) /\ 0 <= out_value (q_outputs q).
Proof.
  intros q s sxs ys W -> X Y. pose proof (wf_values q W) as [NI NO]. split; [rewrite (in_value_made _ _ X); apply isort_value|]. split; [apply out_value_made; auto|].
  split; [apply in_value_nonneg; auto|apply out_value_nonneg; auto].
Qed.

(** Everything up to the second comparison. *)
Lemma says_to_target : forall a q ta tb mf s f, asked a q -> texts repr a q ta tb mf -> sorted_for (q_approach q) (q_inputs q) s -> ready q -> fee_due q f -> 0 <= f <= q_max_fee q ->
  out_value (q_outputs q) <= in_value (q_inputs q) -> target q f <= max_money ->
  exists p sxs ys, prep p q /\ wf q /\ Forall2 imade s sxs /\ Forall2 omade (q_outputs q) ys /\ s = isort (q_approach q) (q_inputs q) /\
    p_approaches p = PList [PStr (approach_name (q_approach q))] /\ 0 <= out_value (q_outputs q) /\
    create_transaction_says repr a = pre (until_fee_covered repr a q ta tb s f mf)
      (selected <~ says_selection repr (p_approaches p) (q_approach q) sxs (in_value (q_inputs q)) (target q f) ;; after_selection repr p (in_value (q_inputs q)) (target q f) f ys selected).
Proof.
  intros a q ta tb mf s f A TX SF RD FD F0 LE TM. unfold target in TM.
  assert (N0 : 0 <= out_value (q_outputs q)) by (pose proof (wf_values q (asked_wf HU _ _ A)) as [_ NO]; apply out_value_nonneg; auto).
  destruct (says_to_fee a q ta tb mf s f A TX SF RD FD ltac:(lia)) as (p & sxs & ys & P & W & X & Y & SQ & AP & ->).
  exists p, sxs, ys. repeat (split; [assumption|]). destruct (made_totals q s sxs ys W SQ X Y) as (T1 & T2 & T3 & T4). destruct RD as (_ & _ & _ & TI & TO & _).
  rewrite (proj2 (Z.ltb_ge _ _)) by lia. rewrite (totals_fine HU repr p q sxs ys f T1 T2) by (unfold target; lia). unfold until_fee_covered, until_outputs_covered. rewrite pre_pre, app_assoc. reflexivity.
Qed.

(** Everything up to the change. *)
Lemma says_to_change : forall a q ta tb mf s f sel, asked a q -> texts repr a q ta tb mf -> sorted_for (q_approach q) (q_inputs q) s -> ready q -> fee_due q f -> 0 <= f <= q_max_fee q ->
  target q f <= in_value (q_inputs q) -> chosen (q_approach q) (target q f) s sel ->
  exists p sx ys, prep p q /\ wf q /\ Forall2 imade sel sx /\ Forall2 omade (q_outputs q) ys /\ target q f <= in_value sel <= in_value (q_inputs q) /\ 0 <= target q f /\
    create_transaction_says repr a = pre (until_fee_covered repr a q ta tb s f mf ++ selection_part repr q f sel)
      ('(outputs, change) <~ says_change repr (q_change_address q) (q_change_index q) ys (in_value sel) (target q f) ;;
       after_change p sx (in_value (q_inputs q)) (in_value sel) (target q f) f (q_change_address q) outputs change).
Proof.
  intros a q ta tb mf s f sel A TX SF RD FD F0 LE CH. pose proof RD as (_ & _ & _ & TI & TO & _). assert (TD : target q f = out_value (q_outputs q) + f) by reflexivity.
  destruct (says_to_target a q ta tb mf s f A TX SF RD FD F0 ltac:(lia) ltac:(lia)) as (p & sxs & ys & P & W & X & Y & SQ & AP & N0 & ->). subst s.
  destruct (selection_says HU repr p q sxs ys f sel P W AP X Y ltac:(lia) TI CH) as (sx & SM & SR & SL & ->).
  exists p, sx, ys. repeat (split; [assumption|]). split; [lia|]. rewrite pre_pre. reflexivity.
Qed.

(** ** Refusals of the design *)
Lemma checked_pass : forall A (r : res A) cs, checked r cs -> all_pass cs -> exists x, r = Ok x.
Proof. intros A r cs [H _]. apply H. Qed.
Lemma before_fees : forall a l d lo, ns_inputs a = Some (PList l) -> ns_design a = Some (PDict d) -> entry "outputs" d = Some (PList lo) -> all_pass (checks_before_fees l d lo) ->
  exists f1, adjusted_fee (entry "fee" d) = Some f1 /\
    create_transaction_says repr a = (
      (says_fees (oget f1) (oget (adjusted_rate (entry "fee_rate" d))) ~;
       says_approaches repr (oget (entry "input_selection_approaches" d)) ~;
       quiet (validate_options a) ~; say (lit "All arguments validated. No problems found.")) ~;
      p <~ quiet (fst (prepare a)) ;; build_says repr p).
Proof.
  intros a l d lo NI ND GO PA. unfold entry in *. unfold checks_before_fees in PA. rewrite !pass_app in PA. destruct PA as (P1 & P2 & P3 & P4 & P5).
  destruct (checked_pass _ _ _ (adjust_ck HU d) P1) as ([] & AD'). destruct (adjust_design d) as [o1 d1] eqn:AD. cbn [fst] in AD'. subst o1.
  destruct (adjust_design_inv d d1 AD) as (D1 & D2 & D3 & D4). exists (dict_find (lit "fee") d1). split; [auto|].
  unfold create_transaction_says, validation_says. rewrite NI, ND, AD, bind_ok.
  destruct (for_each adjust_input l) as [o2 l2] eqn:FE.
  assert (C2 : exists x, fst (for_each adjust_input l) = Ok x). { rewrite for_each_fst. apply (checked_pass _ _ (flat_map index_checks l)); auto. apply ck_iter. intros v _. apply (index_ck HU). }
  rewrite FE in C2. cbn [fst] in C2. destruct C2 as ([] & ->). destruct (checked_pass _ _ _ (inputs_ck HH HZ HU l l2 FE) P3) as ([] & VI). cbn [bind]. rewrite VI, bind_ok.
  destruct (checked_pass _ _ _ (head_ck HH HZ HU d d1 AD) P4) as (lv & HE). assert (lv = lo).
  { destruct (head_inv HH HZ d1 lv HE) as (cha & w & z & mv & pf & n & G1 & A1 & G2 & W & G3 & Q1 & T1 & N1 & G4). rewrite D4 in G4 by discriminate. congruence. }
  subst lv. rewrite HE, bind_ok. destruct (checked_pass _ (fst (for_each validate_output lo)) (flat_map output_checks lo)) as ([] & VO); [|auto|].
  { rewrite for_each_fst. apply ck_iter. intros v _. apply (output_ck HH HZ HU). }
  rewrite VO, bind_ok. unfold get_or_none. rewrite D2, (D4 (lit "input_selection_approaches")) by discriminate. reflexivity.
Qed.
Lemma conflicts_says : forall l cs1 x y cs2, Forall (fun p => in_approaches (fst p) l && in_approaches (snd p) l = false) cs1 -> in_approaches x l && in_approaches y l = true ->
  says_conflicts l (cs1 ++ (x, y) :: cs2) = raise_with ValueError (conflict_text x y).
Proof.
  intros l cs1 x y cs2 F Q. induction F as [|[u v] cs1 H F IH]; cbn [app says_conflicts]; [rewrite Q; reflexivity|]. cbn [fst snd] in H. rewrite H. exact IH.
Qed.

End WithEnv.
