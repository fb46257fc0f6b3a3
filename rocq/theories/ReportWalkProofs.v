(** Walking through the report of create_transaction. *)
From Coq Require Import String Floats.SpecFloat Permutation Sorted Reals Lra Lia.
From Flocq Require Import Core BinarySingleNaN.
From Verif Require Import PyBase Env PyNum Validate Basic Spec EnvOk TxInput TxOutput Tx Create Report TxSpec FloatSpec NumSpec ValidSpec CreateSpec RefuseSpec JsonSpec ReportSpec.
From Verif Require Import NumLemmas HexProofs Base58Proofs AddrProofs FloatProofs AmountProofs RateProofs NumProofs WireProofs MakeProofs PrepProofs DesignProofs BuildProofs CreateProofs RefuseProofs OrderProofs JsonProofs ReportTextProofs ReportProofs.
Open Scope Z_scope.

Section WithEnv.
Context {E : Env}.
Hypothesis HH : HashOk E.
Hypothesis HZ : ZeroAddressOk E.
Hypothesis HU : UniOk E.
Context (repr : pyval -> pystr).

(** ** What follows each check *)
Definition after_change (p : prepared) (sx : list txin) (ti total target f : Z) (ca : pystr) (outputs : list txout) (change : Z) : logged tx :=
  let total_out := Zsum (map to_satoshi_amount outputs) in
  (if total =? target then quiet (Ok tt)
   else
     total_out_bitcoin <~ quiet (satoshi_to_bitcoin (PInt total_out)) ;;
     say (lit "New total output value: " ++ both total_out_bitcoin total_out) ~;
     target_bitcoin <~ quiet (satoshi_to_bitcoin (PInt (total_out + f))) ;;
     say (lit "New total output + fee value: " ++ both target_bitcoin (total_out + f))) ~;
  if negb (total =? total_out + f) then quiet (Err ValueError)
  else
    change_bitcoin <~ quiet (satoshi_to_bitcoin (PInt change)) ;;
    say (lit "Change amount: " ++ both change_bitcoin change) ~;
    says_spend (p_max_spend_percentage p) ti (total - change) ~;
    t <~ quiet (tx_create sx outputs) ;;
    say (lit "Transaction created.") ~;
    quiet (Ok (set_change_address t (Some ca))).
Definition after_selection (p : prepared) (ti target f : Z) (ys : list txout) (sx : list txin) : logged tx :=
  let total_selected := Zsum (map ti_sat sx) in
  selected_bitcoin <~ quiet (satoshi_to_bitcoin (PInt total_selected)) ;;
  say (lit "Total selected input value: " ++ both selected_bitcoin total_selected) ~;
  change_address <~ quiet (as_str (p_change_address p)) ;;
  '(outputs, change) <~ says_change repr change_address (p_change_output_index p) ys total_selected target ;;
  after_change p sx ti total_selected target f change_address outputs change.
Definition after_fee (p : prepared) (ap : approach) (inputs : list txin) (outputs : list txout) (f : Z) : logged tx :=
  let total_in := Zsum (map ti_sat inputs) in
  let total_out := Zsum (map to_satoshi_amount outputs) in
  total_in_bitcoin <~ quiet (satoshi_to_bitcoin (PInt total_in)) ;;
  total_out_bitcoin <~ quiet (satoshi_to_bitcoin (PInt total_out)) ;;
  say (lit "Total available input value: " ++ both total_in_bitcoin total_in) ~;
  say (lit "Total output value: " ++ both total_out_bitcoin total_out) ~;
  (if total_in <? total_out then
     bitcoin <~ quiet (satoshi_to_bitcoin (PInt (total_out - total_in))) ;;
     raise_with OutputValueNotCovered
       (lit "Total available input value is less than total output value." ++ nl ++ lit "- Shortfall: " ++ both bitcoin (total_out - total_in))
   else say (lit "Total available input value is less than or equal to total output value.")) ~;
  let target := total_out + f in
  target_bitcoin <~ quiet (satoshi_to_bitcoin (PInt target)) ;;
  say (lit "Total output + fee value: " ++ both target_bitcoin target) ~;
  selected <~ says_selection repr (p_approaches p) ap inputs total_in target ;;
  after_selection p total_in target f outputs selected.
Definition after_duplicates (p : prepared) (ap : approach) (n : nat) (inputs : list txin) (outputs : list txout) : logged tx :=
  f <~ says_fee repr p n (length outputs) ;; after_fee p ap inputs outputs f.

(** ** Inputs and outputs *)
Lemma both_money : forall n, both (btc n) n = money n.
Proof. reflexivity. Qed.
Lemma F2_sym : forall A B (R : A -> B -> Prop) (S : B -> A -> Prop) l l', (forall a b, R a b -> S b a) -> Forall2 R l l' -> Forall2 S l' l.
Proof. intros A B R S l l' K H. induction H; constructor; auto. Qed.
Lemma imade_line : forall i x k, imade i x -> sorted_input_line repr k x = input_entry k (i, btc (ia_value i)).
Proof.
  intros i x k (h & idx & s & _ & _ & _ & Q & _ & _ & B & ->). cbn [as_int] in Q. injection Q as Q. unfold sorted_input_line. cbn. unfold of_opt. rewrite (btc_text_btc s _ B).
  etransitivity; [apply (input_line_ok repr)|]. reflexivity.
Qed.
Lemma omade_line : forall o y k, omade o y -> sorted_output_line repr k y = output_entry k (o, btc (oa_value o)).
Proof.
  intros o y k (h & s & _ & _ & B & ->). unfold sorted_output_line. cbn. rewrite (btc_text_btc s _ B).
  etransitivity; [apply (output_line_ok repr)|]. reflexivity.
Qed.
Lemma imade_count : forall k l xs, Forall2 imade l xs -> length (filter (fun x => str_eqb (ti_address x) k) xs) = length (filter (at_address k) l).
Proof.
  intros k l xs H. induction H as [|i x l xs M H IH]; [reflexivity|]. cbn [filter]. rewrite <- (imade_address _ _ M). unfold at_address at 1. destruct (str_eqb (ia_address i) k); cbn [length]; rewrite IH; reflexivity.
Qed.
Lemma lines_msg : forall m l, lines (m :: l) = m ++ flat_map (fun s => 10 :: s) l.
Proof. reflexivity. Qed.
Lemma plural_ok : forall n, (if Nat.ltb 1 n then lit "s" else []) = plural n.
Proof. intros [|[|n]]; reflexivity. Qed.
Lemma input_sums_ok : forall xs s D msg, Forall2 imade s xs -> (forall a, 0 <= in_value (filter (at_address a) s) <= max_money) ->
  input_sums xs (map (fun k => (k, sum_for k (map (fun x => (ti_address x, ti_sat x)) xs))) D) msg =
  Ok (msg ++ flat_map (fun t => 10 :: t) (map (fun a => let l := filter (at_address a) s in
             lit "- " ++ a ++ lit ": " ++ money (in_value l) ++ lit ", " ++ number (length l) ++ lit " input" ++ plural (length l) ++ lit ".") D)).
Proof.
  intros xs s D msg X B. revert msg. induction D as [|k D IH]; intros msg; cbn [map input_sums flat_map]; [rewrite app_nil_r; reflexivity|].
  rewrite (sum_for_inputs k _ _ X), (btc_ok HU) by auto. cbn [bind]. rewrite IH, (imade_count _ _ _ X), plural_ok, both_money. f_equal. cbv zeta. unfold nl. rewrite <- !app_assoc. cbn [app]. rewrite <- !app_assoc. reflexivity.
Qed.
Lemma output_sums_ok : forall ys s D msg, Forall2 omade s ys -> (forall a, 0 <= out_value (filter (pays a) s) <= max_money) ->
  output_sums (map (fun k => (k, sum_for k (map (fun x => (to_address x, to_satoshi_amount x)) ys))) D) msg =
  Ok (msg ++ flat_map (fun t => 10 :: t) (map (fun a => lit "- " ++ a ++ lit ": " ++ money (out_value (filter (pays a) s))) D)).
Proof.
  intros ys s D msg X B. revert msg. induction D as [|k D IH]; intros msg; cbn [map output_sums flat_map]; [rewrite app_nil_r; reflexivity|].
  rewrite (sum_for_outputs k _ _ X), (btc_ok HU) by auto. cbn [bind]. rewrite IH, both_money. f_equal. unfold nl. rewrite <- !app_assoc. cbn [app]. rewrite <- !app_assoc. reflexivity.
Qed.
Lemma filter_in_le : forall (f : iarg -> bool) l, Forall (fun i => 0 <= ia_value i) l -> 0 <= in_value (filter f l) <= in_value l.
Proof.
  intros f l H. induction H as [|i l Hi H IH]; [cbn; lia|]. cbn [filter]. destruct (f i); rewrite ?in_value_cons; lia.
Qed.
Lemma filter_out_le : forall (f : oarg -> bool) l, Forall (fun i => 0 <= oa_value i) l -> 0 <= out_value (filter f l) <= out_value l.
Proof.
  intros f l H. induction H as [|i l Hi H IH]; [cbn; lia|]. cbn [filter]. destruct (f i); rewrite ?out_value_cons; lia.
Qed.
Lemma enumerate_map : forall A B (f : nat -> B -> pystr) (g : A -> B) l i, enumerate f i (map g l) = enumerate (fun k x => f k (g x)) i l.
Proof. intros A B f g. induction l as [|x l IH]; intros i; cbn [map enumerate]; [reflexivity|]. rewrite IH. reflexivity. Qed.
Lemma map_imade : forall s xs, Forall2 imade s xs -> map ti_address xs = map ia_address s.
Proof. intros s xs H. induction H as [|i x l xs M H IH]; [reflexivity|]. cbn [map]. rewrite <- (imade_address _ _ M), IH. reflexivity. Qed.
Lemma map_omade : forall s xs, Forall2 omade s xs -> map to_address xs = map oa_address s.
Proof. intros s xs H. induction H as [|i x l xs M H IH]; [reflexivity|]. cbn [map]. rewrite <- (omade_address _ _ M), IH. reflexivity. Qed.

Lemma front_says : forall p q ta tb xs ys, prep p q -> wf q ->
  Forall2 (shown_input repr) (combine (q_inputs q) ta) (p_inputs p) -> Forall2 (shown_output repr) (combine (q_outputs q) tb) (p_outputs p) ->
  p_approaches p = PList [PStr (approach_name (q_approach q))] ->
  Forall2 imade (q_inputs q) xs -> Forall2 omade (q_outputs q) ys -> in_value (q_inputs q) <= max_money -> out_value (q_outputs q) <= max_money ->
  build_says repr p = pre (inputs_part repr q ta tb (isort (q_approach q) (q_inputs q)))
    (says_duplicates (q_allow_duplicates q) ys (distinct (map oa_address (q_outputs q))) ~;
     after_duplicates p (q_approach q) (length (q_inputs q)) (sort_inputs (q_approach q) xs) ys).
Proof.
  intros p q ta tb xs ys P W SI SO AP X Y TI TO. pose proof (wf_values q W) as [VI VO].
  pose proof (sort_made (q_approach q) _ _ X) as SX. set (s := isort (q_approach q) (q_inputs q)) in *. set (sxs := sort_inputs (q_approach q) xs) in *.
  unfold build_says. rewrite bind_say, !say_all_pre, bind_pre, bind_ok, bind_pre, bind_ok, !pre_pre.
  rewrite (proj2 (make_inputs_iff HH HZ HU p q xs P W) X), bind_ok. cbv zeta. rewrite bind_say, pre_pre.
  rewrite (proj2 (make_outputs_iff HH HZ HU p q ys P) Y), bind_ok, bind_say, pre_pre.
  destruct P as (_ & _ & _ & CA & _ & CS & CH & AD & CI). rewrite CH, bind_ok, bind_say, bind_say, !pre_pre. fold sxs. rewrite !say_all_pre, bind_pre, bind_ok, bind_pre, bind_ok, !pre_pre.
  rewrite !per_address_map, !map_map. cbn [fst].
  rewrite (input_sums_ok sxs s); [|auto|intros a; pose proof (filter_in_le (at_address a) s (isort_Forall _ _ _ VI)); unfold s in *; rewrite isort_value in *; lia].
  rewrite bind_ok, bind_say, !pre_pre. rewrite (output_sums_ok ys (q_outputs q)); [|auto|intros a; pose proof (filter_out_le (pays a) _ VO); lia].
  rewrite bind_ok, bind_say, !pre_pre. rewrite map_id, AD. change (fun x : txin => ti_address x) with ti_address. change (fun x : txout => to_address x) with to_address. rewrite (map_imade _ _ SX), (map_omade _ _ Y). fold (after_duplicates p (q_approach q) (length xs) sxs ys).
  rewrite <- (F2_len _ _ _ _ _ X), <- (F2_len _ _ _ _ _ Y). f_equal.
  unfold inputs_part. rewrite <- !app_assoc. f_equal. f_equal.
  { rewrite <- enumerate_numbered. apply enumerate_ext. exact SI. }
  f_equal. { rewrite <- enumerate_numbered. apply enumerate_ext. exact SO. }
  rewrite <- (F2_len _ _ _ _ _ SX), AP. unfold approaches_text. unfold s at 1. rewrite isort_length. cbn [app]. do 4 (apply (f_equal2 cons); [reflexivity|]). apply (f_equal2 (@app _)); [|apply (f_equal2 (@app _)); [|reflexivity]].
  - rewrite <- enumerate_numbered, enumerate_map. apply enumerate_ext. eapply F2_impl; [|exact SX]. intros i x M k. symmetry. apply imade_line. auto.
  - rewrite <- enumerate_numbered, enumerate_map. apply enumerate_ext. eapply F2_impl; [|exact Y]. intros i x M k. symmetry. apply omade_line. auto.
  - unfold after_duplicates. rewrite <- (F2_len _ _ _ _ _ Y). reflexivity.
Qed.

(** ** Duplicates *)
Lemma duplicates_fine : forall allow ys (D : list pystr), (allow = false -> forall a, In a D -> (length (filter (fun x => str_eqb (to_address x) a) ys) <= 1)%nat) ->
  says_duplicates allow ys D = quiet (Ok tt).
Proof.
  intros allow ys D H. induction D as [|a D IH]; [reflexivity|]. cbn [says_duplicates]. destruct allow; [rewrite andb_false_r; apply IH; discriminate|].
  rewrite (proj2 (Nat.ltb_ge _ _)) by (apply H; [reflexivity|left; reflexivity]). apply IH. intros _ b B. apply H; [reflexivity|right; auto].
Qed.
Lemma duplicates_bad : forall ys q D1 a D2, Forall2 omade (q_outputs q) ys -> (forall b, In b D1 -> (length (filter (pays b) (q_outputs q)) <= 1)%nat) -> (1 < length (filter (pays a) (q_outputs q)))%nat ->
  says_duplicates false ys (D1 ++ a :: D2) = raise_with DuplicateOutputAddressError (duplicate_text q a).
Proof.
  intros ys q D1 a D2 Y. induction D1 as [|b D1 IH]; intros H L; cbn [app says_duplicates]; rewrite (made_filter _ _ _ Y).
  - rewrite (proj2 (Nat.ltb_lt _ _)) by auto. reflexivity.
  - rewrite (proj2 (Nat.ltb_ge _ _)) by (apply H; left; reflexivity). apply IH; auto. intros c C. apply H. right. auto.
Qed.

(** ** The fee *)
Lemma fee_says : forall p q f mf, prep p q -> show repr (p_max_fee p) = mf -> (length (q_inputs q) <= 252)%nat -> (length (q_outputs q) <= 252)%nat -> fee_due q f -> 0 <= f <= max_money ->
  says_fee repr p (length (q_inputs q)) (length (q_outputs q)) =
  pre (fee_part repr q f mf) (if q_max_fee q <? f then raise_with ValueError (max_fee_text f mf) else quiet (Ok f)).
Proof.
  intros p q f mf P <- L1 L2 FD F. pose proof P as (_ & _ & PF & _ & WM & _). unfold says_fee. rewrite estimate_ok by auto. rewrite bind_ok.
  unfold fee_part. cbv zeta. set (size := estimated_size (length (q_inputs q)) (length (q_outputs q))) in *.
  assert (SZ : 0 < size <= 2 ^ 53). { unfold size, estimated_size. change (2 ^ 53) with 9007199254740992. lia. }
  pose proof (money_small f F) as FS.
  assert (C : compute_fee (p_fee p) (p_fee_rate p) size = Ok (PInt f)).
  { unfold fee_due in FD. fold size in FD. destruct (q_fee q) as [m|r].
    - destruct PF as [P1 P2]. subst. rewrite P2. cbn [compute_fee]. congruence.
    - rewrite PF. cbn [compute_fee]. apply rate_fee_iff in FD; [|lia]. unfold rate_res in FD. inv_bind FD f1 F1. rewrite F1. cbn [bind]. rewrite FD. reflexivity. }
  rewrite !bind_say, !pre_pre, C, bind_ok, bind_say, pre_pre. cbn [py_float].
  rewrite (proj1 (float_of_small f FS)), (proj1 (float_of_small size ltac:(lia))). cbn [bind].
  destruct (ratio_ok f size ltac:(lia) SZ) as (R1 & _ & R3 & _). rewrite R1, bind_ok.
  assert (LAST : (quiet (satoshi_to_bitcoin (PInt f)) ~; n <~ quiet (match as_int (PInt f) with Some z => Ok z | None => Err TypeError end) ;;
     b <~ quiet (py_int_gt n (p_max_fee p)) ;;
     if b : bool then raise_with ValueError (lit "The fee (" ++ show repr (PInt f) ++ lit " satoshi) is greater than the specified maximum fee (" ++ show repr (p_max_fee p) ++ lit " satoshi).")
     else quiet (Ok n)) = if q_max_fee q <? f then raise_with ValueError (max_fee_text f (show repr (p_max_fee p))) else quiet (Ok f)).
  { rewrite (btc_ok HU) by auto. rewrite bind_ok. cbn [as_int]. rewrite bind_ok, (int_gt_whole f _ _ WM), bind_ok. destruct (q_max_fee q <? f); reflexivity. }
  destruct (q_fee q) as [m|r].
  - destruct PF as [P1 P2]. rewrite P1, P2, bind_say, bind_say, !pre_pre, LAST, (fixed_ok 4 _ R3). reflexivity.
  - rewrite PF, bind_ok, bind_say, !pre_pre, LAST. reflexivity.
Qed.

(** ** The totals *)
Lemma totals_short : forall p q sxs ys f, Zsum (map ti_sat sxs) = in_value (q_inputs q) -> Zsum (map to_satoshi_amount ys) = out_value (q_outputs q) ->
  0 <= in_value (q_inputs q) <= max_money -> 0 <= out_value (q_outputs q) <= max_money -> in_value (q_inputs q) < out_value (q_outputs q) ->
  after_fee p (q_approach q) sxs ys f = pre (totals_part q)
    (raise_with OutputValueNotCovered (shortfall_text "output" (out_value (q_outputs q) - in_value (q_inputs q)))).
Proof.
  intros p q sxs ys f VI VO NI NO LT. unfold after_fee. rewrite VI, VO. cbv zeta. rewrite !(btc_ok HU) by lia. rewrite !bind_ok, !bind_say, pre_pre, !both_money. unfold totals_part. f_equal.
  rewrite (proj2 (Z.ltb_lt _ _)) by auto. rewrite ?bind_ok, bind_raise, ?both_money. unfold shortfall_text. rewrite lines_cons, lines_one. rewrite <- !app_assoc. reflexivity.
Qed.
Lemma totals_fine : forall p q sxs ys f, Zsum (map ti_sat sxs) = in_value (q_inputs q) -> Zsum (map to_satoshi_amount ys) = out_value (q_outputs q) ->
  0 <= in_value (q_inputs q) <= max_money -> 0 <= out_value (q_outputs q) <= in_value (q_inputs q) -> 0 <= target q f <= max_money ->
  after_fee p (q_approach q) sxs ys f = pre (totals_part q ++ target_part q f)
     (selected <~ says_selection repr (p_approaches p) (q_approach q) sxs (in_value (q_inputs q)) (target q f) ;; after_selection p (in_value (q_inputs q)) (target q f) f ys selected).
Proof.
  intros p q sxs ys f VI VO NI NO TT. unfold after_fee. rewrite VI, VO. cbv zeta. fold (target q f). rewrite (proj2 (Z.ltb_ge _ _)) by lia. rewrite !(btc_ok HU) by lia. rewrite !bind_ok, !bind_say, !pre_pre, !both_money. reflexivity.
Qed.

(** ** The selection *)
Lemma selection_short : forall v q sxs f, 0 <= in_value (q_inputs q) < target q f -> target q f <= max_money ->
  says_selection repr v (q_approach q) sxs (in_value (q_inputs q)) (target q f) =
  raise_with OutputAndFeeValueNotCovered (shortfall_text "output + fee" (target q f - in_value (q_inputs q))).
Proof.
  intros v q sxs f LT M. unfold says_selection. rewrite (proj2 (Z.ltb_lt _ _)) by lia. rewrite (btc_ok HU) by lia. rewrite bind_ok, both_money. unfold shortfall_text. rewrite lines_cons, lines_one. rewrite <- !app_assoc. reflexivity.
Qed.
Lemma selection_says : forall p q sxs ys f sel, prep p q -> wf q -> p_approaches p = PList [PStr (approach_name (q_approach q))] ->
  Forall2 imade (isort (q_approach q) (q_inputs q)) sxs -> Forall2 omade (q_outputs q) ys ->
  0 <= target q f <= in_value (q_inputs q) -> in_value (q_inputs q) <= max_money -> chosen (q_approach q) (target q f) (isort (q_approach q) (q_inputs q)) sel ->
  exists sx, Forall2 imade sel sx /\ target q f <= in_value sel <= in_value (q_inputs q) /\ (length sel <= length (q_inputs q))%nat /\
    (selected <~ says_selection repr (p_approaches p) (q_approach q) sxs (in_value (q_inputs q)) (target q f) ;; after_selection p (in_value (q_inputs q)) (target q f) f ys selected) =
    pre (selection_part repr q f sel)
      ('(outputs, change) <~ says_change repr (q_change_address q) (q_change_index q) ys (in_value sel) (target q f) ;;
       after_change p sx (in_value (q_inputs q)) (in_value sel) (target q f) f (q_change_address q) outputs change).
Proof.
  intros p q sxs ys f sel P W AP SX Y TT TM CH. pose proof (wf_values q W) as [NI NO].
  set (s := isort (q_approach q) (q_inputs q)) in *. assert (VS : Forall (fun i => 0 <= ia_value i) s) by (apply isort_Forall; auto).
  assert (SV : in_value s = in_value (q_inputs q)) by apply isort_value. assert (LS : length s = length (q_inputs q)) by apply isort_length.
  apply chosen_iff in CH; [|auto|lia]. rewrite SV in CH.
  assert (SR : target q f <= in_value sel <= in_value (q_inputs q)).
  { subst sel. destruct (Z.eqb_spec (in_value (q_inputs q)) (target q f)); [lia|]. split.
    - apply iselect_reach; auto. lia. - rewrite <- SV. apply iselect_value; auto. }
  assert (SL : (length sel <= length (q_inputs q))%nat).
  { subst sel. destruct (in_value (q_inputs q) =? target q f); [lia|]. rewrite <- LS. apply iselect_length. }
  destruct P as (_ & _ & _ & CA & _ & _ & _ & _ & CI).
  assert (AS : forall sx, Forall2 imade sel sx -> after_selection p (in_value (q_inputs q)) (target q f) f ys sx =
     pre [lit "Total selected input value: " ++ money (in_value sel)] ('(outputs, change) <~ says_change repr (q_change_address q) (q_change_index q) ys (in_value sel) (target q f) ;;
       after_change p sx (in_value (q_inputs q)) (in_value sel) (target q f) f (q_change_address q) outputs change)).
  { intros sx SM. unfold after_selection. cbv zeta. rewrite (in_value_made _ _ SM), CA, CI. rewrite (btc_ok HU) by lia. cbn [as_str]. rewrite bind_ok, bind_say, bind_ok, both_money. reflexivity. }
  unfold says_selection, selection_part. rewrite (proj2 (Z.ltb_ge _ _)) by lia. destruct (Z.eqb_spec (in_value (q_inputs q)) (target q f)) as [Q|Q].
  - subst sel. exists sxs. split; [auto|]. split; [auto|]. split; [auto|]. rewrite bind_say, bind_say, pre_pre, bind_pre, bind_ok, (AS sxs SX), pre_pre. reflexivity.
  - exists (select_loop match q_approach q with All => true | _ => false end (target q f) 0 sxs).
    assert (SM : Forall2 imade sel (select_loop match q_approach q with All => true | _ => false end (target q f) 0 sxs)) by (subst sel; apply select_made; auto).
    split; [auto|]. split; [auto|]. split; [auto|]. rewrite (btc_ok HU) by lia. rewrite bind_ok, !bind_say, !pre_pre, bind_pre, bind_ok, (AS _ SM), pre_pre, AP, both_money.
    rewrite <- (F2_len _ _ _ _ _ SM). rewrite lines_cons, lines_one. rewrite <- !app_assoc. reflexivity.
Qed.

(** ** The change *)
Lemma surplus_line : forall q f sel, in_value sel <> target q f -> surplus_part q f sel =
  [lit "Total selected input value is greater than total output + fee value." ++ nl ++ lit "- Surplus value: " ++ money (in_value sel - target q f) ++ nl ++
   lit "- This extra value will be sent to the change address." ++ nl ++ lit "- Change address: " ++ q_change_address q].
Proof. intros q f sel N. unfold surplus_part. rewrite (proj2 (Z.eqb_neq _ _)) by auto. rewrite !lines_cons, lines_one. rewrite <- !app_assoc. reflexivity. Qed.
Definition index_shown (q : order) : pystr := match q_change_index q with PInt z => int_str z | v => repr v end.
Lemma show_index : forall q, (q_change_index q = PNone \/ exists z, whole (q_change_index q) z) -> show repr (q_change_index q) = index_shown q.
Proof. unfold index_shown. intros q [->|(z & [[-> _]|[(b & -> & _)|(b & -> & _)]])]; reflexivity. Qed.
Lemma change_bad : forall q f sel ys, wf q -> Forall2 omade (q_outputs q) ys -> target q f < in_value sel <= max_money -> 0 <= target q f ->
  (1 < length (filter (pays (q_change_address q)) (q_outputs q)))%nat ->
  (q_change_index q = PNone \/ exists z, whole (q_change_index q) z /\ Z.of_nat (length (filter (pays (q_change_address q)) (q_outputs q))) <= z) ->
  says_change repr (q_change_address q) (q_change_index q) ys (in_value sel) (target q f) =
  pre (surplus_part q f sel) (raise_with ValueError (match q_change_index q with PNone => ambiguous_text q | _ => index_text repr q end)).
Proof.
  intros q f sel ys W Y LT T0 L IX. unfold says_change. rewrite (proj2 (Z.eqb_neq _ _)) by lia. cbv zeta. rewrite (btc_ok HU) by lia. rewrite bind_ok, bind_say, surplus_line, both_money by lia. apply (f_equal2 pre).
  - repeat rewrite <- app_assoc. reflexivity.
  - rewrite (made_filter _ _ _ Y). rewrite (proj2 (Nat.ltb_lt _ _)) by auto. unfold says_position. rewrite position_none by auto.
    destruct IX as [->|(z & WZ & _)]; [reflexivity|]. unfold index_text. rewrite show_index by (right; eauto). unfold index_shown. destruct (q_change_index q); reflexivity || (destruct WZ as [[WZ _]|[(b & WZ & _)|(b & WZ & _)]]; discriminate).

Qed.
Lemma nth_made : forall a l1 o l2 ys, Forall2 omade (l1 ++ o :: l2) ys -> oa_address o = a -> old_amount a (length (filter (pays a) l1)) ys = oa_value o.
Proof.
  intros a l1 o l2 ys Y A. apply Forall2_app_inv_l in Y as (y1 & y2 & Y1 & Y2 & ->). inversion Y2 as [|? y ? y3 M Y3]; subst. unfold old_amount.
  rewrite filter_app, nth_error_app2; rewrite (made_filter _ _ _ Y1); [|lia]. rewrite Nat.sub_diag. cbn [filter]. rewrite <- (omade_address _ _ M), str_eqb_refl. cbn [nth_error]. symmetry. apply (omade_sat _ _ M).
Qed.
Lemma change_says : forall p q f sel sx ys outs chg ti, wf q -> Forall2 omade (q_outputs q) ys -> 0 <= f -> target q f <= in_value sel <= max_money -> 0 <= target q f ->
  surplus_paid (q_change_address q) (q_change_index q) (q_outputs q) (in_value sel - target q f) outs chg ->
  exists ys', Forall2 omade outs ys' /\ 0 <= chg <= in_value sel /\
  ('(outputs, change) <~ says_change repr (q_change_address q) (q_change_index q) ys (in_value sel) (target q f) ;;
   after_change p sx ti (in_value sel) (target q f) f (q_change_address q) outputs change) =
  pre (surplus_part q f sel ++ change_part repr q f sel outs chg)
    (says_spend (p_max_spend_percentage p) ti (in_value sel - chg) ~;
     t <~ quiet (tx_create sx ys') ;;
     say (lit "Transaction created.") ~;
     quiet (Ok (set_change_address t (Some (q_change_address q))))).
Proof.
  intros p q f sel sx ys outs chg ti W Y F0 LT T0 SP. pose proof (wf_values q W) as [NI NO]. pose proof (out_value_nonneg _ NO) as NO'.
  destruct (surplus_value _ _ _ _ _ _ SP NO ltac:(lia)) as (SVA & SVB & SVC). assert (TD : target q f = out_value (q_outputs q) + f) by reflexivity.
  destruct (omade_exists_all HU q _ _ _ _ W SP ltac:(lia) ltac:(lia)) as [ys' Y'].
  exists ys'. split; [auto|]. split; [lia|].
  assert (HC : handle_change (q_change_address q) (q_change_index q) ys (in_value sel) (target q f) = Ok (ys', chg)).
  { apply (handle_iff HH HZ HU _ _ _ _ _ _ _ _ Y); [apply W|apply W|lia|]. exists outs. auto. }
  assert (TE : in_value sel = out_value outs + f) by lia.
  set (KK := says_spend _ _ _ ~; _).
  assert (AC : after_change p sx ti (in_value sel) (target q f) f (q_change_address q) ys' chg =
    pre ((if in_value sel =? target q f then [] else [ lit "New total output value: " ++ money (out_value outs); lit "New total output + fee value: " ++ money (out_value outs + f) ]) ++
         [lit "Change amount: " ++ money chg]) KK).
  { unfold after_change. cbv zeta. rewrite (out_value_made _ _ Y'). rewrite <- TE, Z.eqb_refl. cbn [negb]. match goal with |- context [says_spend ?a ?b ?c ~; ?r] => change (says_spend a b c ~; r) with KK end. destruct (in_value sel =? target q f).
    - rewrite bind_ok. rewrite (btc_ok HU) by lia. rewrite bind_ok, bind_say, both_money. reflexivity.
    - rewrite !(btc_ok HU) by lia. repeat (rewrite ?bind_ok, ?bind_say, ?bind_pre, ?say_pre, ?pre_pre). rewrite !both_money. reflexivity. }
  unfold says_change. unfold change_part. destruct (Z.eqb_spec (in_value sel) (target q f)) as [Q|Q].
  { unfold handle_change in HC. rewrite (proj2 (Z.eqb_eq _ _) Q) in HC. injection HC as -> <-. rewrite bind_say, bind_pre, bind_ok, AC, pre_pre. unfold surplus_part. rewrite (proj2 (Z.eqb_eq _ _) Q). reflexivity. }
  cbv zeta. rewrite (btc_ok HU) by lia. rewrite bind_ok, bind_say, bind_pre, surplus_line, both_money, <- pre_pre by lia. rewrite <- !app_assoc. f_equal.
  unfold handle_change in HC. rewrite (proj2 (Z.eqb_neq _ _)) in HC by auto. cbv zeta in HC. rewrite (btc_ok HU) in HC by lia. cbn [bind] in HC. rewrite (made_filter _ _ _ Y) in *.
  destruct SP as [(Z0 & _)|[(_ & NP & -> & ->)|(_ & l1 & o & l2 & EQ & OA & -> & -> & IX)]]; [lia| |].
  - apply filter_none in NP. rewrite NP in *. cbn [Nat.ltb Nat.leb Nat.eqb] in *. inv_bind HC y CY. injection HC as <- CE. rewrite CY, bind_ok, !bind_say, !pre_pre, bind_pre, bind_ok, CE, AC, pre_pre.
    assert (LY : length (y :: ys) = length (mk_oarg (q_change_address q) (in_value sel - target q f) :: q_outputs q)) by (cbn [length]; rewrite (F2_len _ _ _ _ _ Y); reflexivity).
    rewrite LY. reflexivity.
  - assert (LE : length (filter (pays (q_change_address q)) (q_outputs q)) = S (length (filter (pays (q_change_address q)) l1) + length (filter (pays (q_change_address q)) l2))) by (rewrite EQ, filter_split by auto; lia).
    assert (OLD : old_amount (q_change_address q) (length (filter (pays (q_change_address q)) l1)) ys = oa_value o) by (rewrite EQ in Y; eapply nth_made; eauto).
    assert (OV : 0 <= oa_value o <= max_money). { destruct W as (_ & WO & _). rewrite EQ in WO. apply Forall_elt in WO. tauto. }
    replace (oa_value o + (in_value sel - target q f) - surplus q f sel) with (oa_value o) by (unfold surplus; lia).
    destruct (Nat.ltb_spec 1 (length (filter (pays (q_change_address q)) (q_outputs q)))) as [L1|L1].
    + inv_bind HC k PK. pose proof PK as PK'. apply position_iff in PK as [PK1 PK2]; [|apply W]. destruct IX as [IX|IX]; [lia|]. assert (k = length (filter (pays (q_change_address q)) l1)) as -> by (rewrite PK1 in IX; injection IX; lia).
      inv_bind HC x X. destruct x as [zs z]. injection HC as -> CE. unfold says_position. rewrite PK'.
      assert (SH : forall A (r : res A) (v : pyval) (m1 m2 : logged A), match Ok (length (filter (pays (q_change_address q)) l1)) with Err ValueError => match v with PNone => m1 | _ => m2 end | _ => quiet r end = quiet r) by reflexivity.
      rewrite bind_ok, X, bind_ok, OLD, (btc_ok HU) by auto. rewrite bind_ok, bind_say, bind_pre, bind_ok, CE, AC, pre_pre. rewrite show_index by apply W. unfold old_line.
      destruct (length (filter (pays (q_change_address q)) (q_outputs q))) as [|[|n]] eqn:LN; try lia. rewrite lines_cons, lines_one, both_money. unfold index_shown. rewrite <- !app_assoc. reflexivity.
    + rewrite (proj2 (Nat.eqb_eq _ _)) in * by lia. assert (Z1 : length (filter (pays (q_change_address q)) l1) = 0%nat) by lia. rewrite Z1 in OLD. inv_bind HC x X. destruct x as [zs z]. injection HC as -> CE.
      rewrite X, bind_ok, OLD, (btc_ok HU) by auto. rewrite bind_ok, bind_say, bind_pre, bind_ok, CE, AC, pre_pre. unfold old_line.
      replace (length (filter (pays (q_change_address q)) (q_outputs q))) with 1%nat by lia. rewrite lines_cons, lines_one, both_money. rewrite <- ?app_assoc. reflexivity.
Qed.

(** ** The spending limit *)
Lemma spend_says : forall q limit spent n, truncates (q_max_spend q) n -> 0 < in_value (q_inputs q) <= max_money -> 0 <= spent <= max_money ->
  spend_limit (q_max_spend q) (in_value (q_inputs q)) limit -> 0 <= limit <= max_money -> (limit = 0 -> limit < spent) ->
  (spent <= limit -> says_spend (q_max_spend q) (in_value (q_inputs q)) spent =
     pre (spend_part q limit spent ++ [lit "The spend amount is " ++ to_places 2 (percent spent limit) ++ lit "% of the maximum permitted spend amount."]) (quiet (Ok tt))) /\
  (limit < spent -> exists advice, advised q spent advice /\ says_spend (q_max_spend q) (in_value (q_inputs q)) spent =
     pre (spend_part q limit spent) (raise_with ValueError (spend_text q limit spent advice))).
Proof.
  intros q limit spent n TR TI SP LM L0 LZ. set (ti := in_value (q_inputs q)) in *.
  assert (FM : is_finite_SF (q_max_spend q) = true) by (apply TR).
  pose proof (money_small ti ltac:(lia)) as T53. pose proof (money_small spent SP) as S53. pose proof (money_small limit L0) as L53.
  apply spend_limit_iff in LM; [|lia]. unfold spend_res in LM. inv_bind LM f100 F1. inv_bind LM x X1. inv_bind LM ft FT.
  assert (f100 = float_of 100) as -> by (pose proof (proj1 (float_of_small 100 ltac:(lia))); congruence). assert (ft = float_of ti) as -> by (pose proof (proj1 (float_of_small ti T53)); congruence). clear F1 FT.
  destruct (ratio_ok spent ti ltac:(lia) ltac:(lia)) as (R1 & _). destruct (percent_ok spent ti ltac:(lia) ltac:(lia)) as (P1 & P2 & P3 & _).
  assert (HEAD : forall A (k : unit -> logged A) (m : logged unit), True -> True) by auto. clear HEAD.
  assert (SB : says_spend (q_max_spend q) ti spent = pre (spend_part q limit spent)
    (if spent <=? limit then
       fm <~ quiet (py_float_int limit) ;; r2 <~ quiet (fdiv (float_of spent) fm) ;;
       say (lit "The spend amount is " ++ fixed 2 (fmul r2 (float_of 100)) ++ lit "% of the maximum permitted spend amount.")
     else raise_with ValueError
      (lit "Spend amount (" ++ btc spent ++ lit " bitcoin) is greater than the maximum permitted spend amount (" ++ btc limit ++
       lit " bitcoin). To spend this amount, you will need to increase the --max-spend-percentage value from " ++ fixed 0 (q_max_spend q) ++ lit " to " ++
       match py_trunc (percent spent ti) with Ok n => int_str (n + 1) | Err _ => [] end ++ lit "."))).
  { unfold says_spend. rewrite bind_say, (proj1 (float_of_small 100 ltac:(lia))), bind_ok, X1, bind_ok, (proj1 (float_of_small ti T53)), bind_ok, LM, bind_ok. rewrite !(btc_ok HU) by auto.
    rewrite bind_ok, bind_say, bind_ok, bind_say, (proj1 (float_of_small spent S53)), !bind_ok, R1, bind_ok. cbv zeta. rewrite P1, bind_say, !pre_pre, !both_money, (fixed_ok 2 _ FM), (fixed_ok 2 _ P3).
    unfold spend_part. rewrite lines_cons, lines_one. fold ti. rewrite <- !app_assoc. reflexivity. }
  split; intros LE; rewrite SB.
  - rewrite (proj2 (Z.leb_le _ _)) by auto. rewrite (proj1 (float_of_small limit L53)), bind_ok. destruct (ratio_ok spent limit ltac:(lia) ltac:(lia)) as (R1' & _). destruct (percent_ok spent limit ltac:(lia) ltac:(lia)) as (P1' & P2' & P3' & _).
    rewrite R1', bind_ok, P1', (fixed_ok 2 _ P3'), say_pre, pre_pre. reflexivity.
  - rewrite (proj2 (Z.leb_gt _ _)) by auto.
    assert (PT : exists m, py_trunc (percent spent ti) = Ok m). { destruct (percent spent ti); try discriminate; eexists; reflexivity. }
    destruct PT as [m PT]. exists (m + 1). split.
    + unfold advised. replace (m + 1 - 1) with m by lia. apply py_trunc_iff. exact PT.
    + rewrite PT, (fixed_ok 0 _ FM). reflexivity.
Qed.

End WithEnv.
