(** The requests of DemoCreate.v are well formed. *)
From Coq Require Import String Floats.SpecFloat Permutation Lia.
From Verif Require Import PyBase Env PyNum Validate Basic Spec EnvOk TxInput TxOutput Tx Create TxSpec FloatSpec NumSpec CreateSpec Demo DemoTx DemoCreate.
From Verif Require Import NumLemmas HexProofs Base58Proofs AddrProofs AmountProofs NumProofs PrepProofs DesignProofs BuildProofs DemoProofs DemoTxProofs.

Lemma demo_address : forall a, @validate_bitcoin_address demo_env (PStr a) = Ok tt -> @address demo_env a.
Proof. intros a H. apply (validate_address_inv demo_hash demo_zero_address) in H as (h & s & Q & H). injection Q as <-. exists h. auto. Qed.
Lemma good1 : @address demo_env addr1.
Proof. apply demo_address. vm_compute. reflexivity. Qed.
Lemma good2 : @address demo_env addr2.
Proof. apply demo_address. vm_compute. reflexivity. Qed.
Lemma good3 : @address demo_env addr3.
Proof. apply demo_address. vm_compute. reflexivity. Qed.

Lemma demo_amount : forall s n, @bitcoin_to_satoshi demo_env (PStr s) = Ok n -> @amount_arg demo_env s n.
Proof. intros s n H. apply (bitcoin_to_satoshi_iff demo_uni) in H. exact H. Qed.

Lemma input_demo : forall a b idx s n, @address demo_env a -> byte b -> 0 <= idx -> @bitcoin_to_satoshi demo_env (PStr s) = Ok n ->
  @input_arg demo_env (demo_input a b idx s) (mk_iarg a (repeat b 32) idx n).
Proof.
  intros a b idx s n A B I S. eexists. exists (PInt idx), s. split; [reflexivity|]. split; [apply Permutation_refl|].
  split; [reflexivity|]. split; [exact A|]. split; [reflexivity|]. split; [apply bytes_repeat; auto|]. split; [apply repeat_length|].
  split; [reflexivity|]. split; [reflexivity|]. split; [exact I|]. split; [reflexivity|]. apply demo_amount. exact S.
Qed.
Lemma output_demo : forall a s n, @address demo_env a -> @bitcoin_to_satoshi demo_env (PStr s) = Ok n ->
  @output_arg demo_env (demo_output a s) (mk_oarg a n).
Proof.
  intros a s n A S. eexists. exists s. split; [reflexivity|]. split; [apply Permutation_refl|].
  split; [reflexivity|]. split; [exact A|]. split; [reflexivity|]. apply demo_amount. exact S.
Qed.
Lemma demo_inputs_ok : Forall2 (@input_arg demo_env) demo_inputs demo_iargs.
Proof.
  constructor; [|constructor; [|constructor]]; (apply input_demo; [| |lia|vm_compute; reflexivity]).
  - exact good2. - unfold byte; lia. - exact good1. - unfold byte; lia.
Qed.

Lemma request_asked : forall ins iargs outs oargs fees c max_fee s p n dup b idx i ap d,
  ns_design (request ins outs fees max_fee s dup idx) = Some (PDict d) ->
  Forall2 (@input_arg demo_env) ins iargs -> Forall2 (@output_arg demo_env) outs oargs ->
  dict_find (lit "outputs") d = Some (PList outs) -> dict_find (lit "change_address") d = Some (PStr addr1) ->
  dict_find (lit "max_fee") d = Some (PInt max_fee) -> dict_find (lit "max_spend_percentage") d = Some (PStr s) ->
  @fee_arg demo_env (dict_find (lit "fee") d) (dict_find (lit "fee_rate") d) c ->
  approach_arg (dict_find (lit "input_selection_approaches") d) ap ->
  0 <= max_fee -> @py_float_str demo_env s = Ok p -> py_trunc p = Ok n -> 0 <= n <= 100 -> option_arg dup b -> index_arg idx i ->
  @asked demo_env (request ins outs fees max_fee s dup idx) (mk_order iargs oargs c addr1 max_fee p ap b i).
Proof.
  intros ins iargs outs oargs fees c max_fee s p n dup b idx i ap d ND FI FO F1 F2 F3 F4 FA AA M0 PF TR R OA IA.
  exists ins, d. split; [reflexivity|]. split; [exact FI|]. split; [exact ND|]. split; [|split; [exact OA|exact IA]].
  split; [exists outs; auto|]. split; [split; [exact F2|exact good1]|].
  split; [exists (PInt max_fee); split; [exact F3|left; left; auto]|].
  split; [exists (PStr s), n; split; [exact F4|]; split; [apply (py_float_iff demo_uni (PStr s)); exact PF|]; split; [apply py_trunc_iff; exact TR|exact R]|]. split; [exact FA|exact AA].
Qed.
(** The common case: largest first, 100%, default options. *)
Lemma plain_request : forall ins iargs outs oargs fees c max_fee d,
  ns_design (request ins outs fees max_fee (lit "100.00") None None) = Some (PDict d) ->
  Forall2 (@input_arg demo_env) ins iargs -> Forall2 (@output_arg demo_env) outs oargs ->
  dict_find (lit "outputs") d = Some (PList outs) -> dict_find (lit "change_address") d = Some (PStr addr1) ->
  dict_find (lit "max_fee") d = Some (PInt max_fee) -> dict_find (lit "max_spend_percentage") d = Some (PStr (lit "100.00")) ->
  dict_find (lit "input_selection_approaches") d = None ->
  @fee_arg demo_env (dict_find (lit "fee") d) (dict_find (lit "fee_rate") d) c -> 0 <= max_fee ->
  @asked demo_env (request ins outs fees max_fee (lit "100.00") None None) (order_of iargs oargs c max_fee hundred).
Proof.
  intros ins iargs outs oargs fees c max_fee d ND FI FO F1 F2 F3 F4 F5 FA M0.
  apply request_asked with (n := 100) (d := d); [assumption|assumption|assumption|assumption|assumption|assumption|assumption|assumption| |assumption| | |lia| |].
  - rewrite F5. left. auto. - vm_compute. reflexivity. - vm_compute. reflexivity. - left. auto. - left. auto.
Qed.
Lemma fixed_request : forall ins iargs outs oargs n max_fee,
  Forall2 (@input_arg demo_env) ins iargs -> Forall2 (@output_arg demo_env) outs oargs -> 0 < n -> 0 <= max_fee ->
  @asked demo_env (request ins outs (fixed n) max_fee (lit "100.00") None None) (order_of iargs oargs (FixedFee n) max_fee hundred).
Proof.
  intros ins iargs outs oargs n max_fee FI FO N M. eapply plain_request; auto; try reflexivity. split; [exact N|]. split; [exact I|]. left. reflexivity.
Qed.

Lemma demo_sorted : sorted_for LargestFirst demo_iargs (rev demo_iargs).
Proof.
  replace (rev demo_iargs) with (BuildProofs.isort LargestFirst demo_iargs) by (vm_compute; reflexivity). apply BuildProofs.isort_for.
Qed.
Lemma out3 : forall s n, @bitcoin_to_satoshi demo_env (PStr s) = Ok n -> Forall2 (@output_arg demo_env) [demo_output addr3 s] [mk_oarg addr3 n].
Proof. intros. constructor; [|constructor]. apply output_demo; auto. exact good3. Qed.
Lemma ready_one : forall o c m p, 0 <= oa_value o <= max_money -> ready (order_of demo_iargs [o] c m p).
Proof.
  intros o c m p V. unfold ready. cbn [order_of q_inputs q_outputs q_allow_duplicates demo_iargs length map]. split; [lia|]. split; [lia|].
  split; [repeat constructor|]. split; [vm_compute; discriminate|]. split; [unfold out_value; cbn [map]; unfold Zsum; cbn [fold_right]; lia|].
  intros _. constructor; [intros []|constructor].
Qed.
Lemma demo_asked : @asked demo_env demo_ns demo_order.
Proof.
  exists demo_inputs. eexists. split; [reflexivity|]. split; [exact demo_inputs_ok|]. split; [reflexivity|]. split; [|split; left; auto].
  split; [eexists; split; [reflexivity|apply out3; vm_compute; reflexivity]|]. split; [split; [reflexivity|exact good1]|].
  split; [eexists; split; [reflexivity|left; left; split; [reflexivity|cbn; lia]]|].
  split; [exists (PStr (lit "100.00")), 100; split; [reflexivity|]; split; [apply (py_float_iff demo_uni (PStr (lit "100.00"))); vm_compute; reflexivity|]; split; [apply py_trunc_iff; vm_compute; reflexivity|lia]|].
  split; [|left; split; reflexivity]. split; [lia|]. split; [exact I|]. left. reflexivity.
Qed.
Lemma ambiguous_asked : @asked demo_env ambiguous ambiguous_order.
Proof.
  unfold ambiguous, ambiguous_order. eapply request_asked with (n := 100); [reflexivity|exact demo_inputs_ok| |reflexivity|reflexivity|reflexivity|reflexivity| | |lia| | |lia| |].
  - constructor; [|constructor; [|constructor]]; (apply output_demo; [exact good1|vm_compute; reflexivity]).
  - split; [lia|]. split; [exact I|]. left. reflexivity.
  - left. split; reflexivity.
  - vm_compute. reflexivity. - vm_compute. reflexivity. - right. reflexivity. - left. auto.
Qed.
Lemma repeated_asked : @asked demo_env repeated repeated_order.
Proof.
  apply fixed_request; try lia. - exact demo_inputs_ok.
  - constructor; [|constructor; [|constructor]]; (apply output_demo; [exact good3|vm_compute; reflexivity]).
Qed.
Lemma half_asked : @asked demo_env half half_order.
Proof.
  unfold half, half_order, order_of. eapply request_asked with (n := 50); [reflexivity|exact demo_inputs_ok| |reflexivity|reflexivity|reflexivity|reflexivity| | |lia| | |lia| |].
  - apply out3. vm_compute. reflexivity.
  - split; [lia|]. split; [exact I|]. left. reflexivity.
  - left. split; reflexivity.
  - vm_compute. reflexivity. - vm_compute. reflexivity. - left. auto. - left. auto.
Qed.
Lemma round_up_asked : @asked demo_env round_up round_up_order.
Proof.
  unfold round_up, round_up_order. eapply request_asked with (n := 100); [reflexivity| | |reflexivity|reflexivity|reflexivity|reflexivity| | |lia| | |lia| |].
  - constructor; [|constructor]. apply input_demo; [exact good1|unfold byte; lia|lia|vm_compute; reflexivity].
  - assert (O : @output_arg demo_env (demo_output addr3 (lit "0.1")) (mk_oarg addr3 10000000)) by (apply output_demo; [exact good3|vm_compute; reflexivity]).
    cbn [pay3 app repeat]. repeat (constructor; [exact O|]). constructor.
  - split; [exact I|]. exists (PStr (lit "0.28")). split; [reflexivity|]. right. left. exists (lit "0.28"), [0], [2; 8]. split; [reflexivity|].
    split; [|apply rounds_decimal; [vm_compute; discriminate|vm_compute; reflexivity]]. right. exists [48], [50; 56]. split; [reflexivity|].
    split; [constructor; [left; lia|constructor]|]. split; [constructor; [left; lia|constructor; [left; lia|constructor]]|]. split; discriminate.
  - left. split; reflexivity.
  - vm_compute. reflexivity. - vm_compute. reflexivity. - right. reflexivity. - left. auto.
Qed.
