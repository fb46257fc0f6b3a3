(** C79, C80: JSON as text. *)
From Coq Require Import String Floats.SpecFloat Lia.
From Verif Require Import PyBase Env PyNum Validate Basic Spec EnvOk NumSpec TxInput TxOutput Tx Create Cli TxSpec JsonSpec Json JsonGrammar Demo DemoTx DemoCreate DemoJson.
From Verif Require Import NumLemmas HexProofs JsonTextProofs JsonNumProofs JsonLoadsProofs JsonLayoutProofs JsonProofs DemoProofs DemoTxProofs DemoCreateProofs CliProofs C_Json C_Cli.
Open Scope Z_scope.

Section WithEnv.
Context {E : Env}.

(** C79.  json.loads gives v iff the text is a JSON document with value v; any other text is refused with ValueError. *)
Lemma c79_read : forall s, (forall v, loads s = Ok v <-> document s v) /\ ((forall v, ~ document s v) -> loads s = Err ValueError).
Proof.
  intros s. split; [intros v; apply loads_iff|]. intros N. destruct (loads s) as [v|e] eqn:L; [elim (N v); apply loads_iff; auto|]. apply loads_err in L. subst e. reflexivity.
Qed.

(** C79.  A text has at most one value. *)
Lemma c79_one_value : forall s v v', document s v -> document s v' -> v = v'.
Proof. intros s v v' D D'. apply loads_iff in D. apply loads_iff in D'. congruence. Qed.

(** C79.  json.dumps with indent=2 writes exactly the lines of the layout, joined by line feeds. *)
Lemma c79_written : forall fr v t, plain_value v -> (dumps fr v = t <-> exists ls, layout v ls /\ t = lines_text ls).
Proof.
  intros fr v t P. destruct (dumps_layout fr v P) as (ls & L & Q). split.
  - intros <-. eauto.
  - intros (ls' & L' & ->). rewrite (proj1 layout_fun v ls' L' ls L). exact Q.
Qed.

(** C79.  What it writes is printable ASCII and line feeds. *)
Lemma c79_ascii : forall fr v, plain_value v -> Forall (fun c => c = 10 \/ 32 <= c <= 126) (dumps fr v).
Proof.
  intros fr v P. destruct (dumps_layout fr v P) as (ls & L & ->). apply (proj1 layout_printable) in L. induction L as [|l ls H L IH]; [constructor|].
  assert (H' : Forall (fun c => c = 10 \/ 32 <= c <= 126) l) by (eapply Forall_impl; [|exact H]; cbv beta; auto). destruct ls as [|l' ls]; [exact H'|]. cbn [lines_text] in *. apply Forall_app. split; auto. constructor; auto.
Qed.

(** C79.  What is written is read back, and different values give different texts. *)
Lemma c79_round_trip : forall fr, (forall v, plain_value v -> loads (dumps fr v) = Ok v) /\ (forall v w, plain_value v -> plain_value w -> dumps fr v = dumps fr w -> v = w).
Proof.
  intros fr. split; [intros v; apply loads_dumps|]. intros v w P P' Q. pose proof (loads_dumps fr v P) as L. rewrite Q, loads_dumps in L by auto. congruence.
Qed.

(** C79.  So are the floats that are not finite. *)
Lemma c79_not_finite : forall fr, loads (dumps fr (PFloat S754_nan)) = Ok (PFloat S754_nan) /\
  forall b, loads (dumps fr (PFloat (S754_infinity b))) = Ok (PFloat (S754_infinity b)).
Proof. intros fr. split; [|intros [|]]; vm_compute; reflexivity. Qed.

(** C79 (refuted for all strings).  A string that holds a surrogate pair as two characters is read back as another string. *)
Lemma c79_split_pair_refuted : forall fr, exists s, Forall character s /\ s <> [128512] /\ loads (dumps fr (PStr s)) = Ok (PStr [128512]).
Proof. intros fr. exists [55357; 56832]. split; [repeat constructor; unfold character; lia|]. split; [discriminate|]. vm_compute. reflexivity. Qed.

(** C79.  White space around the value and between its parts does not matter; a key that is given twice keeps its first place and takes its last value, silently. *)
Lemma c79_duplicate_key : forall k t s s' v v', chars k t -> value s v -> value s' v' ->
  loads (lit "{" ++ [34] ++ k ++ [34] ++ lit ":" ++ s ++ lit "," ++ [34] ++ k ++ [34] ++ lit ":" ++ s' ++ lit "}") = Ok (PDict [(t, v')]).
Proof.
  intros k t s s' v v' C V V'. apply loads_iff. assert (N : white []) by constructor.
  exists [], (lit "{" ++ ([] ++ [34] ++ k ++ [34] ++ [] ++ lit ":" ++ [] ++ s ++ [] ++ lit "," ++ ([] ++ [34] ++ k ++ [34] ++ [] ++ lit ":" ++ [] ++ s' ++ [])) ++ lit "}"), [].
  split; [cbn [app]; repeat (rewrite <- app_assoc; cbn [app]); reflexivity|]. split; auto. split; auto. eapply v_object; [apply p_more; eauto; apply p_last; eauto|].
  split; [cbn [map fst firsts filter]; rewrite str_eqb_refl; reflexivity|]. intros k1 v1 [Q|[]]. injection Q as <- <-. exists [(t, v)], []. split; auto.
Qed.

(** C80.  The assumption about the json module that C32-C34, C49, C62, C67 and C73 make holds of this model of it, and no other assumption is touched. *)
Lemma c80_assumptions : forall fr, JsonOk (with_json fr E) /\
  (UniOk E -> UniOk (with_json fr E)) /\ (HashOk E -> HashOk (with_json fr E)) /\ (ZeroAddressOk E -> ZeroAddressOk (with_json fr E)) /\
  (CryptoOk E -> CryptoOk (with_json fr E)) /\ (SignTotal E -> SignTotal (with_json fr E)).
Proof. intros fr. split; [apply with_json_ok|]. split; [exact (fun H => H)|]. split; [exact (fun H => H)|]. split; [exact (fun H => H)|]. split; [exact (fun H => H)|exact (fun H => H)]. Qed.

(** C80.  The text of a transaction: its dictionary, laid out; from_json reads it back. *)
Lemma c80_text : forall fr, HashOk E -> ZeroAddressOk E -> UniOk E -> forall t, json_ready (E := with_json fr E) t ->
  exists v ls, to_dict (E := with_json fr E) t = Ok v /\ layout v ls /\ to_json (E := with_json fr E) t = Ok (lines_text ls) /\
    Forall (fun c => c = 10 \/ 32 <= c <= 126) (lines_text ls) /\
    forall s, same_json s (lines_text ls) -> from_json (E := with_json fr E) s = Ok (forget_keys t).
Proof.
  intros fr HH HZ HU t R. destruct (to_dict_ok (E := with_json fr E) HU t R) as (d & TD & P & _ & _). apply json_plain_value in P. destruct (dumps_layout fr _ P) as (ls & L & Q).
  destruct (c32_round_trip (E := with_json fr E) HH HZ HU (with_json_ok fr) t R) as (s & TJ & FJ). assert (TJ' : to_json (E := with_json fr E) t = Ok (lines_text ls)) by (unfold to_json; rewrite TD; cbn [bind]; rewrite <- Q; reflexivity).
  exists (PDict d), ls. split; auto. split; auto. split; auto. split; [rewrite <- Q; apply c79_ascii; auto|]. intros s' SJ. rewrite TJ' in TJ. injection TJ as <-. rewrite <- FJ. unfold from_json. cbn [json_loads with_json].
  assert (LD : loads s' = loads (lines_text ls)); [|rewrite LD; reflexivity]. rewrite <- Q, (loads_dumps fr _ P). apply loads_iff. apply SJ. apply loads_iff. rewrite <- Q. apply loads_dumps. auto.
Qed.

Lemma same_loads : forall s s', same_json s s' -> loads s = loads s'.
Proof.
  intros s s' SJ. destruct (loads s) as [v|e] eqn:L.
  - apply loads_iff in L. apply SJ in L. apply loads_iff in L. congruence.
  - pose proof (loads_err _ _ L). subst e. symmetry. apply c79_read. intros v D. apply SJ in D. apply loads_iff in D. congruence.
Qed.

(** C80.  Reformatting JSON changes nothing: what a run prints and how it ends depend on the JSON texts (input file, design file, the data of the
    JSON tasks) only through their values. *)
Lemma c80_reformatted : forall fr sh task keys files wif pub sig data data' i i' d d',
  same_json_opt i i' -> same_json_opt d d' ->
  data = data' \/ (In task (map (fun s => lit s) ["validate_unsigned_transaction_json"; "create_signed_transaction_json"; "verify_signed_transaction_json"; "create_signed_transaction_hex"]%string) /\ same_json_opt data data') ->
  main (E := with_json fr E) sh (mk_args task keys files wif pub sig data i d) = main (E := with_json fr E) sh (mk_args task keys files wif pub sig data' i' d').
Proof.
  intros fr sh task keys files wif pub sig data data' i i' d d' I D DT.
  assert (LF : forall x x', load_files (E := with_json fr E) (mk_args task keys files wif pub sig x i d) = load_files (E := with_json fr E) (mk_args task keys files wif pub sig x' i' d')).
  { intros x x'. unfold load_files, task_is. cbn [c_task c_input_file c_design_file]. destruct (str_in _ _); [|reflexivity]. destruct I as [|s s' SI]; [reflexivity|]. destruct D as [|t t' SD]; [reflexivity|].
    cbn [json_loads with_json]. rewrite (same_loads _ _ SI), (same_loads _ _ SD). reflexivity. }
  destruct DT as [<-|[IN SD]].
  - unfold main. rewrite (LF data data). reflexivity.
  - destruct SD as [|s s' SD]; [unfold main; rewrite (LF None None); reflexivity|]. assert (FJ : from_json (E := with_json fr E) s = from_json (E := with_json fr E) s') by (unfold from_json; cbn [json_loads with_json]; rewrite (same_loads _ _ SD); reflexivity).
    assert (R : forall x, main (E := with_json fr E) sh (mk_args task keys files wif pub sig (Some x) i d) = 
                match from_json (E := with_json fr E) x with
                | Err e => fail e
                | Ok t => main (E := with_json fr E) sh (mk_args task keys files wif pub sig (Some x) i d)
                end).
    { intros x. cbn [map] in IN. destruct IN as [<-|[<-|[<-|[<-|[]]]]].
      - destruct x as [|c x]; [reflexivity|].
        change (main (E := with_json fr E) sh (mk_args (lit "validate_unsigned_transaction_json") keys files wif pub sig (Some (c :: x)) i d)) with (task_validate_unsigned_transaction_json (E := with_json fr E) (Some (c :: x))).
        unfold task_validate_unsigned_transaction_json. cbn [data_for_json after]. destruct (from_json (E := with_json fr E) (c :: x)); reflexivity.
      - change (main (E := with_json fr E) sh (mk_args (lit "create_signed_transaction_json") keys files wif pub sig (Some x) i d)) with (task_create_signed_transaction_json (E := with_json fr E) (Some x) (keys ++ map (strip (E := with_json fr E)) files)).
        unfold task_create_signed_transaction_json. cbn [data_for_json after]. destruct (from_json (E := with_json fr E) x); reflexivity.
      - change (main (E := with_json fr E) sh (mk_args (lit "verify_signed_transaction_json") keys files wif pub sig (Some x) i d)) with (task_verify_signed_transaction_json (E := with_json fr E) (Some x)).
        unfold task_verify_signed_transaction_json. cbn [data_for_json after]. destruct (from_json (E := with_json fr E) x); reflexivity.
      - change (main (E := with_json fr E) sh (mk_args (lit "create_signed_transaction_hex") keys files wif pub sig (Some x) i d)) with (task_create_signed_transaction_hex (E := with_json fr E) (Some x)).
        unfold task_create_signed_transaction_hex. cbn [data_for_json after]. destruct (from_json (E := with_json fr E) x); reflexivity. }
    rewrite R. assert (R' : forall x, main (E := with_json fr E) sh (mk_args task keys files wif pub sig (Some x) i' d') = main (E := with_json fr E) sh (mk_args task keys files wif pub sig (Some x) i d)) by (intros x; unfold main; rewrite (LF (Some x) (Some x)); reflexivity).
    rewrite R', (R s'), <- FJ. destruct (from_json (E := with_json fr E) s) as [t|e] eqn:FS; [|reflexivity]. symmetry in FJ. clear R R' LF.
    assert (NE : s <> [] /\ s' <> []) by (split; intros ->; discriminate). destruct NE as [NE NE']. destruct s as [|c s]; [congruence|]. destruct s' as [|c' s']; [congruence|]. clear NE NE'. cbn [map] in IN.
    destruct IN as [<-|[<-|[<-|[<-|[]]]]].
    + change (task_validate_unsigned_transaction_json (E := with_json fr E) (Some (c :: s)) = task_validate_unsigned_transaction_json (E := with_json fr E) (Some (c' :: s'))). unfold task_validate_unsigned_transaction_json. cbn [data_for_json after]. rewrite FS, FJ. reflexivity.
    + change (task_create_signed_transaction_json (E := with_json fr E) (Some (c :: s)) (keys ++ map (strip (E := with_json fr E)) files) = task_create_signed_transaction_json (E := with_json fr E) (Some (c' :: s')) (keys ++ map (strip (E := with_json fr E)) files)).
      unfold task_create_signed_transaction_json. cbn [data_for_json after]. rewrite FS, FJ. reflexivity.
    + change (task_verify_signed_transaction_json (E := with_json fr E) (Some (c :: s)) = task_verify_signed_transaction_json (E := with_json fr E) (Some (c' :: s'))). unfold task_verify_signed_transaction_json. cbn [data_for_json after]. rewrite FS, FJ. reflexivity.
    + change (task_create_signed_transaction_hex (E := with_json fr E) (Some (c :: s)) = task_create_signed_transaction_hex (E := with_json fr E) (Some (c' :: s'))). unfold task_create_signed_transaction_hex. cbn [data_for_json after]. rewrite FS, FJ. reflexivity.
Qed.

(** C80.  A text that is no JSON document is refused with ValueError, before anything is printed, by every task that reads JSON. *)
Lemma c80_no_document : forall fr sh task keys files wif pub sig data i d,
  (In task (map (fun s => lit s) ["validate_unsigned_transaction_json"; "create_signed_transaction_json"; "verify_signed_transaction_json"; "create_signed_transaction_hex"]%string) /\
     exists s, data = Some s /\ (forall v, ~ document s v)) \/
  (In task (map (fun s => lit s) ["create_unsigned_transaction_json"; "create_sign_and_verify_transaction_hex"; "create_transaction"]%string) /\
     exists s t, i = Some s /\ d = Some t /\ ((forall v, ~ document s v) \/ (forall v, ~ document t v))) ->
  main (E := with_json fr E) sh (mk_args task keys files wif pub sig data i d) = ([], Err ValueError).
Proof.
  intros fr sh task keys files wif pub sig data i d [(IN & s & -> & N)|(IN & s & t & -> & -> & N)].
  - assert (FJ : from_json (E := with_json fr E) s = Err ValueError) by (unfold from_json; cbn [json_loads with_json]; rewrite (proj2 (c79_read s) N); reflexivity).
    cbn [map] in IN. destruct IN as [<-|[<-|[<-|[<-|[]]]]].
    + destruct s as [|c s]; [reflexivity|]. change (task_validate_unsigned_transaction_json (E := with_json fr E) (Some (c :: s)) = ([], Err ValueError)). unfold task_validate_unsigned_transaction_json. cbn [data_for_json after]. rewrite FJ. reflexivity.
    + change (task_create_signed_transaction_json (E := with_json fr E) (Some s) (keys ++ map (strip (E := with_json fr E)) files) = ([], Err ValueError)). unfold task_create_signed_transaction_json. cbn [data_for_json after]. rewrite FJ. reflexivity.
    + change (task_verify_signed_transaction_json (E := with_json fr E) (Some s) = ([], Err ValueError)). unfold task_verify_signed_transaction_json. cbn [data_for_json after]. rewrite FJ. reflexivity.
    + change (task_create_signed_transaction_hex (E := with_json fr E) (Some s) = ([], Err ValueError)). unfold task_create_signed_transaction_hex. cbn [data_for_json after]. rewrite FJ. reflexivity.
  - pose proof (c63_files (E := with_json fr E) sh (mk_args task keys files wif pub sig data (Some s) (Some t))) as (_ & F1 & F2 & _); [exact IN|]. cbn [c_input_file c_design_file json_loads with_json] in F1, F2.
    destruct (loads s) as [v|e] eqn:L.
    + destruct N as [N|N]; [elim (N v); apply loads_iff; auto|]. eapply F2; eauto. apply c79_read. auto.
    + pose proof (loads_err _ _ L). subst e. eapply F1; eauto.
Qed.

(** C80.  The step-by-step workflow through files: if create_transaction turns two JSON files into the hex h, then create_unsigned_transaction_json prints a
    text that, reformatted in any way, is signed by create_signed_transaction_json into a text that, reformatted in any way, verifies and gives h. *)
Lemma c80_workflow : forall fr, CryptoOk E -> UniOk E -> forall sh keys files i d h,
  let go task data := main (E := with_json fr E) sh (mk_args (lit task) keys files None None None data (Some i) (Some d)) in
  go "create_transaction"%string None = ([h], Ok tt) ->
  exists j js valid, go "create_unsigned_transaction_json"%string None = ([j], Ok tt) /\
    (valid = lit "Valid signature." \/ valid = lit "Valid signatures.") /\
    (forall j', same_json j j' -> go "validate_unsigned_transaction_json"%string (Some j') = ([lit "Unsigned transaction data validated."], Ok tt) /\
                                  go "create_signed_transaction_json"%string (Some j') = ([js], Ok tt)) /\
    (forall js', same_json js js' -> go "verify_signed_transaction_json"%string (Some js') = ([valid], Ok tt) /\
                                     go "create_signed_transaction_hex"%string (Some js') = ([h], Err NameError)).
Proof.
  intros fr HC HU sh keys files i d h go H. subst go. cbv beta in *.
  assert (R : forall (t : string) x x', In (lit t) (map (fun s => lit s) ["validate_unsigned_transaction_json"; "create_signed_transaction_json"; "verify_signed_transaction_json"; "create_signed_transaction_hex"]%string) -> same_json x x' ->
    main (E := with_json fr E) sh (mk_args (lit t) keys files None None None (Some x') (Some i) (Some d)) = main (E := with_json fr E) sh (mk_args (lit t) keys files None None None (Some x) (Some i) (Some d))).
  { intros t x x' IN SJ. symmetry. assert (RF : forall s, same_json s s) by (intros s v; tauto). apply c80_reformatted; [constructor; apply RF|constructor; apply RF|]. right. split; auto. constructor. auto. }
  pose proof (c63_files (E := with_json fr E) sh (mk_args (lit "create_transaction") keys files None None None None (Some i) (Some d))) as (_ & F1 & F2 & F3); [right; right; left; reflexivity|]. cbn [c_input_file c_design_file] in *.
  destruct (json_loads (Env := with_json fr E) i) as [inputs|e] eqn:LI; [|rewrite (F1 i d e) in H by auto; discriminate]. destruct (json_loads (Env := with_json fr E) d) as [design|e] eqn:LD; [|rewrite (F2 i d inputs e) in H by auto; discriminate].
  rewrite (F3 i d inputs design) in H by auto. change (str_eqb _ _) with false in H. cbv iota in H.
  destruct (c62_workflow (E := with_json fr E) HC HU (with_json_ok fr) inputs design _ h H) as (j & js & jd & t & W1 & W2 & W3 & W4 & NE & W5 & W6 & _).
  exists j, js, (if (1 <? length (tx_inputs t))%nat then lit "Valid signatures." else lit "Valid signature."). split; [|split; [|split]].
  - pose proof (c63_files (E := with_json fr E) sh (mk_args (lit "create_unsigned_transaction_json") keys files None None None None (Some i) (Some d))) as (_ & _ & _ & F4); [left; reflexivity|]. cbn [c_input_file c_design_file] in F4. rewrite (F4 i d inputs design) by auto. exact W1.
  - destruct (1 <? length (tx_inputs t))%nat; auto.
  - intros j' SJ. rewrite !(R _ j j') by (auto; cbn [map In]; auto 6). assert (NJ : j <> []) by (intros ->; discriminate W2). split; [|exact W3]. destruct j as [|c j]; [congruence|]. exact W2.
  - intros js' SJ. rewrite !(R _ js js') by (auto; cbn [map In]; auto 6). split; [exact W5|exact W6].
Qed.
End WithEnv.

(** Examples: a text with white space, escapes, a repeated key and numbers of each kind; the empty text; a document with trailing text; a layout. *)
Example ex79_read : @loads demo_env (json " { 'a' : [ 1, -0 ,2.5e1 ] , 'b':'\u00e9\n\\' ,'a':[true,null , {}] } ") =
  Ok (PDict [(lit "a", PList [PBool true; PNone; PDict []]); (lit "b", PStr [233; 10; 92])]) /\
  @loads demo_env (json "-12.50") = Ok (PFloat (S754_finite true 7036874417766400 (-49))) /\
  @loads demo_env [] = Err ValueError /\ @loads demo_env (json "[1,]") = Err ValueError /\ @loads demo_env (json "01") = Err ValueError /\ @loads demo_env (json "{'a':1} x") = Err ValueError.
Proof. repeat split; vm_compute; reflexivity. Qed.
Example ex79_written : plain_value (PDict [(lit "a", PList [PInt 5; PNone]); (lit "b", PDict []); ([233; 9], PBool false)]) /\
  dumps no_repr (PDict [(lit "a", PList [PInt 5; PNone]); (lit "b", PDict []); ([233; 9], PBool false)]) =
  lines_text [json "{"; json "  'a': ["; json "    5,"; json "    null"; json "  ],"; json "  'b': {},"; json "  '\u00e9\t': false"; json "}"].
Proof.
  split; [|vm_compute; reflexivity]. assert (P : forall s, Forall character s -> (forall c, In c s -> c < 55296) -> plain_text s).
  { intros s F L. split; auto. clear F. induction s as [|c s IH]; [exact I|]. cbn [no_split_pair]. split; [intros H; specialize (L c (or_introl eq_refl)); unfold high in H; lia|]. apply IH. intros x X. apply L. right. auto. }
  apply pv_dict; [repeat constructor; cbn; intuition discriminate| |].
  - repeat constructor; try (unfold character; cbn; lia); cbn; unfold high; lia.
  - repeat constructor.
Qed.
Example ex80_text : @json_ready json_env created /\ HashOk demo_env /\ ZeroAddressOk demo_env /\ UniOk demo_env /\ CryptoOk demo_env.
Proof. split; [exact (proj2 (proj2 (proj2 (proj2 ex32_created))))|]. split; [exact demo_hash|]. split; [exact demo_zero_address|]. split; [exact demo_uni|exact demo_crypto]. Qed.
Example ex80_reformatted : same_json (json "{'fee': 225}") (json " {  'fee' :225}") /\ (forall v, ~ document (json "{'fee': 225") v).
Proof.
  assert (A : @loads demo_env (json "{'fee': 225}") = Ok (PDict [(lit "fee", PInt 225)])) by (vm_compute; reflexivity). assert (B : @loads demo_env (json " {  'fee' :225}") = Ok (PDict [(lit "fee", PInt 225)])) by (vm_compute; reflexivity).
  assert (C : @loads demo_env (json "{'fee': 225") = Err ValueError) by (vm_compute; reflexivity). split.
  - intros v. rewrite <- (@loads_iff demo_env), <- (@loads_iff demo_env), A, B. tauto.
  - intros v D. apply (@loads_iff demo_env) in D. congruence.
Qed.

(** The files of the demonstration, as json.dumps writes them; create_transaction turns them into a transaction. *)
Example ex80_workflow : main (E := json_env) no_shell (mk_args (lit "create_transaction") [key1; key2] [] None None None None (Some (dumps no_repr cli_inputs)) (Some (dumps no_repr cli_design))) = ([signed_hex], Ok tt).
Proof.
  pose proof (c63_files (E := json_env) no_shell (mk_args (lit "create_transaction") [key1; key2] [] None None None None (Some (dumps no_repr cli_inputs)) (Some (dumps no_repr cli_design)))) as (_ & _ & _ & F); [right; right; left; reflexivity|].
  cbn [c_input_file c_design_file] in F. rewrite (F _ _ cli_inputs cli_design eq_refl eq_refl); [vm_compute; reflexivity| |]; cbn [json_loads with_json json_env]; apply loads_dumps, json_plain_value; vm_compute; reflexivity.
Qed.
