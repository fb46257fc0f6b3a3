(** Property theorems: generated by tools/genprops.py from C_JsonText.v, which holds the proofs. *)
From Coq Require Import String Floats.SpecFloat Lia.
From Verif Require Import PyBase Env PyNum Validate Basic Spec EnvOk NumSpec TxInput TxOutput Tx Create Cli TxSpec JsonSpec Json JsonGrammar Demo DemoTx DemoCreate DemoJson.
Open Scope Z_scope.
From Verif Require C_JsonText.

(** C79.  json.loads gives v iff the text is a JSON document with value v; any other text is refused with ValueError. *)
Theorem C79_read : forall E : Env,
  forall s, (forall v, loads s = Ok v <-> document s v) /\ ((forall v, ~ document s v) -> loads s = Err ValueError).
Proof. exact (fun E => C_JsonText.c79_read). Qed.
Print Assumptions C79_read.

(** C79.  A text has at most one value. *)
Theorem C79_one_value : forall E : Env,
  forall s v v', document s v -> document s v' -> v = v'.
Proof. exact (fun E => C_JsonText.c79_one_value). Qed.
Print Assumptions C79_one_value.

(** C79.  json.dumps with indent=2 writes exactly the lines of the layout, joined by line feeds. *)
Theorem C79_written : forall E : Env,
  forall fr v t, plain_value v -> (dumps fr v = t <-> exists ls, layout v ls /\ t = lines_text ls).
Proof. exact (fun E => C_JsonText.c79_written). Qed.
Print Assumptions C79_written.

(** C79.  What it writes is printable ASCII and line feeds. *)
Theorem C79_ascii : forall E : Env,
  forall fr v, plain_value v -> Forall (fun c => c = 10 \/ 32 <= c <= 126) (dumps fr v).
Proof. exact (fun E => C_JsonText.c79_ascii). Qed.
Print Assumptions C79_ascii.

(** C79.  What is written is read back, and different values give different texts. *)
Theorem C79_round_trip : forall E : Env,
  forall fr, (forall v, plain_value v -> loads (dumps fr v) = Ok v) /\ (forall v w, plain_value v -> plain_value w -> dumps fr v = dumps fr w -> v = w).
Proof. exact (fun E => C_JsonText.c79_round_trip). Qed.
Print Assumptions C79_round_trip.

(** C79.  So are the floats that are not finite. *)
Theorem C79_not_finite : forall E : Env,
  forall fr, loads (dumps fr (PFloat S754_nan)) = Ok (PFloat S754_nan) /\
  forall b, loads (dumps fr (PFloat (S754_infinity b))) = Ok (PFloat (S754_infinity b)).
Proof. exact (fun E => C_JsonText.c79_not_finite). Qed.
Print Assumptions C79_not_finite.

(** C79 (refuted for all strings).  A string that holds a surrogate pair as two characters is read back as another string. *)
Theorem C79_split_pair_refuted : forall E : Env,
  forall fr, exists s, Forall character s /\ s <> [128512] /\ loads (dumps fr (PStr s)) = Ok (PStr [128512]).
Proof. exact (fun E => C_JsonText.c79_split_pair_refuted). Qed.
Print Assumptions C79_split_pair_refuted.

(** C79.  White space around the value and between its parts does not matter; a key that is given twice keeps its first place and takes its last value, silently. *)
Theorem C79_duplicate_key : forall E : Env,
  forall k t s s' v v', chars k t -> value s v -> value s' v' ->
  loads (lit "{" ++ [34] ++ k ++ [34] ++ lit ":" ++ s ++ lit "," ++ [34] ++ k ++ [34] ++ lit ":" ++ s' ++ lit "}") = Ok (PDict [(t, v')]).
Proof. exact (fun E => C_JsonText.c79_duplicate_key). Qed.
Print Assumptions C79_duplicate_key.

(** C80.  The assumption about the json module that C32-C34, C49, C62, C67 and C73 make holds of this model of it, and no other assumption is touched. *)
Theorem C80_assumptions : forall E : Env,
  forall fr, JsonOk (with_json fr E) /\
  (UniOk E -> UniOk (with_json fr E)) /\ (HashOk E -> HashOk (with_json fr E)) /\ (ZeroAddressOk E -> ZeroAddressOk (with_json fr E)) /\
  (CryptoOk E -> CryptoOk (with_json fr E)) /\ (SignTotal E -> SignTotal (with_json fr E)).
Proof. exact (fun E => C_JsonText.c80_assumptions). Qed.
Print Assumptions C80_assumptions.

(** C80.  The text of a transaction: its dictionary, laid out; from_json reads it back. *)
Theorem C80_text : forall E : Env,
  forall fr, HashOk E -> ZeroAddressOk E -> UniOk E -> forall t, json_ready (E := with_json fr E) t ->
  exists v ls, to_dict (E := with_json fr E) t = Ok v /\ layout v ls /\ to_json (E := with_json fr E) t = Ok (lines_text ls) /\
    Forall (fun c => c = 10 \/ 32 <= c <= 126) (lines_text ls) /\
    forall s, same_json s (lines_text ls) -> from_json (E := with_json fr E) s = Ok (forget_keys t).
Proof. exact (fun E => C_JsonText.c80_text). Qed.
Print Assumptions C80_text.

(** C80.  Reformatting JSON changes nothing: what a run prints and how it ends depend on the JSON texts (input file, design file, the data of the
    JSON tasks) only through their values. *)
Theorem C80_reformatted : forall E : Env,
  forall fr sh task keys files wif pub sig data data' i i' d d',
  same_json_opt i i' -> same_json_opt d d' ->
  data = data' \/ (In task (map (fun s => lit s) ["validate_unsigned_transaction_json"; "create_signed_transaction_json"; "verify_signed_transaction_json"; "create_signed_transaction_hex"]%string) /\ same_json_opt data data') ->
  main (E := with_json fr E) sh (mk_args task keys files wif pub sig data i d) = main (E := with_json fr E) sh (mk_args task keys files wif pub sig data' i' d').
Proof. exact (fun E => C_JsonText.c80_reformatted). Qed.
Print Assumptions C80_reformatted.

(** C80.  A text that is no JSON document is refused with ValueError, before anything is printed, by every task that reads JSON. *)
Theorem C80_no_document : forall E : Env,
  forall fr sh task keys files wif pub sig data i d,
  (In task (map (fun s => lit s) ["validate_unsigned_transaction_json"; "create_signed_transaction_json"; "verify_signed_transaction_json"; "create_signed_transaction_hex"]%string) /\
     exists s, data = Some s /\ (forall v, ~ document s v)) \/
  (In task (map (fun s => lit s) ["create_unsigned_transaction_json"; "create_sign_and_verify_transaction_hex"; "create_transaction"]%string) /\
     exists s t, i = Some s /\ d = Some t /\ ((forall v, ~ document s v) \/ (forall v, ~ document t v))) ->
  main (E := with_json fr E) sh (mk_args task keys files wif pub sig data i d) = ([], Err ValueError).
Proof. exact (fun E => C_JsonText.c80_no_document). Qed.
Print Assumptions C80_no_document.

(** C80.  The step-by-step workflow through files: if create_transaction turns two JSON files into the hex h, then create_unsigned_transaction_json prints a
    text that, reformatted in any way, is signed by create_signed_transaction_json into a text that, reformatted in any way, verifies and gives h. *)
Theorem C80_workflow : forall E : Env,
  forall fr, CryptoOk E -> UniOk E -> forall sh keys files i d h,
  let go task data := main (E := with_json fr E) sh (mk_args (lit task) keys files None None None data (Some i) (Some d)) in
  go "create_transaction"%string None = ([h], Ok tt) ->
  exists j js valid, go "create_unsigned_transaction_json"%string None = ([j], Ok tt) /\
    (valid = lit "Valid signature." \/ valid = lit "Valid signatures.") /\
    (forall j', same_json j j' -> go "validate_unsigned_transaction_json"%string (Some j') = ([lit "Unsigned transaction data validated."], Ok tt) /\
                                  go "create_signed_transaction_json"%string (Some j') = ([js], Ok tt)) /\
    (forall js', same_json js js' -> go "verify_signed_transaction_json"%string (Some js') = ([valid], Ok tt) /\
                                     go "create_signed_transaction_hex"%string (Some js') = ([h], Err NameError)).
Proof. exact (fun E => C_JsonText.c80_workflow). Qed.
Print Assumptions C80_workflow.

(** Examples: a text with white space, escapes, a repeated key and numbers of each kind; the empty text; a document with trailing text; a layout. *)
Example ex79_read : forall E : Env,
  @loads demo_env (json " { 'a' : [ 1, -0 ,2.5e1 ] , 'b':'\u00e9\n\\' ,'a':[true,null , {}] } ") =
  Ok (PDict [(lit "a", PList [PBool true; PNone; PDict []]); (lit "b", PStr [233; 10; 92])]) /\
  @loads demo_env (json "-12.50") = Ok (PFloat (S754_finite true 7036874417766400 (-49))) /\
  @loads demo_env [] = Err ValueError /\ @loads demo_env (json "[1,]") = Err ValueError /\ @loads demo_env (json "01") = Err ValueError /\ @loads demo_env (json "{'a':1} x") = Err ValueError.
Proof. exact (fun E => C_JsonText.ex79_read). Qed.

Example ex79_written : forall E : Env,
  plain_value (PDict [(lit "a", PList [PInt 5; PNone]); (lit "b", PDict []); ([233; 9], PBool false)]) /\
  dumps no_repr (PDict [(lit "a", PList [PInt 5; PNone]); (lit "b", PDict []); ([233; 9], PBool false)]) =
  lines_text [json "{"; json "  'a': ["; json "    5,"; json "    null"; json "  ],"; json "  'b': {},"; json "  '\u00e9\t': false"; json "}"].
Proof. exact (fun E => C_JsonText.ex79_written). Qed.

Example ex80_text : forall E : Env,
  @json_ready json_env created /\ HashOk demo_env /\ ZeroAddressOk demo_env /\ UniOk demo_env /\ CryptoOk demo_env.
Proof. exact (fun E => C_JsonText.ex80_text). Qed.

Example ex80_reformatted : forall E : Env,
  same_json (json "{'fee': 225}") (json " {  'fee' :225}") /\ (forall v, ~ document (json "{'fee': 225") v).
Proof. exact (fun E => C_JsonText.ex80_reformatted). Qed.

(** The files of the demonstration, as json.dumps writes them; create_transaction turns them into a transaction. *)
Example ex80_workflow : forall E : Env,
  main (E := json_env) no_shell (mk_args (lit "create_transaction") [key1; key2] [] None None None None (Some (dumps no_repr cli_inputs)) (Some (dumps no_repr cli_design))) = ([signed_hex], Ok tt).
Proof. exact (fun E => C_JsonText.ex80_workflow). Qed.

