(** Property theorems: generated by tools/genprops.py from C_DocSays.v, which holds the proofs. *)
From Coq Require Import String Floats.SpecFloat Lia.
From Verif Require Import PyBase Env PyNum Validate Basic Spec EnvOk ValidSpec TxInput TxOutput Tx TxSpec SignSpec JsonSpec Cli Messages MessagesSpec Complaints ComplaintsSpec Answer BasicSays BasicSaysSpec DocSays DocSaysSpec Demo DemoTx DemoDoc.
Open Scope Z_scope.
From Verif Require C_DocSays.

(** C98.  Without the texts these are the functions of C33: the same values, the same exceptions. *)
Theorem C98_same : forall E : Env,
  forall repr v,
  txin_from_dict v = unsaid (txin_from_dict_says repr v) /\ txout_from_dict v = unsaid (txout_from_dict_says repr v) /\ from_dict v = unsaid (from_dict_says repr v).
Proof. exact (fun E => C_DocSays.c98_same). Qed.
Print Assumptions C98_same.

(** C98.  An input is refused with the complaint of the first test that it does not pass; it is accepted if it passes all. *)
Theorem C98_input : forall E : Env,
  HashOk E -> UniOk E -> forall repr v,
  (forall e text, txin_from_dict_says repr v = Says e text <-> input_test repr v (Some (e, text))) /\ ((exists x, txin_from_dict_says repr v = Gives x) <-> input_test repr v None).
Proof. exact (fun E => C_DocSays.c98_input). Qed.
Print Assumptions C98_input.

(** C98.  So is an output. *)
Theorem C98_output : forall E : Env,
  HashOk E -> ZeroAddressOk E -> UniOk E -> forall repr v,
  (forall e text, txout_from_dict_says repr v = Says e text <-> output_test repr v (Some (e, text))) /\ ((exists y, txout_from_dict_says repr v = Gives y) <-> output_test repr v None).
Proof. exact (fun E => C_DocSays.c98_output). Qed.
Print Assumptions C98_output.

(** C98.  So is a transaction; its inputs are tested before its outputs, both before the rest of the document. *)
Theorem C98_document : forall E : Env,
  HashOk E -> ZeroAddressOk E -> UniOk E -> forall repr v,
  (forall e text, from_dict_says repr v = Says e text <-> document_test repr v (Some (e, text))) /\ ((exists t, from_dict_says repr v = Gives t) <-> document_test repr v None).
Proof. exact (fun E => C_DocSays.c98_document). Qed.
Print Assumptions C98_document.

(** C98.  A text is refused by from_json with the exception of json.loads, or with that of the first failed test of the document. *)
Theorem C98_json : forall E : Env,
  HashOk E -> ZeroAddressOk E -> UniOk E -> forall repr s e,
  from_json s = Err e <-> json_loads s = Err e \/ exists v text, json_loads s = Ok v /\ document_test repr v (Some (e, text)).
Proof. exact (fun E => C_DocSays.c98_json). Qed.
Print Assumptions C98_json.

Example ex98_says : forall E : Env,
  @from_dict_says demo_env plain_repr (PList []) = Says AttributeError (lit "'list' object has no attribute 'keys'") /\
  @from_dict_says demo_env plain_repr (PDict [(lit "version", PInt 1)]) = Says ValueError (listing "Some items are not in the list." [] ++ [10] ++ listing "List items:" [lit "version"] ++ [10] ++ listing "Items not found:"
    (map lit ["input_count"; "inputs"; "output_count"; "outputs"; "block_lock_time"; "hash_type_4_byte"; "hash_type_1_byte"; "signed"]%string)) /\
  @txin_from_dict_says demo_env plain_repr (with_entry "script_sig" (PStr (lit "00ff")) demo_input) = Says ValueError (lit "Script length value (139) != calculated hex byte length of script_sig value (2).") /\
  @txin_from_dict_says demo_env plain_repr (with_entry "previous_output_index_int" (PInt 4294967296) demo_input) =
    Says ValueError (lit "Hex value is already longer than desired padded length. Hex value: 0000000001") /\
  @txin_from_dict_says demo_env plain_repr (with_entry "sequence" (PStr (lit "fffffffe")) demo_input) = Says AssertionError [].
Proof. exact (fun E => C_DocSays.ex98_says). Qed.

Example ex98_met : forall E : Env,
  HashOk demo_env /\ ZeroAddressOk demo_env /\ UniOk demo_env /\
  @input_test demo_env plain_repr (with_entry "sequence" (PStr (lit "fffffffe")) demo_input) (Some (AssertionError, [])) /\
  @output_test demo_env plain_repr demo_output None.
Proof. exact (fun E => C_DocSays.ex98_met). Qed.

