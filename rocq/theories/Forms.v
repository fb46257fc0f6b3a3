(** Model of the dictionary forms and of the str() descriptions of the three transaction classes.
    Tx.v concatenates the values of these dictionaries directly; here the loops of the source are modelled as
    they are written, and C_Forms.v proves that both give the same result. *)
From Coq Require Import String.
From Verif Require Import PyBase Env PyNum Validate Basic TxInput TxOutput Tx.

(** transaction_input.py L259-268: to_dict_signable_form *)
Definition txin_dict_signable (x : txin) : dict :=
  [ (lit "previous_output_hash", PStr (ti_previous_output_hash x));
    (lit "previous_output_index", PStr (ti_previous_output_index x));
    (lit "script_pub_key_length", opt_str (ti_script_pub_key_length x));
    (lit "script_pub_key", opt_str (ti_script_pub_key x));
    (lit "sequence", PStr (ti_sequence x)) ].

(** transaction_input.py L271-280: to_dict_signable_form_empty *)
Definition txin_dict_signable_empty (x : txin) : dict :=
  [ (lit "previous_output_hash", PStr (ti_previous_output_hash x));
    (lit "previous_output_index", PStr (ti_previous_output_index x));
    (lit "script_pub_key_length", PStr (lit "00"));
    (lit "sequence", PStr (ti_sequence x)) ].

(** transaction_input.py L283-292: to_dict_signed_form *)
Definition txin_dict_signed (x : txin) : dict :=
  [ (lit "previous_output_hash", PStr (ti_previous_output_hash x));
    (lit "previous_output_index", PStr (ti_previous_output_index x));
    (lit "script_length", opt_str (ti_script_length x));
    (lit "script_sig", opt_str (ti_script_sig x));
    (lit "sequence", PStr (ti_sequence x)) ].

(** transaction_output.py L176-187: to_dict_signable_form, to_dict_signed_form *)
Definition txout_dict (o : txout) : dict :=
  [ (lit "value", PStr (to_value o));
    (lit "script_length", PStr (to_script_length o));
    (lit "script_pub_key", PStr (to_script_pub_key o)) ].

(** transaction.py L477-482: the loop over the inputs *)
Fixpoint dicts_signable (i input_index : nat) (ins : list txin) : list pyval :=
  match ins with
  | [] => []
  | x :: r =>
      PDict (if Nat.eqb i input_index then txin_dict_signable x else txin_dict_signable_empty x)
      :: dicts_signable (S i) input_index r
  end.

(** transaction.py L475-493: to_dict_signable_form *)
Definition to_dict_signable_form (t : tx) (input_index : nat) : dict :=
  [ (lit "version", PStr (tx_version t));
    (lit "input_count", PStr (tx_input_count t));
    (lit "inputs", PList (dicts_signable 0 input_index (tx_inputs t)));
    (lit "output_count", PStr (tx_output_count t));
    (lit "outputs", PList (map (fun o => PDict (txout_dict o)) (tx_outputs t)));
    (lit "block_lock_time", PStr (tx_block_lock_time t));
    (lit "hash_type_4_byte", PStr (tx_hash_type_4_byte t)) ].

(** transaction.py L559-572: to_dict_signed_form *)
Definition to_dict_signed_form (t : tx) : dict :=
  [ (lit "version", PStr (tx_version t));
    (lit "input_count", PStr (tx_input_count t));
    (lit "inputs", PList (map (fun x => PDict (txin_dict_signed x)) (tx_inputs t)));
    (lit "output_count", PStr (tx_output_count t));
    (lit "outputs", PList (map (fun o => PDict (txout_dict o)) (tx_outputs t)));
    (lit "block_lock_time", PStr (tx_block_lock_time t)) ].

(** s += v *)
Definition add_value (s : pystr) (v : pyval) : res pystr :=
  match v with PStr x => Ok (s ++ x) | _ => Err TypeError end.

(** transaction.py L461-462, L543-544: for k2, v2 in x.items(): s += v2 *)
Fixpoint add_items (s : pystr) (d : dict) : res pystr :=
  match d with
  | [] => Ok s
  | (_, v) :: r => s <- add_value s v ;; add_items s r
  end.

(** transaction.py L460, L542: for x in v *)
Fixpoint add_dicts (s : pystr) (l : list pyval) : res pystr :=
  match l with
  | [] => Ok s
  | x :: r => d <- as_dict x ;; s <- add_items s d ;; add_dicts s r
  end.

(** transaction.py L456-465, L538-547: for k, v in d.items() *)
Fixpoint form_hex (s : pystr) (d : dict) : res pystr :=
  match d with
  | [] => Ok s
  | (k, v) :: r =>
      s <- (if str_in k [lit "inputs"; lit "outputs"] then l <- as_list v ;; add_dicts s l else add_value s v) ;;
      form_hex s r
  end.

(** transaction.py L454-466 and L536-550 as written: to_hex_signable_form, to_hex_signed_form *)
Definition hex_signable (t : tx) (input_index : nat) : res pystr := form_hex [] (to_dict_signable_form t input_index).
Definition hex_signed (t : tx) : res pystr := form_hex [] (to_dict_signed_form t).

Section WithEnv.
Context {E : Env}.

(** transaction.py L469-472 and L553-556: to_json_signable_form, to_json_signed_form *)
Definition to_json_signable_form (t : tx) (input_index : nat) : pystr := json_dumps (PDict (to_dict_signable_form t input_index)).
Definition to_json_signed_form (t : tx) : pystr := json_dumps (PDict (to_dict_signed_form t)).

End WithEnv.

(** 's' if n > 1 else '' *)
Definition s_plural (n : nat) : pystr := if Nat.ltb 1 n then lit "s" else [].

(** transaction.py L180-189: Transaction.__str__ *)
Definition tx_str (t : tx) : pystr :=
  let n_inputs := length (tx_inputs t) in
  let n_outputs := length (tx_outputs t) in
  let signed := if negb (tx_signed t) then lit " (unsigned)" else lit " (signed)" in
  lit "Transaction" ++ signed ++ lit ": " ++ int_str (Z.of_nat n_inputs) ++ lit " input" ++ s_plural n_inputs ++
  lit ", " ++ int_str (Z.of_nat n_outputs) ++ lit " output" ++ s_plural n_outputs.

(** '{}'.format of an int or None. *)
Definition opt_int_str (o : option Z) : pystr := match o with Some n => int_str n | None => lit "None" end.

(** transaction_input.py L86-95: TransactionInput.__str__.  [index_str] is '{}'.format(self.previous_output_index_int). *)
Definition txin_str (index_str : pyval -> pystr) (x : txin) : pystr :=
  let txid := firstn 4 (ti_txid x) ++ lit "..." ++ last_n 4 (ti_txid x) in
  let signed := if negb (txin_signed x) then lit " (unsigned)" else lit " (signed)" in
  lit "TransactionInput" ++ signed ++ lit ": address=" ++ ti_address x ++ lit ", txid=" ++ txid ++
  lit ", index=" ++ index_str (ti_previous_output_index_int x) ++ lit ", satoshi_amount=" ++ opt_int_str (ti_satoshi_amount x).

(** transaction_output.py L66-72: TransactionOutput.__str__ *)
Definition txout_str (o : txout) : pystr :=
  lit "TransactionOutput: address=" ++ to_address o ++ lit ", satoshi_amount=" ++ int_str (to_satoshi_amount o).
