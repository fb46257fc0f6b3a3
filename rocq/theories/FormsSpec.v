(** What the dictionary forms are compared with. *)
From Coq Require Import String.
From Verif Require Import PyBase Spec TxSpec.

(** All strings in a JSON-like value, in document order (keys excluded). *)
Fixpoint strings_of (v : pyval) : list pystr :=
  match v with
  | PStr s => [s]
  | PList l => concat (map strings_of l)
  | PDict d => concat (map (fun p => strings_of (snd p)) d)
  | _ => []
  end.

(** The value contains a null somewhere. *)
Fixpoint has_null (v : pyval) : bool :=
  match v with
  | PNone => true
  | PList l => existsb has_null l
  | PDict d => existsb (fun p => has_null (snd p)) d
  | _ => false
  end.

(** "(signed)" or "(unsigned)", and the numbers of inputs and outputs. *)
Definition described (signed : bool) (i o : nat) : pystr :=
  lit "Transaction" ++ (if signed then lit " (signed): " else lit " (unsigned): ") ++ int_str (Z.of_nat i) ++ (if Nat.leb i 1 then lit " input, " else lit " inputs, ") ++
  int_str (Z.of_nat o) ++ (if Nat.leb o 1 then lit " output" else lit " outputs").

(** The documents of a transaction, field by field. *)
Definition hexv (bs : list Z) : pyval := PStr (hex_of bs).
Definition signed_input_doc (i : sinput) : pyval :=
  PDict [ (lit "previous_output_hash", hexv (rev (i_txid i))); (lit "previous_output_index", hexv (le_bytes 4 (i_index i)));
          (lit "script_length", hexv [len (i_script i)]); (lit "script_sig", hexv (i_script i)); (lit "sequence", hexv [255; 255; 255; 255]) ].
Definition output_doc (o : soutput) : pyval :=
  PDict [ (lit "value", hexv (le_bytes 8 (o_value o))); (lit "script_length", hexv [len (o_script o)]); (lit "script_pub_key", hexv (o_script o)) ].
Definition signed_doc (ins : list sinput) (outs : list soutput) : pyval :=
  PDict [ (lit "version", hexv (le_bytes 4 1)); (lit "input_count", hexv [Z.of_nat (length ins)]); (lit "inputs", PList (map signed_input_doc ins));
          (lit "output_count", hexv [Z.of_nat (length outs)]); (lit "outputs", PList (map output_doc outs)); (lit "block_lock_time", hexv (le_bytes 4 0)) ].

(** The document that is hashed for input number k: only that input has a script_pub_key. *)
Definition unsigned_input_doc (script : option (list Z)) (i : sinput) : pyval :=
  PDict ([ (lit "previous_output_hash", hexv (rev (i_txid i))); (lit "previous_output_index", hexv (le_bytes 4 (i_index i))) ] ++
         match script with
         | Some spk => [ (lit "script_pub_key_length", hexv [len spk]); (lit "script_pub_key", hexv spk) ]
         | None => [ (lit "script_pub_key_length", hexv [0]) ]
         end ++ [ (lit "sequence", hexv [255; 255; 255; 255]) ]).
Definition sighash_doc (k : nat) (spk : list Z) (ins : list sinput) (outs : list soutput) : pyval :=
  PDict [ (lit "version", hexv (le_bytes 4 1)); (lit "input_count", hexv [Z.of_nat (length ins)]);
          (lit "inputs", PList (map (unsigned_input_doc None) (firstn k ins) ++
                                match nth_error ins k with Some i => [unsigned_input_doc (Some spk) i] | None => [] end ++
                                map (unsigned_input_doc None) (skipn (S k) ins)));
          (lit "output_count", hexv [Z.of_nat (length outs)]); (lit "outputs", PList (map output_doc outs)); (lit "block_lock_time", hexv (le_bytes 4 0));
          (lit "hash_type_4_byte", hexv (le_bytes 4 1)) ].
