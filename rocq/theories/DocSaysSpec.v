(** What is wrong with a transaction document (C98), independent of the code: the tests that it has to pass, in order. *)
From Coq Require Import String.
From Verif Require Import PyBase Env PyNum Spec EnvOk ValidSpec MessagesSpec ComplaintsSpec Answer BasicSaysSpec TxSpec JsonSpec.
Open Scope Z_scope.

(** What is said of something that is tested: None, or an exception and its text. *)
Definition test := option (exn * pystr) -> Prop.
(** The first complaint of several tests; later tests are not made. *)
Inductive first_of : list test -> test :=
| no_complaint : first_of [] None
| complaint : forall (t : test) ts e text, t (Some (e, text)) -> first_of (t :: ts) (Some (e, text))
| passed_on : forall (t : test) ts r, t None -> first_of ts r -> first_of (t :: ts) r.

(** P has to hold; the complaint has no text. *)
Definition asserted (P : Prop) : test := fun r => P /\ r = None \/ ~ P /\ r = Some (AssertionError, []).
(** The entry k of the object d is tested. *)
Definition entry (d : dict) (k : string) (P : pyval -> test) : test := fun r => exists v, has d k v /\ P v r.
(** null passes. *)
Definition if_present (P : pyval -> test) (v : pyval) : test := fun r => v = PNone /\ r = None \/ v <> PNone /\ P v r.
(** Something is computed (R says with which answer); its complaint counts, its result is tested. *)
Definition answers {A} (R : answer A -> Prop) (P : A -> test) : test :=
  fun r => (exists e text, R (Says e text) /\ r = Some (e, text)) \/ (exists x, R (Gives x) /\ P x r).
Definition no_test {A} (x : A) : test := fun r => r = None.
(** The elements of a list are tested one by one. *)
Definition each (P : pyval -> test) (v : pyval) : test := fun r => exists l, v = PList l /\
  (Forall (fun x => P x None) l /\ r = None \/ exists pre x post e text, l = pre ++ x :: post /\ Forall (fun x => P x None) pre /\ P x (Some (e, text)) /\ r = Some (e, text)).
(** All the entries must be there; others may be. *)
Definition all_entries (d : dict) (keys : list string) : test := fun r =>
  missing (map fst d) (map lit keys) [] /\ r = None \/
  exists m, missing (map fst d) (map lit keys) m /\ m <> [] /\
    r = Some (ValueError, listing "Some items are not in the list." [] ++ [10] ++ listing "List items:" (map fst d) ++ [10] ++ listing "Items not found:" m).
(** v is an object; it is tested. *)
Definition object (P : dict -> test) (v : pyval) : test := fun r =>
  (exists d, v = PDict d /\ P d r) \/
  (exists t, (forall d, v <> PDict d) /\ type_called v t /\ r = Some (AttributeError, lit "'" ++ lit t ++ lit "' object has no attribute 'keys'")).

Section WithEnv.
Context {E : Env}.
Context (repr : pyval -> pystr).

Definition a_hex (v : pyval) : test := fun r => exists f, hexadecimal v f /\ reported repr v None PNone (PStr (lit "hex")) f r.
Definition a_hex_of (n : Z) (v : pyval) : test := fun r => exists value name kind f,
  hex_with_length v (PInt n) None (PStr (lit "hex_length_" ++ int_str n ++ lit "_bytes")) value name kind f /\ reported repr value name PNone kind f r.
Definition an_integer (v : pyval) : test := fun r => exists f, of_type "int" (fun v => exists n, int_value v n) v f /\ reported repr v None PNone (PStr (lit "integer")) f r.
Definition a_list (v : pyval) : test := fun r => exists f, of_type "list" (fun v => exists l, v = PList l) v f /\ reported repr v None PNone (PStr (lit "list")) f r.
Definition a_bool (v : pyval) : test := fun r => exists f, of_type "bool" (fun v => exists b, v = PBool b) v f /\ reported repr v None PNone (PStr (lit "boolean")) f r.
Definition an_address (v : pyval) : test := answers (address_read repr v) no_test.
Definition a_positive_amount (v : pyval) : test := fun r => exists f, positive_amount repr v f /\ reported repr v None PNone (PStr (lit "string")) f r.

(** The number v in n bytes, little-endian. *)
Inductive le_number (n : nat) (v : pyval) : answer pystr -> Prop :=
| le_given : forall z, int_value v z -> 0 <= z < 256 ^ Z.of_nat n -> le_number n v (Gives (hex_of (le_bytes n z)))
| le_long : forall z bs, int_value v z -> 256 ^ Z.of_nat n <= z -> bytes bs -> minimal bs -> be_val bs = z ->
    le_number n v (Says ValueError (lit "Hex value is already longer than desired padded length. Hex value: " ++ hex_of (rev bs)))
| le_refused : forall e text, to_hex repr v (Says e text) -> le_number n v (Says e text).
(** v in hex, bytes in the opposite order. *)
Inductive reversed (v : pyval) : answer pystr -> Prop :=
| reversed_given : forall bs, v = PStr (hex_of bs) -> bytes bs -> reversed v (Gives (hex_of (rev bs)))
| reversed_refused : forall e text, a_hex v (Some (e, text)) -> reversed v (Says e text).

(** The entry k, a length in one byte, and the entry k_int, the same as a number. *)
Definition a_length (d : dict) (k_int : string) (v : pyval) : test :=
  first_of [a_hex v; answers (count_read repr v) (fun n => asserted (exists iv, has d k_int iv /\ py_eq_int iv n = true))].
(** v is a script, and its length is given by the entry k. *)
Definition a_script (d : dict) (k : string) (mismatch : Z -> Z -> exn * pystr) (v : pyval) : test :=
  first_of [a_hex v; entry d k (fun l => answers (count_read repr l) (fun n r => exists bs, bytes bs /\ v = PStr (hex_of bs) /\
    (len bs = n /\ r = None \/ len bs <> n /\ r = Some (mismatch n (len bs)))))].

(** The tests of an input. *)
Definition input_tests (d : dict) : list test :=
  [ all_entries d ["previous_output_hash"; "previous_output_index"; "previous_output_index_int"; "script_length"; "script_length_int"; "script_sig"; "sequence"; "public_key_hex";
      "script_pub_key_length"; "script_pub_key_length_int"; "script_pub_key"; "address"; "txid"; "satoshi_amount"; "bitcoin_amount"]%string;
    entry d "previous_output_hash" (a_hex_of 32);
    entry d "previous_output_index" a_hex;
    entry d "previous_output_index_int" an_integer;
    entry d "previous_output_index_int" (fun v => answers (le_number 4 v) (fun x => asserted (has d "previous_output_index" (PStr x))));
    entry d "script_length" (if_present (a_length d "script_length_int"));
    entry d "script_sig" (if_present (a_script d "script_length" (fun n m =>
      (ValueError, lit "Script length value (" ++ int_str n ++ lit ") != calculated hex byte length of script_sig value (" ++ int_str m ++ lit ")."))));
    entry d "sequence" (fun v => asserted (v = PStr (lit "ffffffff")));
    entry d "public_key_hex" (if_present (a_hex_of 64));
    entry d "script_pub_key_length" (if_present (a_length d "script_pub_key_length_int"));
    entry d "script_pub_key" (if_present (a_script d "script_pub_key_length" (fun _ _ => (AssertionError, []))));
    entry d "address" an_address;
    entry d "txid" (fun v => answers (reversed v) (fun x => asserted (has d "previous_output_hash" (PStr x))));
    entry d "satoshi_amount" an_integer;
    entry d "bitcoin_amount" a_positive_amount;
    entry d "satoshi_amount" (fun v => answers (to_bitcoin repr v) (fun x => asserted (has d "bitcoin_amount" (PStr x)))) ].
Definition input_test : pyval -> test := object (fun d => first_of (input_tests d)).

(** The tests of an output. *)
Definition output_tests (d : dict) : list test :=
  [ all_entries d ["value"; "script_length"; "script_length_int"; "script_pub_key"; "address"; "satoshi_amount"; "bitcoin_amount"]%string;
    entry d "value" a_hex;
    entry d "script_length" a_hex;
    entry d "script_length_int" an_integer;
    entry d "script_pub_key" a_hex;
    entry d "address" an_address;
    entry d "bitcoin_amount" a_positive_amount;
    entry d "script_length" (fun v => answers (count_read repr v) (fun n => asserted (exists iv, has d "script_length_int" iv /\ int_value iv n)));
    entry d "satoshi_amount" (fun v => answers (to_bitcoin repr v) (fun x => asserted (has d "bitcoin_amount" (PStr x))));
    entry d "satoshi_amount" (fun v => answers (le_number 8 v) (fun x => asserted (has d "value" (PStr x))));
    asserted (exists a h, has d "address" (PStr a) /\ is_address h a /\ has d "script_pub_key" (PStr (hex_of (p2pkh h))));
    asserted (has d "script_length" (PStr (hex_of [25]))) ].
Definition output_test : pyval -> test := object (fun d => first_of (output_tests d)).

(** The entries 'satoshi_amount' of the objects in l are the numbers ns. *)
Definition worth (l : list pyval) (ns : list Z) : Prop := Forall2 (fun v n => exists d, v = PDict d /\ has d "satoshi_amount" (PInt n)) l ns.
(** The tests of a transaction.  The entry 'version' only has to exist. *)
Definition document_tests (d : dict) : list test :=
  [ all_entries d ["version"; "input_count"; "inputs"; "output_count"; "outputs"; "block_lock_time"; "hash_type_4_byte"; "hash_type_1_byte"; "signed"]%string;
    entry d "input_count" a_hex;
    entry d "inputs" a_list;
    entry d "outputs" a_list;
    entry d "input_count" (fun v => answers (count_read repr v) (fun n => asserted (exists l, has d "inputs" (PList l) /\ Z.of_nat (length l) = n)));
    entry d "output_count" (fun v => answers (count_read repr v) (fun n => asserted (exists l, has d "outputs" (PList l) /\ Z.of_nat (length l) = n)));
    entry d "inputs" (each input_test);
    entry d "outputs" (each output_test);
    entry d "block_lock_time" (fun v => asserted (v = PStr (lit "00000000")));
    entry d "hash_type_4_byte" (fun v => asserted (v = PStr (lit "01000000")));
    entry d "hash_type_1_byte" (fun v => asserted (v = PStr (lit "01")));
    entry d "signed" a_bool;
    asserted (exists vi vo ins outs, has d "inputs" (PList vi) /\ has d "outputs" (PList vo) /\ worth vi ins /\ worth vo outs /\ Zsum outs <= Zsum ins);
    asserted (has d "signed" (PBool true) -> exists vi, has d "inputs" (PList vi) /\
      Forall (fun v => exists d', v = PDict d' /\ ~ has d' "script_length" PNone /\ ~ has d' "script_sig" PNone) vi) ].
Definition document_test : pyval -> test := object (fun d => first_of (document_tests d)).

End WithEnv.
