(** What is wrong with a signed transaction in hex (C99), independent of the code: how its bytes are read, one part after the other. *)
From Coq Require Import String.
From Verif Require Import PyBase Env PyNum Spec EnvOk ValidSpec MessagesSpec ComplaintsSpec Answer BasicSaysSpec TxSpec DocSaysSpec.
Open Scope Z_scope.

(** Something is read from bytes: what is left of them, or a complaint. *)
Definition reader := list Z -> answer (list Z) -> Prop.
Definition then_read (R R' : reader) : reader := fun bs a =>
  (exists e text, R bs (Says e text) /\ a = Says e text) \/ (exists rest, R bs (Gives rest) /\ R' rest a).
Fixpoint times (n : nat) (R : reader) : reader :=
  match n with O => fun bs a => a = Gives bs | S n' => then_read R (times n' R) end.
(** These bytes come next; otherwise there is a ValueError without a text. *)
Definition expected (l : list Z) : reader := fun bs a =>
  (exists rest, bs = l ++ rest /\ a = Gives rest) \/ ((forall rest, bs <> l ++ rest) /\ a = Says ValueError []).
Definition ran_out : answer (list Z) := Says IndexError (lit "list index out of range").
(** A one-byte number, and then [next] of it. *)
Definition counted (next : nat -> reader) : reader := fun bs a =>
  (bs = [] /\ a = ran_out) \/
  (exists n r, bs = n :: r /\ (253 <= n /\ a = Says ValueError [] \/ n <= 252 /\ next (Z.to_nat n) r a)).

Section WithEnv.
Context {E : Env}.
Context (repr : pyval -> pystr).

(** A script with a signature of n bytes, which ends with 1, and a public key of m bytes, which starts with 4; what is given is the rest of the key.
    The last part may be shorter than announced, and more may follow. *)
Inductive key_script (s : list Z) : answer (list Z) -> Prop :=
| script_no_count : forall e text, count_read repr (PStr (hex_of (firstn 1 s))) (Says e text) -> key_script s (Says e text)
| script_no_count2 : forall n r e text, s = n :: r -> n <= 252 -> count_read repr (PStr (hex_of (firstn 1 (skipn (Z.to_nat n) r)))) (Says e text) -> key_script s (Says e text)
| script_hash_type : forall n sig m r, s = n :: sig ++ m :: r -> n <= 252 -> len sig = n -> m <= 252 -> (forall der, sig <> der ++ [1]) -> key_script s (Says ValueError [])
| script_compressed : forall n der m r, s = n :: (der ++ [1]) ++ m :: r -> n <= 252 -> len (der ++ [1]) = n -> m <= 252 -> (forall key, firstn (Z.to_nat m) r <> 4 :: key) -> key_script s (Says ValueError [])
| script_key : forall n der m r key, s = n :: (der ++ [1]) ++ m :: r -> n <= 252 -> len (der ++ [1]) = n -> m <= 252 -> firstn (Z.to_nat m) r = 4 :: key -> key_script s (Gives key).

(** An input: 36 bytes for the outpoint, the script with its length, the sequence. *)
Inductive an_input (bs : list Z) : answer (list Z) -> Prop :=
| input_ends : (length bs <= 36)%nat -> an_input bs ran_out
| input_length : forall p n r, bs = p ++ n :: r -> length p = 36%nat -> 253 <= n -> an_input bs (Says ValueError [])
| input_script : forall p n r e text, bs = p ++ n :: r -> length p = 36%nat -> n <= 252 -> key_script (firstn (Z.to_nat n) r) (Says e text) -> an_input bs (Says e text)
| input_sequence : forall p n r key, bs = p ++ n :: r -> length p = 36%nat -> n <= 252 -> key_script (firstn (Z.to_nat n) r) (Gives key) ->
    (forall rest, skipn (Z.to_nat n) r <> [255; 255; 255; 255] ++ rest) -> an_input bs (Says ValueError [])
| input_key : forall p n r key rest e text, bs = p ++ n :: r -> length p = 36%nat -> n <= 252 -> key_script (firstn (Z.to_nat n) r) (Gives key) ->
    skipn (Z.to_nat n) r = [255; 255; 255; 255] ++ rest -> length key <> 64%nat ->
    told repr (PStr (hex_of key)) "hex_length_64_bytes" (Wrong ValueError (lit "whose length is " ++ int_str (2 * len key) ++ lit " chars, not 128 chars.")) e text ->
    an_input bs (Says e text)
| input_fine : forall p n r key rest, bs = p ++ n :: r -> length p = 36%nat -> n <= 252 -> key_script (firstn (Z.to_nat n) r) (Gives key) ->
    skipn (Z.to_nat n) r = [255; 255; 255; 255] ++ rest -> length key = 64%nat -> an_input bs (Gives rest).

(** An output: 8 bytes for the value, the script with its length; any script will do, and the end of the data may cut it short. *)
Inductive an_output (bs : list Z) : answer (list Z) -> Prop :=
| output_nothing : bs = [] -> an_output bs (Says ValueError (lit "invalid literal for int() with base 16: " ++ repr (PStr [])))
| output_value : forall e text, bs <> [] -> to_bitcoin repr (PInt (le_val (firstn 8 bs))) (Says e text) -> an_output bs (Says e text)
| output_ends : bs <> [] -> le_val (firstn 8 bs) <= 21000000 * 10 ^ 8 -> (length bs <= 8)%nat -> an_output bs ran_out
| output_length : forall v n r, bs = v ++ n :: r -> length v = 8%nat -> le_val v <= 21000000 * 10 ^ 8 -> 253 <= n -> an_output bs (Says ValueError [])
| output_fine : forall v n r, bs = v ++ n :: r -> length v = 8%nat -> le_val v <= 21000000 * 10 ^ 8 -> n <= 252 -> an_output bs (Gives (skipn (Z.to_nat n) r)).

(** A transaction.  What follows the lock time is left. *)
Definition a_transaction : reader :=
  then_read (expected [1; 0; 0; 0])
    (counted (fun n => then_read (times n an_input)
      (counted (fun m => then_read (times m an_output)
        (expected [0; 0; 0; 0]))))).
Inductive transaction_hex (s : pystr) : answer (list Z) -> Prop :=
| transaction_no_hex : forall e text, a_hex repr (PStr s) (Some (e, text)) -> transaction_hex s (Says e text)
| transaction_read : forall bs a, s = hex_of bs -> bytes bs -> a_transaction bs a -> transaction_hex s a.

End WithEnv.
