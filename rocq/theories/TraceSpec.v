(** The records logged while a transaction is signed, verified or loaded, in terms of its bytes.  Nothing here refers to the model's
    functions except int_str, the decimal numeral of an integer. *)
From Coq Require Import String.
From Verif Require Import PyBase Env Spec EnvOk TxInput TxOutput Tx TxSpec SignSpec.
Open Scope Z_scope.

(** Levels. *)
Definition at_error (s : pystr) : Z * pystr := (40, s).
Definition at_info (s : pystr) : Z * pystr := (20, s).
Definition at_debug (s : pystr) : Z * pystr := (10, s).
Definition level_is (l : Z) (r : Z * pystr) : bool := fst r =? l.

(** Numbers, and bytes with their number. *)
Definition numeral (n : nat) : pystr := int_str (Z.of_nat n).
Definition sized (name sep : string) (bs : list Z) : pystr := lit name ++ lit " (" ++ numeral (length bs) ++ lit " bytes)" ++ lit sep ++ hex_of bs.
(** Several lines of one message. *)
Definition joined (l : list pystr) : pystr := match l with [] => [] | x :: r => x ++ flat_map (fun s => 10 :: s) r end.

(** Taking apart a scriptSig that holds the DER signature der and the key pub. *)
Definition parts_log (der pub : list Z) : list (Z * pystr) :=
  map at_debug
    [ sized "signature_hex (DER-encoded, 1-byte hash type appended)" ": " (der ++ [1]);
      sized "public_key_hex" ": " (4 :: pub);
      lit "1-byte hash type appended to signature_hex = 01";
      sized "signature_hex (DER-encoded)" ": " der;
      lit "1-byte compression type prepended to public key = 04";
      sized "public_key_hex" ": " pub ].
(** Decoding the DER encoding of (r, s): 32 bytes each, most significant first. *)
Definition der_log (r s : Z) : list (Z * pystr) :=
  [at_debug (joined [ lit "Signature decoded from DER encoding:"; sized "signature_hex" " = " (rev (le_bytes 32 r) ++ rev (le_bytes 32 s));
                      sized "r_hex" " = " (rev (le_bytes 32 r)); sized "s_hex" " = " (rev (le_bytes 32 s)) ])].

(** Signature number k (counting from 0) of n. *)
Definition which (k n : nat) : pystr := numeral (k + 1) ++ lit " of " ++ numeral n.

(** ** verify *)
Definition verdict_record (k n : nat) (b : bool) : Z * pystr :=
  if b then at_debug (lit "Signature " ++ which k n ++ lit " is valid.") else at_error (lit "Signature " ++ which k n ++ lit " is invalid!").
Section WithEnv.
Context {E : Env}.

(** l are the records about input number k, x, of n, with verdict b. *)
Definition check_log (n k : nat) (x : txin) (b : bool) (l : list (Z * pystr)) : Prop :=
  exists script der pub r s, ti_script_sig x = Some (hex_of script) /\ bytes script /\ script_sig_parts script der pub /\
    der_decode der = Ok (r, s) /\ 0 <= r < 256 ^ 32 /\ 0 <= s < 256 ^ 32 /\
    l = [at_debug (lit "Verifying signature " ++ which k n ++ lit ".")] ++ parts_log der pub ++ der_log r s ++ [verdict_record k n b].
Inductive checks_log (n : nat) : nat -> list txin -> list bool -> list (Z * pystr) -> Prop :=
| cl_nil : forall k, checks_log n k [] [] []
| cl_cons : forall k x xs b bs l l', check_log n k x b l -> checks_log n (S k) xs bs l' -> checks_log n k (x :: xs) (b :: bs) (l ++ l').
(** The complaints about signatures number k, k+1, ... with verdicts bs. *)
Fixpoint complaints (n k : nat) (bs : list bool) : list (Z * pystr) :=
  match bs with [] => [] | b :: r => (if b then [] else [at_error (lit "Signature " ++ which k n ++ lit " is invalid!")]) ++ complaints n (S k) r end.
Definition verified_text (n : nat) : pystr :=
  lit "Transaction verified: " ++ numeral n ++ lit " valid signature" ++ (if Nat.leb n 1 then [] else lit "s").

(** ** sign *)

(** Signing input number k, x, of n, with or without supplied nonces. *)
Definition announce (nonces : bool) (k n : nat) (x : txin) : Z * pystr :=
  at_info (lit "Creating " ++ (if nonces then lit "non-" else []) ++ lit "deterministic signature " ++ which k n ++ lit ". Source address = " ++ ti_address x).
Definition key_log (pub : list Z) : list (Z * pystr) := [at_debug (sized "public_key_hex" " = " pub)].
Definition signature_log (pub sig : list Z) : list (Z * pystr) :=
  let der := der_of sig in
  map at_debug
    [ sized "signature_hex" " = " sig;
      sized "signature_hex (DER-encoded)" " = " der;
      sized "signature_hex (DER-encoded, 1-byte hash type appended)" " = " (der ++ [1]);
      sized "public_key_hex (1-byte compression type prepended)" " = " (4 :: pub);
      sized "signature_hex_pushdata" " = " [len der + 1];
      sized "public_key_hex_pushdata" " = " [65];
      sized "script_sig" " = " (build_script_sig der pub);
      sized "script_length" " = " [len (build_script_sig der pub)] ].
Definition signed_text (n : nat) : pystr :=
  lit "Transaction signed with " ++ numeral n ++ lit " signature" ++ (if Nat.eqb n 0 then [] else lit "s") ++ lit ".".
Definition supplied (rv : option (list pystr)) : bool := match rv with Some _ => true | None => false end.

(** Signing inputs number k, k+1, ... of n in order, until the first problem (SignSpec.signing), and the records written. *)
Inductive signing_log (keys : list pystr) (rv : option (list pystr)) (ins : list sinput) (outs : list soutput) (n : nat)
  : nat -> list txin -> res unit -> list txin -> list (Z * pystr) -> Prop :=
| sl_done : forall k, signing_log keys rv ins outs n k [] (Ok tt) [] []
| sl_signed : forall k x x' xs r xs' key pub sig l, ~ no_nonce rv k -> In key keys -> input_signed key rv ins outs k x x' ->
    ti_public_key_hex x' = Some (hex_of pub) -> bytes pub -> length pub = 64%nat -> bytes sig -> length sig = 64%nat ->
    ti_script_sig x' = Some (hex_of (build_script_sig (der_of sig) pub)) -> bytes (der_of sig) -> len (der_of sig) <= 72 ->
    signing_log keys rv ins outs n (S k) xs r xs' l ->
    signing_log keys rv ins outs n k (x :: xs) r (x' :: xs') (announce (supplied rv) k n x :: key_log pub ++ signature_log pub sig ++ l)
| sl_no_nonce : forall k x xs, no_nonce rv k -> signing_log keys rv ins outs n k (x :: xs) (Err IndexError) (x :: xs) []
| sl_no_key : forall k x xs, ~ no_nonce rv k -> (forall key, In key keys -> ~ controls key (ti_address x)) ->
    signing_log keys rv ins outs n k (x :: xs) (Err ValueError) (x :: xs) [announce (supplied rv) k n x]
| sl_refused : forall k x xs key pub e, ~ no_nonce rv k -> In key keys -> key_pub key pub -> in_owner x (hash160 pub) ->
    signature key (digest (sighash_bytes k (p2pkh (hash160 pub)) ins outs)) (nonce rv k) = Err e ->
    signing_log keys rv ins outs n k (x :: xs) (Err e) (with_public_key x pub :: xs) (announce (supplied rv) k n x :: key_log pub).

(** ** from_hex_signed *)
Definition input_log (k : nat) (i : sinput) (der pub : list Z) : list (Z * pystr) :=
  map at_debug
    [ lit "input " ++ numeral k ++ lit ":";
      lit "- previous_output_hash: " ++ hex_of (rev (i_txid i));
      lit "- previous_output_index: " ++ hex_of (le_bytes 4 (i_index i));
      lit "- script_length: " ++ hex_of [len (i_script i)];
      lit "- script_length_int: " ++ int_str (len (i_script i));
      lit "- script_sig: " ++ hex_of (i_script i) ] ++
  parts_log der pub ++
  map at_debug
    [ sized "- signature_hex" ": " der; sized "- public_key_hex" ": " pub; lit "- sequence: ffffffff" ].
Definition output_log (k : nat) (o : soutput) (s : pystr) : list (Z * pystr) :=
  map at_debug
    [ lit "output " ++ numeral k ++ lit ":";
      lit "- value: " ++ hex_of (le_bytes 8 (o_value o)) ++ lit " (" ++ s ++ lit " bitcoin, " ++ int_str (o_value o) ++ lit " satoshi)";
      lit "- script_length: " ++ hex_of [len (o_script o)];
      lit "- script_length_int: " ++ int_str (len (o_script o));
      lit "- script_pub_key: " ++ hex_of (o_script o) ].
Inductive inputs_log : nat -> list sinput -> list (Z * pystr) -> Prop :=
| il_nil : forall k, inputs_log k [] []
| il_cons : forall k i is der pub l, script_sig_parts (i_script i) der pub -> inputs_log (S k) is l -> inputs_log k (i :: is) (input_log k i der pub ++ l).
Inductive outputs_log : nat -> list soutput -> list (Z * pystr) -> Prop :=
| ol_nil : forall k, outputs_log k [] []
| ol_cons : forall k o os s l, btc_text s (o_value o) -> outputs_log (S k) os l -> outputs_log k (o :: os) (output_log k o s ++ l).
(** Loading the transaction (ins, outs) from its wire form, followed by the bytes rest. *)
Definition loading_log (ins : list sinput) (outs : list soutput) (rest : list Z) (li lo : list (Z * pystr)) : list (Z * pystr) :=
  [ at_info (lit "Loading signed transaction from hex.");
    at_debug (lit "hex received: " ++ hex_of (wire ins outs ++ rest));
    at_debug (lit "hex length: " ++ numeral (length (wire ins outs ++ rest)));
    at_debug (lit "version: 01000000");
    at_debug (lit "input_count: " ++ hex_of [Z.of_nat (length ins)]);
    at_debug (lit "input_count_int: " ++ numeral (length ins)) ] ++ li ++
  [ at_debug (lit "output_count: " ++ hex_of [Z.of_nat (length outs)]);
    at_debug (lit "output_count_int: " ++ numeral (length outs)) ] ++ lo ++
  [ at_debug (lit "- block_lock_time: 00000000");
    at_info (lit "Signed transaction successfully loaded from hex format and validated.") ].

End WithEnv.
