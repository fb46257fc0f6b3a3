(** Property theorems: generated by tools/genprops.py from C_HexSays.v, which holds the proofs. *)
From Coq Require Import String Floats.SpecFloat Lia.
From Verif Require Import PyBase Env PyNum Validate Basic Spec EnvOk ValidSpec TxInput TxOutput Tx TxSpec SignSpec JsonSpec Cli Messages MessagesSpec Complaints ComplaintsSpec Answer BasicSays BasicSaysSpec DocSays DocSaysSpec HexSays HexSaysSpec Demo DemoTx.
Open Scope Z_scope.
From Verif Require C_HexSays.

(** C99.  Without the texts this is the function of C21: the same values, the same exceptions. *)
Theorem C99_same : forall E : Env,
  forall repr s, from_hex_signed s = unsaid (from_hex_signed_says repr s).
Proof. exact (fun E => C_HexSays.c99_same). Qed.
Print Assumptions C99_same.

(** C99.  from_hex_signed raises an exception exactly when the description says so, with the class and the text described; it gives a transaction exactly when the description reads the bytes to the end of the lock time. *)
Theorem C99_refused : forall E : Env,
  HashOk E -> UniOk E -> forall repr s,
  (forall e text, from_hex_signed_says repr s = Says e text <-> transaction_hex repr s (Says e text)) /\
  ((exists t, from_hex_signed_says repr s = Gives t) <-> exists rest, transaction_hex repr s (Gives rest)).
Proof. exact (fun E => C_HexSays.c99_refused). Qed.
Print Assumptions C99_refused.

(** C99.  The exceptions of from_hex_signed, without the texts. *)
Theorem C99_raised : forall E : Env,
  HashOk E -> UniOk E -> forall repr s e, from_hex_signed s = Err e <-> exists text, transaction_hex repr s (Says e text).
Proof. exact (fun E => C_HexSays.c99_raised). Qed.
Print Assumptions C99_raised.

(** C99.  What is said does not depend on anything else: there is one answer for every text. *)
Theorem C99_one_answer : forall E : Env,
  HashOk E -> UniOk E -> forall repr s, (exists a, transaction_hex repr s a) /\
  (forall e text e' text', transaction_hex repr s (Says e text) -> transaction_hex repr s (Says e' text') -> e = e' /\ text = text') /\
  (forall e text rest, transaction_hex repr s (Says e text) -> ~ transaction_hex repr s (Gives rest)).
Proof. exact (fun E => C_HexSays.c99_one_answer). Qed.
Print Assumptions C99_one_answer.

(** Examples. *)
Example ex99_nothing : forall E : Env,
  @from_hex_signed_says demo_env plain_repr [] = Says ValueError [] /\ transaction_hex plain_repr [] (Says ValueError []).
Proof. exact (fun E => C_HexSays.ex99_nothing). Qed.

Example ex99_cut : forall E : Env,
  @from_hex_signed_says demo_env plain_repr (lit "01000000") = Says IndexError (lit "list index out of range").
Proof. exact (fun E => C_HexSays.ex99_cut). Qed.

Example ex99_no_hex : forall E : Env,
  exists text, @from_hex_signed_says demo_env plain_repr (lit "0100000g") = Says ValueError text /\ text <> [].
Proof. exact (fun E => C_HexSays.ex99_no_hex). Qed.

Example ex99_no_output : forall E : Env,
  @from_hex_signed_says demo_env plain_repr (lit "010000000001") = Says ValueError (lit "invalid literal for int() with base 16: ''").
Proof. exact (fun E => C_HexSays.ex99_no_output). Qed.

Example ex99_lock_time : forall E : Env,
  @from_hex_signed_says demo_env plain_repr (lit "01000000000000000001") = Says ValueError [] /\ exists t, @from_hex_signed_says demo_env plain_repr (lit "01000000000000000000ff") = Gives t.
Proof. exact (fun E => C_HexSays.ex99_lock_time). Qed.

Example ex99_signed : forall E : Env,
  exists rest, transaction_hex plain_repr signed_hex (Gives rest).
Proof. exact (fun E => C_HexSays.ex99_signed). Qed.

