(** What is said when signing is refused (C100). *)
From Coq Require Import String.
From Verif Require Import PyBase Env PyNum Spec EnvOk ValidSpec MessagesSpec ComplaintsSpec TxInput TxOutput Tx TxSpec SignSpec AsWrittenSpec BasicSaysSpec DocSaysSpec CliSays.

Section WithEnv.
Context {E : Env}.

(** A key that can be used. *)
Definition usable (k : pystr) : Prop := exists a, controls k a.
(** The nonces, if there are any, are different and as many as the keys. *)
Definition nonces_fit (keys : list pystr) (rv : option (list pystr)) : Prop := rv = None \/ rv = Some [] \/ exists l, rv = Some l /\ NoDup l /\ length l = length keys.
Definition no_str : pystr := lit "must be str, not NoneType".

(** The keys are looked at first, in order: each has 32 bytes in hex, and ecdsa accepts it. *)
Inductive key_refused (repr : pyval -> pystr) (keys : list pystr) : ending -> Prop :=
| key_no_hex : forall pre k post e text, keys = pre ++ k :: post -> Forall usable pre -> a_hex_of repr 32 (PStr k) (Some (e, text)) -> key_refused repr keys (Own e text)
| key_invalid : forall pre bs post e, keys = pre ++ hex_of bs :: post -> Forall usable pre -> bytes bs -> length bs = 32%nat -> ec_validate_private_key_hex (hex_of bs) = Err e ->
    key_refused repr keys (Passed e).

(** Then the inputs, in order. *)
Inductive input_refused (keys : list pystr) (rv : option (list pystr)) (ins : list sinput) (outs : list soutput) (xs : list txin) : ending -> Prop :=
| input_no_nonce : forall pre x post pre', xs = pre ++ x :: post -> signing_as_written keys rv ins outs 0 pre (Ok tt) pre' ->
    no_nonce rv (length pre) -> input_refused keys rv ins outs xs (Own IndexError (lit "list index out of range"))
| input_no_key : forall pre x post pre', xs = pre ++ x :: post -> signing_as_written keys rv ins outs 0 pre (Ok tt) pre' ->
    ~ no_nonce rv (length pre) -> (forall k, In k keys -> ~ controls k (ti_address x)) -> input_refused keys rv ins outs xs (Own ValueError [])
| input_no_script : forall pre x post pre' k, xs = pre ++ x :: post -> signing_as_written keys rv ins outs 0 pre (Ok tt) pre' ->
    ~ no_nonce rv (length pre) -> In k keys -> controls k (ti_address x) -> ti_script_pub_key x = None -> input_refused keys rv ins outs xs (Own TypeError no_str)
| input_not_signed : forall pre x post pre' k spk e, xs = pre ++ x :: post -> signing_as_written keys rv ins outs 0 pre (Ok tt) pre' ->
    ~ no_nonce rv (length pre) -> In k keys -> controls k (ti_address x) -> in_spk x spk ->
    signature k (digest (sighash_bytes (length pre) spk ins outs)) (nonce rv (length pre)) = Err e -> input_refused keys rv ins outs xs (Passed e).

Inductive signing_ends (repr : pyval -> pystr) (keys : list pystr) (rv : option (list pystr)) (ins : list sinput) (outs : list soutput) (xs : list txin) : ending -> Prop :=
| ends_nonces : ~ nonces_fit keys rv -> signing_ends repr keys rv ins outs xs (Own ValueError [])
| ends_keys : forall w, nonces_fit keys rv -> key_refused repr keys w -> signing_ends repr keys rv ins outs xs w
| ends_inputs : forall w, nonces_fit keys rv -> Forall usable keys -> input_refused keys rv ins outs xs w -> signing_ends repr keys rv ins outs xs w
| ends_signed : forall xs', nonces_fit keys rv -> Forall usable keys -> signing_as_written keys rv ins outs 0 xs (Ok tt) xs' -> signing_ends repr keys rv ins outs xs Finished.

(** The same without nonces, when ecdsa signs everything: no signature needs to be mentioned. *)
Definition ready (keys : list pystr) (x : txin) : Prop := (exists k, In k keys /\ controls k (ti_address x)) /\ ti_script_pub_key x <> None.
Inductive plain_signing_ends (repr : pyval -> pystr) (keys : list pystr) (xs : list txin) : ending -> Prop :=
| plain_keys : forall w, key_refused repr keys w -> plain_signing_ends repr keys xs w
| plain_no_key : forall pre x post, Forall usable keys -> xs = pre ++ x :: post -> Forall (ready keys) pre -> (forall k, In k keys -> ~ controls k (ti_address x)) ->
    plain_signing_ends repr keys xs (Own ValueError [])
| plain_no_script : forall pre x post k, Forall usable keys -> xs = pre ++ x :: post -> Forall (ready keys) pre -> In k keys -> controls k (ti_address x) -> ti_script_pub_key x = None ->
    plain_signing_ends repr keys xs (Own TypeError no_str)
| plain_signed : Forall usable keys -> Forall (ready keys) xs -> plain_signing_ends repr keys xs Finished.

End WithEnv.
