(** Transaction.sign once more, with the text of each exception that is raised by the code of /repo; an exception that ecdsa raises is passed on.
    repr (the Python built-in) is a parameter.  Tx.v is the version without texts (C100_same: the two agree). *)
From Coq Require Import String Lia.
From Verif Require Import PyBase Env PyNum Validate Basic Messages Complaints Answer BasicSays TxInput TxOutput Tx Cli CliSays.
Open Scope Z_scope.

(** A value, or an exception with its text if it is one of ours ([ending] is that of CliSays.v). *)
Inductive attempt (A : Type) : Type := Good (x : A) | Bad (e : exn) (text : option pystr).
Arguments Good {A} x.
Arguments Bad {A} e text.
Definition next {A B} (m : attempt A) (k : A -> attempt B) : attempt B := match m with Good x => k x | Bad e text => Bad e text end.
Definition stop (e : exn) (text : option pystr) : ending := match text with Some s => Own e s | None => Passed e end.
(** An answer of our own code, with its text. *)
Definition ours {A} (m : answer A) : attempt A := match m with Gives x => Good x | Says e text => Bad e (Some text) end.
(** A call to a library. *)
Definition theirs {A} (m : res A) : attempt A := match m with Ok x => Good x | Err e => Bad e None end.
(** A call of our own code that cannot fail where it is made (proved with C100); its text is not modelled. *)
Definition surely {A} (m : res A) : attempt A := match m with Ok x => Good x | Err e => Bad e (Some []) end.

Section WithEnv.
Context {E : Env}.

(** transaction.py L392-396 with basic.py L199-204: the address map *)
Fixpoint key_map_says (repr : pyval -> pystr) (keys : list pystr) (m : list (pystr * pystr)) : attempt (list (pystr * pystr)) :=
  match keys with
  | [] => Good m
  | k :: r =>
      next (ours (check (hex_length_check repr (PStr k) 32) (Gives tt))) (fun _ =>
      next (theirs (ec_format_private_key_hex k)) (fun k' =>
      next (theirs (ec_validate_private_key_hex k')) (fun _ =>
      next (theirs (ec_public_key k')) (fun p =>
      next (surely (public_key_hex_to_address p)) (fun address =>
      key_map_says repr r (map_set address k m))))))
  end.

(** transaction.py L459-472: to_hex_signable_form; the only exception is that of adding None to a str *)
Definition signable_says (t : tx) (i : nat) : attempt pystr :=
  match to_hex_signable_form t i with Ok s => Good s | Err e => Bad e (Some (lit "must be str, not NoneType")) end.

(** transaction.py L437-456: create_signature_for_one_input *)
Definition signature_says (repr : pyval -> pystr) (t : tx) (i : nat) (private_key_hex : pystr) (random_value_hex : option pystr) : attempt pystr :=
  next (signable_says t i) (fun form =>
  next (surely (get_double_sha256 form)) (fun digest_hex =>
  next (ours (check (hex_length_check repr (PStr digest_hex) 32) (Gives tt))) (fun _ =>
  theirs (match random_value_hex with
          | None | Some [] => create_deterministic_signature_for_digest private_key_hex digest_hex
          | Some k => create_signature_for_digest private_key_hex digest_hex k
          end)))).

(** transaction.py L415-426: from the signature to the script *)
Definition script_of_signature (t : tx) (signature_hex public_key_hex : pystr) : res (pystr * Z * pystr) :=
  hex_len (PStr signature_hex) ;;;
  signature_hex <- signature_to_der signature_hex ;;
  hex_len (PStr signature_hex) ;;;
  let signature_hex := signature_hex ++ tx_hash_type_1_byte t in
  hex_len (PStr signature_hex) ;;;
  '(script_sig, script_length) <- signature_hex_and_public_key_hex_to_script_sig signature_hex public_key_hex ;;
  script_length_int <- var_int_to_int (PStr script_length) ;;
  Ok (script_length, script_length_int, script_sig).
(** transaction.py L412-426 *)
Definition make_script_says (repr : pyval -> pystr) (t : tx) (i : nat) (private_key_hex public_key_hex : pystr) (random_value_hex : option pystr) : attempt (pystr * Z * pystr) :=
  next (ours (hex_len_says repr (PStr public_key_hex))) (fun _ =>
  next (signature_says repr t i private_key_hex random_value_hex) (fun signature_hex =>
  surely (script_of_signature t signature_hex public_key_hex))).

(** transaction.py L401 *)
Definition random_value_says (rv : option (list pystr)) (i : nat) : attempt (option pystr) :=
  match rv with
  | None | Some [] => Good None
  | Some l => match nth_error l i with Some k => Good (Some k) | None => Bad IndexError (Some (lit "list index out of range")) end
  end.

(** basic.py L248-252: private_key_hex_to_public_key_hex *)
Definition public_key_says (k : pystr) : attempt pystr :=
  next (theirs (ec_format_private_key_hex k)) (fun k' => next (theirs (ec_validate_private_key_hex k')) (fun _ => theirs (ec_public_key k'))).

(** transaction.py L399-430: the signing loop; L407 raises ValueError without an argument. *)
Fixpoint sign_loop_says (repr : pyval -> pystr) (t : tx) (m : list (pystr * pystr)) (rv : option (list pystr)) (done todo : list txin) : ending * list txin :=
  match todo with
  | [] => (Finished, done)
  | x :: r =>
      let i := length done in
      match random_value_says rv i with
      | Bad e text => (stop e text, done ++ x :: r)
      | Good random_value_hex =>
          match map_find (ti_address x) m with
          | None => (Own ValueError [], done ++ x :: r)
          | Some private_key_hex =>
              match public_key_says private_key_hex with
              | Bad e text => (stop e text, done ++ x :: r)
              | Good p =>
                  let x1 := set_public_key x p in
                  match make_script_says repr (set_inputs t (done ++ x1 :: r)) i private_key_hex p random_value_hex with
                  | Bad e text => (stop e text, done ++ x1 :: r)
                  | Good (script_length, n, script_sig) => sign_loop_says repr t m rv (done ++ [set_script x1 script_length n script_sig]) r
                  end
              end
          end
      end
  end.

(** transaction.py L387-391: two times ValueError without an argument *)
Definition check_random_says (keys : list pystr) (rv : option (list pystr)) : attempt unit :=
  match rv with
  | None | Some [] => Good tt
  | Some l =>
      if negb (Nat.eqb (length l) (distinct_count l)) then Bad ValueError (Some [])
      else if negb (Nat.eqb (length l) (length keys)) then Bad ValueError (Some [])
      else Good tt
  end.

(** transaction.py L380-434: sign; the second component is the object after the call. *)
Definition sign_says (repr : pyval -> pystr) (t : tx) (keys : list pystr) (rv : option (list pystr)) : ending * tx :=
  match check_random_says keys rv with
  | Bad e text => (stop e text, t)
  | Good _ =>
      match key_map_says repr keys [] with
      | Bad e text => (stop e text, t)
      | Good m => let '(w, ins) := sign_loop_says repr t m rv [] (tx_inputs t) in (w, set_inputs t ins)
      end
  end.

End WithEnv.
