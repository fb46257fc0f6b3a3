(** Methods of Transaction that take the number of an input, called directly with any int (sign and verify call them with
    the numbers 0, 1, ... of the inputs only, see Tx.v). *)
From Coq Require Import String.
From Verif Require Import PyBase Env PyNum Validate Basic TxInput TxOutput Tx.

Section WithEnv.
Context {E : Env}.

(** transaction.py L438, L524: input_ = self.inputs[input_index].  Python counts negative numbers from the end. *)
Definition check_index (t : tx) (input_index : Z) : res unit :=
  let n := Z.of_nat (length (tx_inputs t)) in
  if (- n <=? input_index) && (input_index <? n) then Ok tt else Err IndexError.

(** transaction.py L454-466, L475-493: to_hex_signable_form.  The loop compares i == input_index for i = 0, 1, ...: a number that is no
    position selects no input at all. *)
Definition to_hex_signable_form_at (t : tx) (input_index : Z) : res pystr :=
  to_hex_signable_form t (if input_index <? 0 then length (tx_inputs t) else Z.to_nat input_index).

(** transaction.py L437-451: create_signature_for_one_input *)
Definition create_signature_for_one_input_at (t : tx) (input_index : Z) (private_key_hex : pystr) (random_value_hex : option pystr) : res pystr :=
  check_index t input_index ;;;
  signable_form_hex <- to_hex_signable_form_at t input_index ;;
  digest_hex <- get_double_sha256 signable_form_hex ;;
  validate_hex_length (PStr digest_hex) 32 ;;;
  match random_value_hex with
  | None | Some [] => create_deterministic_signature_for_digest private_key_hex digest_hex
  | Some k => create_signature_for_digest private_key_hex digest_hex k
  end.

(** transaction.py L523-533: verify_signature_for_one_input *)
Definition verify_signature_for_one_input_at (t : tx) (input_index : Z) (public_key_hex signature_hex : pystr) : res bool :=
  check_index t input_index ;;;
  signable_form_hex <- to_hex_signable_form_at t input_index ;;
  digest_hex <- get_double_sha256 signable_form_hex ;;
  validate_hex_length (PStr digest_hex) 32 ;;;
  verify_signature_digest public_key_hex digest_hex signature_hex.

End WithEnv.
