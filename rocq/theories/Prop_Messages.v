(** Property theorems: generated by tools/genprops.py from C_Messages.v, which holds the proofs. *)
From Coq Require Import String Lia.
From Verif Require Import PyBase Env PyNum Validate Spec ValidSpec Messages MessagesSpec Demo.
Open Scope Z_scope.
From Verif Require C_Messages.

(** C72.  An error message says: where, for which variable, what was expected, the value received and the reason, each only if
    given, separated by commas, with a capital first letter. *)
Theorem C72_message : forall E : Env,
  forall repr msg value name location kind m, build_error_msg repr msg value name location kind = Ok m <-> message repr msg value name location kind m.
Proof. exact (fun E => C_Messages.c72_message). Qed.
Print Assumptions C72_message.

(** C72.  Building an error message never fails. *)
Theorem C72_total : forall E : Env,
  forall repr msg value name location kind, exists m, build_error_msg repr msg value name location kind = Ok m.
Proof. exact (fun E => C_Messages.c72_total). Qed.
Print Assumptions C72_total.

(** C72.  What validate_hex says.  Not a string: TypeError, with the type.  An odd length: ValueError, with the length.  Otherwise, if there are characters that are not
    hex digits: ValueError, with exactly their positions and the characters (a newline shown as \n).  Otherwise it returns.  The exception is that of C11's model. *)
Theorem C72_hex : forall E : Env,
  forall repr v name location kind r, validate_hex_says repr v name location kind = r <->
  ((forall s, v <> PStr s) /\ exists m t, r = Some (TypeError, m) /\ type_called v t /\ message repr (lit "which has type '" ++ lit t ++ lit "', not 'str'.") v name location kind m) \/
  (exists s, v = PStr s /\ Nat.odd (length s) = true /\ exists m, r = Some (ValueError, m) /\
     message repr (lit "whose length is not an even number (" ++ int_str (Z.of_nat (length s)) ++ lit " chars).") v name location kind m) \/
  (exists s l, v = PStr s /\ Nat.odd (length s) = false /\ hex_faults s l /\ l <> [] /\ exists m cs, r = Some (ValueError, m) /\
     Forall2 (fun i c => exists x, char_at s i x /\ c = if x =? 10 then [92; 110] else [x]) l cs /\
     message repr (lit "where the chars at indices [" ++ separated (lit ", ") (map (fun i => int_str (Z.of_nat i)) l) ++ lit "] (with values '" ++ separated (lit ",") cs ++ lit "') are not hex chars.") v name location kind m) \/
  (exists s, v = PStr s /\ Nat.odd (length s) = false /\ hex_faults s [] /\ r = None).
Proof. exact (fun E => C_Messages.c72_hex). Qed.
Print Assumptions C72_hex.

(** C72.  What validate_string_is_printable_ascii says about a string: nothing if all characters are permitted; otherwise ValueError, with the line and the position in
    it of the first character that is not, this character and its code.  About another value: TypeError (without the name and location given). *)
Theorem C72_printable : forall E : Env,
  forall repr v name location kind r, validate_string_is_printable_ascii_says repr v name location kind = r <->
  ((forall s, v <> PStr s) /\ exists m t, r = Some (TypeError, m) /\ type_called v t /\ message repr (lit "which has type '" ++ lit t ++ lit "', not 'str'.") v None PNone (PStr (lit "string")) m) \/
  (exists s, v = PStr s /\ Forall printable_char s /\ r = None) \/
  (exists s line index c m, v = PStr s /\ first_unprintable s line index c /\ r = Some (ValueError, m) /\
     message repr (lit "Line " ++ int_str line ++ lit ", index " ++ int_str index ++ lit ": Character '" ++ [c] ++ lit "' (ord=" ++ int_str c ++
       lit ") is not in the list of permitted data characters.") v name location kind m).
Proof. exact (fun E => C_Messages.c72_printable). Qed.
Print Assumptions C72_printable.

(** C72.  The validators with messages raise exactly what the validators of the model without messages raise. *)
Theorem C72_same : forall E : Env,
  forall repr v name location kind,
  option_map fst (validate_hex_says repr v name location kind) = match validate_hex v with Ok _ => None | Err e => Some e end /\
  option_map fst (validate_string_is_printable_ascii_says repr v name location kind) = match validate_string_is_printable_ascii v with Ok _ => None | Err e => Some e end.
Proof. exact (fun E => C_Messages.c72_same). Qed.
Print Assumptions C72_same.

(** Beside C72: a name with a description, a place and a reason; two faults in a hex string; the second line of a text. *)
Example ex72_message : forall E : Env,
  build_error_msg plain_repr (lit "which is less than 1.") (PInt 0) (Some (lit "n (the hex length)")) (PStr (lit "f")) (PStr (lit "integer")) =
  Ok (lit "In location 'f', for variable 'n' (the hex length), expected a 'integer', but received value 0, which is less than 1.") /\
  build_error_msg plain_repr [] (PInt 0) None PNone PNone = Ok (lit "Received value 0").
Proof. exact (fun E => C_Messages.ex72_message). Qed.

Example ex72_hex : forall E : Env,
  validate_hex_says plain_repr (PStr (lit "0x1" ++ [10])) (Some (lit "key")) PNone (PStr (lit "hex")) =
  Some (ValueError, lit "For variable 'key', expected a 'hex', but received value '0x1" ++ [10] ++ lit "', where the chars at indices [1, 3] (with values 'x,\n') are not hex chars.").
Proof. exact (fun E => C_Messages.ex72_hex). Qed.

Example ex72_printable : forall E : Env,
  exists m, validate_string_is_printable_ascii_says plain_repr (PStr (lit "ab" ++ [10] ++ lit "c" ++ [233])) None PNone PNone = Some (ValueError, m) /\
  first_unprintable (lit "ab" ++ [10] ++ lit "c" ++ [233]) 1 2 233.
Proof. exact (fun E => C_Messages.ex72_printable). Qed.

