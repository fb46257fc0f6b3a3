(** What the small helpers of basic.py read: hexadecimal text for bytes.fromhex and for int(x, 16).  Nothing here refers to the model. *)
From Coq Require Import String Floats.SpecFloat.
From Verif Require Import PyBase Env Spec EnvOk NumSpec TxSpec.
Open Scope Z_scope.

(** Character c is the hexadecimal digit d: '0'..'9', 'a'..'f' or 'A'..'F'. *)
Definition hex_digit (c d : Z) : Prop := (0 <= d <= 9 /\ c = 48 + d) \/ (10 <= d <= 15 /\ (c = 87 + d \/ c = 55 + d)).

(** bytes.fromhex(s) = bs: two digits per byte, with any number of spaces before, between and after the bytes. *)
Inductive spaced_hex : pystr -> list Z -> Prop :=
| no_bytes : spaced_hex [] []
| a_space s bs : spaced_hex s bs -> spaced_hex (32 :: s) bs
| a_byte c d h l s bs : hex_digit c h -> hex_digit d l -> spaced_hex s bs -> spaced_hex (c :: d :: s) (16 * h + l :: bs).

(** All inputs without any script, followed by the hash type: what is signed if no input is selected. *)
Definition no_script_bytes (ins : list sinput) (outs : list soutput) : list Z :=
  wire (map (fun i => mk_sinput (i_txid i) (i_index i) []) ins) outs ++ le_bytes 4 1.

Section WithEnv.
Context {E : Env}.

(** The same for int(x, 16), which also knows the decimal digits of other scripts. *)
Definition any_hex_digit (c d : Z) : Prop := hex_digit c d \/ dec_char c d.
(** One or more digits; single underscores may stand between them. *)
Inductive hex_digits_text : pystr -> list Z -> Prop :=
| one_hex c d : any_hex_digit c d -> hex_digits_text [c] [d]
| next_hex c d s ds : any_hex_digit c d -> hex_digits_text s ds -> hex_digits_text (c :: s) (d :: ds)
| under_hex c d s ds : any_hex_digit c d -> hex_digits_text s ds -> hex_digits_text (c :: 95 :: s) (d :: ds).
(** Nothing, or 0x or 0X, possibly followed by an underscore. *)
Inductive prefix_text : pystr -> Prop :=
| no_prefix : prefix_text []
| prefix z x : dec_char z 0 -> x = 120 \/ x = 88 -> prefix_text [z; x]
| prefix_under z x : dec_char z 0 -> x = 120 \/ x = 88 -> prefix_text [z; x; 95].
(** int(s, 16) = n *)
Definition hex_int_text (s : pystr) (n : Z) : Prop :=
  exists w sg neg p b ds w', s = w ++ sg ++ p ++ b ++ w' /\ Forall space w /\ Forall space w' /\
    sign_text sg neg /\ prefix_text p /\ hex_digits_text b ds /\ n = signed neg (val 16 ds).

End WithEnv.
