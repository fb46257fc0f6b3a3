(** Specification vocabulary for the validators: character classes of Python strings. *)
From Coq Require Import String.
From Verif Require Import PyBase Env Spec EnvOk.

Section WithEnv.
Context {E : Env}.

(** str.isdigit() holds of the character: 0..9, or a non-ASCII digit (decimal or not, such as superscript two). *)
Definition digit_char (c : Z) : Prop := 48 <= c <= 57 \/ (128 <= c /\ uni_isdigit c = true).
(** The character has a decimal value. *)
Definition decimal_char (c : Z) : Prop := exists d, 0 <= d <= 9 /\ dec_char c d.
(** Printable ASCII, tab, newline. *)
Definition printable_char (c : Z) : Prop := c = 9 \/ c = 10 \/ 32 <= c <= 126.
(** Four digits, dash, two digits, dash, two digits. *)
Definition date_text (s : pystr) : Prop :=
  exists y m d, s = y ++ [45] ++ m ++ [45] ++ d /\ length y = 4%nat /\ length m = 2%nat /\ length d = 2%nat /\
    Forall decimal_char (y ++ m ++ d).

End WithEnv.
