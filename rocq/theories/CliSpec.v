(** What the statements about the command line are made of. *)
From Coq Require Import String.
From Verif Require Import PyBase Env.

Section WithEnv.
Context {E : Env}.

(** White space, as str.strip() sees it: tab, line feed, vertical tab, form feed, carriage return, the separators 28-31, space, and
    the characters outside ASCII that Unicode calls white space. *)
Definition blank (c : Z) : Prop := 9 <= c <= 13 \/ 28 <= c <= 32 \/ (128 <= c /\ uni_isspace c = true).

(** t is s without the white space around it. *)
Definition stripped (s t : pystr) : Prop :=
  exists before after, s = before ++ t ++ after /\ Forall blank before /\ Forall blank after /\
    (forall c r, t = c :: r -> ~ blank c) /\ (forall c r, t = r ++ [c] -> ~ blank c).

End WithEnv.
