(** What an error message says (C72), independent of the code: a list of phrases separated by commas. *)
From Coq Require Import String.
From Verif Require Import PyBase Env PyNum ValidSpec.
Open Scope Z_scope.

(** The name as shown: its part before the first space in single quotes, the rest as it is. *)
Inductive shown_name : pystr -> pystr -> Prop :=
| shown_word : forall w, ~ In 32 w -> shown_name w (lit "'" ++ w ++ lit "'")
| shown_words : forall w rest, ~ In 32 w -> shown_name (w ++ [32] ++ rest) (lit "'" ++ w ++ lit "' " ++ rest).

(** The message before its first letter is made a capital. *)
Definition place (repr : pyval -> pystr) (location : pyval) (p : pystr) : Prop :=
  (location = PNone /\ p = []) \/ (location <> PNone /\ p = lit "in location " ++ repr location ++ lit ", ").
Definition variable (name : option pystr) (p : pystr) : Prop :=
  (name = None /\ p = []) \/ (exists n q, name = Some n /\ shown_name n q /\ p = lit "for variable " ++ q ++ lit ", ").
Definition expectation (repr : pyval -> pystr) (kind : pyval) (p : pystr) : Prop :=
  (kind = PNone /\ p = []) \/ (kind <> PNone /\ p = lit "expected a " ++ repr kind ++ lit ", but ").
Definition reason (msg : pystr) (p : pystr) : Prop :=
  (msg = [] /\ p = []) \/ (msg <> [] /\ p = lit ", " ++ msg).

(** s with a capital first letter. *)
Definition sentence (s : pystr) (m : pystr) : Prop :=
  exists small big, In (small, big) [("i", "I"); ("f", "F"); ("e", "E"); ("r", "R")]%string /\ exists rest, s = lit small ++ rest /\ m = lit big ++ rest.

Section WithEnv.
Context {E : Env}.

(** The whole message. *)
Definition message (repr : pyval -> pystr) (msg : pystr) (value : pyval) (name : option pystr) (location kind : pyval) (m : pystr) : Prop :=
  exists p v e r, place repr location p /\ variable name v /\ expectation repr kind e /\ reason msg r /\
    sentence (p ++ v ++ e ++ lit "received value " ++ repr value ++ r) m.

(** How Python calls the type of a value. *)
Inductive type_called : pyval -> string -> Prop :=
| called_none : type_called PNone "NoneType"
| called_bool : forall b, type_called (PBool b) "bool"
| called_int : forall z, type_called (PInt z) "int"
| called_float : forall f, type_called (PFloat f) "float"
| called_str : forall s, type_called (PStr s) "str"
| called_list : forall l, type_called (PList l) "list"
| called_dict : forall d, type_called (PDict d) "dict".
(** The texts of l with sep between them. *)
Definition separated (sep : pystr) (l : list pystr) : pystr := match l with [] => [] | x :: l' => x ++ flat_map (fun y => sep ++ y) l' end.
(** The i-th character of s is c. *)
Definition char_at (s : pystr) (i : nat) (c : Z) : Prop := nth_error s i = Some c.
(** l lists, in increasing order, the positions of the characters of s that are not among 0..9, a..f. *)
Definition hex_faults (s : pystr) (l : list nat) : Prop :=
  (forall i, In i l <-> exists c, char_at s i c /\ ~ (48 <= c <= 57 \/ 97 <= c <= 102)) /\
  (forall a b l1 l2 l3, l = l1 ++ [a] ++ l2 ++ [b] ++ l3 -> (a < b)%nat).
(** c is the first character of s that is not printable; it is in line number [line] (the first line has number 0) at position [index] (the first has position 1). *)
Definition first_unprintable (s : pystr) (line index c : Z) : Prop :=
  exists lines this rest, s = flat_map (fun l => l ++ [10]) lines ++ this ++ [c] ++ rest /\
    Forall (fun l => Forall printable_char l /\ ~ In 10 l) (this :: lines) /\ ~ printable_char c /\
    line = Z.of_nat (length lines) /\ index = Z.of_nat (length this) + 1.

End WithEnv.

(** A simple repr, for examples. *)
Definition plain_repr (v : pyval) : pystr := match v with PStr s => lit "'" ++ s ++ lit "'" | PInt z => int_str z | _ => lit "?" end.
