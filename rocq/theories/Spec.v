(** Specification vocabulary: what bytes, hex strings, digit strings and amounts mean.
    Nothing here refers to the model of the code. *)
From Coq Require Import String.
From Verif Require Import PyBase.

(** A byte, and a byte string. *)
Definition byte (b : Z) : Prop := 0 <= b < 256.
Definition bytes (bs : list Z) : Prop := Forall byte bs.

(** Lower-case hexadecimal text of a byte string: two characters per byte, high nibble first. *)
Definition hex_char (d : Z) : Z := nth (Z.to_nat d) (lit "0123456789abcdef") 0.
Definition hex_of (bs : list Z) : pystr := flat_map (fun b => [hex_char (b / 16); hex_char (b mod 16)]) bs.

(** Number denoted by digits in base b, most significant digit first. *)
Definition val (b : Z) (ds : list Z) : Z := fold_left (fun acc d => acc * b + d) ds 0.

(** Big-endian and little-endian value of a byte string. *)
Definition be_val (bs : list Z) : Z := val 256 bs.
Fixpoint le_val (bs : list Z) : Z :=
  match bs with [] => 0 | b :: r => b + 256 * le_val r end.

(** bs is the shortest big-endian byte string, of at least one byte, of its value. *)
Definition minimal (bs : list Z) : Prop := bs = [0] \/ exists b r, bs = b :: r /\ b <> 0.

(** A Python string that is the hex of some bytes. *)
Definition is_hex (s : pystr) : Prop := exists bs, bytes bs /\ s = hex_of bs.

(** The Bitcoin base-58 alphabet. *)
Definition alphabet58 : pystr := lit "123456789ABCDEFGHJKLMNPQRSTUVWXYZabcdefghijkmnopqrstuvwxyz".
Definition char58 (d : Z) : Z := nth (Z.to_nat d) alphabet58 0.
(** Text of base-58 digits. *)
Definition text58 (ds : list Z) : pystr := map char58 ds.
Definition digits_in (b : Z) (ds : list Z) : Prop := Forall (fun d => 0 <= d < b) ds.
(** No leading zero digit. *)
Definition no_lead0 (ds : list Z) : Prop := match ds with 0 :: _ => False | _ => True end.

(** Little-endian encoding of n in exactly k bytes (n < 256^k). *)
Fixpoint le_bytes (k : nat) (n : Z) : list Z :=
  match k with O => [] | S k' => n mod 256 :: le_bytes k' (n / 256) end.

(** ASCII text of decimal digits. *)
Definition text10 (ds : list Z) : pystr := map (fun d => 48 + d) ds.

(** s is the canonical bitcoin amount of n satoshi: integer part without superfluous leading zero, a dot, and
    exactly 8 decimals. *)
Definition btc_text (s : pystr) (n : Z) : Prop :=
  exists ip fp, s = text10 ip ++ [46] ++ text10 fp /\ digits_in 10 ip /\ digits_in 10 fp /\
    length fp = 8%nat /\ (ip = [0] \/ (ip <> [] /\ no_lead0 ip)) /\ val 10 (ip ++ fp) = n.

(** Every character of s is '0' or '.'. *)
Definition zero_text (s : pystr) : Prop := forall c, In c s -> c = 48 \/ c = 46.
