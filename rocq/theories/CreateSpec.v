(** Specification of create_transaction: what is being asked for, and which transaction answers it.
    [namespace], [tx] and [approach] are the model's record types of the argument and result objects; nothing else is
    taken from the model.  Numbers are read as NumSpec.v says; SFmul and SFdiv are the standard library's IEEE operations. *)
From Coq Require Import String Floats.SpecFloat Permutation Sorted Reals.
From Verif Require Import PyBase Env Spec EnvOk TxInput TxOutput Tx Create TxSpec FloatSpec NumSpec.
Open Scope Z_scope.

(** ** What is asked for. *)
Record iarg : Type := mk_iarg { ia_address : pystr; ia_txid : list Z; ia_index : Z; ia_value : Z }.
Record oarg : Type := mk_oarg { oa_address : pystr; oa_value : Z }.
Inductive fee_choice : Type := FixedFee (n : Z) | FeeRate (r : spec_float).
Record order : Type := mk_order {
  q_inputs : list iarg;
  q_outputs : list oarg;
  q_fee : fee_choice;
  q_change_address : pystr;
  q_max_fee : Z;
  q_max_spend : spec_float;        (* percentage *)
  q_approach : approach;
  q_allow_duplicates : bool;
  q_change_index : pyval           (* None, or a whole number *)
}.

Definition max_money : Z := 2100000000000000.
Definition in_value (l : list iarg) : Z := Zsum (map ia_value l).
Definition out_value (l : list oarg) : Z := Zsum (map oa_value l).

Section WithEnv.
Context {E : Env}.

Definition address (a : pystr) : Prop := exists h, is_address h a.
(** s is the text of an amount of n satoshi, not written with '0' and '.' only. *)
Definition amount_arg (s : pystr) (n : Z) : Prop := amount_of s n /\ n <= max_money /\ ~ zero_text s.

(** The dict v describes the available input i: exactly four keys. *)
Definition input_arg (v : pyval) (i : iarg) : Prop :=
  exists d vi s, v = PDict d /\
    Permutation (map fst d) (map lit ["address"; "transaction_id"; "previous_output_index"; "bitcoin_amount"]%string) /\
    dict_find (lit "address") d = Some (PStr (ia_address i)) /\ address (ia_address i) /\
    dict_find (lit "transaction_id") d = Some (PStr (hex_of (ia_txid i))) /\ bytes (ia_txid i) /\ length (ia_txid i) = 32%nat /\
    dict_find (lit "previous_output_index") d = Some vi /\ int_value vi (ia_index i) /\ 0 <= ia_index i /\
    dict_find (lit "bitcoin_amount") d = Some (PStr s) /\ amount_arg s (ia_value i).

(** The dict v describes the desired output o: exactly two keys. *)
Definition output_arg (v : pyval) (o : oarg) : Prop :=
  exists d s, v = PDict d /\
    Permutation (map fst d) (map lit ["address"; "bitcoin_amount"]%string) /\
    dict_find (lit "address") d = Some (PStr (oa_address o)) /\ address (oa_address o) /\
    dict_find (lit "bitcoin_amount") d = Some (PStr s) /\ amount_arg s (oa_value o).

(** v is a number equal to the whole number z: an int, a bool, or a float zero. *)
Definition whole (v : pyval) (z : Z) : Prop :=
  (v = PInt z /\ 0 <= z) \/ (exists b, v = PBool b /\ z = b2z b) \/ (exists b, v = PFloat (S754_zero b) /\ z = 0).
(** The same, or a str of it. *)
Definition whole_arg (v : pyval) (z : Z) : Prop :=
  whole v z \/ exists s, v = PStr s /\ int_text s z /\ 0 <= z.

(** A fee rate: a whole number, or a numeral with digits on both sides of the dot, as str or int; or a float zero. *)
Definition rate_text (s : pystr) (ip fp : list Z) : Prop :=
  (Forall2 dec_char s ip /\ fp = [] /\ ip <> []) \/
  (exists a b, s = a ++ [46] ++ b /\ Forall2 dec_char a ip /\ Forall2 dec_char b fp /\ ip <> [] /\ fp <> []).
Definition rate_arg (v : pyval) (r : spec_float) : Prop :=
  (exists z, v = PInt z /\ 0 <= z /\ rounds (IZR z) false r) \/
  (exists s ip fp, v = PStr s /\ rate_text s ip fp /\ rounds (decimal ip fp) false r) \/
  (exists b, v = PFloat (S754_zero b) /\ r = S754_zero b).
(** An empty or zero value, which counts as false. *)
Definition counts_as_false (v : pyval) : Prop :=
  v = PNone \/ v = PBool false \/ v = PInt 0 \/ (exists b, v = PFloat (S754_zero b)) \/ v = PStr [] \/ v = PList [] \/ v = PDict [].
(** A fee_rate entry that counts as missing (an int or bool counts as present, even 0). *)
Definition no_rate (o : option pyval) : Prop :=
  match o with None => True | Some v => counts_as_false v /\ as_int v = None end.
(** A fee entry that counts as missing. *)
Definition no_fee (o : option pyval) : Prop :=
  match o with
  | None => True
  | Some (PStr s) => int_text s 0
  | Some v => counts_as_false v
  end.
Definition fee_arg (fee rate : option pyval) (c : fee_choice) : Prop :=
  match c with
  | FixedFee n => 0 < n /\ no_rate rate /\
      (fee = Some (PInt n) \/ exists s, fee = Some (PStr s) /\ int_text s n)
  | FeeRate r => no_fee fee /\ exists v, rate = Some v /\ rate_arg v r
  end.

Definition approach_name (a : approach) : pystr :=
  match a with LargestFirst => lit "largest_first" | SmallestFirst => lit "smallest_first" | All => lit "all" end.
Definition approach_arg (v : option pyval) (a : approach) : Prop :=
  (v = None /\ a = LargestFirst) \/ v = Some (PList [PStr (approach_name a)]).

Definition option_arg (v : option pyval) (b : bool) : Prop :=
  ((v = None \/ v = Some PNone) /\ b = false) \/ v = Some (PBool b).
Definition index_arg (v : option pyval) (i : pyval) : Prop :=
  ((v = None \/ v = Some PNone) /\ i = PNone) \/ (v = Some i /\ exists z, whole i z).

Definition design_arg (d : dict) (q : order) : Prop :=
  (exists l, dict_find (lit "outputs") d = Some (PList l) /\ Forall2 output_arg l (q_outputs q)) /\
  (dict_find (lit "change_address") d = Some (PStr (q_change_address q)) /\ address (q_change_address q)) /\
  (exists v, dict_find (lit "max_fee") d = Some v /\ whole_arg v (q_max_fee q)) /\
  (exists v n, dict_find (lit "max_spend_percentage") d = Some v /\ float_of_value v (q_max_spend q) /\
     truncates (q_max_spend q) n /\ 0 <= n <= 100) /\
  fee_arg (dict_find (lit "fee") d) (dict_find (lit "fee_rate") d) (q_fee q) /\
  approach_arg (dict_find (lit "input_selection_approaches") d) (q_approach q).

(** The argument object a asks for q. *)
Definition asked (a : namespace) (q : order) : Prop :=
  exists l d, ns_inputs a = Some (PList l) /\ Forall2 input_arg l (q_inputs q) /\
    ns_design a = Some (PDict d) /\ design_arg d q /\
    option_arg (ns_allow_duplicate_output_address a) (q_allow_duplicates q) /\
    index_arg (ns_change_output_index a) (q_change_index q).

(** ** Which transaction answers it. *)

(** l' is l sorted by value (largest first, or smallest first), inputs of equal value in their original order. *)
Definition in_order (a : approach) (i j : iarg) : Prop :=
  match a with SmallestFirst => ia_value i <= ia_value j | _ => ia_value j <= ia_value i end.
Definition sorted_for (a : approach) (l l' : list iarg) : Prop :=
  Permutation l l' /\ StronglySorted (in_order a) l' /\
  forall v, filter (fun i => ia_value i =? v) l' = filter (fun i => ia_value i =? v) l.

(** sel is what is taken from the sorted list l to reach the target. *)
Definition chosen (a : approach) (target : Z) (l sel : list iarg) : Prop :=
  ((a = All \/ in_value l = target) /\ sel = l) \/
  (a <> All /\ in_value l <> target /\
   exists first last rest, sel = first ++ [last] /\ l = sel ++ rest /\
     (first = [] \/ in_value first < target) /\ target <= in_value sel).

(** Estimated size: all available inputs, and the outputs asked for. *)
Definition estimated_size (n_in n_out : nat) : Z := 10 + 179 * Z.of_nat n_in + 34 * Z.of_nat n_out.
(** f = math.ceil(size * rate) *)
Definition rate_fee (r : spec_float) (size f : Z) : Prop :=
  exists s, rounds (IZR size) false s /\ ceils (SFmul 53 1024 s r) f.
Definition fee_due (q : order) (f : Z) : Prop :=
  match q_fee q with
  | FixedFee n => f = n
  | FeeRate r => rate_fee r (estimated_size (length (q_inputs q)) (length (q_outputs q))) f
  end.

(** Where the surplus goes: outs becomes outs', and chg is the amount of the output that received it (0 if none). *)
Definition pays (a : pystr) (o : oarg) : bool := str_eqb (oa_address o) a.
Definition surplus_paid (a : pystr) (idx : pyval) (outs : list oarg) (surplus : Z) (outs' : list oarg) (chg : Z) : Prop :=
  (surplus = 0 /\ outs' = outs /\ chg = 0) \/
  (surplus <> 0 /\ (forall o, In o outs -> oa_address o <> a) /\ outs' = mk_oarg a surplus :: outs /\ chg = surplus) \/
  (surplus <> 0 /\ exists pre o post, outs = pre ++ o :: post /\ oa_address o = a /\
     outs' = pre ++ mk_oarg a (oa_value o + surplus) :: post /\ chg = oa_value o + surplus /\
     (length (filter (pays a) outs) = 1%nat \/ as_int idx = Some (Z.of_nat (length (filter (pays a) pre))))).

(** limit = math.ceil(p / 100 * total) *)
Definition spend_limit (p : spec_float) (total limit : Z) : Prop :=
  exists h t, rounds 100 false h /\ rounds (IZR total) false t /\ ceils (SFmul 53 1024 (SFdiv 53 1024 p h) t) limit.

(** The answer to q: spend the inputs sel, make the outputs outs, pay the fee f; chg is the change. *)
Definition plan (q : order) (sel : list iarg) (outs : list oarg) (f chg : Z) : Prop :=
  (length (q_inputs q) <= 252)%nat /\ (length (q_outputs q) <= 252)%nat /\ (length outs <= 252)%nat /\
  Forall (fun i => ia_index i < 2 ^ 32) (q_inputs q) /\
  0 < in_value (q_inputs q) <= max_money /\
  (q_allow_duplicates q = false -> NoDup (map oa_address (q_outputs q))) /\
  fee_due q f /\ 0 <= f <= q_max_fee q /\
  out_value (q_outputs q) + f <= in_value (q_inputs q) /\
  (exists s, sorted_for (q_approach q) (q_inputs q) s /\ chosen (q_approach q) (out_value (q_outputs q) + f) s sel) /\
  surplus_paid (q_change_address q) (q_change_index q) (q_outputs q)
    (in_value sel - (out_value (q_outputs q) + f)) outs chg /\
  exists limit, spend_limit (q_max_spend q) (in_value (q_inputs q)) limit /\ 0 < limit <= max_money /\
    in_value sel - chg <= limit.

(** q passes the checks made before the fee: indexes fit 4 bytes, at most 252 inputs and outputs, no sum exceeds the
    maximum amount, and no output address is repeated unless allowed. *)
Definition ready (q : order) : Prop :=
  (length (q_inputs q) <= 252)%nat /\ (length (q_outputs q) <= 252)%nat /\
  Forall (fun i => ia_index i < 2 ^ 32) (q_inputs q) /\
  in_value (q_inputs q) <= max_money /\ out_value (q_outputs q) <= max_money /\
  (q_allow_duplicates q = false -> NoDup (map oa_address (q_outputs q))).

(** t is the unsigned transaction object spending sel and making outs. *)
Definition tx_of (sel : list iarg) (outs : list oarg) (change_address : pystr) (t : tx) : Prop :=
  exists ins os,
    Forall2 (fun i x => made_input (ia_address i) (ia_txid i) (PInt (ia_index i)) (ia_value i) x) sel ins /\
    Forall2 (fun o y => made_output (oa_address o) (oa_value o) y) outs os /\
    t = mk_tx (hex_of (le_bytes 4 1)) (hex_of [Z.of_nat (length ins)]) ins
          (hex_of [Z.of_nat (length os)]) os (hex_of (le_bytes 4 0)) (hex_of (le_bytes 4 1)) (hex_of [1]) (Some change_address).

End WithEnv.
