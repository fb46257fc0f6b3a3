(** Specification of the JSON form of a transaction: which documents are accepted, and what they are read as. *)
From Coq Require Import String.
From Verif Require Import PyBase Env Spec EnvOk TxInput TxOutput Tx TxSpec.

(** ** Documents. *)

(** The JSON object d has the value v under key k. *)
Definition has (d : dict) (k : string) (v : pyval) : Prop := dict_find (lit k) d = Some v.

(** The three entries for a script, read as length l and script s: both missing, or a length byte and an equal number,
    with the script either missing or of that length. *)
Definition json_script (lv iv sv : pyval) (l s : option pystr) : Prop :=
  (lv = PNone /\ sv = PNone /\ l = None /\ s = None) \/
  (exists n, 0 <= n <= 252 /\ lv = PStr (hex_of [n]) /\ l = Some (hex_of [n]) /\ py_eq_int iv n = true /\
     ((sv = PNone /\ s = None) \/
      (exists bs, bytes bs /\ len bs = n /\ sv = PStr (hex_of bs) /\ s = Some (hex_of bs)))).

Section WithEnv.
Context {E : Env}.

(** The JSON value v is an input of a transaction and x the object made of it. *)
Definition json_input (v : pyval) (x : txin) : Prop :=
  exists d txid iv idx n bt pk lv1 iv1 sv1 l1 s1 lv2 iv2 sv2 l2 s2 a h,
    v = PDict d /\
    has d "txid" (PStr (hex_of txid)) /\ bytes txid /\ length txid = 32%nat /\
    has d "previous_output_hash" (PStr (hex_of (rev txid))) /\
    has d "previous_output_index_int" iv /\ as_int iv = Some idx /\ 0 <= idx < 2 ^ 32 /\
    has d "previous_output_index" (PStr (hex_of (le_bytes 4 idx))) /\
    has d "sequence" (PStr (hex_of [255; 255; 255; 255])) /\
    has d "address" (PStr a) /\ is_address h a /\
    has d "satoshi_amount" (PInt n) /\ 0 < n <= 2100000000000000 /\
    has d "bitcoin_amount" (PStr bt) /\ btc_text bt n /\
    has d "public_key_hex" pk /\
    (pk = PNone \/ exists pub, bytes pub /\ length pub = 64%nat /\ pk = PStr (hex_of pub)) /\
    has d "script_length" lv1 /\ has d "script_length_int" iv1 /\ has d "script_sig" sv1 /\
    json_script lv1 iv1 sv1 l1 s1 /\
    has d "script_pub_key_length" lv2 /\ has d "script_pub_key_length_int" iv2 /\ has d "script_pub_key" sv2 /\
    json_script lv2 iv2 sv2 l2 s2 /\
    x = {| ti_previous_output_hash := hex_of (rev txid);
           ti_previous_output_index := hex_of (le_bytes 4 idx);
           ti_previous_output_index_int := iv;
           ti_sequence := hex_of [255; 255; 255; 255];
           ti_public_key_hex := None;
           ti_script_pub_key_length := l2;
           ti_script_pub_key_length_int := iv2;
           ti_script_pub_key := s2;
           ti_script_length := l1;
           ti_script_length_int := iv1;
           ti_script_sig := s1;
           ti_address := a;
           ti_txid := hex_of txid;
           ti_satoshi_amount := Some n;
           ti_bitcoin_amount := Some bt |}.

(** The JSON value v is an output of a transaction and y the object made of it. *)
Definition json_output (v : pyval) (y : txout) : Prop :=
  exists d iv n bt a h,
    v = PDict d /\
    has d "address" (PStr a) /\ is_address h a /\
    has d "script_pub_key" (PStr (hex_of (p2pkh h))) /\
    has d "script_length" (PStr (hex_of [25])) /\
    has d "script_length_int" iv /\ as_int iv = Some 25 /\
    has d "satoshi_amount" (PInt n) /\ 0 < n <= 2100000000000000 /\
    has d "bitcoin_amount" (PStr bt) /\ btc_text bt n /\
    has d "value" (PStr (hex_of (le_bytes 8 n))) /\
    y = {| to_value := hex_of (le_bytes 8 n);
           to_script_length := hex_of [25];
           to_script_length_int := iv;
           to_script_pub_key := hex_of (p2pkh h);
           to_address := a;
           to_bitcoin_amount := bt;
           to_satoshi_amount := n |}.

(** The JSON value v is a transaction and t the object made of it.  The entry 'version' only has to exist. *)
Definition json_tx (v : pyval) (t : tx) : Prop :=
  exists d vi vo ins outs sg,
    v = PDict d /\
    (exists w, has d "version" w) /\
    has d "inputs" (PList vi) /\ Forall2 json_input vi ins /\
    has d "outputs" (PList vo) /\ Forall2 json_output vo outs /\
    (length ins <= 252)%nat /\ has d "input_count" (PStr (hex_of [Z.of_nat (length ins)])) /\
    (length outs <= 252)%nat /\ has d "output_count" (PStr (hex_of [Z.of_nat (length outs)])) /\
    has d "block_lock_time" (PStr (hex_of (le_bytes 4 0))) /\
    has d "hash_type_4_byte" (PStr (hex_of (le_bytes 4 1))) /\
    has d "hash_type_1_byte" (PStr (hex_of [1])) /\
    has d "signed" (PBool sg) /\
    (sg = true -> Forall (fun x => ti_script_length x <> None /\ ti_script_sig x <> None) ins) /\
    Zsum (map to_satoshi_amount outs) <= Zsum (map ti_sat ins) /\
    t = mk_tx (hex_of (le_bytes 4 1)) (hex_of [Z.of_nat (length ins)]) ins
          (hex_of [Z.of_nat (length outs)]) outs (hex_of (le_bytes 4 0)) (hex_of (le_bytes 4 1)) (hex_of [1]) None.

(** ** Objects that can be written and read back. *)

(** Input x is well formed, worth a positive amount, and unsigned or carrying a scriptSig.  Its scriptPubKey need not belong
    to its address. *)
Definition json_ready_input (x : txin) : Prop :=
  exists txid idx h spk n, in_outpoint x txid idx /\ is_address h (ti_address x) /\
    (bytes spk /\ len spk <= 252 /\ ti_script_pub_key x = Some (hex_of spk) /\
     ti_script_pub_key_length x = Some (hex_of [len spk]) /\ ti_script_pub_key_length_int x = PInt (len spk)) /\
    in_worth x n /\ 0 < n /\
    (ti_public_key_hex x = None \/ exists pub, bytes pub /\ length pub = 64%nat /\ ti_public_key_hex x = Some (hex_of pub)) /\
    ((ti_script_sig x = None /\ ti_script_length x = None /\ ti_script_length_int x = PNone) \/ exists script, in_script x script).
Definition json_ready_output (y : txout) : Prop := exists v h, out_pays y v h /\ 0 < v.
Definition json_ready (t : tx) : Prop :=
  tx_header t /\ Forall json_ready_input (tx_inputs t) /\ Forall json_ready_output (tx_outputs t) /\
  Zsum (map to_satoshi_amount (tx_outputs t)) <= Zsum (map ti_sat (tx_inputs t)) <= 2100000000000000 /\
  forall a, tx_change_address t = Some a -> exists h, is_address h a.

(** x without its public key; t without its change address and the public keys of its inputs. *)
Definition forget_key (x : txin) : txin :=
  mk_txin (ti_previous_output_hash x) (ti_previous_output_index x) (ti_previous_output_index_int x)
          (ti_sequence x) None (ti_script_pub_key_length x) (ti_script_pub_key_length_int x)
          (ti_script_pub_key x) (ti_script_length x) (ti_script_length_int x) (ti_script_sig x)
          (ti_address x) (ti_txid x) (ti_satoshi_amount x) (ti_bitcoin_amount x).
Definition forget_keys (t : tx) : tx :=
  mk_tx (tx_version t) (tx_input_count t) (map forget_key (tx_inputs t)) (tx_output_count t) (tx_outputs t)
        (tx_block_lock_time t) (tx_hash_type_4_byte t) (tx_hash_type_1_byte t) None.

(** x with another scriptPubKey. *)
Definition with_script_pub_key (spk : list Z) (x : txin) : txin :=
  mk_txin (ti_previous_output_hash x) (ti_previous_output_index x) (ti_previous_output_index_int x)
          (ti_sequence x) (ti_public_key_hex x) (Some (hex_of [len spk])) (PInt (len spk))
          (Some (hex_of spk)) (ti_script_length x) (ti_script_length_int x) (ti_script_sig x)
          (ti_address x) (ti_txid x) (ti_satoshi_amount x) (ti_bitcoin_amount x).

(** ** The summary that accompanies the fields of a transaction. *)

(** s is u / 10^k in decimal, with exactly k decimals and no superfluous leading zero. *)
Definition fixed_text (k : nat) (s : pystr) (u : Z) : Prop :=
  exists ip fp, s = text10 ip ++ [46] ++ text10 fp /\ digits_in 10 ip /\ digits_in 10 fp /\
    length fp = k /\ (ip = [0] \/ (ip <> [] /\ no_lead0 ip)) /\ val 10 (ip ++ fp) = u.
(** u is a / b (b > 0) rounded to the nearest integer, ties to even. *)
Definition rounded (a b u : Z) : Prop := 2 * Z.abs (u * b - a) <= b /\ (2 * Z.abs (u * b - a) = b -> Z.Even u).

(** Entry k is the amount of n satoshi, as a number and in bitcoin. *)
Definition has_amount (d : dict) (k : string) (n : Z) : Prop :=
  exists s, has d k (PDict [(lit "satoshi_amount", PInt n); (lit "bitcoin_amount", PStr s)]) /\ btc_text s n.
(** Entry k is the rate f / size: in satoshi with 4 decimals, and that in bitcoin with 8 decimals. *)
Definition has_rate (d : dict) (k : string) (f size : Z) : Prop :=
  exists s u s' u', has d k (PDict [(lit "satoshi_per_byte", PStr s); (lit "bitcoin_per_byte", PStr s')]) /\
    fixed_text 4 s u /\ rounded (f * 10 ^ 4) size u /\ fixed_text 8 s' u' /\ rounded u (10 ^ 4) u'.
(** Entry k says nothing. *)
Definition has_no_amount (d : dict) (k : string) : Prop :=
  has d k (PDict [(lit "satoshi_amount", PNone); (lit "bitcoin_amount", PNone)]).

(** What y is paid to address a. *)
Definition paid_to (a : pystr) (ys : list txout) : Z :=
  Zsum (map to_satoshi_amount (filter (fun y => str_eqb (to_address y) a) ys)).

(** The summary d of t, for an estimated size e. *)
Definition summary (t : tx) (e : Z) (d : dict) : Prop :=
  let total_in := Zsum (map ti_sat (tx_inputs t)) in
  let total_out := Zsum (map to_satoshi_amount (tx_outputs t)) in
  has_amount d "total_input" total_in /\ has_amount d "total_output" total_out /\
  has_amount d "fee" (total_in - total_out) /\
  match tx_change_address t with
  | Some a => has d "change_address" (PStr a) /\ has_amount d "change" (paid_to a (tx_outputs t))
  | None => has d "change_address" PNone /\ has_no_amount d "change"
  end /\
  has d "estimated_size_bytes" (PInt e) /\ has_rate d "estimated_fee_rate" (total_in - total_out) e /\
  ((has d "signed" (PBool true) /\
    exists ins outs, tx_wire t ins outs /\ has d "size_bytes" (PInt (len (wire ins outs))) /\
      has_rate d "fee_rate" (total_in - total_out) (len (wire ins outs))) \/
   (has d "signed" (PBool false) /\ Exists (fun x => ti_script_sig x = None) (tx_inputs t) /\
    has d "size_bytes" PNone /\ has_no_amount d "fee_rate")).

End WithEnv.
