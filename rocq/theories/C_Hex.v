(** C01-C06: hex strings, integers, byte order, fixed-width fields, var_int. *)
From Coq Require Import String Lia.
From Verif Require Import PyBase Env PyNum Validate Basic Spec NumLemmas HexProofs.

Section WithEnv.
Context {E : Env}.

(** A hex string in the sense of the documentation: even length, characters 0-9a-f. *)
Lemma hex_text_is_hex : forall s,
  is_hex s <-> (Nat.Even (length s) /\ Forall (fun c => In c (lit "0123456789abcdef")) s).
Proof.
  intros s. split.
  - intros (bs & Hb & ->). split.
    + rewrite hex_of_length. exists (length bs). reflexivity.
    + apply Forall_forall. intros c Hc. pose proof (hex_chars bs Hb) as H. rewrite forallb_forall in H.
      apply char_in_In. apply H. assumption.
  - intros [[k Hk] F]. destruct (even_chars_hex s) as (bs & Hb & Es).
    + rewrite Hk, Nat.mul_comm. apply Nat.mod_mul. lia.
    + apply forallb_forall. intros c Hc. apply char_in_In. rewrite Forall_forall in F. apply F. assumption.
    + exists bs. auto.
Qed.

(** C01.  validate_hex returns normally exactly on even-length strings over 0-9a-f; a non-string raises
    TypeError, any other string ValueError; validate_hex_length additionally requires 2n characters. *)
Lemma c01_validate_hex :
  (forall s, validate_hex (PStr s) = Ok tt <->
     Nat.Even (length s) /\ Forall (fun c => In c (lit "0123456789abcdef")) s) /\
  (forall s, validate_hex (PStr s) = Ok tt \/ validate_hex (PStr s) = Err ValueError) /\
  (forall v, (forall s, v <> PStr s) -> validate_hex v = Err TypeError) /\
  (forall s n, validate_hex_length (PStr s) n = Ok tt <->
     length s = (2 * n)%nat /\ Forall (fun c => In c (lit "0123456789abcdef")) s) /\
  (forall s n, validate_hex_length (PStr s) n = Ok tt \/ validate_hex_length (PStr s) n = Err ValueError) /\
  (forall v n, (forall s, v <> PStr s) -> validate_hex_length v n = Err TypeError).
Proof.
  assert (A : forall s, validate_hex (PStr s) = Ok tt <-> is_hex s).
  { intros s. destruct (validate_hex_cases s) as [[H R]|[H R]]; rewrite R; split; intros; auto; try discriminate; contradiction. }
  assert (B : forall s, validate_hex (PStr s) = Ok tt \/ validate_hex (PStr s) = Err ValueError).
  { intros s. destruct (validate_hex_cases s) as [[H R]|[H R]]; auto. }
  assert (C : forall v, (forall s, v <> PStr s) -> validate_hex v = Err TypeError) by apply validate_hex_nonstr.
  split; [|split; [|split; [|split; [|split]]]].
  - intros s. rewrite A. apply hex_text_is_hex.
  - exact B.
  - exact C.
  - intros s n. split.
    + intros H. apply validate_hex_length_inv in H as (bs & Hb & Hl & He). injection He as ->. split.
      * rewrite hex_of_length, Hl. reflexivity.
      * assert (X : is_hex (hex_of bs)) by (exists bs; auto). apply hex_text_is_hex in X. apply X.
    + intros [Hl Hf]. assert (X : is_hex s) by (apply hex_text_is_hex; split; [exists n; assumption|assumption]).
      destruct X as (bs & Hb & ->). apply validate_hex_length_ok; [assumption|]. rewrite hex_of_length in Hl. lia.
  - intros s n. destruct (validate_hex_cases s) as [[(bs & Hb & ->) R]|[H R]].
    + destruct (Nat.eq_dec (length bs) n) as [L|L].
      * left. apply validate_hex_length_ok; assumption.
      * right. apply validate_hex_length_bad; assumption.
    + right. unfold validate_hex_length. rewrite R. reflexivity.
  - intros v n H. unfold validate_hex_length. rewrite C by assumption. reflexivity.
Qed.

Example ex01_hex : validate_hex (PStr (lit "00ff9a")) = Ok tt /\ validate_hex (PStr (lit "00fF")) = Err ValueError
  /\ validate_hex (PStr (lit "00f")) = Err ValueError /\ validate_hex (PInt 12) = Err TypeError
  /\ validate_hex_length (PStr (lit "00ff9a")) 3 = Ok tt /\ validate_hex_length (PStr (lit "00ff9a")) 2 = Err ValueError.
Proof. repeat split. Qed.

(** C02.  int_to_hex gives the shortest byte string of n, hex_to_int reads it back, negatives raise
    ValueError, non-integers TypeError. *)
Lemma c02_int_hex_roundtrip :
  (forall n, 0 <= n -> exists bs, bytes bs /\ minimal bs /\ be_val bs = n /\
     int_to_hex (PInt n) = Ok (hex_of bs) /\ hex_to_int (hex_of bs) = Ok n) /\
  (forall n, n < 0 -> int_to_hex (PInt n) = Err ValueError) /\
  (forall v, as_int v = None -> int_to_hex v = Err TypeError) /\
  (forall bs, bytes bs -> bs <> [] -> hex_to_int (hex_of bs) = Ok (be_val bs)).
Proof.
  split; [|split; [|split]].
  - intros n Hn. exists (be_bytes n). split; [apply be_bytes_bytes|]. split; [apply be_bytes_minimal; assumption|].
    split; [apply be_bytes_val; assumption|]. split; [apply int_to_hex_ok; assumption|].
    rewrite hex_to_int_ok; [rewrite be_bytes_val by assumption; reflexivity|apply be_bytes_bytes|apply be_bytes_nonempty; assumption].
  - apply int_to_hex_neg.
  - apply int_to_hex_notint.
  - apply hex_to_int_ok.
Qed.

Example ex02_int : int_to_hex (PInt 4660) = Ok (lit "1234") /\ int_to_hex (PInt 0) = Ok (lit "00")
  /\ int_to_hex (PInt 256) = Ok (lit "0100") /\ hex_to_int (lit "0100") = Ok 256 /\ int_to_hex (PInt (-5)) = Err ValueError.
Proof. vm_compute. repeat split. Qed.

(** C03.  reverse_hex_order reverses the bytes, is an involution, and rejects what is not hex. *)
Lemma c03_reverse_hex_order :
  (forall bs, bytes bs -> reverse_hex_order (PStr (hex_of bs)) = Ok (hex_of (rev bs))) /\
  (forall v s, reverse_hex_order v = Ok s -> exists bs, bytes bs /\ v = PStr (hex_of bs) /\ s = hex_of (rev bs)) /\
  (forall v s, reverse_hex_order v = Ok s -> reverse_hex_order (PStr s) = Ok (match v with PStr t => t | _ => [] end)) /\
  (forall s, ~ is_hex s -> reverse_hex_order (PStr s) = Err ValueError) /\
  (forall v, (forall s, v <> PStr s) -> reverse_hex_order v = Err TypeError).
Proof.
  assert (A : forall v s, reverse_hex_order v = Ok s -> exists bs, bytes bs /\ v = PStr (hex_of bs) /\ s = hex_of (rev bs)).
  { apply reverse_hex_order_inv. }
  split; [apply reverse_hex_order_ok|]. split; [exact A|]. split; [|split].
  - intros v s H. apply A in H as (bs & Hb & -> & ->). rewrite reverse_hex_order_ok by (apply bytes_rev; assumption).
    rewrite rev_involutive. reflexivity.
  - intros s H. unfold reverse_hex_order. destruct (validate_hex_cases s) as [[C _]|[_ C]]; [contradiction|]. rewrite C. reflexivity.
  - intros v H. unfold reverse_hex_order. rewrite validate_hex_nonstr by assumption. reflexivity.
Qed.

Example ex03_rev : reverse_hex_order (PStr (lit "0102ff")) = Ok (lit "ff0201") /\ reverse_hex_order (PStr (lit "012")) = Err ValueError.
Proof. vm_compute. repeat split. Qed.

(** C04.  The composition pad_hex_le (int_to_hex_le n) k: k bytes of little-endian value n when it fits,
    ValueError otherwise; hex_le_to_int reads any non-empty byte string back. *)
Lemma c04_le_field :
  (forall n k, (1 <= k)%nat -> 0 <= n < 256 ^ Z.of_nat k ->
     exists bs, bytes bs /\ length bs = k /\ le_val bs = n /\
       (x <- int_to_hex_le (PInt n) ;; pad_hex_le x k) = Ok (hex_of bs) /\ hex_le_to_int (PStr (hex_of bs)) = Ok n) /\
  (forall n k, n < 0 \/ 256 ^ Z.of_nat k <= n -> (x <- int_to_hex_le (PInt n) ;; pad_hex_le x k) = Err ValueError) /\
  (forall bs, bytes bs -> bs <> [] -> hex_le_to_int (PStr (hex_of bs)) = Ok (le_val bs)) /\
  (forall v n, hex_le_to_int v = Ok n -> exists bs, bytes bs /\ bs <> [] /\ v = PStr (hex_of bs) /\ n = le_val bs).
Proof.
  split; [|split; [|split]].
  - intros n k Hk Hn. exists (le_bytes k n). split; [apply le_bytes_bytes|]. split; [apply le_bytes_length|].
    split; [apply le_bytes_val; assumption|]. split; [apply (le_field_ok n k Hk Hn)|].
    rewrite hex_le_to_int_ok; [rewrite le_bytes_val by assumption; reflexivity|apply le_bytes_bytes|].
    intros C. pose proof (le_bytes_length k n) as L. rewrite C in L. cbn in L. lia.
  - intros n k H. apply (le_field_bad n k H).
  - apply hex_le_to_int_ok.
  - intros v n H. pose proof H as H0. unfold hex_le_to_int in H. inv_bind H s Hs.
    apply reverse_hex_order_inv in Hs as (bs & Hb & -> & ->).
    destruct bs as [|b r]; [discriminate|]. exists (b :: r).
    rewrite hex_le_to_int_ok in H0 by (try assumption; discriminate). injection H0 as <-.
    repeat split; [assumption|discriminate].
Qed.

Example ex04_field : (x <- int_to_hex_le (PInt 258) ;; pad_hex_le x 4) = Ok (lit "02010000")
  /\ (x <- int_to_hex_le (PInt 4294967295) ;; pad_hex_le x 4) = Ok (lit "ffffffff")
  /\ (x <- int_to_hex_le (PInt 4294967296) ;; pad_hex_le x 4) = Err ValueError
  /\ hex_le_to_int (PStr (lit "02010000")) = Ok 258.
Proof. vm_compute. repeat split. Qed.

(** C05.  var_int: one byte, exactly the values 0..252, in both directions. *)
Lemma c05_var_int :
  (forall n, 0 <= n <= 252 -> int_to_var_int (PInt n) = Ok (hex_of [n]) /\ var_int_to_int (PStr (hex_of [n])) = Ok n) /\
  (forall n, ~ (0 <= n <= 252) -> int_to_var_int (PInt n) = Err ValueError) /\
  (forall v, as_int v = None -> int_to_var_int v = Err TypeError) /\
  (forall v n, var_int_to_int v = Ok n -> v = PStr (hex_of [n]) /\ 0 <= n <= 252) /\
  (forall s, (forall n, 0 <= n <= 252 -> s <> hex_of [n]) -> var_int_to_int (PStr s) = Err ValueError).
Proof.
  split; [|split; [|split; [|split]]].
  - intros n H. split; [apply int_to_var_int_ok; assumption|apply var_int_to_int_ok; assumption].
  - apply int_to_var_int_bad.
  - intros v H. unfold int_to_var_int, validate_integer_domain. rewrite H. reflexivity.
  - apply var_int_to_int_inv.
  - intros s H. destruct (var_int_to_int (PStr s)) as [n|e] eqn:R.
    + apply var_int_to_int_inv in R as [R Hn]. injection R as ->. exfalso. apply (H n Hn). reflexivity.
    + destruct (validate_hex_cases s) as [[(bs & Hb & ->) _]|[Hn C]].
      * destruct bs as [|b [|b2 bs]].
        -- rewrite <- R. reflexivity.
        -- inversion Hb; subst. unfold byte in *. destruct (Z.leb_spec b 252).
           ++ exfalso. apply (H b); [lia|reflexivity].
           ++ rewrite <- R. apply var_int_to_int_big. lia.
        -- rewrite <- R. unfold var_int_to_int. rewrite validate_hex_length_bad by (try assumption; discriminate). reflexivity.
      * rewrite <- R. unfold var_int_to_int, validate_hex_length. rewrite C. reflexivity.
Qed.

Example ex05_varint : int_to_var_int (PInt 252) = Ok (lit "fc") /\ int_to_var_int (PInt 253) = Err ValueError
  /\ var_int_to_int (PStr (lit "19")) = Ok 25 /\ var_int_to_int (PStr (lit "fd")) = Err ValueError
  /\ var_int_to_int (PStr (lit "0019")) = Err ValueError.
Proof. vm_compute. repeat split. Qed.

(** C06.  pad_hex: exactly k bytes with the same big-endian value, or ValueError. *)
Lemma c06_pad_hex :
  (forall bs k, bytes bs -> (length bs <= k)%nat -> exists bs', bytes bs' /\ length bs' = k /\ be_val bs' = be_val bs /\
     pad_hex (hex_of bs) k = Ok (hex_of bs')) /\
  (forall bs k, bytes bs -> (length bs > k)%nat -> pad_hex (hex_of bs) k = Err ValueError) /\
  (forall s k, ~ is_hex s -> pad_hex s k = Err ValueError) /\
  (forall bs k, bytes bs -> (length bs <= k)%nat -> exists bs', bytes bs' /\ length bs' = k /\ le_val bs' = le_val bs /\
     pad_hex_le (hex_of bs) k = Ok (hex_of bs')) /\
  (forall bs k, bytes bs -> (length bs > k)%nat -> pad_hex_le (hex_of bs) k = Err ValueError).
Proof.
  split; [|split; [|split; [|split]]].
  - intros bs k Hb Hk. exists (repeat 0 (k - length bs) ++ bs).
    split; [apply bytes_app; split; [apply bytes_repeat0|assumption]|].
    split; [rewrite app_length, repeat_length; lia|].
    split; [apply val_repeat0_app|]. apply pad_hex_ok; assumption.
  - intros bs k Hb Hk. apply pad_hex_long; [assumption|lia].
  - intros s k H. apply pad_hex_bad. assumption.
  - intros bs k Hb Hk. exists (bs ++ repeat 0 (k - length bs)).
    split; [apply bytes_app; split; [assumption|apply bytes_repeat0]|].
    split; [rewrite app_length, repeat_length; lia|].
    split; [apply le_val_app_zeros|]. apply pad_hex_le_ok; assumption.
  - intros bs k Hb Hk. apply pad_hex_le_long; [assumption|lia].
Qed.

Example ex06_pad : pad_hex (lit "0102") 4 = Ok (lit "00000102") /\ pad_hex (lit "0102") 1 = Err ValueError.
Proof. vm_compute. repeat split. Qed.

End WithEnv.
