(** Erasing the log records leaves the functions of Tx.v. *)
From Coq Require Import String Lia.
From Verif Require Import PyBase Env PyNum Validate Basic Spec EnvOk TxInput TxOutput Tx Trace TxSpec SignSpec TraceSpec.
From Verif Require Import NumLemmas HexProofs Base58Proofs AddrProofs AmountProofs ScriptProofs WireProofs SignProofs VerifyProofs TraceProofs.
Open Scope Z_scope.

Ltac estep H := rewrite snd_tbind; cbn [silent snd]; match goal with |- bind ?m _ = _ => destruct m as [H|H]; [cbn [bind]|reflexivity] end.
Ltac edeb := rewrite snd_tbind; cbn [deb info error snd bind].

Section WithEnv.
Context {E : Env}.

Lemma var_int_hex : forall n v, int_to_var_int (PInt n) = Ok v -> exists b, bytes b /\ v = hex_of b.
Proof.
  intros n v H. destruct (Z_le_dec 0 n) as [A|A]; [destruct (Z_le_dec n 252) as [B|B]|].
  - rewrite int_to_var_int_ok in H by lia. injection H as <-. exists [n]. split; auto. apply bytes1. unfold byte. lia.
  - rewrite int_to_var_int_bad in H by lia. discriminate.
  - rewrite int_to_var_int_bad in H by lia. discriminate.
Qed.
Lemma bind_deb_hex : forall B n p v (k : unit -> res B), (exists b, bytes b /\ v = hex_of b) -> bind (snd (deb_hex n p v)) k = k tt.
Proof. intros B n p v k (b & Hb & ->). rewrite snd_deb_hex, hex_len_ok by auto. reflexivity. Qed.
Lemma hex_app_ex : forall a b, (exists x, bytes x /\ a = hex_of x) -> (exists x, bytes x /\ b = hex_of x) -> exists x, bytes x /\ a ++ b = hex_of x.
Proof. intros a b (x & X & ->) (y & Y & ->). exists (x ++ y). rewrite hex_of_app. split; auto. apply bytes_app. auto. Qed.

Lemma build_script_erase : forall s p, snd (build_script_says s p) = signature_hex_and_public_key_hex_to_script_sig s p.
Proof.
  intros s p. unfold build_script_says, signature_hex_and_public_key_hex_to_script_sig.
  rewrite snd_tbind. cbn [silent snd]. destruct (validate_hex_cases s) as [[[sb [Bs ->]] ->]|[_ ->]]; [cbn [bind]|reflexivity].
  rewrite snd_tbind. cbn [silent snd]. destruct (hex_length_cases p 64) as [[[pb [Bp [Lp ->]]] ->]|[_ ->]]; [cbn [bind]|reflexivity].
  cbv zeta. assert (X4 : exists x, bytes x /\ lit "04" ++ hex_of pb = hex_of x) by (exists (4 :: pb); split; [constructor; auto; unfold byte; lia|reflexivity]).
  rewrite snd_tbind, bind_deb_hex by auto.
  rewrite snd_tbind. cbn [silent snd]. destruct (hex_len _) as [ns|e]; [cbn [bind]|reflexivity].
  rewrite snd_tbind. cbn [silent snd]. destruct (int_to_var_int _) as [v1|e] eqn:V1; [cbn [bind]|reflexivity]. apply var_int_hex in V1.
  rewrite snd_tbind. cbn [silent snd]. destruct (hex_len _) as [np|e]; [cbn [bind]|reflexivity].
  rewrite snd_tbind. cbn [silent snd]. destruct (int_to_var_int _) as [v2|e] eqn:V2; [cbn [bind]|reflexivity]. apply var_int_hex in V2.
  rewrite snd_tbind, bind_deb_hex by auto. rewrite snd_tbind, bind_deb_hex by auto.
  rewrite snd_tbind. cbn [silent snd]. destruct (hex_len _) as [nl|e]; [cbn [bind]|reflexivity].
  rewrite snd_tbind. cbn [silent snd]. destruct (int_to_var_int _) as [v3|e] eqn:V3; [cbn [bind]|reflexivity]. apply var_int_hex in V3.
  rewrite snd_tbind, bind_deb_hex by (apply hex_app_ex; [auto|apply hex_app_ex; [exists sb; auto|apply hex_app_ex; auto]]). rewrite snd_tbind, bind_deb_hex by auto. reflexivity.
Qed.

Lemma script_sig_erase : forall t i key p k, snd (script_sig_says t i key p k) = make_script_sig t i key p k.
Proof.
  intros t i key p k. unfold script_sig_says, make_script_sig.
  rewrite snd_tbind, snd_deb_hex. destruct (hex_len _) as [n1|e]; [cbn [bind]|reflexivity].
  rewrite snd_tbind. cbn [silent snd]. destruct (create_signature_for_one_input _ _ _ _) as [s|e]; [cbn [bind]|reflexivity].
  rewrite snd_tbind, snd_deb_hex. destruct (hex_len _) as [n2|e]; [cbn [bind]|reflexivity].
  rewrite snd_tbind. cbn [silent snd]. destruct (signature_to_der _) as [d|e]; [cbn [bind]|reflexivity].
  rewrite snd_tbind, snd_deb_hex. destruct (hex_len _) as [n3|e]; [cbn [bind]|reflexivity]. cbv zeta.
  rewrite snd_tbind, snd_deb_hex. destruct (hex_len _) as [n4|e]; [cbn [bind]|reflexivity].
  rewrite snd_tbind, build_script_erase. destruct (signature_hex_and_public_key_hex_to_script_sig _ _) as [[ss sl]|e]; [cbn [bind]|reflexivity].
  rewrite snd_tbind. cbn [silent snd]. destruct (var_int_to_int _) as [n5|e]; reflexivity.
Qed.

Lemma sign_loop_erase : forall t n m rv todo dn, snd (sign_loop_says t n m rv dn todo) = sign_loop t m rv dn todo.
Proof.
  intros t n m rv. induction todo as [|x r IH]; intros dn; cbn [sign_loop_says sign_loop]; [reflexivity|]. cbv zeta.
  destruct (random_value_at rv (length dn)) as [k|e]; [|reflexivity]. destruct (map_find (ti_address x) m) as [key|]; [|reflexivity].
  destruct (private_key_hex_to_public_key_hex key) as [p|e]; [|reflexivity].
  rewrite <- script_sig_erase. destruct (script_sig_says _ _ _ _ _) as [l1 [[[sl sn] ss]|e]]; cbn [snd]; [|reflexivity].
  specialize (IH (dn ++ [set_script (set_public_key x p) sl sn ss])). destruct (sign_loop_says _ _ _ _ _ _) as [l2 o]. exact IH.
Qed.
Lemma sign_erase : forall t keys rv, snd (sign_says t keys rv) = sign t keys rv.
Proof.
  intros t keys rv. unfold sign_says, sign. destruct (check_random_values keys rv) as [[]|e]; [|reflexivity].
  destruct (build_key_map keys []) as [m|e]; [|reflexivity]. cbv zeta. rewrite <- (sign_loop_erase t (length (tx_inputs t))).
  destruct (sign_loop_says _ _ _ _ _ _) as [l [[[]|e] ins]]; reflexivity.
Qed.

Lemma verify_loop_erase : forall t n xs i c, snd (verify_loop_says t n i xs c) = verify_loop t i xs c.
Proof.
  intros t n. induction xs as [|x r IH]; intros i c; cbn [verify_loop_says verify_loop]; [reflexivity|]. edeb.
  destruct (ti_script_sig x) as [ss|]; [|reflexivity].
  rewrite snd_tbind, script_parts_erase. destruct (script_sig_to_signature_hex_and_public_key_hex ss) as [[sg pk]|e]; [cbn [bind]|reflexivity].
  rewrite snd_tbind, from_der_erase. destruct (signature_from_der sg) as [sh|e]; [cbn [bind]|reflexivity].
  rewrite snd_tbind. cbn [silent snd]. destruct (verify_signature_for_one_input _ _ _ _) as [b|e]; [cbn [bind]|reflexivity].
  rewrite snd_tbind. destruct b; cbn [deb error snd bind]; apply IH.
Qed.
Lemma verify_erase : forall t, snd (verify_says t) = verify t.
Proof.
  intros t. unfold verify_says, verify. cbv zeta. rewrite snd_tbind, verify_loop_erase. destruct (verify_loop _ _ _ _) as [n|e]; reflexivity.
Qed.

Lemma parse_input_erase : forall k bs, snd (parse_input_says k bs) = parse_input bs.
Proof.
  intros k bs. unfold parse_input_says, parse_input. edeb. destruct (take_n 32 bs) as [h b1]. edeb. destruct (take_n 4 b1) as [ix b2]. edeb.
  rewrite snd_tbind. cbn [silent snd]. destruct (take1 b2) as [[sl b3]|e]; [cbn [bind]|reflexivity]. edeb.
  rewrite snd_tbind. cbn [silent snd]. destruct (var_int_to_int _) as [n|e]; [cbn [bind]|reflexivity]. edeb.
  destruct (take_n (Z.to_nat n) b3) as [ss b4]. edeb.
  rewrite snd_tbind, script_parts_erase. destruct (script_sig_to_signature_hex_and_public_key_hex ss) as [[sg pk]|e]; [cbn [bind]|reflexivity].
  rewrite snd_tbind, snd_deb_hex. destruct (hex_len (PStr sg)) as [n1|e]; [cbn [bind]|reflexivity].
  rewrite snd_tbind, snd_deb_hex. destruct (hex_len (PStr pk)) as [n2|e]; [cbn [bind]|reflexivity].
  destruct (take_n 4 b4) as [sq b5]. edeb. destruct (negb _); [reflexivity|].
  rewrite snd_tbind. cbn [silent snd]. destruct (txin_create_from_signed_tx_data _ _ _ _ _); reflexivity.
Qed.
Lemma parse_output_erase : forall k bs, snd (parse_output_says k bs) = parse_output bs.
Proof.
  intros k bs. unfold parse_output_says, parse_output. edeb. destruct (take_n 8 bs) as [v b1].
  rewrite snd_tbind. cbn [silent snd]. destruct (hex_le_to_int _) as [n|e]; [cbn [bind]|reflexivity].
  rewrite snd_tbind. cbn [silent snd]. destruct (satoshi_to_bitcoin _) as [s|e]; [cbn [bind]|reflexivity]. edeb.
  rewrite snd_tbind. cbn [silent snd]. destruct (take1 b1) as [[sl b3]|e]; [cbn [bind]|reflexivity]. edeb.
  rewrite snd_tbind. cbn [silent snd]. destruct (var_int_to_int _) as [m|e]; [cbn [bind]|reflexivity]. edeb.
  destruct (take_n (Z.to_nat m) b3) as [ss b4]. edeb.
  rewrite snd_tbind. cbn [silent snd]. destruct (txout_create_from_signed_tx_data _ _ _); reflexivity.
Qed.
Lemma parse_many_erase : forall A (f : nat -> list pystr -> trace (A * list pystr)) g, (forall k bs, snd (f k bs) = g bs) ->
  forall n k bs, snd (parse_many_says f k n bs) = parse_many g n bs.
Proof.
  intros A f g H. induction n as [|n IH]; intros k bs; cbn [parse_many_says parse_many]; [reflexivity|].
  rewrite snd_tbind, H. destruct (g bs) as [[a b1]|e]; [cbn [bind]|reflexivity].
  rewrite snd_tbind, IH. destruct (parse_many g n b1) as [[l b2]|e]; reflexivity.
Qed.
Lemma from_hex_erase : forall s, snd (from_hex_says s) = from_hex_signed s.
Proof.
  intros s. unfold from_hex_says, from_hex_signed. edeb. edeb.
  rewrite snd_tbind. cbn [silent snd]. destruct (hex_len _) as [n|e]; [cbn [bind]|reflexivity]. edeb. cbv zeta.
  destruct (take_n 4 (chunks2 s)) as [v b0]. destruct (negb _); [reflexivity|]. edeb.
  rewrite snd_tbind. cbn [silent snd]. destruct (take1 b0) as [[ic b1]|e]; [cbn [bind]|reflexivity]. edeb.
  rewrite snd_tbind. cbn [silent snd]. destruct (var_int_to_int _) as [n1|e]; [cbn [bind]|reflexivity]. edeb.
  rewrite snd_tbind, (parse_many_erase _ _ parse_input parse_input_erase). destruct (parse_many parse_input _ _) as [[ins b2]|e]; [cbn [bind]|reflexivity].
  rewrite snd_tbind. cbn [silent snd]. destruct (take1 b2) as [[oc b3]|e]; [cbn [bind]|reflexivity]. edeb.
  rewrite snd_tbind. cbn [silent snd]. destruct (var_int_to_int _) as [n2|e]; [cbn [bind]|reflexivity]. edeb.
  rewrite snd_tbind, (parse_many_erase _ _ parse_output parse_output_erase). destruct (parse_many parse_output _ _) as [[outs b4]|e]; [cbn [bind]|reflexivity].
  destruct (take_n 4 b4) as [lt b5]. edeb. destruct (negb _); [reflexivity|].
  rewrite snd_tbind. cbn [silent snd]. destruct (tx_create ins outs); reflexivity.
Qed.
Lemma to_hex_says_eq : forall t, to_hex_says t = match to_hex_signed_form t with Ok s => ([at_info (lit "Signed transaction converted to hex form.")], Ok s) | Err e => ([], Err e) end.
Proof. intros t. unfold to_hex_says. destruct (to_hex_signed_form t); reflexivity. Qed.
Lemma from_json_says_eq : forall s, from_json_says s = match from_json s with Ok t => ([at_info (lit "Transaction successfully loaded from JSON format and validated.")], Ok t) | Err e => ([], Err e) end.
Proof. intros s. unfold from_json_says. destruct (from_json s); reflexivity. Qed.
End WithEnv.
