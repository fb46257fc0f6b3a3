(** Serialisation and parsing of signed transactions. *)
From Coq Require Import String Lia.
From Verif Require Import PyBase Env PyNum Validate Basic TxInput TxOutput Tx Spec EnvOk TxSpec.
From Verif Require Import NumLemmas HexProofs Base58Proofs AddrProofs AmountProofs ScriptProofs.

(** ** The format is unambiguous. *)

Lemma app_inj_len : forall A (a b c d : list A), length a = length c -> a ++ b = c ++ d -> a = c /\ b = d.
Proof.
  intros A. induction a as [|x a IH]; intros b [|y c] d L H; cbn in *; try discriminate; auto.
  injection H as -> H. injection L as L. destruct (IH b c d L H) as [-> ->]. auto.
Qed.

Lemma F2_len : forall A B (R : A -> B -> Prop) l l', Forall2 R l l' -> length l = length l'.
Proof. intros A B R l l' H. induction H; cbn; congruence. Qed.

Lemma le_bytes_inj : forall k a b, 0 <= a < 256 ^ Z.of_nat k -> 0 <= b < 256 ^ Z.of_nat k -> le_bytes k a = le_bytes k b -> a = b.
Proof. intros k a b Ha Hb H. rewrite <- (le_bytes_val k a Ha), <- (le_bytes_val k b Hb), H. reflexivity. Qed.

Lemma input_bytes_cat : forall i i' r r', input_ok i -> input_ok i' ->
  input_bytes i ++ r = input_bytes i' ++ r' -> i = i' /\ r = r'.
Proof.
  intros [t n s] [t' n' s'] r r' (A1 & A2 & A3 & A4 & A5) (B1 & B2 & B3 & B4 & B5) H. unfold input_bytes in H. cbn [i_txid i_index i_script] in *.
  rewrite <- !app_assoc in H.
  apply app_inj_len in H as [H1 H]; [|rewrite !rev_length; lia].
  apply app_inj_len in H as [H2 H]; [|rewrite !le_bytes_length; lia].
  apply app_inj_len in H as [H3 H]; [|reflexivity]. injection H3 as H3. unfold len in H3. apply Nat2Z.inj in H3.
  apply app_inj_len in H as [H4 H]; [|lia].
  apply app_inj_len in H as [_ H]; [|reflexivity].
  apply le_bytes_inj in H2; [|assumption|assumption].
  assert (H1' : t = t') by (rewrite <- (rev_involutive t), H1; apply rev_involutive). subst. auto.
Qed.

Lemma output_bytes_cat : forall o o' r r', output_ok o -> output_ok o' ->
  output_bytes o ++ r = output_bytes o' ++ r' -> o = o' /\ r = r'.
Proof.
  intros [v s] [v' s'] r r' (A1 & A2 & A3) (B1 & B2 & B3) H. unfold output_bytes in H. cbn [o_value o_script] in *.
  rewrite <- !app_assoc in H.
  apply app_inj_len in H as [H1 H]; [|rewrite !le_bytes_length; lia].
  apply app_inj_len in H as [H3 H]; [|reflexivity]. injection H3 as H3. unfold len in H3. apply Nat2Z.inj in H3.
  apply app_inj_len in H as [H4 H]; [|lia].
  apply le_bytes_inj in H1; [|assumption|assumption]. subst. auto.
Qed.

Lemma flat_cat : forall A (f : A -> list Z) (P : A -> Prop),
  (forall a b r r', P a -> P b -> f a ++ r = f b ++ r' -> a = b /\ r = r') ->
  forall l l' r r', Forall P l -> Forall P l' -> length l = length l' ->
    flat_map f l ++ r = flat_map f l' ++ r' -> l = l' /\ r = r'.
Proof.
  intros A f P HF. induction l as [|a l IH]; intros [|b l'] r r' Pl Pl' L H; cbn in L; try discriminate; auto.
  cbn [flat_map] in H. rewrite <- !app_assoc in H. inversion Pl; subst. inversion Pl'; subst.
  apply HF in H as [-> H]; auto. apply IH in H as [-> ->]; auto.
Qed.

Lemma wire_cat : forall ins outs r ins' outs' r', tx_ok ins outs -> tx_ok ins' outs' ->
  wire ins outs ++ r = wire ins' outs' ++ r' -> ins = ins' /\ outs = outs' /\ r = r'.
Proof.
  intros ins outs r ins' outs' r' (A1 & A2 & _ & _) (B1 & B2 & _ & _) H. unfold wire in H. rewrite <- !app_assoc in H.
  apply app_inj_len in H as [_ H]; [|reflexivity].
  apply app_inj_len in H as [H1 H]; [|reflexivity]. injection H1 as H1. apply Nat2Z.inj in H1.
  apply (flat_cat _ _ input_ok input_bytes_cat) in H as [-> H]; auto.
  apply app_inj_len in H as [H2 H]; [|reflexivity]. injection H2 as H2. apply Nat2Z.inj in H2.
  apply (flat_cat _ _ output_ok output_bytes_cat) in H as [-> H]; auto.
  apply app_inj_len in H as [_ H]; [|reflexivity]. auto.
Qed.

Lemma bytes_concat : forall A (f : A -> list Z) l, (forall a, In a l -> bytes (f a)) -> bytes (flat_map f l).
Proof.
  intros A f l. induction l as [|a l IH]; intros H; cbn; [constructor|]. apply bytes_app. split; [apply H; left; auto|apply IH; intros; apply H; right; auto].
Qed.

Lemma input_bytes_ok : forall i, input_ok i -> bytes (input_bytes i).
Proof.
  intros i (A1 & A2 & A3 & A4 & A5). unfold input_bytes. repeat (apply bytes_app; split); auto.
  - apply bytes_rev; auto.
  - apply le_bytes_bytes.
  - apply bytes1. unfold byte, len in *. lia.
  - repeat constructor; unfold byte; lia.
Qed.
Lemma output_bytes_ok : forall o, output_ok o -> bytes (output_bytes o).
Proof.
  intros o (A1 & A2 & A3). unfold output_bytes. repeat (apply bytes_app; split); auto.
  - apply le_bytes_bytes.
  - apply bytes1. unfold byte, len in *. lia.
Qed.
Lemma wire_bytes : forall ins outs, tx_ok ins outs -> bytes (wire ins outs).
Proof.
  intros ins outs (A1 & A2 & A3 & A4). unfold wire. repeat (apply bytes_app; split).
  - apply le_bytes_bytes.
  - apply bytes1; unfold byte; lia.
  - apply bytes_concat. intros a Ha. apply input_bytes_ok. rewrite Forall_forall in A1. auto.
  - apply bytes1; unfold byte; lia.
  - apply bytes_concat. intros a Ha. apply output_bytes_ok. rewrite Forall_forall in A2. auto.
  - apply le_bytes_bytes.
Qed.

(** ** Serialising objects. *)

Lemma in_wire_hex : forall x i, in_wire x i -> txin_hex_signed_form x = Ok (hex_of (input_bytes i)).
Proof.
  intros x i [(A1 & A2 & A3 & A4 & A5 & A6 & A7 & A8) (B1 & B2 & B3 & B4 & B5)].
  unfold txin_hex_signed_form. rewrite B3, B4. cbn [need bind]. rewrite A5, A6, A8.
  unfold input_bytes. rewrite !hex_of_app. reflexivity.
Qed.

Lemma out_wire_hex : forall y o, out_wire y o -> txout_hex_form y = hex_of (output_bytes o).
Proof.
  intros y o (A1 & A2 & A3 & A4 & A5 & A6 & A7 & A8). unfold txout_hex_form. rewrite A3, A4, A5.
  unfold output_bytes. rewrite !hex_of_app. reflexivity.
Qed.

Lemma ins_wire_hex : forall xs is, Forall2 in_wire xs is ->
  exists l, mapM txin_hex_signed_form xs = Ok l /\ concat l = hex_of (flat_map input_bytes is).
Proof.
  intros xs is H. induction H as [|x i xs is Hx H [l [IH1 IH2]]].
  - exists []. split; reflexivity.
  - exists (hex_of (input_bytes i) :: l). cbn [mapM]. rewrite (in_wire_hex x i Hx). cbn [bind]. rewrite IH1. cbn [bind].
    split; [reflexivity|]. cbn [concat flat_map]. rewrite hex_of_app, IH2. reflexivity.
Qed.
Lemma outs_wire_hex : forall ys os, Forall2 out_wire ys os ->
  concat (map txout_hex_form ys) = hex_of (flat_map output_bytes os).
Proof.
  intros ys os H. induction H as [|y o ys os Hy H IH]; [reflexivity|]. cbn [map concat flat_map].
  rewrite (out_wire_hex y o Hy), hex_of_app, IH. reflexivity.
Qed.

Lemma tx_wire_hex : forall t ins outs, tx_wire t ins outs -> to_hex_signed_form t = Ok (hex_of (wire ins outs)).
Proof.
  intros t ins outs [(A1 & A2 & A3 & A4 & A5 & A6 & A7 & A8) [HI HO]]. unfold to_hex_signed_form.
  destruct (ins_wire_hex _ _ HI) as [l [M C]]. rewrite M. cbn [bind]. rewrite C, (outs_wire_hex _ _ HO), A1, A2, A5, A7.
  rewrite (F2_len _ _ _ _ _ HI), (F2_len _ _ _ _ _ HO). unfold wire. rewrite !hex_of_app. reflexivity.
Qed.

Lemma tx_wire_ok : forall t ins outs, tx_wire t ins outs -> tx_ok ins outs.
Proof.
  intros t ins outs [(A1 & A2 & A3 & A4 & A5 & A6 & A7 & A8) [HI HO]].
  rewrite (F2_len _ _ _ _ _ HI) in A6. rewrite (F2_len _ _ _ _ _ HO) in A8. split; [|split; [|split; auto]].
  - clear A5 A6. induction HI as [|x i xs is [(B1 & B2 & B3 & B4 & B5 & B6 & B7 & B8) (C1 & C2 & C3 & C4 & C5)] _ IH]; constructor; auto.
    repeat split; auto; lia.
  - clear A7 A8. induction HO as [|y o ys os B _ IH]; constructor; auto. apply B.
Qed.

(** ** The signable form. *)

Definition outpoint_of (x : txin) (i : sinput) : Prop := in_outpoint x (i_txid i) (i_index i).

Lemma signable_empty_hex : forall x i, outpoint_of x i ->
  txin_hex_signable_form_empty x = Ok (hex_of (input_bytes (mk_sinput (i_txid i) (i_index i) []))).
Proof.
  intros x i (A1 & A2 & A3 & A4 & A5 & A6 & A7 & A8). unfold txin_hex_signable_form_empty. rewrite A5, A6, A8.
  unfold input_bytes. cbn [i_txid i_index i_script]. rewrite !hex_of_app. reflexivity.
Qed.

Lemma signable_tail : forall xs is pos k, Forall2 outpoint_of xs is -> (k < pos)%nat ->
  signable_inputs pos k xs = Ok (hex_of (flat_map input_bytes (map (fun i => mk_sinput (i_txid i) (i_index i) []) is))).
Proof.
  intros xs is pos k H. revert pos. induction H as [|x i xs is Hx H IH]; intros pos L; [reflexivity|].
  cbn [signable_inputs map flat_map]. destruct (Nat.eqb_spec pos k) as [C|C]; [lia|].
  rewrite (signable_empty_hex x i Hx). cbn [bind]. rewrite IH by lia. cbn [bind]. rewrite hex_of_app. reflexivity.
Qed.

Lemma signable_ins : forall k spk xs is pos, Forall2 outpoint_of xs is ->
  (exists x, nth_error xs k = Some x /\ ti_script_pub_key x = Some (hex_of spk) /\ ti_script_pub_key_length x = Some (hex_of [len spk])) ->
  signable_inputs pos (pos + k) xs = Ok (hex_of (flat_map input_bytes (replace_scripts k spk is))).
Proof.
  induction k as [|k IH]; intros spk xs is pos H [x [N [S1 S2]]]; destruct xs as [|x0 xs]; try discriminate; inversion H as [|q1 i q2 is' Hx F]; subst.
  - injection N as ->. cbn [signable_inputs replace_scripts flat_map]. rewrite Nat.add_0_r, Nat.eqb_refl.
    unfold txin_hex_signable_form. rewrite S1, S2. cbn [need bind]. rewrite (signable_tail xs is') by (auto; lia). cbn [bind].
    destruct Hx as (A1 & A2 & A3 & A4 & A5 & A6 & A7 & A8). rewrite A5, A6, A8.
    unfold input_bytes at 2. cbn [i_txid i_index i_script]. rewrite !hex_of_app. reflexivity.
  - cbn [signable_inputs replace_scripts flat_map]. destruct (Nat.eqb_spec pos (pos + S k)) as [C|C]; [lia|].
    rewrite (signable_empty_hex x0 i Hx). cbn [bind]. replace (pos + S k)%nat with (S pos + k)%nat by lia.
    rewrite (IH spk xs is') by (auto; exists x; auto). cbn [bind]. rewrite hex_of_app. reflexivity.
Qed.

Lemma replace_length : forall k spk is, length (replace_scripts k spk is) = length is.
Proof.
  induction k as [|k IH]; intros spk [|i is]; try reflexivity; cbn; [rewrite map_length|rewrite IH]; reflexivity.
Qed.

Lemma signable_ok : forall t ins outs k spk, tx_header t ->
  Forall2 (fun x i => in_outpoint x (i_txid i) (i_index i)) (tx_inputs t) ins -> Forall2 out_wire (tx_outputs t) outs ->
  (exists x, nth_error (tx_inputs t) k = Some x /\
     ti_script_pub_key x = Some (hex_of spk) /\ ti_script_pub_key_length x = Some (hex_of [len spk])) ->
  to_hex_signable_form t k = Ok (hex_of (sighash_bytes k spk ins outs)).
Proof.
  intros t ins outs k spk (A1 & A2 & A3 & A4 & A5 & A6 & A7 & A8) HI HO HX. unfold to_hex_signable_form.
  pose proof (signable_ins k spk _ _ 0 HI HX) as X. cbn [Nat.add] in X. rewrite X. cbn [bind].
  rewrite (outs_wire_hex _ _ HO), A1, A2, A3, A5, A7, (F2_len _ _ _ _ _ HI), (F2_len _ _ _ _ _ HO).
  unfold sighash_bytes, wire. rewrite replace_length, !hex_of_app, <- !app_assoc. reflexivity.
Qed.

Lemma signable_none : forall t k x, nth_error (tx_inputs t) k = Some x ->
  ti_script_pub_key x = None \/ ti_script_pub_key_length x = None -> to_hex_signable_form t k = Err TypeError.
Proof.
  intros t k x N SN. unfold to_hex_signable_form.
  assert (G : forall xs pos k, nth_error xs k = Some x -> signable_inputs pos (pos + k) xs = Err TypeError).
  { clear N. induction xs as [|x0 xs IH]; intros pos [|j] N; try discriminate; cbn [signable_inputs].
    - injection N as ->. rewrite Nat.add_0_r, Nat.eqb_refl. unfold txin_hex_signable_form.
      destruct SN as [SN|SN]; rewrite SN; [destruct (ti_script_pub_key_length x)|]; reflexivity.
    - destruct (Nat.eqb_spec pos (pos + S j)) as [C|C]; [lia|]. unfold txin_hex_signable_form_empty. cbn [bind].
      replace (pos + S j)%nat with (S pos + j)%nat by lia. rewrite IH by auto. reflexivity. }
  specialize (G _ 0%nat _ N). cbn [Nat.add] in G. rewrite G. reflexivity.
Qed.

Lemma signable_unsign : forall t xs k, map unsign xs = map unsign (tx_inputs t) ->
  to_hex_signable_form (set_inputs t xs) k = to_hex_signable_form t k.
Proof.
  intros t xs k H. unfold to_hex_signable_form, set_inputs. cbn [tx_inputs tx_version tx_input_count tx_output_count tx_outputs tx_block_lock_time tx_hash_type_4_byte].
  assert (G : forall xs ys pos, map unsign xs = map unsign ys -> signable_inputs pos k xs = signable_inputs pos k ys).
  { clear. induction xs as [|x xs IH]; intros [|y ys] pos H; cbn [map] in H; try discriminate; auto. cbn [signable_inputs].
    injection H as E1 E2 E3 E4 E5 E6 E7 E8 E9 E10 E11 E12. rewrite (IH ys) by auto.
    unfold txin_hex_signable_form, txin_hex_signable_form_empty. rewrite E1, E2, E4, E5, E7. reflexivity. }
  rewrite (G xs (tx_inputs t)) by auto. reflexivity.
Qed.

(** ** Parsing. *)
Section WithEnv.
Context {E : Env}.
Context (HH : HashOk E).

Lemma take_n_hex : forall n bs, take_n n (map hex1 bs) = (hex_of (firstn n bs), map hex1 (skipn n bs)).
Proof. intros n bs. unfold take_n. rewrite firstn_map, skipn_map, concat_hex1. reflexivity. Qed.

Lemma take1_hex : forall bs, take1 (map hex1 bs) = match bs with b :: r => Ok (hex_of [b], map hex1 r) | [] => Err IndexError end.
Proof. intros [|b r]; [reflexivity|]. reflexivity. Qed.

Lemma middle_hex : forall bs, skipn 6 (drop_last_n 4 (hex_of bs)) = hex_of (skipn 3 (firstn (length bs - 2) bs)).
Proof.
  intros bs. change (drop_last_n 4 (hex_of bs)) with (drop_last_n (2 * 2) (hex_of bs)). rewrite drop_last_n_hex.
  exact (skipn_hex 3 _).
Qed.
Lemma script_address_iff : forall bs a, bytes bs ->
  script_pub_key_to_address (hex_of bs) = Ok a <-> is_base58check (0 :: skipn 3 (firstn (length bs - 2) bs)) a.
Proof.
  intros bs a H. unfold script_pub_key_to_address. cbv zeta. rewrite middle_hex. unfold public_key_hash_hex_to_address.
  set (m := skipn 3 _). change (lit "00" ++ hex_of m) with (hex_of (0 :: m)). apply hex_to_base58check_iff; auto.
  constructor; [unfold byte; lia|]. apply bytes_skipn, bytes_firstn; auto.
Qed.
Lemma script_address_ok : forall bs, bytes bs -> exists a, script_pub_key_to_address (hex_of bs) = Ok a.
Proof.
  intros bs H. unfold script_pub_key_to_address. cbv zeta. rewrite middle_hex. unfold public_key_hash_hex_to_address.
  set (m := skipn 3 _). change (lit "00" ++ hex_of m) with (hex_of (0 :: m)).
  destruct (hex_to_base58check_ok HH (0 :: m)) as (s & _ & R); eauto.
  constructor; [unfold byte; lia|]. apply bytes_skipn, bytes_firstn; auto.
Qed.
Lemma p2pkh_middle : forall h, skipn 3 (firstn (length (p2pkh h) - 2) (p2pkh h)) = h.
Proof.
  intros h. unfold p2pkh. rewrite app_assoc, app_length. cbn [length]. replace (_ + 2 - 2)%nat with (length ([118; 169; 20] ++ h)) by lia.
  rewrite firstn_app, firstn_all, Nat.sub_diag. cbn [firstn]. rewrite app_nil_r. reflexivity.
Qed.

(** The input object made from decoded data. *)
Lemma signed_input_iff : forall pub txid idx script x,
  bytes pub -> bytes txid -> 0 <= idx < 2 ^ 32 -> bytes script -> len script <= 252 -> length pub = 64%nat -> length txid = 32%nat ->
  txin_create_from_signed_tx_data (hex_of pub) (hex_of (rev txid)) (hex_of (le_bytes 4 idx)) (hex_of [len script]) (hex_of script) = Ok x <->
  exists a, is_address (hash160 pub) a /\
    x = mk_txin (hex_of (rev txid)) (hex_of (le_bytes 4 idx)) (PInt idx) (hex_of [255; 255; 255; 255]) (Some (hex_of pub))
          (Some (hex_of [25])) (PInt 25) (Some (hex_of (p2pkh (hash160 pub)))) (Some (hex_of [len script])) (PInt (len script))
          (Some (hex_of script)) a (hex_of txid) None None.
Proof.
  intros pub txid idx script x Bp Bt Hi Bs Ls Lp Lt. unfold txin_create_from_signed_tx_data.
  rewrite validate_hex_length_ok by auto. cbn [bind].
  rewrite validate_hex_length_ok by (rewrite ?rev_length; auto using bytes_rev). cbn [bind].
  rewrite validate_hex_length_ok by (auto using le_bytes_bytes, le_bytes_length). cbn [bind].
  rewrite validate_hex_ok by (apply bytes1; unfold byte, len in *; lia). cbn [bind].
  rewrite validate_hex_ok by auto. cbn [bind].
  rewrite var_int_to_int_ok by (unfold len in *; lia). cbn [bind].
  rewrite public_key_to_script_ok by auto. cbn [bind].
  rewrite var_int_to_int_ok by lia. cbn [bind].
  rewrite hex_le_to_int_ok by (try apply le_bytes_bytes; discriminate).
  rewrite le_bytes_val by exact Hi. rewrite reverse_hex_order_ok by (apply bytes_rev; auto). rewrite rev_involutive.
  unfold p2pkh. rewrite script_to_address_slice by reflexivity. split.
  - intros H. inv_bind H a Ha. cbn [bind] in H. injection H as <-. exists a. split; [|reflexivity].
    apply hash_to_address_iff in Ha; auto using hash160_bytes, hash160_length.
  - intros [a [Ha ->]]. apply hash_to_address_iff in Ha; auto using hash160_bytes, hash160_length. rewrite Ha. reflexivity.
Qed.

Lemma firstn_exact : forall A (l r : list A), firstn (length l) (l ++ r) = l.
Proof. intros. rewrite firstn_app, firstn_all, Nat.sub_diag. cbn. apply app_nil_r. Qed.
Lemma skipn_exact : forall A (l r : list A), skipn (length l) (l ++ r) = r.
Proof. intros. rewrite skipn_app, skipn_all, Nat.sub_diag. reflexivity. Qed.
Lemma firstn_exact' : forall A n (l r : list A), length l = n -> firstn n (l ++ r) = l.
Proof. intros A n l r <-. apply firstn_exact. Qed.
Lemma skipn_exact' : forall A n (l r : list A), length l = n -> skipn n (l ++ r) = r.
Proof. intros A n l r <-. apply skipn_exact. Qed.

Lemma parse_input_iff : forall bs x rest', bytes bs ->
  (parse_input (map hex1 bs) = Ok (x, rest') <->
   exists i rest, bs = input_bytes i ++ rest /\ rest' = map hex1 rest /\ decoded_input x i).
Proof.
  intros bs x rest' Hb. split.
  - intros H. unfold parse_input in H. rewrite take_n_hex in H.
    assert (D1 : bs = firstn 32 bs ++ skipn 32 bs) by (symmetry; apply firstn_skipn).
    assert (Bh : bytes (firstn 32 bs)) by (apply bytes_firstn; auto).
    assert (B1 : bytes (skipn 32 bs)) by (apply bytes_skipn; auto).
    set (h := firstn 32 bs) in *. set (r1 := skipn 32 bs) in *. clearbody h r1. rewrite take_n_hex in H.
    assert (D2 : r1 = firstn 4 r1 ++ skipn 4 r1) by (symmetry; apply firstn_skipn).
    assert (Bi : bytes (firstn 4 r1)) by (apply bytes_firstn; auto).
    assert (B2 : bytes (skipn 4 r1)) by (apply bytes_skipn; auto).
    set (ix := firstn 4 r1) in *. set (r2 := skipn 4 r1) in *. clearbody ix r2. rewrite take1_hex in H.
    destruct r2 as [|n r3]; [discriminate|]. cbn [bind] in H. inversion B2 as [|q1 q2 Bn B3]; subst q1 q2.
    rewrite var_int_byte in H by auto. destruct (n <=? 252) eqn:Ln; [|discriminate]. cbn [bind] in H. apply Z.leb_le in Ln.
    rewrite take_n_hex in H.
    assert (D3 : r3 = firstn (Z.to_nat n) r3 ++ skipn (Z.to_nat n) r3) by (symmetry; apply firstn_skipn).
    assert (Bs : bytes (firstn (Z.to_nat n) r3)) by (apply bytes_firstn; auto).
    assert (B4 : bytes (skipn (Z.to_nat n) r3)) by (apply bytes_skipn; auto).
    assert (LS : skipn (Z.to_nat n) r3 <> [] -> len (firstn (Z.to_nat n) r3) = n).
    { intros NE. unfold len. rewrite firstn_length. destruct (le_lt_dec (length r3) (Z.to_nat n)) as [C|C].
      - exfalso. apply NE. apply skipn_all2. auto.
      - unfold byte in Bn. lia. }
    set (sc := firstn (Z.to_nat n) r3) in *. set (r4 := skipn (Z.to_nat n) r3) in *. clearbody sc r4.
    rewrite parse_script_hex in H by auto. destruct (parse_script sc) as [[sig pub]|e] eqn:PS; [|discriminate].
    cbn [bind] in H. apply parse_script_iff in PS; auto. destruct (script_parts_bytes sc sig pub Bs PS) as [Bsig Bpub].
    rewrite !hex_len_ok in H by auto. cbn [bind] in H. rewrite take_n_hex in H.
    assert (D4 : r4 = firstn 4 r4 ++ skipn 4 r4) by (symmetry; apply firstn_skipn).
    destruct (str_eqb (hex_of (firstn 4 r4)) (lit "ffffffff")) eqn:Q; [|discriminate]. cbn [negb] in H.
    change (lit "ffffffff") with (hex_of [255; 255; 255; 255]) in Q.
    rewrite str_eqb_hex in Q by (try apply bytes_firstn; auto; repeat constructor; unfold byte; lia). apply str_eqb_eq in Q.
    inv_bind H xx Hx. injection H as -> <-.
    assert (N4 : r4 <> []) by (intros C; rewrite C in Q; discriminate). specialize (LS N4).
    assert (VL : length pub = 64%nat /\ length h = 32%nat /\ length ix = 4%nat).
    { pose proof Hx as Hy. unfold txin_create_from_signed_tx_data in Hy.
      destruct (hex_length_cases (hex_of pub) 64) as [[[b [G1 [G2 G3]]] V]|[_ V]]; rewrite V in Hy; [|discriminate].
      cbn [bind] in Hy. apply hex_of_inj in G3; auto. subst b.
      destruct (hex_length_cases (hex_of h) 32) as [[[b [K1 [K2 K3]]] V2]|[_ V2]]; rewrite V2 in Hy; [|discriminate].
      cbn [bind] in Hy. apply hex_of_inj in K3; auto. subst b.
      destruct (hex_length_cases (hex_of ix) 4) as [[[b [J1 [J2 J3]]] V3]|[_ V3]]; rewrite V3 in Hy; [|discriminate].
      apply hex_of_inj in J3; auto. subst b. auto. }
    destruct VL as [Lp [Lh Li]].
    assert (IX : ix = le_bytes 4 (le_val ix)) by (rewrite <- Li; symmetry; apply le_bytes_unique; auto).
    assert (IB : 0 <= le_val ix < 2 ^ 32).
    { pose proof (le_val_bounds ix Bi) as V. rewrite Li in V. exact V. }
    rewrite IX in Hx. rewrite <- (rev_involutive h) in Hx. rewrite <- LS in Hx.
    apply signed_input_iff in Hx; auto using bytes_rev; [|unfold len in *; lia|rewrite rev_length; auto].
    destruct Hx as [a [Ha ->]].
    exists (mk_sinput (rev h) (le_val ix) sc), (skipn 4 r4). split; [|split; [reflexivity|]].
    + unfold input_bytes. cbn [i_txid i_index i_script]. rewrite rev_involutive, <- IX, LS, <- Q, <- !app_assoc, <- D4.
      cbn [app]. rewrite <- D3, <- D2. exact D1.
    + unfold decoded_input, input_ok. cbn [i_txid i_index i_script]. rewrite rev_length.
      split; [repeat split; auto using bytes_rev; lia|]. exists sig, pub, a. auto.
  - intros [i [rest [-> [-> [(A1 & A2 & A3 & A4 & A5) [sig [pub [a [PS [Lp [Ha ->]]]]]]]]]]].
    destruct i as [txid idx sc]. cbn [i_txid i_index i_script] in *. unfold input_bytes in *. cbn [i_txid i_index i_script] in *.
    unfold parse_input. rewrite <- !app_assoc. rewrite take_n_hex.
    rewrite firstn_exact', skipn_exact' by (rewrite rev_length; auto). rewrite take_n_hex.
    rewrite firstn_exact', skipn_exact' by apply le_bytes_length. cbn [app]. rewrite take1_hex. cbn [bind].
    rewrite var_int_to_int_ok by (unfold len in *; lia). cbn [bind]. rewrite take_n_hex.
    rewrite firstn_exact', skipn_exact' by (unfold len; lia).
    rewrite parse_script_hex by auto. pose proof PS as PS'. apply parse_script_iff in PS'; auto. rewrite PS'. cbn [bind].
    destruct (script_parts_bytes sc sig pub A4 PS) as [Bsig Bpub]. rewrite !hex_len_ok by auto. cbn [bind]. rewrite take_n_hex.
    change (255 :: 255 :: 255 :: 255 :: rest) with ([255; 255; 255; 255] ++ rest).
    rewrite firstn_exact', skipn_exact' by reflexivity.
    change (str_eqb (hex_of [255; 255; 255; 255]) (lit "ffffffff")) with true. cbn [negb].
    erewrite (proj2 (signed_input_iff pub txid idx sc _ Bpub A1 A3 A4 A5 Lp A2)); [reflexivity|]. exists a. split; [exact Ha|reflexivity].
Qed.

Lemma parse_input_err : forall bs e, bytes bs -> parse_input (map hex1 bs) = Err e -> e = ValueError \/ e = IndexError.
Proof.
  intros bs e Hb H. unfold parse_input in H. rewrite take_n_hex in H.
  assert (Bh : bytes (firstn 32 bs)) by (apply bytes_firstn; auto).
  assert (B1 : bytes (skipn 32 bs)) by (apply bytes_skipn; auto).
  set (h := firstn 32 bs) in *. set (r1 := skipn 32 bs) in *. clearbody h r1. rewrite take_n_hex in H.
  assert (Bi : bytes (firstn 4 r1)) by (apply bytes_firstn; auto).
  assert (B2 : bytes (skipn 4 r1)) by (apply bytes_skipn; auto).
  set (ix := firstn 4 r1) in *. set (r2 := skipn 4 r1) in *. clearbody ix r2. rewrite take1_hex in H.
  destruct r2 as [|n r3]; [cbn [bind] in H; injection H; auto|]. cbn [bind] in H. inversion B2 as [|q1 q2 Bn B3]; subst q1 q2.
  rewrite var_int_byte in H by auto. destruct (n <=? 252) eqn:Ln; [|cbn [bind] in H; injection H; auto]. cbn [bind] in H. apply Z.leb_le in Ln.
  rewrite take_n_hex in H.
  assert (Bs : bytes (firstn (Z.to_nat n) r3)) by (apply bytes_firstn; auto).
  assert (B4 : bytes (skipn (Z.to_nat n) r3)) by (apply bytes_skipn; auto).
  set (sc := firstn (Z.to_nat n) r3) in *. set (r4 := skipn (Z.to_nat n) r3) in *. clearbody sc r4.
  rewrite parse_script_hex in H by auto. destruct (parse_script sc) as [[sig pub]|e'] eqn:PS;
    [|cbn [bind] in H; injection H as <-; left; eapply parse_script_err; eauto].
  cbn [bind] in H. apply parse_script_iff in PS; auto. destruct (script_parts_bytes sc sig pub Bs PS) as [Bsig Bpub].
  rewrite !hex_len_ok in H by auto. cbn [bind] in H. rewrite take_n_hex in H.
  destruct (negb _); [injection H; auto|].
  destruct (txin_create_from_signed_tx_data _ _ _ _ _) as [y|e2] eqn:T; [discriminate|]. cbn [bind] in H. injection H as <-. left.
  unfold txin_create_from_signed_tx_data in T.
  destruct (hex_length_cases (hex_of pub) 64) as [[_ V]|[_ V]]; rewrite V in T; [|cbn [bind] in T; congruence]. cbn [bind] in T.
  destruct (hex_length_cases (hex_of h) 32) as [[[b [K1 [K2 K3]]] V2]|[_ V2]]; rewrite V2 in T; [|cbn [bind] in T; congruence].
  apply hex_of_inj in K3; auto. subst b. cbn [bind] in T.
  destruct (hex_length_cases (hex_of ix) 4) as [[[b [J1 [J2 J3]]] V3]|[_ V3]]; rewrite V3 in T; [|cbn [bind] in T; congruence].
  apply hex_of_inj in J3; auto. subst b. cbn [bind] in T.
  rewrite validate_hex_ok in T by (apply bytes1; auto). cbn [bind] in T. rewrite validate_hex_ok in T by auto. cbn [bind] in T.
  rewrite var_int_byte in T by auto. destruct (n <=? 252); [|cbn [bind] in T; congruence]. cbn [bind] in T.
  rewrite public_key_to_script_ok in T by auto. cbn [bind] in T.
  rewrite var_int_to_int_ok in T by lia. cbn [bind] in T.
  destruct (script_address_ok (p2pkh (hash160 pub))) as [a Ha]; [apply bytes_p2pkh, hash160_bytes; auto|].
  rewrite Ha in T. cbn [bind] in T. rewrite hex_le_to_int_ok in T by (auto; destruct ix; discriminate). cbn [bind] in T.
  rewrite reverse_hex_order_ok in T by auto. cbn [bind] in T. discriminate.
Qed.

Context (HU : UniOk E).

Lemma btc_fun : forall s s' n, btc_text s n -> btc_text s' n -> 0 <= n <= 2100000000000000 -> s = s'.
Proof.
  intros s s' n A B R. assert (X : satoshi_to_bitcoin (PInt n) = Ok s) by (apply (satoshi_to_bitcoin_iff HU); exists n; auto).
  assert (Y : satoshi_to_bitcoin (PInt n) = Ok s') by (apply (satoshi_to_bitcoin_iff HU); exists n; auto). congruence.
Qed.

(** One output; at the very end of the data the script may be cut short. *)
Lemma parse_output_inv : forall bs y rest', bytes bs -> parse_output (map hex1 bs) = Ok (y, rest') ->
  exists rest, rest' = map hex1 rest /\ bytes rest /\ (rest = [] \/ exists o, bs = output_bytes o ++ rest /\ decoded_output y o).
Proof.
  intros bs y rest' Hb H. unfold parse_output in H. rewrite take_n_hex in H.
  assert (D1 : bs = firstn 8 bs ++ skipn 8 bs) by (symmetry; apply firstn_skipn).
  assert (L1 : skipn 8 bs <> [] -> length (firstn 8 bs) = 8%nat).
  { intros NE. rewrite firstn_length. destruct (le_lt_dec (length bs) 8) as [C|C]; [|lia]. exfalso. apply NE. apply skipn_all2. lia. }
  assert (Bv : bytes (firstn 8 bs)) by (apply bytes_firstn; auto).
  assert (B1 : bytes (skipn 8 bs)) by (apply bytes_skipn; auto).
  set (v := firstn 8 bs) in *. set (r1 := skipn 8 bs) in *. clearbody v r1.
  inv_bind H amt Ha. inv_bind H btc Hbtc. rewrite take1_hex in H. destruct r1 as [|n r2]; [discriminate|]. cbn [bind] in H.
  specialize (L1 ltac:(discriminate)). inversion B1 as [|q1 q2 Bn B2]; subst q1 q2.
  rewrite hex_le_to_int_ok in Ha by (auto; destruct v; discriminate). injection Ha as <-.
  rewrite var_int_byte in H by auto. destruct (n <=? 252) eqn:Ln; [|discriminate]. cbn [bind] in H. apply Z.leb_le in Ln.
  rewrite take_n_hex in H.
  assert (D2 : r2 = firstn (Z.to_nat n) r2 ++ skipn (Z.to_nat n) r2) by (symmetry; apply firstn_skipn).
  assert (LS : skipn (Z.to_nat n) r2 <> [] -> len (firstn (Z.to_nat n) r2) = n).
  { intros NE. unfold len. rewrite firstn_length. destruct (le_lt_dec (length r2) (Z.to_nat n)) as [C|C].
    - exfalso. apply NE. apply skipn_all2. auto.
    - unfold byte in Bn. lia. }
  assert (Bs : bytes (firstn (Z.to_nat n) r2)) by (apply bytes_firstn; auto).
  assert (B3 : bytes (skipn (Z.to_nat n) r2)) by (apply bytes_skipn; auto).
  set (sc := firstn (Z.to_nat n) r2) in *. set (r3 := skipn (Z.to_nat n) r2) in *. clearbody sc r3.
  inv_bind H yy Hy. injection H as -> <-. exists r3. split; auto. split; auto.
  destruct r3 as [|q r3]; [left; auto|]. right. specialize (LS ltac:(discriminate)).
  set (rest := q :: r3) in *. clearbody rest.
  apply (satoshi_to_bitcoin_iff HU) in Hbtc. destruct Hbtc as [m [E1 [R BT]]]. injection E1 as <-.
  unfold txout_create_from_signed_tx_data in Hy. rewrite <- LS in Hy. rewrite var_int_to_int_ok in Hy by (unfold len in *; lia).
  cbn [bind] in Hy. inv_bind Hy a Haddr. rewrite hex_le_to_int_ok in Hy by (auto; destruct v; discriminate). cbn [bind] in Hy.
  inv_bind Hy s Hs. injection Hy as <-.
  apply (satoshi_to_bitcoin_iff HU) in Hs. destruct Hs as [m [E1 [_ BT2]]]. injection E1 as <-.
  assert (VX : v = le_bytes 8 (le_val v)) by (rewrite <- L1; symmetry; apply le_bytes_unique; auto).
  assert (VB : 0 <= le_val v < 2 ^ 64).
  { pose proof (le_val_bounds v Bv) as V. rewrite L1 in V. exact V. }
  exists (mk_soutput (le_val v) sc). split.
  - unfold output_bytes. cbn [o_value o_script]. rewrite <- VX, LS, <- !app_assoc, <- D2. exact D1.
  - unfold decoded_output, output_ok. cbn [o_value o_script]. split; [repeat split; auto; lia|]. split; [lia|].
    exists a, s. split; [apply script_address_iff; auto|]. split; auto. rewrite <- VX. reflexivity.
Qed.

Lemma parse_output_ok : forall y o rest, decoded_output y o ->
  parse_output (map hex1 (output_bytes o ++ rest)) = Ok (y, map hex1 rest).
Proof.
  intros y [v sc] rest [(A1 & A2 & A3) [A4 [a [s [Ha [BT ->]]]]]]. cbn [o_value o_script] in *. unfold output_bytes. cbn [o_value o_script].
  unfold parse_output. rewrite <- !app_assoc, take_n_hex.
  rewrite firstn_exact', skipn_exact' by apply le_bytes_length.
  rewrite hex_le_to_int_ok by (try apply le_bytes_bytes; discriminate). rewrite le_bytes_val by exact A1. cbn [bind].
  assert (SB : satoshi_to_bitcoin (PInt v) = Ok s) by (apply (satoshi_to_bitcoin_iff HU); exists v; repeat split; auto; lia).
  rewrite SB. cbn [bind app]. rewrite take1_hex. cbn [bind].
  rewrite var_int_to_int_ok by (unfold len in *; lia). cbn [bind]. rewrite take_n_hex.
  rewrite firstn_exact', skipn_exact' by (unfold len; lia).
  unfold txout_create_from_signed_tx_data. rewrite var_int_to_int_ok by (unfold len in *; lia). cbn [bind].
  rewrite (proj2 (script_address_iff sc a A2) Ha). cbn [bind].
  rewrite hex_le_to_int_ok by (try apply le_bytes_bytes; discriminate). rewrite le_bytes_val by exact A1. cbn [bind].
  rewrite SB. reflexivity.
Qed.

Lemma hex_le_err : forall bs e, bytes bs -> hex_le_to_int (PStr (hex_of bs)) = Err e -> e = ValueError.
Proof.
  intros bs e H. destruct bs as [|b r]; [cbn; congruence|]. rewrite hex_le_to_int_ok by (auto; discriminate). discriminate.
Qed.
Lemma satoshi_err : forall n e, satoshi_to_bitcoin (PInt n) = Err e -> e = ValueError.
Proof.
  intros n e H. destruct (Z_le_dec 0 n) as [C1|C1]; [destruct (Z_le_dec n 2100000000000000) as [C2|C2]|].
  - destruct (satoshi_to_bitcoin_ok HU n) as [s [X _]]; [lia|]. congruence.
  - rewrite satoshi_to_bitcoin_bad in H by lia. congruence.
  - rewrite satoshi_to_bitcoin_bad in H by lia. congruence.
Qed.

Lemma parse_output_err : forall bs e, bytes bs -> parse_output (map hex1 bs) = Err e -> e = ValueError \/ e = IndexError.
Proof.
  intros bs e Hb H. unfold parse_output in H. rewrite take_n_hex in H.
  assert (Bv : bytes (firstn 8 bs)) by (apply bytes_firstn; auto).
  assert (B1 : bytes (skipn 8 bs)) by (apply bytes_skipn; auto).
  set (v := firstn 8 bs) in *. set (r1 := skipn 8 bs) in *. clearbody v r1.
  destruct (hex_le_to_int (PStr (hex_of v))) as [amt|e1] eqn:HV; [|cbn [bind] in H; injection H as <-; left; exact (hex_le_err _ _ Bv HV)].
  cbn [bind] in H.
  destruct (satoshi_to_bitcoin (PInt amt)) as [s|e1] eqn:HS; [|cbn [bind] in H; injection H as <-; left; exact (satoshi_err _ _ HS)].
  cbn [bind] in H. rewrite take1_hex in H. destruct r1 as [|n r2]; [cbn [bind] in H; injection H; auto|]. cbn [bind] in H.
  inversion B1 as [|q1 q2 Bn B2]; subst q1 q2.
  rewrite var_int_byte in H by auto. destruct (n <=? 252) eqn:Ln; [|cbn [bind] in H; injection H; auto]. cbn [bind] in H.
  rewrite take_n_hex in H. unfold txout_create_from_signed_tx_data in H. rewrite var_int_byte, Ln in H by auto. cbn [bind] in H.
  destruct (script_address_ok (firstn (Z.to_nat n) r2)) as [a Ha]; [apply bytes_firstn; auto|]. rewrite Ha in H. cbn [bind] in H.
  rewrite HV in H. cbn [bind] in H. rewrite HS in H. discriminate.
Qed.

Lemma parse_output_nil : parse_output [] = Err ValueError.
Proof. reflexivity. Qed.

(** Many inputs, many outputs. *)
Lemma parse_inputs_iff : forall n bs xs rest', bytes bs ->
  (parse_many parse_input n (map hex1 bs) = Ok (xs, rest') <->
   exists is rest, length is = n /\ bs = flat_map input_bytes is ++ rest /\ rest' = map hex1 rest /\ Forall2 decoded_input xs is).
Proof.
  induction n as [|n IH]; intros bs xs rest' Hb; cbn [parse_many].
  - split.
    + intros H. injection H as <- <-. exists [], bs. repeat split; auto.
    + intros [is [rest [L [-> [-> F]]]]]. destruct is; [|discriminate]. inversion F; subst. reflexivity.
  - split.
    + intros H. inv_bind H p Hp. destruct p as [x r1]. apply parse_input_iff in Hp; auto. destruct Hp as [i [r1' [-> [-> Di]]]].
      apply bytes_app in Hb. destruct Hb as [Hi Hb].
      inv_bind H p2 Hp2. destruct p2 as [l r2]. injection H as <- <-. apply IH in Hp2; auto.
      destruct Hp2 as [is [rest [L [-> [-> F]]]]]. exists (i :: is), rest. cbn [length flat_map]. rewrite <- app_assoc.
      repeat split; auto.
    + intros [is [rest [L [-> [-> F]]]]]. destruct is as [|i is]; [discriminate|]. inversion F as [|x q1 l q2 Dx F']; subst. cbn [flat_map] in *.
      rewrite <- app_assoc in *. apply bytes_app in Hb as Hb'. destruct Hb' as [Hi Hb'].
      rewrite (proj2 (parse_input_iff _ x (map hex1 (flat_map input_bytes is ++ rest)) Hb)) by (exists i, (flat_map input_bytes is ++ rest); auto). cbn [bind].
      injection L as L. rewrite (proj2 (IH _ l (map hex1 rest) Hb')) by (exists is, rest; auto). reflexivity.
Qed.

Lemma parse_many_err : forall A (f : list pystr -> res (A * list pystr)) n bs e,
  bytes bs ->
  (forall bs x r, bytes bs -> f (map hex1 bs) = Ok (x, r) -> exists r', bytes r' /\ r = map hex1 r') ->
  (forall bs e, bytes bs -> f (map hex1 bs) = Err e -> e = ValueError \/ e = IndexError) ->
  parse_many f n (map hex1 bs) = Err e -> e = ValueError \/ e = IndexError.
Proof.
  intros A f. induction n as [|n IH]; intros bs e Hb HR HE H; cbn [parse_many] in H; [discriminate|].
  destruct (f (map hex1 bs)) as [[x r]|e1] eqn:F; [|cbn [bind] in H; injection H as <-; eauto]. cbn [bind] in H.
  destruct (HR _ _ _ Hb F) as [r' [Br ->]].
  destruct (parse_many f n (map hex1 r')) as [[l r2]|e1] eqn:M; [discriminate|]. cbn [bind] in H. injection H as <-. eauto.
Qed.

Lemma parse_input_rest : forall bs x r, bytes bs -> parse_input (map hex1 bs) = Ok (x, r) -> exists r', bytes r' /\ r = map hex1 r'.
Proof.
  intros bs x r Hb H. apply parse_input_iff in H; auto. destruct H as [i [r' [-> [-> D]]]]. exists r'. split; auto.
  apply bytes_app in Hb. apply Hb.
Qed.
Lemma parse_output_rest : forall bs x r, bytes bs -> parse_output (map hex1 bs) = Ok (x, r) -> exists r', bytes r' /\ r = map hex1 r'.
Proof. intros bs x r Hb H. apply parse_output_inv in H; auto. destruct H as [r' [-> [B _]]]. eauto. Qed.
Lemma parse_many_rest : forall A (f : list pystr -> res (A * list pystr)) n bs xs r,
  (forall bs x r, bytes bs -> f (map hex1 bs) = Ok (x, r) -> exists r', bytes r' /\ r = map hex1 r') ->
  bytes bs -> parse_many f n (map hex1 bs) = Ok (xs, r) -> exists r', bytes r' /\ r = map hex1 r'.
Proof.
  intros A f. induction n as [|n IH]; intros bs xs r HR Hb H; cbn [parse_many] in H; [injection H as <- <-; eauto|].
  inv_bind H p Hp. destruct p as [x r1]. destruct (HR _ _ _ Hb Hp) as [r1' [B1 ->]].
  inv_bind H p2 Hp2. destruct p2 as [l r2]. injection H as <- <-. eauto.
Qed.

Lemma parse_outputs_inv : forall n bs ys rest', bytes bs -> rest' <> [] ->
  parse_many parse_output n (map hex1 bs) = Ok (ys, rest') ->
  exists os rest, length os = n /\ bs = flat_map output_bytes os ++ rest /\ rest' = map hex1 rest /\ Forall2 decoded_output ys os.
Proof.
  induction n as [|n IH]; intros bs ys rest' Hb NE H; cbn [parse_many] in H.
  - injection H as <- <-. exists [], bs. repeat split; auto.
  - inv_bind H p Hp. destruct p as [y r1]. apply parse_output_inv in Hp; auto. destruct Hp as [r1' [-> [B1 D]]].
    inv_bind H p2 Hp2. destruct p2 as [l r2]. injection H as <- <-.
    destruct D as [->|[o [-> Do]]].
    + exfalso. destruct n as [|n]; cbn [parse_many map] in Hp2; [injection Hp2 as <- <-; auto|]. rewrite parse_output_nil in Hp2. discriminate.
    + apply IH in Hp2; auto. destruct Hp2 as [os [rest [L [-> [-> F]]]]]. exists (o :: os), rest.
      cbn [length flat_map]. rewrite <- app_assoc. repeat split; auto.
Qed.

Lemma parse_outputs_ok : forall os ys rest, Forall2 decoded_output ys os ->
  parse_many parse_output (length os) (map hex1 (flat_map output_bytes os ++ rest)) = Ok (ys, map hex1 rest).
Proof.
  intros os ys rest F. induction F as [|y o ys os Hy F IH]; [reflexivity|]. cbn [length parse_many flat_map]. rewrite <- app_assoc.
  rewrite (parse_output_ok y o) by auto. cbn [bind]. rewrite IH. reflexivity.
Qed.

(** tx_create *)
Lemma tx_create_ok : forall ins outs, (length ins <= 252)%nat -> (length outs <= 252)%nat ->
  tx_create ins outs = Ok (mk_tx (hex_of (le_bytes 4 1)) (hex_of [Z.of_nat (length ins)]) ins
    (hex_of [Z.of_nat (length outs)]) outs (hex_of (le_bytes 4 0)) (hex_of (le_bytes 4 1)) (hex_of [1]) None).
Proof. intros ins outs H1 H2. unfold tx_create. rewrite !int_to_var_int_ok by lia. reflexivity. Qed.
Lemma tx_create_inv : forall ins outs t, tx_create ins outs = Ok t ->
  (length ins <= 252)%nat /\ (length outs <= 252)%nat /\ tx_inputs t = ins /\ tx_outputs t = outs /\ tx_header t /\ tx_change_address t = None.
Proof.
  intros ins outs t H.
  destruct (le_lt_dec (length ins) 252) as [C1|C1]; [|unfold tx_create in H; rewrite int_to_var_int_bad in H by lia; discriminate].
  destruct (le_lt_dec (length outs) 252) as [C2|C2];
    [|unfold tx_create in H; rewrite int_to_var_int_ok in H by lia; cbn [bind] in H; rewrite int_to_var_int_bad in H by lia; discriminate].
  rewrite tx_create_ok in H by auto. injection H as <-. unfold tx_header. cbn. auto 15.
Qed.
Lemma header_eta : forall t, tx_header t -> tx_change_address t = None -> tx_create (tx_inputs t) (tx_outputs t) = Ok t.
Proof.
  intros [v ic ins oc outs lt h4 h1 ca] (A1 & A2 & A3 & A4 & A5 & A6 & A7 & A8) C. cbn in *. rewrite tx_create_ok by auto. subst. reflexivity.
Qed.

Lemma decoded_in_ok : forall x i, decoded_input x i -> input_ok i.
Proof. intros x i H. apply H. Qed.
Lemma decoded_tx_ok : forall t ins outs, decoded_tx t ins outs -> tx_ok ins outs.
Proof.
  intros t ins outs [(A1 & A2 & A3 & A4 & A5 & A6 & A7 & A8) [C [HI HO]]].
  rewrite (F2_len _ _ _ _ _ HI) in A6. rewrite (F2_len _ _ _ _ _ HO) in A8. split; [|split; [|split; auto]].
  - clear A5 A6. induction HI as [|x i xs is D _ IH]; constructor; auto. apply D.
  - clear A7 A8. induction HO as [|y o ys os B _ IH]; constructor; auto. apply B.
Qed.

Lemma from_hex_iff : forall s t, from_hex_signed s = Ok t <->
  exists ins outs rest, bytes rest /\ s = hex_of (wire ins outs ++ rest) /\ decoded_tx t ins outs.
Proof.
  intros s t. split.
  - intros H. unfold from_hex_signed in H. inv_bind H n0 Hn. apply hex_len_inv in Hn. destruct Hn as [bs [Hb [_ Q]]]. injection Q as ->.
    cbv zeta in H. rewrite chunks2_hex, take_n_hex in H.
    assert (D1 : bs = firstn 4 bs ++ skipn 4 bs) by (symmetry; apply firstn_skipn).
    assert (Bv : bytes (firstn 4 bs)) by (apply bytes_firstn; auto).
    assert (B1 : bytes (skipn 4 bs)) by (apply bytes_skipn; auto).
    set (v := firstn 4 bs) in *. set (r1 := skipn 4 bs) in *. clearbody v r1.
    destruct (str_eqb (hex_of v) (lit "01000000")) eqn:QV; [|discriminate]. cbn [negb] in H.
    change (lit "01000000") with (hex_of (le_bytes 4 1)) in QV. rewrite str_eqb_hex in QV by (auto; apply le_bytes_bytes). apply str_eqb_eq in QV.
    rewrite take1_hex in H. destruct r1 as [|n r2]; [discriminate|]. cbn [bind] in H. inversion B1 as [|q1 q2 Bn B2]; subst q1 q2.
    rewrite var_int_byte in H by auto. destruct (n <=? 252) eqn:Ln; [|discriminate]. cbn [bind] in H. apply Z.leb_le in Ln.
    inv_bind H p Hp. destruct p as [xs r3']. apply parse_inputs_iff in Hp; auto. destruct Hp as [ins [r3 [LI [-> [-> FI]]]]].
    apply bytes_app in B2. destruct B2 as [_ B3].
    rewrite take1_hex in H. destruct r3 as [|m r4]; [discriminate|]. cbn [bind] in H. inversion B3 as [|q1 q2 Bm B4]; subst q1 q2.
    rewrite var_int_byte in H by auto. destruct (m <=? 252) eqn:Lm; [|discriminate]. cbn [bind] in H. apply Z.leb_le in Lm.
    inv_bind H p Hp. destruct p as [ys r5'].
    assert (NE : r5' <> []).
    { intros ->. unfold take_n in H. cbn in H. discriminate. }
    apply parse_outputs_inv in Hp; auto. destruct Hp as [outs [r5 [LO [-> [-> FO]]]]]. apply bytes_app in B4. destruct B4 as [_ B5].
    rewrite take_n_hex in H.
    destruct (str_eqb (hex_of (firstn 4 r5)) (lit "00000000")) eqn:QL; [|discriminate]. cbn [negb] in H.
    change (lit "00000000") with (hex_of (le_bytes 4 0)) in QL.
    rewrite str_eqb_hex in QL by (try apply bytes_firstn; auto; apply le_bytes_bytes). apply str_eqb_eq in QL.
    apply tx_create_inv in H. destruct H as [T1 [T2 [T3 [T4 [T5 T6]]]]].
    exists ins, outs, (skipn 4 r5). split; [apply bytes_skipn; auto|]. split.
    + f_equal. unfold wire. rewrite D1, QV, <- !app_assoc, <- QL, firstn_skipn. unfold byte in *.
      cbn [app]. do 2 f_equal; [lia|]. f_equal. f_equal. lia.
    + split; auto. split; auto. rewrite T3, T4. auto.
  - intros [ins [outs [rest [Br [-> D]]]]]. pose proof (decoded_tx_ok _ _ _ D) as OK. destruct D as [HD [C [HI HO]]].
    pose proof (wire_bytes _ _ OK) as Bw. assert (Ball : bytes (wire ins outs ++ rest)) by (apply bytes_app; auto).
    destruct OK as [O1 [O2 [O3 O4]]].
    unfold from_hex_signed. rewrite hex_len_ok by auto. cbn [bind]. cbv zeta. rewrite chunks2_hex. unfold wire in *.
    rewrite <- !app_assoc in *. rewrite take_n_hex. rewrite firstn_exact', skipn_exact' by apply le_bytes_length.
    change (str_eqb (hex_of (le_bytes 4 1)) (lit "01000000")) with true. cbn [negb app]. rewrite take1_hex. cbn [bind].
    rewrite var_int_to_int_ok by lia. cbn [bind]. rewrite Nat2Z.id.
    apply bytes_app in Ball. destruct Ball as [_ Ball]. apply bytes_app in Ball. destruct Ball as [_ Ball].
    cbn [app] in Ball.
    rewrite (proj2 (parse_inputs_iff (length ins) _ (tx_inputs t) _ Ball)) by (exists ins; eexists; repeat split; eauto). cbn [bind].
    cbn [app]. rewrite take1_hex. cbn [bind]. rewrite var_int_to_int_ok by lia. cbn [bind]. rewrite Nat2Z.id.
    rewrite (parse_outputs_ok outs (tx_outputs t)) by auto. cbn [bind]. rewrite take_n_hex.
    rewrite firstn_exact' by apply le_bytes_length.
    change (str_eqb (hex_of (le_bytes 4 0)) (lit "00000000")) with true. cbn [negb]. apply header_eta; auto.
Qed.

Lemma from_hex_err : forall s e, from_hex_signed s = Err e -> e = ValueError \/ e = IndexError.
Proof.
  intros s e H. unfold from_hex_signed in H. destruct (validate_hex_cases s) as [[[bs [Hb ->]] V]|[N V]].
  2:{ unfold hex_len in H. rewrite V in H. cbn [bind] in H. injection H. auto. }
  rewrite hex_len_ok in H by auto. cbn [bind] in H. cbv zeta in H. rewrite chunks2_hex, take_n_hex in H.
  destruct (negb _); [injection H; auto|].
  assert (B1 : bytes (skipn 4 bs)) by (apply bytes_skipn; auto). set (r1 := skipn 4 bs) in *. clearbody r1.
  rewrite take1_hex in H. destruct r1 as [|n r2]; [cbn [bind] in H; injection H; auto|]. cbn [bind] in H. inversion B1 as [|q1 q2 Bn B2]; subst q1 q2.
  rewrite var_int_byte in H by auto. destruct (n <=? 252) eqn:Ln; [|cbn [bind] in H; injection H; auto]. cbn [bind] in H.
  destruct (parse_many parse_input _ _) as [[xs r3']|e1] eqn:P1.
  2:{ cbn [bind] in H. injection H as <-. eapply parse_many_err; [|apply parse_input_rest|apply parse_input_err|exact P1]; auto. }
  cbn [bind] in H. destruct (parse_many_rest _ _ _ _ _ _ parse_input_rest B2 P1) as [r3 [B3 ->]].
  rewrite take1_hex in H. destruct r3 as [|m r4]; [cbn [bind] in H; injection H; auto|]. cbn [bind] in H. inversion B3 as [|q1 q2 Bm B4]; subst q1 q2.
  rewrite var_int_byte in H by auto. destruct (m <=? 252) eqn:Lm; [|cbn [bind] in H; injection H; auto]. cbn [bind] in H.
  destruct (parse_many parse_output _ _) as [[ys r5']|e1] eqn:P2.
  2:{ cbn [bind] in H. injection H as <-. eapply parse_many_err; [|apply parse_output_rest|apply parse_output_err|exact P2]; auto. }
  cbn [bind] in H. unfold take_n in H. destruct (negb _); [injection H; auto|].
  assert (L1 : (length xs <= 252)%nat).
  { apply parse_inputs_iff in P1; auto. destruct P1 as [is [rest [L [_ [_ F]]]]]. apply F2_len in F. apply Z.leb_le in Ln. lia. }
  assert (L2 : (length ys <= 252)%nat).
  { apply Z.leb_le in Lm. cut (length ys = Z.to_nat m); [lia|]. clear -P2. revert P2. generalize (map hex1 r4). generalize (Z.to_nat m) as k.
    intros k l. revert l ys. induction k as [|k IH]; intros l ys H; cbn [parse_many] in H; [injection H as <- <-; reflexivity|].
    inv_bind H p Hp. destruct p. inv_bind H p2 Hp2. destruct p2. injection H as <- <-. cbn [length]. f_equal. eauto. }
  rewrite tx_create_ok in H by auto. discriminate.
Qed.

End WithEnv.
