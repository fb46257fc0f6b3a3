(** Lemmas about the JSON form of transactions. *)
From Coq Require Import String Lia.
From Verif Require Import PyBase Env PyNum Validate Basic Spec EnvOk TxInput TxOutput Tx Create TxSpec SignSpec CreateSpec JsonSpec.
From Verif Require Import NumLemmas HexProofs Base58Proofs AddrProofs AmountProofs ScriptProofs WireProofs MakeProofs PrepProofs DesignProofs BuildProofs.

Section WithEnv.
Context {E : Env}.
Hypothesis HH : HashOk E.
Hypothesis HZ : ZeroAddressOk E.
Hypothesis HU : UniOk E.

Lemma assert_inv : forall b u, assert_ b = Ok u -> b = true.
Proof. intros [] u H; [auto|discriminate]. Qed.
Lemma eq_str_inv : forall v s, py_eq_str v s = true -> v = PStr s.
Proof. intros v s H. destruct v; try discriminate. cbn in H. apply str_eqb_eq in H. congruence. Qed.
Lemma eq_str_refl : forall s, py_eq_str (PStr s) s = true.
Proof. intros s. cbn. apply str_eqb_refl. Qed.
Lemma has_get : forall d k v, dict_get (lit k) d = Ok v -> has d k v.
Proof. intros d k v. apply get_ok. Qed.
Lemma get_has : forall d k v, has d k v -> dict_get (lit k) d = Ok v.
Proof. intros d k v. apply get_ok. Qed.
Lemma eq_int_int : forall v n z, as_int v = Some z -> (py_eq_int v n = true <-> z = n).
Proof. intros v n z H. destruct v; try discriminate; cbn in *; injection H as <-; apply Z.eqb_eq. Qed.

Lemma positive_iff : forall v n s, py_eq_str v s = true -> btc_text s n -> 0 <= n <= 2100000000000000 ->
  (validate_positive_bitcoin_amount v = Ok tt <-> 0 < n).
Proof.
  intros v n s EV BT R. apply eq_str_inv in EV. subst v. rewrite (positive_amount_iff HU). split.
  - intros (s' & m & I & A & M & NZ). injection I as <-. destruct (Z.eq_dec n 0); [|lia]. exfalso. apply NZ. apply (btc_zero_text s n); auto.
  - intros P. exists s, n. split; auto. split; [apply btc_amount; auto|]. split; [unfold max_money; lia|]. rewrite (btc_zero_text s n BT). lia.
Qed.

(** The two checks of a script with its length. *)
Lemma script_check : forall (e : exn) lv iv sv,
  ((if is_none lv then Ok tt else validate_hex lv ;;; n <- var_int_to_int lv ;; assert_ (py_eq_int iv n)) = Ok tt /\
   (if is_none sv then Ok tt else validate_hex sv ;;; n <- var_int_to_int lv ;; m <- hex_len sv ;; if n =? Z.of_nat m then Ok tt else Err e) = Ok tt) <->
  exists l s, json_script lv iv sv l s.
Proof.
  intros e lv iv sv. split.
  - intros [H1 H2]. destruct (is_none lv) eqn:N1.
    + destruct lv; try discriminate. destruct (is_none sv) eqn:N2.
      * destruct sv; try discriminate. exists None, None. left. auto.
      * exfalso. inv_bind H2 u U. inv_bind H2 n NN. discriminate.
    + inv_bind H1 u U. inv_bind H1 n NN. apply var_int_to_int_inv in NN as [-> R]. apply assert_inv in H1.
      destruct (is_none sv) eqn:N2.
      * destruct sv; try discriminate. exists (Some (hex_of [n])), None. right. exists n. auto 10.
      * inv_bind H2 u2 U2. rewrite var_int_to_int_ok in H2 by auto. cbn [bind] in H2. inv_bind H2 m M. apply hex_len_inv in M as (bs & B & L & ->).
        destruct (Z.eqb_spec n (Z.of_nat m)) as [EQ|]; [|discriminate]. exists (Some (hex_of [n])), (Some (hex_of bs)). right. exists n.
        split; auto. split; auto. split; auto. split; auto. right. exists bs. unfold len. rewrite L. auto.
  - intros (l & s & [(-> & -> & _)|(n & R & -> & -> & EQ & S)]); [auto|]. cbn [is_none].
    rewrite validate_hex_ok by (apply bytes1; unfold byte; lia). cbn [bind]. rewrite var_int_to_int_ok by auto. cbn [bind]. rewrite EQ. split; auto.
    destruct S as [(-> & _)|(bs & B & L & -> & _)]; auto. cbn [is_none]. rewrite validate_hex_ok by auto. cbn [bind]. rewrite hex_len_ok by auto. cbn [bind].
    unfold len in L. destruct (Z.eqb_spec n (Z.of_nat (length bs))); auto. lia.
Qed.

Lemma json_script_opt : forall lv iv sv l s, json_script lv iv sv l s -> as_opt_str lv = Ok l /\ as_opt_str sv = Ok s.
Proof. intros lv iv sv l s [(-> & -> & -> & ->)|(n & R & -> & -> & EQ & [(-> & ->)|(bs & B & L & -> & ->)])]; auto. Qed.

Lemma assert_if : forall b, assert_ b = if b then Ok tt else Err AssertionError.
Proof. intros []; auto. Qed.

Lemma txin_from_dict_iff : forall v x, txin_from_dict v = Ok x <-> json_input v x.
Proof.
  intros v x. split.
  - intros H. unfold txin_from_dict in H. inv_bind H d D. destruct v as [| | | | | |d0]; try discriminate. injection D as ->.
    inv_bind H u0 U0. clear u0 U0. inv_bind H poh G1. inv_bind H u1 U1. inv_bind H poi G2. inv_bind H u2 U2. inv_bind H iv G3. inv_bind H u3 U3.
    rewrite le_field_def in H. inv_bind H pi LF. apply le_field_inv in LF as (idx & I1 & I2 & ->); [|lia].
    inv_bind H u4 U4. apply assert_inv, eq_str_inv in U4. subst poi.
    inv_bind H lv1 G4. inv_bind H iv1 G5. inv_bind H u5 U5. inv_bind H sv1 G6. inv_bind H u6 U6. destruct u5, u6.
    destruct (proj1 (script_check _ lv1 iv1 sv1) (conj U5 U6)) as (l1 & s1 & JS1). destruct (json_script_opt _ _ _ _ _ JS1) as [O1 O2]. clear U5 U6.
    inv_bind H sq G7. inv_bind H u7 U7. apply assert_inv, eq_str_inv in U7. subst sq.
    inv_bind H pk G8. inv_bind H u8 U8. inv_bind H lv2 G9. inv_bind H iv2 G10. inv_bind H u9 U9. inv_bind H sv2 G11. inv_bind H u10 U10. destruct u9, u10.
    assert (U10' : (if is_none sv2 then Ok tt else validate_hex sv2 ;;; n <- var_int_to_int lv2 ;; m <- hex_len sv2 ;; if n =? Z.of_nat m then Ok tt else Err AssertionError) = Ok tt).
    { exact U10. }
    destruct (proj1 (script_check _ lv2 iv2 sv2) (conj U9 U10')) as (l2 & s2 & JS2). destruct (json_script_opt _ _ _ _ _ JS2) as [O3 O4]. clear U9 U10 U10'.
    inv_bind H av G12. inv_bind H u11 U11. inv_bind H tv G13. inv_bind H rv RV. inv_bind H u12 U12. inv_bind H sa G14. inv_bind H u13 U13. inv_bind H ba G15.
    inv_bind H u14 U14. inv_bind H bt SB. inv_bind H u15 U15. apply assert_inv in U12, U15.
    apply (satoshi_to_bitcoin_iff HU) in SB as (n & -> & NR & BT). destruct u14. apply (positive_iff _ n bt) in U14; auto. apply eq_str_inv in U12, U15. subst poh ba.
    destruct u11. apply (validate_address_inv HH HZ) in U11 as (h & a & -> & IA).
    apply reverse_hex_order_inv in RV as (txid & Bt & -> & ->). destruct u1. apply validate_hex_length_inv in U1 as (bs & _ & LB & EB).
    assert (LT : length txid = 32%nat).
    { assert (Q : length (hex_of (rev txid)) = length (hex_of bs)) by congruence. rewrite !hex_of_length, rev_length in Q. lia. }
    cbn [as_str bind] in H. rewrite O1, O2, O3, O4 in H. cbn [bind as_int] in H. injection H as <-.
    exists d, txid, iv, idx, n, bt, pk, lv1, iv1, sv1, l1, s1, lv2, iv2, sv2, l2, s2, a, h.
    repeat match goal with H : dict_get (lit _) d = Ok _ |- _ => apply has_get in H end.
    split; auto. split; auto. split; auto. split; auto. split; auto. split; auto. split; auto. split; auto. split; auto. split; auto. split; auto. split; auto.
    split; auto. split; [lia|]. split; auto. split; auto. split; auto. split.
    { destruct (is_none pk) eqn:NP; [left; destruct pk; try discriminate; auto|]. destruct u8. apply validate_hex_length_inv in U8 as (pub & B & L & ->). right. eauto. }
    auto 12.
  - intros (d & txid & iv & idx & n & bt & pk & lv1 & iv1 & sv1 & l1 & s1 & lv2 & iv2 & sv2 & l2 & s2 & a & h & -> & G13 & Bt & Lt & G1 & G3 & I1 & I2 & G2 & G7 & G12 & IA
      & G14 & NR & G15 & BT & G8 & PK & G4 & G5 & G6 & JS1 & G9 & G10 & G11 & JS2 & ->).
    unfold txin_from_dict. cbn [as_dict bind].
    assert (CI : validate_list_contains_items (dict_keys d) txin_expected_keys = Ok tt).
    { apply contains_iff. intros k I. unfold txin_expected_keys in I. cbn [map] in I.
      repeat (destruct I as [<-|I]; [eapply find_in; (exact G13 || exact G1 || exact G3 || exact G2 || exact G7 || exact G12 || exact G14 || exact G15 || exact G8 || exact G4 || exact G5 || exact G6 || exact G9 || exact G10 || exact G11)|]). destruct I. }
    rewrite CI. clear CI. cbn [bind]. rewrite (get_has _ _ _ G1). cbn [bind]. rewrite validate_hex_length_ok by (try apply bytes_rev; try rewrite rev_length; auto). cbn [bind].
    rewrite (get_has _ _ _ G2). cbn [bind]. rewrite validate_hex_ok by apply le_bytes_bytes. cbn [bind]. rewrite (get_has _ _ _ G3). cbn [bind].
    unfold validate_integer. rewrite I1. cbn [bind]. rewrite le_field_def, (le_field_as_int iv idx 4 I1), le_field_ok by (auto; lia). cbn [bind]. rewrite eq_str_refl. cbn [bind assert_].
    rewrite (get_has _ _ _ G4). cbn [bind]. rewrite (get_has _ _ _ G5). cbn [bind].
    destruct (proj2 (script_check ValueError lv1 iv1 sv1) (ex_intro _ l1 (ex_intro _ s1 JS1))) as [-> K]. cbn [bind]. rewrite (get_has _ _ _ G6). cbn [bind]. rewrite K. clear K. cbn [bind].
    rewrite (get_has _ _ _ G7). cbn [bind]. change (py_eq_str (PStr (hex_of [255; 255; 255; 255])) (lit "ffffffff")) with true. cbn [bind assert_].
    rewrite (get_has _ _ _ G8). cbn [bind].
    assert (PKE : (if is_none pk then Ok tt else validate_hex_length pk 64) = Ok tt).
    { destruct PK as [->|(pub & B & L & ->)]; auto. cbn [is_none]. apply validate_hex_length_ok; auto. }
    rewrite PKE. clear PKE. cbn [bind]. rewrite (get_has _ _ _ G9). cbn [bind]. rewrite (get_has _ _ _ G10). cbn [bind].
    destruct (proj2 (script_check AssertionError lv2 iv2 sv2) (ex_intro _ l2 (ex_intro _ s2 JS2))) as [-> K]. cbn [bind]. rewrite (get_has _ _ _ G11). cbn [bind].
    assert (K' : (if is_none sv2 then Ok tt else validate_hex sv2 ;;; n <- var_int_to_int lv2 ;; m <- hex_len sv2 ;; assert_ (n =? Z.of_nat m)) = Ok tt).
    { exact K. }
    rewrite K'. clear K K'. cbn [bind]. rewrite (get_has _ _ _ G12). cbn [bind]. rewrite (validate_address_ok HH HZ h a IA). cbn [bind].
    rewrite (get_has _ _ _ G13). cbn [bind]. rewrite reverse_hex_order_ok by auto. cbn [bind]. rewrite eq_str_refl. cbn [bind assert_].
    rewrite (get_has _ _ _ G14). cbn [bind as_int]. rewrite (get_has _ _ _ G15). cbn [bind].
    rewrite (proj2 (positive_iff (PStr bt) n bt (eq_str_refl bt) BT ltac:(lia))) by lia. cbn [bind].
    assert (SB : satoshi_to_bitcoin (PInt n) = Ok bt) by (apply (satoshi_to_bitcoin_iff HU); exists n; repeat split; auto; lia). rewrite SB. cbn [bind].
    rewrite eq_str_refl. cbn [bind assert_ as_str]. destruct (json_script_opt _ _ _ _ _ JS1) as [-> ->]. destruct (json_script_opt _ _ _ _ _ JS2) as [-> ->]. reflexivity.
Qed.

Lemma txout_from_dict_iff : forall v y, txout_from_dict v = Ok y <-> json_output v y.
Proof.
  intros v y. split.
  - intros H. unfold txout_from_dict in H. inv_bind H d D. destruct v as [| | | | | |d0]; try discriminate. injection D as ->.
    inv_bind H u0 U0. clear u0 U0. inv_bind H vv G1. inv_bind H u1 U1. inv_bind H lv G2. inv_bind H u2 U2. inv_bind H iv G3. inv_bind H u3 U3.
    inv_bind H sv G4. inv_bind H u4 U4. inv_bind H av G5. inv_bind H u5 U5. inv_bind H ba G6. inv_bind H u6 U6. inv_bind H ln VL. inv_bind H u7 U7.
    inv_bind H sa G7. inv_bind H bt SB. inv_bind H u8 U8. rewrite le_field_def in H. inv_bind H lf LF. inv_bind H u9 U9. inv_bind H hh AH. inv_bind H sp SP. destruct sp as [spk sl].
    inv_bind H u10 U10. inv_bind H u11 U11. apply assert_inv in U7, U8, U9, U10, U11.
    apply (satoshi_to_bitcoin_iff HU) in SB as (n & -> & NR & BT). destruct u6. apply (positive_iff _ n bt) in U6; auto. apply eq_str_inv in U8, U9, U10, U11. subst ba vv sv lv.
    apply le_field_inv in LF as (n' & I1 & I2 & ->); [|lia]. injection I1 as <-.
    assert (AS : address_to_script_pub_key av = Ok (spk, sl)) by (unfold address_to_script_pub_key; rewrite AH; cbn [bind]; exact SP).
    apply (address_to_script_inv HH HZ) in AS as (h & a & -> & IA & R). assert (R1 : spk = hex_of (p2pkh h)) by congruence. assert (R2 : sl = hex_of [25]) by congruence. clear R. subst spk sl.
    rewrite var_int_to_int_ok in VL by lia. assert (EL : ln = 25) by congruence. clear VL. subst ln. cbn [as_str bind as_int] in H. injection H as <-.
    repeat match goal with H : dict_get (lit _) d = Ok _ |- _ => apply has_get in H end.
    unfold validate_integer in U3. destruct (as_int iv) as [z|] eqn:AI; [|discriminate]. apply (eq_int_int iv 25 z AI) in U7. subst z.
    exists d, iv, n, bt, a, h. split; auto. split; auto. split; auto. split; auto. split; auto. split; auto. split; auto. split; auto. split; [lia|]. auto.
  - intros (d & iv & n & bt & a & h & -> & G5 & IA & G4 & G2 & G3 & AI & G7 & NR & G6 & BT & G1 & ->).
    unfold txout_from_dict. cbn [as_dict bind].
    assert (CI : validate_list_contains_items (dict_keys d) txout_expected_keys = Ok tt).
    { apply contains_iff. intros k I. unfold txout_expected_keys in I. cbn [map] in I.
      repeat (destruct I as [<-|I]; [eapply find_in; (exact G1 || exact G3 || exact G2 || exact G7 || exact G4 || exact G5 || exact G6)|]). destruct I. }
    rewrite CI. clear CI. cbn [bind]. rewrite (get_has _ _ _ G1). cbn [bind]. rewrite validate_hex_ok by apply le_bytes_bytes. cbn [bind].
    rewrite (get_has _ _ _ G2). cbn [bind]. rewrite validate_hex_ok by (apply bytes1; unfold byte; lia). cbn [bind].
    rewrite (get_has _ _ _ G3). cbn [bind]. unfold validate_integer. rewrite AI. cbn [bind]. rewrite (get_has _ _ _ G4). cbn [bind].
    rewrite validate_hex_ok by (apply bytes_p2pkh, IA). cbn [bind]. rewrite (get_has _ _ _ G5). cbn [bind]. rewrite (validate_address_ok HH HZ h a IA). cbn [bind].
    rewrite (get_has _ _ _ G6). cbn [bind]. rewrite (proj2 (positive_iff (PStr bt) n bt (eq_str_refl bt) BT ltac:(lia))) by lia. cbn [bind].
    rewrite var_int_to_int_ok by lia. cbn [bind]. rewrite (proj2 (eq_int_int iv 25 25 AI) eq_refl). cbn [bind assert_].
    rewrite (get_has _ _ _ G7). cbn [bind]. assert (SB : satoshi_to_bitcoin (PInt n) = Ok bt) by (apply (satoshi_to_bitcoin_iff HU); exists n; repeat split; auto; lia). rewrite SB. cbn [bind].
    rewrite eq_str_refl. cbn [bind assert_]. rewrite le_field_def, le_field_ok by (change (256 ^ Z.of_nat 8) with 18446744073709551616; lia). cbn [bind]. rewrite eq_str_refl. cbn [bind assert_].
    pose proof (address_to_script_ok HH HZ h a IA) as AS. unfold address_to_script_pub_key in AS. apply bind_ok_inv in AS. destruct AS as (hh & AH & SP). rewrite AH. cbn [bind]. rewrite SP. cbn [bind].
    rewrite !eq_str_refl. cbn [bind assert_ as_str as_int]. reflexivity.
Qed.

Lemma mapM_F2 : forall A B (f : A -> res B) (R : A -> B -> Prop), (forall a b, f a = Ok b <-> R a b) ->
  forall l l', mapM f l = Ok l' <-> Forall2 R l l'.
Proof.
  intros A B f R K l. induction l as [|a l IH]; intros l'; cbn [mapM].
  - split; [intros H; injection H as <-; constructor|intros H; inversion H; auto].
  - split.
    + intros H. inv_bind H b Hb. inv_bind H bs Hbs. injection H as <-. constructor; [apply K; auto|apply IH; auto].
    + intros H. inversion H as [|? b ? bs Hb Hbs]; subst. apply K in Hb. apply IH in Hbs. rewrite Hb. cbn [bind]. rewrite Hbs. auto.
Qed.

Lemma signed_iff : forall t, tx_signed t = true <-> Forall (fun x => ti_script_length x <> None /\ ti_script_sig x <> None) (tx_inputs t).
Proof.
  intros t. unfold tx_signed. rewrite forallb_forall, Forall_forall. split; intros H x I; specialize (H x I); unfold txin_signed in *;
    destruct (ti_script_length x), (ti_script_sig x); try discriminate; auto; try (split; discriminate); destruct H; congruence.
Qed.

Lemma from_dict_iff : forall v t, from_dict v = Ok t <-> json_tx v t.
Proof.
  intros v t. split.
  - intros H. unfold from_dict in H. inv_bind H d D. destruct v as [| | | | | |d0]; try discriminate. injection D as ->.
    inv_bind H u0 U0. destruct u0. apply contains_iff with (x := lit "version") in U0; [|cbn; auto].
    inv_bind H ic G1. inv_bind H u1 U1. inv_bind H vi G2. inv_bind H u2 U2. inv_bind H vo G3. inv_bind H u3 U3. inv_bind H li L1. inv_bind H lo L2.
    destruct vi; try discriminate. destruct vo; try discriminate. injection L1 as ->. injection L2 as ->.
    inv_bind H n1 N1. inv_bind H u4 U4. inv_bind H oc G4. inv_bind H n2 N2. inv_bind H u5 U5. inv_bind H ins M1. inv_bind H outs M2.
    inv_bind H lk G5. inv_bind H u6 U6. inv_bind H h4 G6. inv_bind H u7 U7. inv_bind H h1 G7. inv_bind H u8 U8. inv_bind H sg G8. inv_bind H u9 U9.
    inv_bind H u10 U10. inv_bind H t' TC. inv_bind H u11 U11. injection H as <-.
    apply assert_inv in U4, U5, U6, U7, U8, U10. apply Z.eqb_eq in U4, U5. subst n1 n2. apply Z.leb_le in U10. apply eq_str_inv in U6, U7, U8. subst lk h4 h1.
    apply var_int_to_int_inv in N1 as [-> R1], N2 as [-> R2]. apply (mapM_F2 _ _ _ _ txin_from_dict_iff) in M1. apply (mapM_F2 _ _ _ _ txout_from_dict_iff) in M2.
    pose proof (F2_len _ _ _ _ _ M1) as E1. pose proof (F2_len _ _ _ _ _ M2) as E2. rewrite E1 in *. rewrite E2 in *.
    rewrite tx_create_ok in TC by lia. injection TC as <-. destruct sg as [|sg| | | | |]; try discriminate.
    repeat match goal with H : dict_get (lit _) d = Ok _ |- _ => apply has_get in H end.
    exists d, li, lo, ins, outs, sg. split; auto. split.
    { destruct (dict_find (lit "version") d) as [w|] eqn:FV; [exists w; auto|]. apply find_none in FV. exfalso. auto. }
    split; auto. split; auto. split; auto. split; auto. split; [lia|]. split; auto. split; [lia|]. split; auto. split; auto. split; auto. split; auto. split; auto. split; auto.
    intros ->. apply assert_inv in U11. apply signed_iff in U11. auto.
  - intros (d & vi & vo & ins & outs & sg & -> & (w & G0) & G2 & M1 & G3 & M2 & R1 & G1 & R2 & G4 & G5 & G6 & G7 & G8 & SG & LE & ->).
    pose proof (F2_len _ _ _ _ _ M1) as E1. pose proof (F2_len _ _ _ _ _ M2) as E2.
    unfold from_dict. cbn [as_dict bind].
    assert (CI : validate_list_contains_items (dict_keys d) tx_expected_keys = Ok tt).
    { apply contains_iff. intros k I. unfold tx_expected_keys in I. cbn [map] in I.
      repeat (destruct I as [<-|I]; [eapply find_in; (exact G0 || exact G1 || exact G3 || exact G2 || exact G7 || exact G4 || exact G5 || exact G6 || exact G8)|]). destruct I. }
    rewrite CI. clear CI. cbn [bind]. rewrite (get_has _ _ _ G1). cbn [bind]. rewrite validate_hex_ok by (apply bytes1; unfold byte; lia). cbn [bind].
    rewrite (get_has _ _ _ G2). cbn [bind validate_list]. rewrite (get_has _ _ _ G3). cbn [bind validate_list as_list].
    rewrite var_int_to_int_ok by lia. cbn [bind]. rewrite E1, Z.eqb_refl. cbn [bind assert_]. rewrite (get_has _ _ _ G4). cbn [bind].
    rewrite var_int_to_int_ok by lia. cbn [bind]. rewrite E2, Z.eqb_refl. cbn [bind assert_].
    rewrite (proj2 (mapM_F2 _ _ _ _ txin_from_dict_iff _ _) M1). cbn [bind]. rewrite (proj2 (mapM_F2 _ _ _ _ txout_from_dict_iff _ _) M2). cbn [bind].
    rewrite (get_has _ _ _ G5). cbn [bind]. change (py_eq_str (PStr (hex_of (le_bytes 4 0))) (lit "00000000")) with true. cbn [bind assert_].
    rewrite (get_has _ _ _ G6). cbn [bind]. change (py_eq_str (PStr (hex_of (le_bytes 4 1))) (lit "01000000")) with true. cbn [bind assert_].
    rewrite (get_has _ _ _ G7). cbn [bind]. change (py_eq_str (PStr (hex_of [1])) (lit "01")) with true. cbn [bind assert_].
    rewrite (get_has _ _ _ G8). cbn [bind validate_boolean]. rewrite (proj2 (Z.leb_le _ _) LE). cbn [bind assert_]. rewrite tx_create_ok by auto. cbn [bind].
    destruct sg; auto. rewrite (proj2 (signed_iff _)); auto.
Qed.

(** ** Writing. *)
Lemma ascii_app : forall a b, ascii_str (a ++ b) = ascii_str a && ascii_str b.
Proof. intros. apply forallb_app. Qed.
Lemma ascii_hex : forall bs, bytes bs -> ascii_str (hex_of bs) = true.
Proof.
  intros bs H. unfold ascii_str. apply forallb_forall. intros c I. unfold hex_of in I. apply in_flat_map in I as (b & Ib & Ic).
  unfold bytes in H. rewrite Forall_forall in H. specialize (H b Ib). unfold byte in H.
  assert (K : forall d, 0 <= d < 16 -> (0 <=? hex_char d) && (hex_char d <? 128) = true).
  { intros d Hd. apply (range_check (fun d => (0 <=? hex_char d) && (hex_char d <? 128)) 16 ltac:(vm_compute; reflexivity) d). lia. }
  destruct Ic as [<-|[<-|[]]]; apply K; [|apply Z.mod_pos_bound; lia]. split; [apply Z.div_pos; lia|apply Z.div_lt_upper_bound; lia].
Qed.
Lemma ascii_text10 : forall ds, digits_in 10 ds -> ascii_str (text10 ds) = true.
Proof.
  intros ds H. unfold ascii_str, text10. apply forallb_forall. intros c I. apply in_map_iff in I as (d & <- & Id). unfold digits_in in H. rewrite Forall_forall in H. specialize (H d Id).
  apply andb_true_intro. split; [apply Z.leb_le|apply Z.ltb_lt]; lia.
Qed.
Lemma ascii_btc : forall s n, btc_text s n -> ascii_str s = true.
Proof. intros s n (ip & fp & -> & A & B & _). rewrite !ascii_app, !ascii_text10; auto. Qed.
Lemma ascii_decimal : forall k s n, fixed_text k s n -> ascii_str s = true.
Proof. intros k s n (ip & fp & -> & A & B & _). rewrite !ascii_app, !ascii_text10; auto. Qed.
Lemma ascii_address : forall h a, is_address h a -> ascii_str a = true.
Proof.
  intros h a (_ & _ & n & r & ds & _ & _ & D & _ & _ & ->). unfold ascii_str, text58. apply forallb_forall. intros c I. apply in_map_iff in I as (d & <- & Id).
  assert (Hd : 0 <= d < 58). { apply in_app_or in Id as [Id|Id]; [apply repeat_spec in Id; lia|]. unfold digits_in in D. rewrite Forall_forall in D. apply D; auto. }
  apply (range_check (fun d => (0 <=? char58 d) && (char58 d <? 128)) 58 ltac:(vm_compute; reflexivity) d). lia.
Qed.

Lemma dec_text_ok : forall k n, 0 <= n -> fixed_text k (dec_text k n) n.
Proof.
  intros k n Hn. destruct (nat_text10 n Hn) as (ds & T & D & Hne & V & Lead).
  assert (I : int_str n = text10 ds). { unfold int_str. replace (n <? 0) with false by (symmetry; apply Z.ltb_ge; lia). auto. }
  unfold dec_text. rewrite I, rep_zero_text. cbv zeta. assert (LT : length (text10 ds) = length ds) by apply map_length. rewrite LT.
  assert (E0 : text10 (repeat 0 (S k - length ds)) ++ text10 ds = text10 (repeat 0 (S k - length ds) ++ ds)) by (unfold text10; rewrite map_app; auto).
  rewrite E0.
  set (es := repeat 0 (S k - length ds) ++ ds) in *.
  assert (De : digits_in 10 es). { apply Forall_app. split; auto. apply Forall_forall. intros x Hx. apply repeat_spec in Hx. lia. }
  assert (Le : (S k <= length es)%nat) by (unfold es; rewrite app_length, repeat_length; lia).
  exists (firstn (length es - k) es), (skipn (length es - k) es). assert (FS : firstn (length es - k) es ++ skipn (length es - k) es = es) by apply firstn_skipn.
  split. { unfold drop_last_n, last_n. rewrite ?E0. unfold text10. rewrite ?map_length, ?firstn_map, ?skipn_map. reflexivity. }
  split. { rewrite <- FS in De. apply Forall_app in De. tauto. } split. { rewrite <- FS in De. apply Forall_app in De. tauto. }
  split. { rewrite skipn_length. lia. } split; [|rewrite FS; unfold es; rewrite val_repeat0_app; auto].
  destruct (le_lt_dec (length ds) k) as [L|L].
  - left. assert (LE : length es = S k) by (unfold es; rewrite app_length, repeat_length; lia). rewrite LE. replace (S k - k)%nat with 1%nat by lia.
    unfold es. replace (S k - length ds)%nat with (S (k - length ds)) by lia. reflexivity.
  - assert (ES : es = ds). { unfold es. replace (S k - length ds)%nat with O by lia. reflexivity. } rewrite ES in *. destruct ds as [|d r]; [congruence|].
    replace (length (d :: r) - k)%nat with (S (length r - k)) by (cbn [length] in *; lia). cbn [firstn]. destruct Lead as [X|X].
    + injection X as -> ->. left. reflexivity.
    + right. split; [discriminate|]. exact X.
Qed.

Lemma half_even_ok : forall a b, 0 <= a -> 0 < b -> rounded a b (div_half_even a b) /\ 0 <= div_half_even a b.
Proof.
  intros a b Ha Hb. unfold div_half_even. cbv zeta. pose proof (Z.div_mod a b ltac:(lia)) as DM. pose proof (Z.mod_pos_bound a b Hb) as MB. pose proof (Z.div_pos a b Ha Hb) as DP.
  set (q := a / b) in *. set (r := a mod b) in *. unfold rounded.
  assert (K0 : q * b - a = - r) by lia. assert (K1 : (q + 1) * b - a = b - r) by lia.
  destruct (Z.ltb_spec (2 * r) b); [rewrite K0; split; [|lia]; split; [lia|intros; lia]|].
  destruct (Z.ltb_spec b (2 * r)); [rewrite K1; split; [|lia]; split; [lia|intros; lia]|].
  destruct (Z.even q) eqn:EV.
  - rewrite K0. split; [|lia]. split; [lia|]. intros _. apply Z.even_spec. auto.
  - rewrite K1. split; [|lia]. split; [lia|]. intros _. apply Z.even_spec. rewrite Z.add_1_r, Z.even_succ, <- Z.negb_even, EV. reflexivity.
Qed.

Lemma plain_dict : forall d, distinct_keys (map fst d) = true -> forallb ascii_str (map fst d) = true -> Forall (fun v => json_plain v = true) (map snd d) ->
  json_plain (PDict d) = true.
Proof.
  intros d H1 H2 H3. cbn [json_plain]. rewrite H1. cbn [andb]. apply forallb_forall. intros [k v] I. cbn [fst snd].
  rewrite forallb_forall in H2. rewrite (H2 k) by (apply in_map_iff; exists (k, v); auto). rewrite Forall_forall in H3. rewrite (H3 v); auto. apply in_map_iff. exists (k, v). auto.
Qed.
Lemma plain_int : forall v n, as_int v = Some n -> json_plain v = true.
Proof. intros v n H. destruct v; try discriminate; auto. Qed.
Lemma plain_list : forall l, Forall (fun v => json_plain v = true) l -> json_plain (PList l) = true.
Proof. intros l H. cbn [json_plain]. apply forallb_forall. apply Forall_forall. auto. Qed.

Ltac fields := cbn [ti_previous_output_hash ti_previous_output_index ti_previous_output_index_int ti_sequence ti_public_key_hex ti_script_pub_key_length ti_script_pub_key_length_int
  ti_script_pub_key ti_script_length ti_script_length_int ti_script_sig ti_address ti_txid ti_satoshi_amount ti_bitcoin_amount
  to_value to_script_length to_script_length_int to_script_pub_key to_address to_bitcoin_amount to_satoshi_amount o_value o_script] in *.
Lemma in_to_dict : forall x, json_ready_input x -> json_plain (txin_to_dict x) = true /\ json_input (txin_to_dict x) (forget_key x).
Proof.
  intros x (txid & idx & h & spk & n & (A1 & A2 & A3 & A4 & A5 & A6 & A7 & A8) & B1 & (BP & L25 & B2 & B3 & B4) & (C1 & C2 & bt & C3 & C4) & NP & PK & SC).
  destruct x as [f1 f2 f3 f4 f5 f6 f7 f8 f9 f10 f11 f12 f13 f14 f15]. fields. subst f1 f2 f4 f6 f7 f8 f13 f14 f15.
  assert (LB : bytes [len spk]) by (apply bytes1; unfold byte, len in *; lia).
  assert (P1 : json_plain (opt_str f5) = true) by (destruct PK as [->|(pub & P1 & P2 & ->)]; auto; apply ascii_hex; auto).
  assert (P2 : json_plain (opt_str f9) = true /\ json_plain f10 = true /\ json_plain (opt_str f11) = true).
  { destruct SC as [(-> & -> & ->)|(sc & S1 & S2 & S3 & S4 & S5)]; auto. fields. subst. split; [|split]; auto; apply ascii_hex; auto. apply bytes1. unfold byte, len in *. lia. }
  destruct P2 as (P2 & P3 & P4). split.
  - apply plain_dict; [reflexivity|reflexivity|].
    repeat (apply Forall_cons; [auto|]); auto; cbn [snd]; try (apply ascii_hex; auto using bytes_rev, le_bytes_bytes); try reflexivity.
    + eapply plain_int; eauto.
    + eapply ascii_address; eauto.
    + eapply ascii_btc; eauto.
  - unfold txin_to_dict, forget_key. fields.
    eexists. exists txid, f3, idx, n, bt, (opt_str f5), (opt_str f9), f10, (opt_str f11), f9, f11, (PStr (hex_of [len spk])), (PInt (len spk)), (PStr (hex_of spk)), (Some (hex_of [len spk])), (Some (hex_of spk)), f12, h.
    split; [reflexivity|]. split; [reflexivity|]. split; auto. split; auto. split; [reflexivity|]. split; [reflexivity|]. split; auto. split; auto. split; [reflexivity|]. split; [reflexivity|].
    split; [reflexivity|]. split; auto. split; [reflexivity|]. split; [lia|]. split; [reflexivity|]. split; auto. split; [reflexivity|]. split.
    { destruct PK as [->|(pub & Q1 & Q2 & ->)]; [left; auto|right; exists pub; auto]. }
    split; [reflexivity|]. split; [reflexivity|]. split; [reflexivity|]. split.
    { destruct SC as [(-> & -> & ->)|(sc & S1 & S2 & S3 & S4 & S5)]; [left; auto|]. fields. subst. right. exists (len sc). split; [unfold len in *; lia|]. split; auto. split; auto.
      split; [apply Z.eqb_refl|]. right. exists sc. auto. }
    split; [reflexivity|]. split; [reflexivity|]. split; [reflexivity|]. split; [|reflexivity].
    right. exists (len spk). split; [unfold len in *; lia|]. split; auto. split; auto. split; [apply Z.eqb_refl|]. right. exists spk. auto.
Qed.

Lemma out_to_dict : forall y, json_ready_output y -> json_plain (txout_to_dict y) = true /\ json_output (txout_to_dict y) y.
Proof.
  intros y (v & h & (((O1 & O2 & O3) & A1 & A2 & A3 & A4 & A5 & A6 & A7) & IA) & VP). destruct y as [f1 f2 f3 f4 f5 f6 f7]. fields. subst f1 f2 f3 f4 f7.
  assert (BP : bytes (p2pkh h)) by (apply bytes_p2pkh, IA). assert (L25 : len (p2pkh h) = 25) by (unfold len; rewrite p2pkh_length; destruct IA as (_ & -> & _); reflexivity).
  rewrite L25 in *. split.
  - apply plain_dict; [reflexivity|reflexivity|].
    repeat (apply Forall_cons; [auto|]); auto; cbn [snd]; try (apply ascii_hex; auto using bytes_rev, le_bytes_bytes); try reflexivity.
    + eapply ascii_address; eauto.
    + eapply ascii_btc; eauto.
  - unfold txout_to_dict. fields. eexists. exists (PInt 25), v, f6, f5, h.
    split; [reflexivity|]. split; [reflexivity|]. split; auto. split; [reflexivity|]. split; [reflexivity|]. split; [reflexivity|]. split; auto. split; [reflexivity|]. split; [lia|].
    split; [reflexivity|]. split; auto. split; reflexivity.
Qed.

Lemma ready_totals : forall t, json_ready t ->
  total_input t = Some (Zsum (map ti_sat (tx_inputs t))) /\ 0 <= total_output t /\
  (forall a, 0 <= paid_to a (tx_outputs t) <= total_output t).
Proof.
  intros t (_ & FI & FO & _). split; [|split].
  - unfold total_input. replace (input_values_known t) with true; auto. symmetry. unfold input_values_known. apply forallb_forall. intros x I.
    rewrite Forall_forall in FI. destruct (FI x I) as (txid & idx & h & spk & n & _ & _ & _ & (-> & _) & _). auto.
  - unfold total_output. clear - FO. induction FO as [|y l (v & h & (W & _) & P) _ IH]; cbn [map]; [unfold Zsum; cbn; lia|].
    destruct W as (_ & _ & _ & _ & _ & _ & -> & _). unfold Zsum in *. cbn [fold_right o_value]. lia.
  - intros a. unfold paid_to, total_output. clear - FO. induction FO as [|y l (v & h & (W & _) & P) _ IH]; cbn [map filter]; [unfold Zsum; cbn; lia|].
    destruct W as (_ & _ & _ & _ & _ & _ & W & _). destruct (str_eqb (to_address y) a); cbn [map]; rewrite ?W; unfold Zsum in *; cbn [fold_right o_value] in *; lia.
Qed.

Lemma sat_text : forall n, 0 <= n <= 2100000000000000 -> exists s, satoshi_to_bitcoin (PInt n) = Ok s /\ btc_text s n.
Proof. intros. apply (satoshi_to_bitcoin_ok HU); auto. Qed.

Lemma ready_wire : forall t, json_ready t -> tx_signed t = true -> exists ins outs, tx_wire t ins outs.
Proof.
  intros t (TH & FI & FO & _) SG. apply signed_iff in SG.
  assert (W1 : exists ins, Forall2 in_wire (tx_inputs t) ins).
  { clear - FI SG. induction FI as [|x l R _ IH]; [exists []; constructor|]. apply Forall_cons_iff in SG as [(S1 & S2) SG]. destruct (IH SG) as (ins & F).
    destruct R as (txid & idx & h & spk & n & OP & _ & _ & _ & _ & _ & [(N & _)|(sc & IS)]); [congruence|]. exists (mk_sinput txid idx sc :: ins). constructor; auto. split; auto. }
  assert (W2 : exists outs, Forall2 out_wire (tx_outputs t) outs).
  { clear - FO. induction FO as [|y l (v & h & (W & _) & _) _ (outs & F)]; [exists []; constructor|]. eexists. constructor; eauto. }
  destruct W1 as (ins & W1), W2 as (outs & W2). exists ins, outs. split; auto.
Qed.

Lemma wire_ok : forall t ins outs, tx_wire t ins outs -> bytes (wire ins outs) /\ 0 < len (wire ins outs).
Proof.
  intros t ins outs (TH & FI & FO). split; [|unfold wire, len; rewrite !app_length; cbn; lia].
  apply wire_bytes. destruct TH as (_ & _ & _ & _ & _ & L1 & _ & L2). split; [|split; [|split]].
  - clear - FI. induction FI as [|x i l ins ((A1 & A2 & A3 & _) & (B1 & B2 & _)) _ IH]; constructor; auto. repeat split; auto; lia.
  - clear - FO. induction FO as [|y o l outs (A1 & _) _ IH]; constructor; auto.
  - rewrite <- (F2_len _ _ _ _ _ FI). auto.
  - rewrite <- (F2_len _ _ _ _ _ FO). auto.
Qed.

Lemma rounded_unique : forall a b u u', 0 < b -> rounded a b u -> rounded a b u' -> u = u'.
Proof.
  intros a b u u' Hb (A1 & A2) (B1 & B2). destruct (Z.eq_dec u u') as [|N]; auto. exfalso.
  assert (D : Z.abs (u - u') * b <= b). { replace (Z.abs (u - u') * b) with (Z.abs ((u * b - a) - (u' * b - a))) by (rewrite <- (Z.abs_eq b) at 3 by lia; rewrite <- Z.abs_mul; f_equal; lia). lia. }
  assert (D1 : Z.abs (u - u') = 1) by (assert (Z.abs (u - u') <> 0) by lia; nia).
  assert (EQ : 2 * Z.abs (u * b - a) = b /\ 2 * Z.abs (u' * b - a) = b) by nia. destruct EQ as [E1 E2]. destruct (A2 E1) as (x & ->), (B2 E2) as (y & ->). lia.
Qed.
(** Rounding to a fine unit first does not matter. *)
Lemma abs_small : forall x b, 0 < b -> 2 * Z.abs (x * b) <= b -> x = 0.
Proof.
  intros x b Hb H. rewrite Z.abs_mul, (Z.abs_eq b) in H by lia. destruct (Z.eq_dec x 0) as [|N]; auto. exfalso.
  assert (1 * b <= Z.abs x * b) by (apply Z.mul_le_mono_nonneg_r; lia). lia.
Qed.
Lemma rounded_twice : forall n b p c q, 0 < b -> b < p -> Z.Even p -> rounded (n * p) b c -> rounded c p q -> rounded n b q.
Proof.
  intros n b p c q Hb Hp [h Eh] (C1 & _) (Q1 & Q2). unfold rounded.
  assert (K : Z.abs (q * b - n) * p <= Z.abs (q * p - c) * b + Z.abs (c * b - n * p)).
  { rewrite <- (Z.abs_eq p) at 1 by lia. rewrite <- (Z.abs_eq b) at 2 by lia. rewrite <- !Z.abs_mul.
    replace ((q * b - n) * p) with ((q * p - c) * b + (c * b - n * p)) by ring. apply Z.abs_triangle. }
  assert (Q1b : 2 * Z.abs (q * p - c) * b <= p * b) by (apply Z.mul_le_mono_nonneg_r; lia).
  assert (B : 2 * Z.abs (q * b - n) <= b).
  { destruct (Z_le_gt_dec (2 * Z.abs (q * b - n)) b) as [|G]; auto. exfalso.
    assert (G2 : (b + 1) * p <= (2 * Z.abs (q * b - n)) * p) by (apply Z.mul_le_mono_nonneg_r; lia). 
    replace ((b + 1) * p) with (p * b + p) in G2 by ring. lia. }
  split; [exact B|]. intros T.
  (* a tie: the quotient is a multiple of the fine unit, so c is exact *)
  assert (X : c = q * p + h \/ c = q * p - h).
  { assert (TT : 2 * n = 2 * (q * b) + b \/ 2 * n = 2 * (q * b) - b) by lia. destruct TT as [N2|N2]; [left|right].
    - assert (NP : n * p = (q * p + h) * b). { rewrite Eh. transitivity (2 * n * h); [ring|]. rewrite N2. ring. }
      rewrite NP in C1. assert (Z0 : c - (q * p + h) = 0); [|lia]. apply (abs_small _ b Hb). replace ((c - (q * p + h)) * b) with (c * b - (q * p + h) * b) by ring. exact C1.
    - assert (NP : n * p = (q * p - h) * b). { rewrite Eh. transitivity (2 * n * h); [ring|]. rewrite N2. ring. }
      rewrite NP in C1. assert (Z0 : c - (q * p - h) = 0); [|lia]. apply (abs_small _ b Hb). replace ((c - (q * p - h)) * b) with (c * b - (q * p - h) * b) by ring. exact C1. }
  apply Q2. lia.
Qed.
Lemma count_bounds : forall n, 0 < n -> 1 <= count_digits n /\ 10 ^ (count_digits n - 1) <= n < 10 ^ count_digits n.
Proof.
  intros n N. unfold count_digits. destruct (digits_spec 10 n ltac:(lia)) as (D & L & V). rewrite Z.max_r in V by lia. set (ds := digits 10 n) in *.
  destruct ds as [|d r]; [rewrite val_nil in V; lia|]. split; [cbn [length]; lia|]. rewrite <- V. split; [|apply val_bounds; auto; lia].
  replace (Z.of_nat (length (d :: r)) - 1) with (Z.of_nat (length r)) by (cbn [length]; lia). apply val_lead_lower; auto; [lia|]. intro Z0. rewrite Z0 in L. exact L.
Qed.
Lemma quotient_fine : forall f size c k, 0 <= f <= 2100000000000000 -> 0 < size -> decimal_quotient f size = (c, k) ->
  rounded (f * 10 ^ k) size c /\ 0 <= c /\ 5 <= k /\ (f <> 0 -> size < 10 ^ (k - 4)).
Proof.
  intros f size c k F S0 H. unfold decimal_quotient in H. destruct (count_bounds size S0) as (S1 & S2 & S3). set (db := count_digits size) in *. cbv zeta in H.
  destruct (Z.eq_dec f 0) as [->|NZ].
  { change (count_digits 0) with 0 in H. apply pair_equal_spec in H; destruct H as [H1 H2]; subst c k. set (k := if _ <? _ then _ else _). rewrite !Z.mul_0_l. destruct (half_even_ok 0 size ltac:(lia) S0) as [R1 R2].
    split; [exact R1|]. split; [exact R2|]. split; [unfold k; destruct (_ <? _); lia|congruence]. }
  destruct (count_bounds f ltac:(lia)) as (F1 & F2 & F3). set (da := count_digits f) in *.
  assert (D16 : da <= 16). { destruct (Z_le_gt_dec da 16) as [|G]; auto. assert (10 ^ 16 <= 10 ^ (da - 1)) by (apply Z.pow_le_mono_r; lia). lia. }
  set (k0 := 27 + db - da) in *. assert (K0 : 12 <= k0) by (unfold k0; lia). set (k' := if f * 10 ^ k0 <? 10 ^ 27 * size then k0 + 1 else k0) in *.
  assert (KB : 12 <= k') by (unfold k'; destruct (_ <? _); lia).
  assert (BIG : 10 ^ 27 * size <= f * 10 ^ k').
  { unfold k'. destruct (Z.ltb_spec (f * 10 ^ k0) (10 ^ 27 * size)) as [L|L]; auto.
    assert (M : 10 ^ (da - 1) * 10 ^ (k0 + 1) <= f * 10 ^ (k0 + 1)) by (apply Z.mul_le_mono_nonneg_r; [apply Z.pow_nonneg; lia|auto]).
    rewrite <- Z.pow_add_r in M by lia. replace (da - 1 + (k0 + 1)) with (27 + db) in M by (unfold k0; lia). rewrite Z.pow_add_r in M by lia.
    eapply Z.le_trans; [|exact M]. apply Z.mul_le_mono_nonneg_l; [lia|]. lia. }
  destruct (half_even_ok (f * 10 ^ k') size ltac:(apply Z.mul_nonneg_nonneg; [lia|apply Z.pow_nonneg; lia]) S0) as [R1 N1].
  apply pair_equal_spec in H; destruct H as [H1 H2]; subst c k. split; [exact R1|]. split; [exact N1|]. split; [lia|]. intros _.
  assert (SP : 10 ^ k' = 10 ^ 4 * 10 ^ (k' - 4)) by (rewrite <- Z.pow_add_r by lia; f_equal; lia). rewrite SP in BIG. assert (P0 : 0 < 10 ^ (k' - 4)) by (apply Z.pow_pos_nonneg; lia).
  set (p := 10 ^ (k' - 4)) in *. clearbody p. clear SP R1 N1 KB k'. change (10 ^ 27) with 1000000000000000000000000000 in BIG. change (10 ^ 4) with 10000 in BIG.
  assert (U : f * (10000 * p) <= 2100000000000000 * (10000 * p)) by (apply Z.mul_le_mono_nonneg_r; lia). lia.
Qed.
Lemma fee_rate_direct : forall f size, 0 <= f <= 2100000000000000 -> 0 < size -> rounded (f * 10 ^ 4) size (fee_rate_units f size) /\ 0 <= fee_rate_units f size.
Proof.
  intros f size F S0. unfold fee_rate_units. destruct (decimal_quotient f size) as [c k] eqn:Q. destruct (quotient_fine f size c k F S0 Q) as (R & N & K & B).
  assert (P0 : 0 < 10 ^ (k - 4)) by (apply Z.pow_pos_nonneg; lia). destruct (half_even_ok c (10 ^ (k - 4)) N P0) as [R2 N2]. split; [|exact N2].
  assert (SP : 10 ^ k = 10 ^ 4 * 10 ^ (k - 4)) by (rewrite <- Z.pow_add_r by lia; f_equal; lia).
  destruct (Z.eq_dec f 0) as [->|NZ].
  { rewrite Z.mul_0_l in R. assert (c = 0) by (apply (rounded_unique 0 size); auto; split; [lia|exists 0; lia]). subst c.
    assert (U : div_half_even 0 (10 ^ (k - 4)) = 0) by (apply (rounded_unique 0 (10 ^ (k - 4))); auto; split; [lia|exists 0; lia]). rewrite U. split; [lia|exists 0; lia]. }
  eapply rounded_twice; [exact S0|exact (B NZ)| | |exact R2].
  - exists (5 * 10 ^ (k - 5)). replace (k - 4) with (1 + (k - 5)) by lia. rewrite Z.pow_add_r by lia. change (10 ^ 1) with 10. ring.
  - rewrite <- Z.mul_assoc, <- SP. exact R.
Qed.
Lemma rate_entry : forall d k f size, 0 <= f <= 2100000000000000 -> 0 < size ->
  has d k (rates (PStr (dec_text 4 (fee_rate_units f size))) (PStr (dec_text 8 (fee_rate_bitcoin_units (fee_rate_units f size))))) ->
  has_rate d k f size.
Proof.
  intros d k f size Hf Hs H. destruct (fee_rate_direct f size Hf Hs) as [R1 P1]. destruct (half_even_ok (fee_rate_units f size) (10 ^ 4) P1 ltac:(lia)) as [R2 P2].
  eexists _, _, _, _. split; [exact H|]. split; [apply dec_text_ok; auto|]. split; auto. split; [apply dec_text_ok; auto|]. exact R2.
Qed.
Lemma rates_plain : forall f size, 0 <= f <= 2100000000000000 -> 0 < size ->
  json_plain (rates (PStr (dec_text 4 (fee_rate_units f size))) (PStr (dec_text 8 (fee_rate_bitcoin_units (fee_rate_units f size))))) = true.
Proof.
  intros f size Hf Hs. destruct (fee_rate_direct f size Hf Hs) as [R1 P1]. destruct (half_even_ok (fee_rate_units f size) (10 ^ 4) P1 ltac:(lia)) as [R2 P2].
  apply plain_dict; [reflexivity|reflexivity|]. constructor; [eapply ascii_decimal; apply dec_text_ok; auto|]. constructor; [eapply ascii_decimal; apply dec_text_ok; auto|constructor].
Qed.
Lemma amounts_plain : forall n s, ascii_str s = true -> json_plain (amounts (PInt n) (PStr s)) = true.
Proof. intros n s H. apply plain_dict; [reflexivity|reflexivity|]. constructor; auto. Qed.

Lemma address_nonempty : forall h, ~ is_address h [].
Proof.
  intros h (_ & _ & n & r & ds & EQ & NL & _ & _ & _ & T). symmetry in T. apply map_eq_nil in T. apply app_eq_nil in T as [T ->].
  destruct n; [|discriminate]. cbn [repeat app] in EQ. subst r. exact NL.
Qed.

Lemma to_dict_ok : forall t, json_ready t -> exists d, to_dict t = Ok (PDict d) /\ json_plain (PDict d) = true /\
  summary t (estimated_size (length (tx_inputs t)) (length (tx_outputs t))) d /\ json_tx (PDict d) (forget_keys t).
Proof.
  intros t R. pose proof (ready_totals t R) as (TI & TO & TP). pose proof R as (TH & FI & FO & SUM & CA). fold (total_output t) in SUM.
  set (ti := Zsum (map ti_sat (tx_inputs t))) in *. set (tot := total_output t) in *.
  assert (FE : fee t = Some (ti - tot)) by (unfold fee; rewrite TI; auto).
  destruct (sat_text ti ltac:(lia)) as (s1 & E1 & T1). destruct (sat_text (ti - tot) ltac:(lia)) as (s2 & E2 & T2). destruct (sat_text tot ltac:(lia)) as (s3 & E3 & T3).
  assert (HT : tx_header t) by auto. destruct TH as (H1 & H2 & H3 & H4 & H5 & H6 & H7 & H8).
  set (sz := estimated_size (length (tx_inputs t)) (length (tx_outputs t))) in *. assert (SZ : 0 < sz) by (unfold sz, estimated_size; lia).
  assert (CH : exists c, match tx_change_address t with
             | Some a => exists s, c = amounts (PInt (paid_to a (tx_outputs t))) (PStr s) /\ btc_text s (paid_to a (tx_outputs t))
             | None => c = amounts PNone PNone end /\
             (match change t with Some c => cb <- satoshi_to_bitcoin (PInt c) ;; Ok (amounts (PInt c) (PStr cb)) | None => Ok (amounts PNone PNone) end) = Ok c /\ json_plain c = true).
  { unfold change. destruct (tx_change_address t) as [a|] eqn:EA; [|eexists; auto]. destruct (CA a eq_refl) as (h & IA).
    destruct (sat_text (paid_to a (tx_outputs t))) as (s & ES & TS); [pose proof (TP a); lia|]. exists (amounts (PInt (paid_to a (tx_outputs t))) (PStr s)).
    split; [eauto|]. unfold paid_to in ES. destruct a as [|c0 a0]; [exfalso; eapply address_nonempty; eauto|]. rewrite ES. cbn [bind]. split; auto. apply amounts_plain. eapply ascii_btc; eauto. }
  destruct CH as (c & C1 & C2 & C3).
  assert (SS : exists sb fr, (if tx_signed t then h <- to_hex_signed_form t ;; n <- hex_len (PStr h) ;;
         Ok (PInt (Z.of_nat n), rates (PStr (dec_text 4 (fee_rate_units (ti - tot) (Z.of_nat n)))) (PStr (dec_text 8 (fee_rate_bitcoin_units (fee_rate_units (ti - tot) (Z.of_nat n)))))) else Ok (PNone, amounts PNone PNone)) = Ok (sb, fr) /\ json_plain sb = true /\ json_plain fr = true /\
        if tx_signed t then exists ins outs, tx_wire t ins outs /\ sb = PInt (len (wire ins outs)) /\
           fr = rates (PStr (dec_text 4 (fee_rate_units (ti - tot) (len (wire ins outs))))) (PStr (dec_text 8 (fee_rate_bitcoin_units (fee_rate_units (ti - tot) (len (wire ins outs))))))
        else sb = PNone /\ fr = amounts PNone PNone).
  { destruct (tx_signed t) eqn:SG; [|eauto 10]. destruct (ready_wire t R SG) as (ins & outs & W). destruct (wire_ok _ _ _ W) as [BW LW].
    rewrite (tx_wire_hex _ _ _ W). cbn [bind]. rewrite hex_len_ok by auto. cbn [bind]. fold (len (wire ins outs)). eexists _, _. split; [reflexivity|].
    split; auto. split; [apply rates_plain; auto; lia|]. exists ins, outs. auto. }
  destruct SS as (sb & fr & S1 & S2 & S3 & S4).
  unfold to_dict. rewrite (estimate_ok _ _ H6 H8). fold sz. cbn [bind]. rewrite TI, FE. rewrite E1. cbn [bind]. rewrite E2. cbn [bind]. cbv zeta. fold tot. rewrite E3. cbn [bind].
  rewrite C2. cbn [bind]. rewrite S1. cbn [bind opt_int]. eexists. split; [reflexivity|]. split; [|split].
  - apply plain_dict; [reflexivity|reflexivity|]. cbn [map snd].
    assert (PI : json_plain (PList (map txin_to_dict (tx_inputs t))) = true).
    { apply plain_list. apply Forall_forall. intros v I. apply in_map_iff in I as (x & <- & Ix). rewrite Forall_forall in FI. apply in_to_dict; auto. }
    assert (PO : json_plain (PList (map txout_to_dict (tx_outputs t))) = true).
    { apply plain_list. apply Forall_forall. intros v I. apply in_map_iff in I as (x & <- & Ix). rewrite Forall_forall in FO. apply out_to_dict; auto. }
    rewrite H1, H2, H3, H4, H5, H7.
    constructor; [reflexivity|]. constructor; [apply ascii_hex, bytes1; unfold byte; lia|]. constructor; auto. constructor; [apply ascii_hex, bytes1; unfold byte; lia|]. constructor; auto.
    constructor; [reflexivity|]. constructor; [reflexivity|]. constructor; [reflexivity|]. constructor; [reflexivity|].
    constructor; [apply amounts_plain; eapply ascii_btc; eauto|]. constructor; [apply amounts_plain; eapply ascii_btc; eauto|]. constructor; [apply amounts_plain; eapply ascii_btc; eauto|].
    constructor. { destruct (tx_change_address t) as [a|] eqn:EA; auto. destruct (CA a eq_refl) as (h & IA). eapply ascii_address; eauto. }
    constructor; auto. constructor; auto. constructor; [apply rates_plain; auto; lia|]. constructor; auto.
  - unfold summary. fold ti. fold (total_output t). fold tot.
    split; [exists s1; split; [reflexivity|auto]|]. split; [exists s3; split; [reflexivity|auto]|]. split; [exists s2; split; [reflexivity|auto]|]. split.
    { destruct (tx_change_address t) as [a|] eqn:EA; [destruct C1 as (s & -> & T); split; [reflexivity|]; exists s; split; [reflexivity|auto]|]. subst c. split; reflexivity. }
    split; [reflexivity|]. split; [apply rate_entry; [lia|auto|reflexivity]|].
    destruct (tx_signed t) eqn:SG.
    + left. split; [reflexivity|]. destruct S4 as (ins & outs & W & -> & ->). exists ins, outs. split; auto. split; [reflexivity|]. apply rate_entry; [lia| |reflexivity]. eapply wire_ok; eauto.
    + right. split; [reflexivity|]. destruct S4 as (-> & ->). split; [|split; reflexivity]. clear - SG FI. unfold tx_signed in SG. induction FI as [|x l Rx _ IH]; [discriminate|].
      cbn [forallb] in SG. apply andb_false_iff in SG as [SG|SG]; [left|right; auto]. unfold txin_signed in SG.
      destruct Rx as (txid & idx & h & spk & n & _ & _ & _ & _ & _ & _ & [(N & _)|(sc & _ & _ & IS1 & IS2 & _)]); auto. rewrite IS1, IS2 in SG. discriminate.
  - eexists. exists (map txin_to_dict (tx_inputs t)), (map txout_to_dict (tx_outputs t)), (map forget_key (tx_inputs t)), (tx_outputs t), (tx_signed t). rewrite map_length.
    rewrite <- H5, <- H7, <- H1, <- H2, <- H4. split; [reflexivity|]. split; [eexists; reflexivity|]. split; [reflexivity|].
    split. { clear - FI HH HZ HU. induction FI; constructor; auto. apply in_to_dict; auto. } split; [reflexivity|].
    split. { clear - FO HH HZ HU. induction FO; constructor; auto. apply out_to_dict; auto. } split; auto. split; [reflexivity|]. split; auto. split; [reflexivity|]. split; [reflexivity|].
    split; [unfold has; cbn; rewrite H3; congruence|]. split; [reflexivity|]. split; [reflexivity|]. split.
    { intros SG. apply signed_iff in SG. clear - SG. induction SG; constructor; auto. } split.
    { fold (total_output t). fold tot. replace (map ti_sat (map forget_key (tx_inputs t))) with (map ti_sat (tx_inputs t)) by (rewrite map_map; reflexivity). fold ti. lia. }
    unfold forget_keys. f_equal. congruence.
Qed.

(** ** Decoded transactions. *)
Lemma ascii_base58 : forall p a, is_base58check p a -> ascii_str a = true.
Proof.
  intros p a (n & r & ds & _ & _ & D & _ & _ & ->). unfold ascii_str, text58. apply forallb_forall. intros c I. apply in_map_iff in I as (d & <- & Id).
  assert (Hd : 0 <= d < 58). { apply in_app_or in Id as [Id|Id]; [apply repeat_spec in Id; lia|]. unfold digits_in in D. rewrite Forall_forall in D. apply D; auto. }
  apply (range_check (fun d => (0 <=? char58 d) && (char58 d <? 128)) 58 ltac:(vm_compute; reflexivity) d). lia.
Qed.

Lemma in_first : forall A n (l : list A) x, In x (firstn n l) -> In x l.
Proof. intros A n l x I. rewrite <- (firstn_skipn n l). apply in_or_app. auto. Qed.

Lemma decoded_in_plain : forall x i, decoded_input x i -> json_plain (txin_to_dict x) = true.
Proof.
  intros x i ((A1 & A2 & A3 & A4 & A5) & sig & pub & a & (n2 & rest & P1 & P2 & P3 & P4) & LP & IA & ->). unfold txin_to_dict. fields. cbn [opt_str opt_int].
  assert (Bp : bytes pub).
  { assert (B : bytes (firstn (Z.to_nat n2) rest)). { apply Forall_forall. intros b Ib. apply in_first in Ib. rewrite P1 in A4. unfold bytes in A4. rewrite Forall_forall in A4. apply A4. apply in_or_app. right. apply in_or_app. right. apply in_or_app. right. apply in_or_app. right. auto. }
    rewrite P4 in B. inversion B; auto. }
  assert (BL : bytes [len (i_script i)]) by (apply bytes1; unfold byte, len in *; lia).
  apply plain_dict; [reflexivity|reflexivity|]. cbn [map snd].
  constructor; [apply ascii_hex, bytes_rev; auto|]. constructor; [apply ascii_hex, le_bytes_bytes|]. constructor; auto. constructor; [apply ascii_hex; auto|]. constructor; auto.
  constructor; [apply ascii_hex; auto|]. constructor; [reflexivity|]. constructor; [apply ascii_hex; auto|]. constructor; [reflexivity|]. constructor; auto.
  constructor; [apply ascii_hex, bytes_p2pkh, IA|]. constructor; [eapply ascii_address; eauto|]. constructor; [apply ascii_hex; auto|]. auto.
Qed.
Lemma decoded_out_plain : forall y o, decoded_output y o -> json_plain (txout_to_dict y) = true.
Proof.
  intros y o ((A1 & A2 & A3) & A4 & a & s & BC & BT & ->). unfold txout_to_dict. fields.
  assert (BL : bytes [len (o_script o)]) by (apply bytes1; unfold byte, len in *; lia).
  apply plain_dict; [reflexivity|reflexivity|]. cbn [map snd].
  constructor; [apply ascii_hex, le_bytes_bytes|]. constructor; [apply ascii_hex; auto|]. constructor; auto. constructor; [apply ascii_hex; auto|].
  constructor; [eapply ascii_base58; eauto|]. constructor; [eapply ascii_btc; eauto|]. auto.
Qed.
Lemma decoded_wire : forall t ins outs, decoded_tx t ins outs -> tx_wire t ins outs.
Proof.
  intros t ins outs (TH & _ & FI & FO). split; auto. split.
  - clear - FI. induction FI as [|x i l ins ((A1 & A2 & A3 & A4 & A5) & sig & pub & a & _ & _ & _ & ->) _ IH]; constructor; auto. repeat split; auto; lia.
  - clear - FO. induction FO as [|y o l outs (A1 & A2 & a & s & _ & BT & ->) _ IH]; constructor; auto. unfold out_wire. fields. auto 10.
Qed.

Lemma decoded_to_dict : forall t ins outs, decoded_tx t ins outs -> ins <> [] ->
  (Zsum (map o_value outs) <= 2100000000000000 ->
     exists d, to_dict t = Ok (PDict d) /\ json_plain (PDict d) = true /\
       has d "inputs" (PList (map txin_to_dict (tx_inputs t))) /\
       has d "signed" (PBool true) /\ has_no_amount d "total_input" /\ has_no_amount d "fee" /\ has_amount d "total_output" (Zsum (map o_value outs)) /\
       has d "size_bytes" (PInt (len (wire ins outs))) /\ has d "change_address" PNone /\ has_no_amount d "change" /\
       has d "estimated_size_bytes" (PInt (estimated_size (length ins) (length outs))) /\
       has d "estimated_fee_rate" (PDict [(lit "satoshi_per_byte", PNone); (lit "bitcoin_per_byte", PNone)]) /\ has_no_amount d "fee_rate") /\
  (2100000000000000 < Zsum (map o_value outs) -> to_dict t = Err ValueError).
Proof.
  intros t ins outs D NE. pose proof (decoded_wire _ _ _ D) as W. destruct (wire_ok _ _ _ W) as [BW LW]. pose proof D as (TH & CN & FI & FO).
  assert (TI : total_input t = None).
  { unfold total_input, input_values_known. destruct FI as [|x i l ins' Dx FI]; [congruence|]. cbn [forallb]. destruct Dx as (_ & sig & pub & a & _ & _ & _ & ->). reflexivity. }
  assert (FE : fee t = None) by (unfold fee; rewrite TI; auto).
  assert (TO : total_output t = Zsum (map o_value outs)).
  { unfold total_output. f_equal. clear - FO. induction FO as [|y o l outs (A1 & A2 & a & s & _ & BT & ->) _ IH]; auto. cbn [map]. rewrite IH. auto. }
  assert (NN : 0 <= Zsum (map o_value outs)).
  { clear - FO. induction FO as [|y o l outs ((A1 & _) & _) _ IH]; [unfold Zsum; cbn; lia|]. unfold Zsum in *. cbn [map fold_right]. lia. }
  assert (SG : tx_signed t = true).
  { unfold tx_signed. clear - FI. induction FI as [|x i l ins (_ & sig & pub & a & _ & _ & _ & ->) _ IH]; auto. }
  destruct TH as (H1 & H2 & H3 & H4 & H5 & H6 & H7 & H8). set (m := Zsum (map o_value outs)) in *.
  unfold to_dict. rewrite (estimate_ok _ _ H6 H8). cbn [bind]. rewrite TI, FE. cbn [bind]. rewrite TO. split.
  - intros M. destruct (sat_text m ltac:(lia)) as (s & ES & TS). rewrite ES. cbn [bind]. unfold change. rewrite CN. cbn [bind]. rewrite SG, (tx_wire_hex _ _ _ W). cbn [bind]. rewrite hex_len_ok by auto. cbn [bind]. cbv zeta. fold (len (wire ins outs)).
    assert (LI : length (tx_inputs t) = length ins) by (eapply F2_len; eauto). assert (LO : length (tx_outputs t) = length outs) by (eapply F2_len; eauto). rewrite LI, LO in *.
    eexists. split; [reflexivity|]. split.
    + apply plain_dict; [reflexivity|reflexivity|]. cbn [map snd opt_int opt_str].
      assert (PI : json_plain (PList (map txin_to_dict (tx_inputs t))) = true).
      { apply plain_list. clear - FI. induction FI; constructor; auto. eapply decoded_in_plain; eauto. }
      assert (PO : json_plain (PList (map txout_to_dict (tx_outputs t))) = true).
      { apply plain_list. clear - FO. induction FO; constructor; auto. eapply decoded_out_plain; eauto. }
      rewrite H1, H2, H3, H4, H5, H7.
      constructor; [reflexivity|]. constructor; [apply ascii_hex, bytes1; unfold byte; lia|]. constructor; auto. constructor; [apply ascii_hex, bytes1; unfold byte; lia|]. constructor; auto.
      constructor; [reflexivity|]. constructor; [reflexivity|]. constructor; [reflexivity|]. constructor; [reflexivity|]. constructor; [reflexivity|].
      constructor; [apply amounts_plain; eapply ascii_btc; eauto|]. repeat (constructor; [reflexivity|]). constructor.
    + do 4 (split; [reflexivity|]). split; [|repeat (split; [reflexivity|]); reflexivity]. exists s. split; [reflexivity|auto].
  - intros M. rewrite (satoshi_to_bitcoin_bad) by lia. reflexivity.
Qed.

End WithEnv.
