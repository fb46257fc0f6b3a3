(** Hexadecimal text, against HelperSpec. *)
From Coq Require Import String Floats.SpecFloat Lia.
From Verif Require Import PyBase Env PyNum Validate Basic Spec EnvOk NumSpec TxInput TxOutput Tx TxSpec HelperSpec.
From Verif Require Import NumLemmas HexProofs NumProofs WireProofs.
Open Scope Z_scope.

Lemma digit16 : forall c d, digit_in 16 c = Some d <-> hex_digit c d.
Proof.
  intros c d. unfold digit_in, digit_val, hex_digit.
  destruct (Z.leb_spec 48 c), (Z.leb_spec c 57), (Z.leb_spec 97 c), (Z.leb_spec c 122), (Z.leb_spec 65 c), (Z.leb_spec c 90); cbn [andb]; try lia;
    repeat match goal with |- context [?x <? 16] => destruct (Z.ltb_spec x 16) end; try lia;
    (split; [first [intros [= <-]; lia|discriminate]|first [intros; f_equal; lia|lia]]).
Qed.
Lemma fromhex_iff : forall s bs, bytes_fromhex s = Ok bs <-> spaced_hex s bs.
Proof.
  intros s bs. split.
  - revert bs. remember (length s) as n eqn:L. revert s L. induction n as [n IH] using lt_wf_ind. intros s L bs H. destruct s as [|c r]; cbn [bytes_fromhex] in H.
    + injection H as <-. constructor.
    + destruct (Z.eqb_spec c 32) as [->|N].
      * constructor. apply (IH (length r)); auto. cbn [length] in L. lia.
      * destruct r as [|d r]; [discriminate|]. unfold hex_nibble in H. destruct (digit_in 16 c) as [h|] eqn:C; [|discriminate]. destruct (digit_in 16 d) as [l|] eqn:D; [|discriminate].
        inv_bind H x Hx. injection H as <-. constructor; [apply digit16; auto|apply digit16; auto|]. apply (IH (length r)); auto. cbn [length] in L. lia.
  - induction 1 as [|s bs H IH|c d h l s bs C D H IH]; [reflexivity|exact IH|]. cbn [bytes_fromhex].
    assert (N : c <> 32) by (unfold hex_digit in C; lia). apply Z.eqb_neq in N. rewrite N. apply digit16 in C, D. unfold hex_nibble. rewrite C, D, IH. reflexivity.
Qed.
Lemma fromhex_class : forall s e, bytes_fromhex s = Err e -> e = ValueError.
Proof.
  intros s. remember (length s) as n eqn:L. revert s L. induction n as [n IH] using lt_wf_ind. intros s L e H. destruct s as [|c r]; cbn [bytes_fromhex] in H; [discriminate|].
  destruct (c =? 32). { eapply (IH (length r)); eauto. cbn [length] in L. lia. }
  destruct r as [|d r]; [congruence|]. destruct (hex_nibble c), (hex_nibble d); try congruence. destruct (bytes_fromhex r) as [x|e'] eqn:R; cbn [bind] in H; [discriminate|]. injection H as <-.
  eapply (IH (length r)); eauto. cbn [length] in L. lia.
Qed.
Lemma spaced_bytes : forall s bs, spaced_hex s bs -> bytes bs.
Proof. induction 1 as [|s bs H IH|c d h l s bs C D H IH]; auto; constructor; auto. unfold byte, hex_digit in *. lia. Qed.
Lemma spaced_hex_of : forall bs, bytes bs -> spaced_hex (hex_of bs) bs.
Proof. intros bs B. apply fromhex_iff. apply bytes_fromhex_ok. auto. Qed.

Section WithEnv.
Context {E : Env}.
Hypothesis HU : UniOk E.

Lemma hexd_ascii : forall c d, any_hex_digit (to_ascii c) d <-> any_hex_digit c d.
Proof.
  intros c d. unfold any_hex_digit. rewrite (dec_ascii HU). split; (intros [H|H]; [|right; exact H]).
  - destruct H as [H|[D C]]; [right; apply (dec_ascii HU); left; auto|]. left. right. split; auto. destruct C as [C|C]; apply (other_ascii HU) in C; auto; lia.
  - left. rewrite other_ascii_id; auto. unfold hex_digit in H. lia.
Qed.
Lemma hexds_lift : forall s ds, hex_digits_text (map to_ascii s) ds <-> hex_digits_text s ds.
Proof.
  split.
  - intros H. remember (map to_ascii s) as t eqn:T. revert s T. induction H as [c d D|c d t ds D H IH|c d t ds D H IH]; intros s T.
    + destruct s as [|c' [|? ?]]; try discriminate. injection T as ->. constructor. apply hexd_ascii; auto.
    + destruct s as [|c' s]; try discriminate. injection T as -> ->. apply next_hex; [apply hexd_ascii; auto|apply IH; auto].
    + destruct s as [|c' [|u s]]; try discriminate. injection T as -> U ->. symmetry in U. apply (other_ascii HU) in U; try lia. subst u. apply under_hex; [apply hexd_ascii; auto|apply IH; auto].
  - induction 1; cbn [map]; [constructor|apply next_hex|rewrite (other_ascii_id 95) by lia; apply under_hex]; auto; apply hexd_ascii; auto.
Qed.
Lemma prefix_lift : forall s, prefix_text (map to_ascii s) <-> prefix_text s.
Proof.
  intros s. split.
  - intros H. inversion H as [Q|z x Z0 X Q|z x Z0 X Q].
    + destruct s; [constructor|discriminate].
    + destruct s as [|z' [|x' [|? ?]]]; try discriminate. injection Q as -> Q. rewrite (dec_ascii HU) in Z0. symmetry in Q. apply (other_ascii HU) in Q; try lia. subst x'. constructor; auto.
    + destruct s as [|z' [|x' [|u [|? ?]]]]; try discriminate. injection Q as -> Q U. rewrite (dec_ascii HU) in Z0. symmetry in Q, U. apply (other_ascii HU) in Q; try lia. apply (other_ascii HU) in U; try lia. subst x' u. constructor; auto.
  - intros []; cbn [map]; [constructor|rewrite (other_ascii_id x) by lia; constructor; auto; apply (dec_ascii HU); auto|].
    rewrite (other_ascii_id x), (other_ascii_id 95) by lia. constructor; auto. apply (dec_ascii HU); auto.
Qed.
Ltac split_map H := let a := fresh "s" in let b := fresh "s" in apply map_eq_app in H as (a & b & -> & <- & H).
Lemma hexint_lift : forall s n, hex_int_text (map to_ascii s) n <-> hex_int_text s n.
Proof.
  intros s n. split.
  - intros (w & sg & neg & p & b & ds & w' & Q & W & W' & S & P & D & N). split_map Q. split_map Q. split_map Q. split_map Q. subst w'. rewrite (spaces_lift HU) in W, W'. rewrite (sign_lift HU) in S.
    rewrite prefix_lift in P. rewrite hexds_lift in D. eexists _, _, neg, _, _, ds, _. split; [reflexivity|]. auto 10.
  - intros (w & sg & neg & p & b & ds & w' & -> & W & W' & S & P & D & N). rewrite !map_app. eexists _, _, neg, _, _, ds, _. split; [reflexivity|]. rewrite !(spaces_lift HU), (sign_lift HU), prefix_lift, hexds_lift. auto 10.
Qed.

Lemma hexd_lt : forall c d, c < 128 -> (any_hex_digit c d <-> digit_in 16 c = Some d).
Proof. intros c d L. rewrite digit16. unfold any_hex_digit, dec_char, hex_digit. intuition lia. Qed.
Definition hstops (t : pystr) : Prop := match t with [] => True | c :: _ => digit_in 16 c = None /\ c <> 95 end.
Lemma val_grow16 : forall acc d ds, (acc * 16 + d) * 16 ^ Z.of_nat (length ds) + val 16 ds = acc * 16 ^ Z.of_nat (length (d :: ds)) + val 16 (d :: ds).
Proof. intros. rewrite val_cons. cbn [length]. rewrite Nat2Z.inj_succ, Z.pow_succ_r by lia. ring. Qed.

Lemma hex_digits_fwd : forall b ds, hex_digits_text b ds -> ascii b -> forall acc prev rest, hstops rest ->
  int_digits 16 acc prev (b ++ rest) = Some (acc * 16 ^ Z.of_nat (length ds) + val 16 ds, rest).
Proof.
  induction 1 as [c d D|c d s ds D H IH|c d s ds D H IH]; intros A acc prev rest S.
  - apply Forall_cons_iff in A as [A _]. rewrite hexd_lt in D by auto. cbn [app int_digits]. rewrite D.
    assert (V : acc * 16 + d = acc * 16 ^ Z.of_nat (length [d]) + val 16 [d]). { rewrite <- val_grow16. rewrite val_nil. change (16 ^ Z.of_nat (length (@nil Z))) with 1. ring. }
    destruct rest as [|x r]; cbn [int_digits]; [rewrite <- V; reflexivity|]. destruct S as [S1 S2]. rewrite S1. apply Z.eqb_neq in S2. rewrite S2. rewrite <- V. reflexivity.
  - apply Forall_cons_iff in A as [A A']. rewrite hexd_lt in D by auto. cbn [app int_digits]. rewrite D. rewrite IH by auto. rewrite val_grow16. reflexivity.
  - apply Forall_cons_iff in A as [A A']. apply Forall_cons_iff in A' as [_ A']. rewrite hexd_lt in D by auto. cbn [app int_digits]. rewrite D.
    change (digit_in 16 95) with (@None Z). cbn [Z.eqb Pos.eqb]. rewrite IH by auto. rewrite val_grow16. reflexivity.
Qed.
Lemma hex_digits_inv : forall t acc prev v rest, ascii t -> int_digits 16 acc prev t = Some (v, rest) ->
  exists b ds, t = b ++ rest /\ v = acc * 16 ^ Z.of_nat (length ds) + val 16 ds /\
    ((prev = true /\ b = [] /\ ds = []) \/ hex_digits_text b ds \/ (prev = true /\ exists b', b = 95 :: b' /\ hex_digits_text b' ds)).
Proof.
  induction t as [|c t IH]; intros acc prev v rest A H; cbn [int_digits] in H.
  - destruct prev; [|discriminate]. injection H as <- <-. exists [], []. split; [reflexivity|]. split; [rewrite val_nil; change (16 ^ Z.of_nat (length (@nil Z))) with 1; ring|]. left. auto.
  - apply Forall_cons_iff in A as [A A']. destruct (digit_in 16 c) as [d|] eqn:D.
    + apply IH in H as (b & ds & -> & -> & C); auto. exists (c :: b), (d :: ds). split; [reflexivity|]. split; [apply val_grow16|]. right. left.
      assert (DC : any_hex_digit c d) by (apply hexd_lt; auto). destruct C as [(_ & -> & ->)|[C|(_ & b' & -> & C)]]; [apply one_hex|apply next_hex|apply under_hex]; auto.
    + destruct (Z.eqb_spec c 95) as [->|N].
      * destruct prev; [|discriminate]. apply IH in H as (b & ds & -> & -> & C); auto. exists (95 :: b), ds. split; [reflexivity|]. split; [reflexivity|]. right. right. split; auto. exists b. split; auto.
        destruct C as [(X & _)|[C|(X & _)]]; auto; discriminate.
      * destruct prev; [|discriminate]. injection H as <- <-. exists [], []. split; [reflexivity|]. split; [rewrite val_nil; change (16 ^ Z.of_nat (length (@nil Z))) with 1; ring|]. left. auto.
Qed.
Lemma hexds_head : forall b ds, hex_digits_text b ds -> exists c d r, b = c :: r /\ any_hex_digit c d.
Proof. intros b ds []; eauto 6. Qed.
Lemma spaces_hstop : forall w, ascii w -> Forall space w -> hstops w.
Proof.
  intros w A F. destruct F as [|c w C F]; [exact I|]. apply Forall_cons_iff in A as [A _]. pose proof (space_low c C A) as L. split; [|lia].
  destruct (digit_in 16 c) eqn:D; auto. apply digit16 in D. unfold hex_digit in D. lia.
Qed.
(** Skipping the prefix. *)
Lemma skip_prefix_inv : forall s, ascii s -> exists p, prefix_text p /\ s = p ++ skip_prefix 16 s.
Proof.
  intros s A. unfold skip_prefix. change (16 =? 16) with true. cbv iota. destruct s as [|z [|x r]]; try (exists []; split; [constructor|reflexivity]).
  - destruct (Z.eq_dec z 48) as [->|N]; [exists []; split; [constructor|reflexivity]|]. exists []. split; [constructor|]. destruct z as [|q|q]; auto. do 6 (try (destruct q as [q|q|]; auto)).
  - destruct (Z.eq_dec z 48) as [->|N].
    + destruct ((x =? 120) || (x =? 88)) eqn:X; [|exists []; split; [constructor|reflexivity]]. assert (X' : x = 120 \/ x = 88) by (apply orb_true_iff in X; rewrite !Z.eqb_eq in X; auto).
      assert (Z0 : dec_char 48 0) by (left; lia). destruct r as [|u r]; [exists [48; x]; split; [constructor; auto|reflexivity]|]. destruct (Z.eqb_spec u 95) as [->|U]; [exists [48; x; 95]|exists [48; x]]; (split; [constructor; auto|reflexivity]).
    + exists []. split; [constructor|]. destruct z as [|q|q]; auto. do 6 (try (destruct q as [q|q|]; auto)); congruence.
Qed.
Lemma skip_prefix_fwd : forall p b ds rest, prefix_text p -> ascii (p ++ b) -> hex_digits_text b ds -> ascii rest -> Forall space rest -> skip_prefix 16 (p ++ b ++ rest) = b ++ rest.
Proof.
  intros p b ds rest P A B Ar' R. destruct (hexds_head _ _ B) as (c & d & r & Q & C). apply Forall_app in A as [Ap Ab]. rewrite Q in Ab. apply Forall_cons_iff in Ab as [Ac Ar]. pose proof (proj1 (hexd_lt _ _ Ac) C) as C'.
  assert (NU : c <> 95) by (intros ->; discriminate).
  unfold skip_prefix. change (16 =? 16) with true. cbv iota. destruct P as [|z x Z0 X|z x Z0 X]; cbn [app].
  - rewrite Q in *. cbn [app]. destruct (Z.eq_dec c 48) as [->|N].
    + destruct (r ++ rest) as [|x r'] eqn:RR; auto. destruct ((x =? 120) || (x =? 88)) eqn:X; auto. exfalso. assert (X' : x = 120 \/ x = 88) by (apply orb_true_iff in X; rewrite !Z.eqb_eq in X; auto).
      assert (NX : digit_in 16 x = None) by (destruct X' as [->| ->]; reflexivity).
      inversion B as [c0 d0 D0 Q1 Q2|c0 d0 s0 ds0 D0 H0 Q1 Q2|c0 d0 s0 ds0 D0 H0 Q1 Q2]; subst.
      * cbn [app] in RR. subst rest. apply Forall_cons_iff in R as [R _]. apply Forall_cons_iff in Ar' as [Ar' _]. pose proof (space_low _ R Ar'). lia.
      * destruct (hexds_head _ _ H0) as (c1 & d1 & r1 & -> & C1). injection RR as -> RR. apply Forall_cons_iff in Ar as [Ar _]. apply (hexd_lt _ _ Ar) in C1. congruence.
      * injection RR as RR _. subst x. lia.
    + destruct c as [|q|q]; auto. do 6 (try (destruct q as [q|q|]; auto)); congruence.
  - apply Forall_cons_iff in Ap as [Az _]. rewrite dec_lt in Z0 by auto. replace z with 48 by lia. replace ((x =? 120) || (x =? 88)) with true by (destruct X as [->| ->]; reflexivity). rewrite Q. cbn [app]. apply Z.eqb_neq in NU. rewrite NU. reflexivity.
  - apply Forall_cons_iff in Ap as [Az _]. rewrite dec_lt in Z0 by auto. replace z with 48 by lia. replace ((x =? 120) || (x =? 88)) with true by (destruct X as [->| ->]; reflexivity). reflexivity.
Qed.
Lemma hex_int_iff : forall s n, hex_to_int s = Ok n <-> hex_int_text s n.
Proof.
  intros s n. rewrite <- hexint_lift. unfold hex_to_int, py_int_str. pose proof (ascii_map HU s) as A. set (t := map to_ascii s) in *. clearbody t. clear s. split.
  - intros H. destruct (skip_inv t A) as (w & Q & W & P). set (s1 := skip_spaces t) in *. assert (A1 : ascii s1) by (rewrite Q in A; apply Forall_app in A; apply A).
    assert (SG : exists sg s2, s1 = sg ++ s2 /\ sign_text sg (fst (match s1 with c :: r => if c =? 45 then (true, r) else if c =? 43 then (false, r) else (false, s1) | [] => (false, s1) end)) /\
                 s2 = snd (match s1 with c :: r => if c =? 45 then (true, r) else if c =? 43 then (false, r) else (false, s1) | [] => (false, s1) end)).
    { destruct s1 as [|c r]; [exists [], []; repeat split; constructor|]. destruct (Z.eqb_spec c 45) as [->|]; [exists [45], r; repeat split; constructor|].
      destruct (Z.eqb_spec c 43) as [->|]; [exists [43], r; repeat split; constructor|]. exists [], (c :: r); repeat split; constructor. }
    destruct (match s1 with c :: r => if c =? 45 then (true, r) else if c =? 43 then (false, r) else (false, s1) | [] => (false, s1) end) as [neg s2]. cbn [fst snd] in SG.
    destruct SG as (sg & x & Q1 & S & ->). rewrite Q1 in A1. apply Forall_app in A1 as [_ A2]. destruct (skip_prefix_inv s2 A2) as (p & PT & Q2). destruct (int_digits 16 0 false (skip_prefix 16 s2)) as [[v rest]|] eqn:D; [|discriminate].
    destruct (all_spaces rest) eqn:R; [|discriminate]. injection H as <-. rewrite Q2 in A2. apply Forall_app in A2 as [_ A2].
    apply hex_digits_inv in D as (b & ds & Q3 & -> & C); auto. rewrite Q3 in *. apply Forall_app in A2 as [_ A3]. apply all_spaces_iff in R; auto.
    destruct C as [(X & _)|[C|(X & _)]]; try discriminate. exists w, sg, neg, p, b, ds, rest. rewrite Q, Q1, Q2. repeat (split; [auto|]). reflexivity.
  - intros (w & sg & neg & p & b & ds & w' & -> & W & W' & S & PT & D & ->).
    pose proof A as A0. apply Forall_app in A0 as [_ A1]. apply Forall_app in A1 as [Asg A2]. apply Forall_app in A2 as [Ap A2]. apply Forall_app in A2 as [Ab Aw].
    assert (Apb : ascii (p ++ b)) by (apply Forall_app; auto). pose proof (skip_prefix_fwd p b ds w' PT Apb D Aw W') as SP.
    assert (HD : exists c r, p ++ b ++ w' = c :: r /\ 48 <= c < 128).
    { destruct PT as [|z x Z0 X|z x Z0 X]; [|exists z, (x :: b ++ w')|exists z, (x :: 95 :: b ++ w')].
      - destruct (hexds_head _ _ D) as (c & d & r & -> & C). exists c, (r ++ w'). split; auto. apply Forall_cons_iff in Ab as [Ac _]. rewrite hexd_lt in C by auto. apply digit16 in C. unfold hex_digit in C. lia.
      - split; auto. apply Forall_cons_iff in Ap as [Az _]. rewrite dec_lt in Z0 by auto. lia.
      - split; auto. apply Forall_cons_iff in Ap as [Az _]. rewrite dec_lt in Z0 by auto. lia. }
    destruct HD as (c & r & HQ & HC). rewrite skip_fwd; auto.
    + pose proof (hex_digits_fwd _ _ D Ab 0 false w' (spaces_hstop _ Aw W')) as I1. apply (all_spaces_iff _ Aw) in W'. rewrite <- SP in I1. rewrite HQ in *.
      destruct S; cbn [app]; [|change (43 =? 45) with false; change (43 =? 43) with true|change (45 =? 45) with true]; cbv iota.
      * replace (c =? 45) with false by (symmetry; apply Z.eqb_neq; lia). replace (c =? 43) with false by (symmetry; apply Z.eqb_neq; lia). rewrite I1, W'. reflexivity.
      * rewrite I1, W'. reflexivity.
      * rewrite I1, W'. reflexivity.
    + destruct S; cbn [app starts_plain]; [rewrite HQ; cbn [app]|..]; intros X; apply space_low in X; lia.
Qed.
Lemma hex_int_class : forall s e, hex_to_int s = Err e -> e = ValueError.
Proof.
  intros s e H. unfold hex_to_int, py_int_str in H.
  destruct (match skip_spaces (map to_ascii s) with c :: r => if c =? 45 then (true, r) else if c =? 43 then (false, r) else (false, skip_spaces (map to_ascii s)) | [] => (false, skip_spaces (map to_ascii s)) end) as [neg s2].
  destruct (int_digits 16 0 false (skip_prefix 16 s2)) as [[v rest]|]; [|congruence]. destruct (all_spaces rest); congruence.
Qed.

End WithEnv.
