(** Bitcoin amounts: text to satoshi and back. *)
From Coq Require Import String Floats.SpecFloat Lia.
From Verif Require Import PyBase Env PyNum Validate Basic Spec EnvOk NumLemmas HexProofs FloatProofs.

Section WithEnv.
Context {E : Env}.
Hypothesis HU : UniOk E.

Definition dchar (d : Z) : Z := 48 + d.

Lemma dec_char_digit : forall c d, dec_char c d -> 0 <= d <= 9 /\ char_isdigit c = true /\ to_ascii c = dchar d /\ c <> 46.
Proof.
  intros c d [[H ->]|[H1 H2]].
  - unfold char_isdigit, to_ascii, dchar. replace (48 + d <? 128) with true by (symmetry; apply Z.ltb_lt; lia).
    repeat split; try lia.
  - destruct HU as [U1 U2]. destruct (U1 c d H2) as [A B]. unfold char_isdigit, to_ascii, dchar.
    replace (c <? 128) with false by (symmetry; apply Z.ltb_ge; lia).
    destruct (uni_isspace c) eqn:Es. { apply U2 in Es. destruct Es. congruence. }
    rewrite H2. repeat split; auto; lia.
Qed.

Lemma isdigit_cases : forall c, char_isdigit c = true -> (exists d, dec_char c d) \/ (to_ascii c = 63 /\ c <> 46 /\ 128 <= c /\ uni_decimal c = None).
Proof.
  intros c H. unfold char_isdigit in H. destruct (c <? 128) eqn:Ec.
  - apply andb_prop in H. destruct H as [A B]. apply Z.leb_le in A, B. left. exists (c - 48). left. lia.
  - apply Z.ltb_ge in Ec. destruct (uni_decimal c) as [d|] eqn:Ed.
    + left. exists d. right. auto.
    + right. unfold to_ascii. replace (c <? 128) with false by (symmetry; apply Z.ltb_ge; lia).
      destruct (uni_isspace c) eqn:Es. { destruct HU as [_ U2]. apply U2 in Es. destruct Es. congruence. }
      rewrite Ed. repeat split; auto; lia.
Qed.

(** A run of isdigit characters is a run of decimal digits, or has a first non-decimal one. *)
Lemma run_cases : forall a, forallb char_isdigit a = true ->
  (exists ds, Forall2 dec_char a ds) \/
  (exists ds a1 c a2, a = a1 ++ c :: a2 /\ Forall2 dec_char a1 ds /\ to_ascii c = 63 /\ forallb char_isdigit a2 = true).
Proof.
  induction a as [|c a IH]; intros H.
  - left. exists []. constructor.
  - simpl in H. apply andb_prop in H. destruct H as [Hc Ha].
    destruct (isdigit_cases c Hc) as [[d Hd]|[Hq _]].
    + destruct (IH Ha) as [[ds Hds]|[ds [a1 [c1 [a2 [-> [B [C D]]]]]]]].
      * left. exists (d :: ds). constructor; auto.
      * right. exists (d :: ds), (c :: a1), c1, a2. repeat split; auto.
    + right. exists [], [], c, a. repeat split; auto.
Qed.

Lemma dec_run : forall a ds, Forall2 dec_char a ds ->
  digits_in 10 ds /\ map to_ascii a = map dchar ds /\ forallb char_isdigit a = true /\ ~ In 46 a /\ length a = length ds.
Proof.
  induction 1 as [|c d a ds Hc Ha IH].
  - simpl. repeat split; auto. constructor.
  - destruct IH as [I1 [I2 [I3 [I4 I5]]]]. destruct (dec_char_digit c d Hc) as [C1 [C2 [C3 C4]]].
    simpl. rewrite C2, I3, I2, C3, I5. repeat split; auto. { constructor; auto. lia. }
    intros [A|A]; auto.
Qed.

(** Strings made of ASCII digits, '.', '?' . *)
Definition okc (c : Z) : Prop := 48 <= c <= 57 \/ c = 46 \/ c = 63.

Lemma okc_isdigit : forall a, forallb char_isdigit a = true -> Forall okc (map to_ascii a).
Proof.
  induction a as [|c a IH]; intros H; simpl; constructor; simpl in H; apply andb_prop in H; destruct H as [Hc Ha]; auto.
  destruct (isdigit_cases c Hc) as [[d Hd]|[Hq _]].
  - destruct (dec_char_digit c d Hd) as [C1 [_ [C3 _]]]. rewrite C3. unfold okc, dchar. lia.
  - rewrite Hq. unfold okc. lia.
Qed.

Lemma okc_not_space : forall c, okc c -> ascii_space c = false.
Proof.
  intros c H. unfold ascii_space. assert (33 <= c) by (unfold okc in H; lia).
  apply orb_false_iff. split; [apply andb_false_iff; right; apply Z.leb_gt; lia|apply Z.eqb_neq; lia].
Qed.

Lemma skip_spaces_okc : forall t, Forall okc t -> skip_spaces t = t.
Proof. intros t H. destruct H as [|c t Hc Ht]; auto. simpl. now rewrite okc_not_space. Qed.

Lemma strip_end_okc : forall t, Forall okc t -> strip_end t = t.
Proof.
  induction 1 as [|c t Hc Ht IH]; auto. simpl. rewrite IH. destruct t; auto. now rewrite okc_not_space.
Qed.

Lemma drop_underscores_okc : forall t prev, Forall okc t -> drop_underscores prev t = Some t.
Proof.
  intros t prev H; revert prev. induction H as [|c t Hc Ht IH]; intros prev; auto. simpl.
  replace (c =? 95) with false by (symmetry; apply Z.eqb_neq; unfold okc in Hc; lia). now rewrite IH.
Qed.

Lemma lower_okc : forall t, Forall okc t -> map lower t = t.
Proof.
  induction 1 as [|c t Hc Ht IH]; auto. simpl. rewrite IH. f_equal. unfold lower.
  destruct ((65 <=? c) && (c <=? 90)) eqn:B; auto. apply andb_prop in B. destruct B as [B1 B2].
  apply Z.leb_le in B1, B2. unfold okc in Hc. lia.
Qed.

Lemma okc_not_word : forall t c r, Forall okc t -> 64 <= c -> str_eqb t (c :: r) = false.
Proof.
  intros t c r H Hc. apply str_eqb_neq. intros ->. inversion H; subst. unfold okc in H2. lia.
Qed.

(** The numeric part of a float literal. *)
Definition float_core (t : pystr) : option spec_float :=
  let '(ip, ni, s1) := take_digits 0 0 t in
  let '(m, nf, s2) := match s1 with
                      | c :: r => if c =? 46 then take_digits ip 0 r else (ip, 0, s1)
                      | [] => (ip, 0, s1)
                      end in
  if ni + nf =? 0 then None
  else match s2 with [] => Some (float_of_dec false m (- nf)) | _ :: _ => None end.

Lemma py_float_okc : forall s t, map to_ascii s = t -> Forall okc t ->
  match float_core t with Some f => py_float_str s = Ok f | None => py_float_str s = Err ValueError end.
Proof.
  intros s t <- H. set (t := map to_ascii s) in *.
  assert (P : parse_unsigned_float false t = float_core t).
  { unfold parse_unsigned_float, float_core. rewrite lower_okc by auto.
    change (lit "inf") with [105; 110; 102]. change (lit "infinity") with [105; 110; 102; 105; 110; 105; 116; 121].
    change (lit "nan") with [110; 97; 110]. rewrite !okc_not_word by (auto; lia). cbn [orb].
    assert (K : forall acc cnt u x y r, Forall okc u -> take_digits acc cnt u = (x, y, r) -> Forall okc r).
    { intros acc cnt u; revert acc cnt. induction u as [|c u IH]; intros acc cnt x y r Hu Ht; simpl in Ht.
      - injection Ht as _ _ <-. constructor.
      - destruct (is_dig c). + inversion Hu; subst. eapply IH; eauto. + injection Ht as _ _ <-. auto. }
    destruct (take_digits 0 0 t) as [[ip ni] s1] eqn:T1. pose proof (K _ _ _ _ _ _ H T1) as K1.
    destruct s1 as [|c r].
    - reflexivity.
    - destruct (c =? 46).
      + inversion K1; subst. destruct (take_digits ip 0 r) as [[m nf] s2] eqn:T2. pose proof (K _ _ _ _ _ _ H3 T2) as K2.
        destruct (ni + nf =? 0); auto. destruct s2 as [|e s2]; auto. inversion K2; subst.
        replace ((e =? 101) || (e =? 69)) with false; auto. symmetry. unfold okc in H4.
        apply orb_false_iff. split; apply Z.eqb_neq; lia.
      + destruct (ni + 0 =? 0); auto. inversion K1; subst. unfold okc in H2.
        replace ((c =? 101) || (c =? 69)) with false; auto. symmetry.
        apply orb_false_iff. split; apply Z.eqb_neq; lia. }
  unfold py_float_str. fold t. rewrite skip_spaces_okc by auto. rewrite strip_end_okc by auto. rewrite drop_underscores_okc by auto.
  assert (Q : match t with
              | [] => None
              | c :: t' => if c =? 45 then parse_unsigned_float true t' else if c =? 43 then parse_unsigned_float false t'
                           else parse_unsigned_float false t
              end = float_core t).
  { destruct t as [|c u] eqn:Et. reflexivity. inversion H; subst. unfold okc in H2.
    replace (c =? 45) with false by (symmetry; apply Z.eqb_neq; lia).
    replace (c =? 43) with false by (symmetry; apply Z.eqb_neq; lia). exact P. }
  rewrite Q. destruct (float_core t); reflexivity.
Qed.

Lemma take_digits_run : forall ds acc cnt rest, digits_in 10 ds ->
  match rest with [] => True | c :: _ => is_dig c = false end ->
  take_digits acc cnt (map dchar ds ++ rest) = (acc * 10 ^ Z.of_nat (length ds) + val 10 ds, cnt + Z.of_nat (length ds), rest).
Proof.
  induction ds as [|d ds IH]; intros acc cnt rest Hd Hr.
  - simpl app. destruct rest as [|c rest].
    + cbn [take_digits map length Z.of_nat]. rewrite val_nil, Z.pow_0_r. repeat f_equal; lia.
    + cbn [take_digits]. rewrite Hr. cbn [length Z.of_nat]. rewrite val_nil, Z.pow_0_r. repeat f_equal; lia.
  - inversion Hd; subst. cbn [map app take_digits].
    replace (is_dig (dchar d)) with true.
    2:{ symmetry. unfold is_dig, dchar. apply andb_true_intro. split; apply Z.leb_le; lia. }
    rewrite IH by auto. rewrite (val_cons 10 d ds). unfold dchar. cbn [length].
    rewrite Nat2Z.inj_succ, Z.pow_succ_r by lia.
    match goal with |- (?a, ?b, _) = (?c, ?d, _) => replace a with c by ring; replace b with d by lia; reflexivity end.
Qed.

(** float() of a numeral without dot / with dot. *)
Lemma float_core_int : forall ds, digits_in 10 ds -> ds <> [] ->
  float_core (map dchar ds) = Some (float_of_dec false (val 10 ds) 0).
Proof.
  intros ds H Hn. unfold float_core. rewrite <- (app_nil_r (map dchar ds)), take_digits_run by (simpl; auto).
  cbn [Z.mul Z.add]. destruct ds; [congruence|]. cbn [length].
  replace (Z.of_nat (S (length ds)) + 0 =? 0) with false by (symmetry; apply Z.eqb_neq; lia). reflexivity.
Qed.

Lemma float_core_dot : forall ip fp, digits_in 10 ip -> digits_in 10 fp -> ip ++ fp <> [] ->
  float_core (map dchar ip ++ [46] ++ map dchar fp) =
  Some (float_of_dec false (val 10 (ip ++ fp)) (- Z.of_nat (length fp))).
Proof.
  intros ip fp H1 H2 Hn. unfold float_core. rewrite take_digits_run by (simpl; auto). cbn [app].
  cbn [Z.mul Z.add]. change (46 =? 46) with true. cbv iota.
  rewrite <- (app_nil_r (map dchar fp)), take_digits_run by (simpl; auto).
  replace (Z.of_nat (length ip) + (0 + Z.of_nat (length fp)) =? 0) with false.
  2:{ symmetry. apply Z.eqb_neq. destruct ip; destruct fp; simpl in *; try congruence; lia. }
  rewrite val_app. rewrite Z.add_0_l. reflexivity.
Qed.

Lemma float_core_bad : forall ds rest, digits_in 10 ds -> float_core (map dchar ds ++ 63 :: rest) = None.
Proof.
  intros ds rest H. unfold float_core. rewrite take_digits_run by (simpl; auto). cbn [Z.eqb Pos.eqb].
  destruct (0 + Z.of_nat (length ds) + 0 =? 0); reflexivity.
Qed.

Lemma float_core_bad2 : forall ip fp rest, digits_in 10 ip -> digits_in 10 fp ->
  float_core (map dchar ip ++ [46] ++ map dchar fp ++ 63 :: rest) = None.
Proof.
  intros ip fp rest H1 H2. unfold float_core. rewrite take_digits_run by (simpl; auto). cbn [app].
  change (46 =? 46) with true. cbv iota. rewrite take_digits_run by (simpl; auto).
  destruct (_ =? 0); reflexivity.
Qed.

(** count / split / remove on the dot. *)
Lemma count_none : forall a, ~ In 46 a -> count_char 46 a = O /\ remove_char 46 a = a /\ split_char 46 a = [a].
Proof.
  induction a as [|c a IH]; intros H. { repeat split. }
  assert (c <> 46) by (intros ->; apply H; left; auto).
  destruct IH as [I1 [I2 I3]]. { intros A; apply H; right; auto. }
  unfold count_char, remove_char in *. cbn [filter split_char].
  replace (46 =? c) with false by (symmetry; apply Z.eqb_neq; auto).
  replace (c =? 46) with false by (symmetry; apply Z.eqb_neq; auto). cbn [negb].
  rewrite I1, I2, I3. repeat split.
Qed.

Lemma count_app : forall a b, count_char 46 (a ++ b) = (count_char 46 a + count_char 46 b)%nat /\
  remove_char 46 (a ++ b) = remove_char 46 a ++ remove_char 46 b.
Proof. intros. unfold count_char, remove_char. rewrite !filter_app, app_length. auto. Qed.

Lemma split_dot : forall a b, ~ In 46 a -> split_char 46 (a ++ [46] ++ b) = a :: split_char 46 b.
Proof.
  induction a as [|c a IH]; intros b H. { reflexivity. }
  assert (c <> 46) by (intros ->; apply H; left; auto).
  cbn [app split_char]. replace (c =? 46) with false by (symmetry; apply Z.eqb_neq; auto).
  change (a ++ 46 :: b) with (a ++ [46] ++ b). rewrite IH by (intros A; apply H; right; auto). reflexivity.
Qed.

Lemma one_dot : forall a b, ~ In 46 a -> ~ In 46 b ->
  count_char 46 (a ++ [46] ++ b) = 1%nat /\ remove_char 46 (a ++ [46] ++ b) = a ++ b /\
  split_char 46 (a ++ [46] ++ b) = [a; b].
Proof.
  intros a b Ha Hb. destruct (count_none a Ha) as [A1 [A2 A3]]. destruct (count_none b Hb) as [B1 [B2 B3]].
  rewrite split_dot by auto. rewrite B3.
  destruct (count_app a ([46] ++ b)) as [C1 C2]. rewrite C1, C2.
  destruct (count_app [46] b) as [D1 D2]. rewrite D1, D2, A1, A2, B1, B2. repeat split; auto.
Qed.

Lemma count0 : forall s, count_char 46 s = O -> ~ In 46 s.
Proof.
  intros s H Hin. unfold count_char in H. apply length_zero_iff_nil in H.
  assert (A : In 46 (filter (Z.eqb 46) s)) by (apply filter_In; auto). rewrite H in A. destruct A.
Qed.

Lemma count1 : forall s, count_char 46 s = 1%nat -> exists a b, s = a ++ [46] ++ b /\ ~ In 46 a /\ ~ In 46 b.
Proof.
  induction s as [|c s IH]; intros H. { discriminate. }
  destruct (Z.eq_dec c 46) as [->|Hc].
  - exists [], s. repeat split; auto. apply count0. unfold count_char in *. simpl in H. congruence.
  - unfold count_char in *. cbn [filter] in H. replace (46 =? c) with false in H by (symmetry; apply Z.eqb_neq; auto).
    destruct (IH H) as [a [b [-> [A B]]]]. exists (c :: a), b. repeat split; auto. intros [C|C]; auto.
Qed.

Lemma forallb_app_iff : forall {A} (f : A -> bool) x y, forallb f (x ++ y) = true <-> forallb f x = true /\ forallb f y = true.
Proof. intros. rewrite forallb_app. apply andb_true_iff. Qed.

Lemma str_isdigit_iff : forall s, str_isdigit s = true <-> s <> [] /\ forallb char_isdigit s = true.
Proof.
  intros s. destruct s; simpl; split.
  - discriminate. - intros [A _]; congruence. - intros H; split; auto; discriminate. - tauto.
Qed.

Lemma max_float : exists f, py_float_int max_amount = Ok f.
Proof. eexists. unfold max_amount. reflexivity. Qed.

(** validate_bitcoin_amount accepts exactly the numerals with at most 8 decimals and value at most 21,000,000. *)
Definition in_range (ip fp : list Z) : Prop :=
  (length fp <= 8)%nat /\ val 10 (ip ++ fp) <= 21000000 * 10 ^ Z.of_nat (length fp).

Lemma validate_amount_numeral : forall s ip fp, numeral s ip fp ->
  (in_range ip fp -> validate_bitcoin_amount (PStr s) = Ok tt) /\
  (~ in_range ip fp -> validate_bitcoin_amount (PStr s) = Err ValueError).
Proof.
  intros s ip fp N. destruct max_float as [fm Hfm].
  destruct N as [[D [-> Hn]]|[a [b [-> [Da [Db Hn]]]]]].
  - destruct (dec_run s ip D) as [I1 [I2 [I3 [I4 I5]]]].
    destruct (count_none s I4) as [C1 [C2 C3]].
    assert (Hs : s <> []) by (destruct s; [destruct ip; simpl in I5; congruence|discriminate]).
    assert (SD : str_isdigit s = true) by (apply str_isdigit_iff; auto).
    assert (OK : Forall okc (map dchar ip)) by (rewrite <- I2; apply okc_isdigit; auto).
    pose proof (py_float_okc s _ I2 OK) as PF. rewrite float_core_int in PF by auto.
    pose proof (val_bounds 10 ip ltac:(lia) I1) as VB.
    destruct (amount_compare (val 10 ip) 0 fm ltac:(lia) ltac:(lia) Hfm) as [A1 A2].
    change (- (0)) with 0 in A1, A2.
    unfold validate_bitcoin_amount. cbn [validate_string bind as_str]. cbv zeta. rewrite C1, C2, SD. cbn [Nat.eqb orb negb bind].
    rewrite PF, Hfm. cbn [bind]. rewrite A2, A1. unfold in_range. rewrite app_nil_r. cbn [length Z.of_nat].
    rewrite Z.pow_0_r, Z.mul_1_r. split; intros H.
    + replace (21000000 <? val 10 ip) with false; auto. symmetry. apply Z.ltb_ge. lia.
    + replace (21000000 <? val 10 ip) with true; auto. symmetry. apply Z.ltb_lt. lia.
  - destruct (dec_run a ip Da) as [I1 [I2 [I3 [I4 I5]]]]. destruct (dec_run b fp Db) as [J1 [J2 [J3 [J4 J5]]]].
    destruct (one_dot a b I4 J4) as [C1 [C2 C3]].
    assert (Hs : a ++ b <> []).
    { intros A. apply app_eq_nil in A. destruct A; subst. apply Hn. destruct ip; [|discriminate]. destruct fp; [|discriminate]. auto. }
    assert (SD : str_isdigit (a ++ b) = true) by (apply str_isdigit_iff; split; auto; apply forallb_app_iff; auto).
    unfold validate_bitcoin_amount. cbn [validate_string bind as_str]. cbv zeta. rewrite C1, C2, C3, SD. cbn [Nat.eqb orb negb bind].
    rewrite J5. unfold in_range.
    destruct (Nat.ltb 8 (length fp)) eqn:L.
    + apply Nat.ltb_lt in L. split; intros H; [lia|reflexivity].
    + apply Nat.ltb_ge in L. cbn [bind].
      assert (MA : map to_ascii (a ++ [46] ++ b) = map dchar ip ++ [46] ++ map dchar fp) by (rewrite !map_app, I2, J2; reflexivity).
      assert (OK : Forall okc (map dchar ip ++ [46] ++ map dchar fp)).
      { rewrite <- I2, <- J2. apply Forall_app. split; [apply okc_isdigit; auto|]. constructor; [unfold okc; lia|apply okc_isdigit; auto]. }
      pose proof (py_float_okc _ _ MA OK) as PF. rewrite float_core_dot in PF by auto.
      assert (DV : digits_in 10 (ip ++ fp)) by (apply Forall_app; auto).
      pose proof (val_bounds 10 (ip ++ fp) ltac:(lia) DV) as VB.
      destruct (amount_compare (val 10 (ip ++ fp)) (Z.of_nat (length fp)) fm ltac:(lia) ltac:(lia) Hfm) as [A1 A2].
      rewrite PF, Hfm. cbn [bind]. rewrite A2, A1. split; intros H.
      * replace (_ <? _) with false; auto. symmetry. apply Z.ltb_ge. lia.
      * replace (_ <? _) with true; auto. symmetry. apply Z.ltb_lt. lia.
Qed.

Lemma validate_amount_cases : forall s,
  (exists ip fp, numeral s ip fp) \/ validate_bitcoin_amount (PStr s) = Err ValueError.
Proof.
  intros s. unfold validate_bitcoin_amount. cbn [validate_string bind as_str]. cbv zeta.
  destruct (count_char 46 s) as [|[|k]] eqn:C.
  - cbn [Nat.eqb orb negb]. pose proof (count0 s C) as H. destruct (count_none s H) as [_ [C2 _]]. rewrite C2.
    destruct (str_isdigit s) eqn:SD; [|right; reflexivity]. cbn [negb bind].
    apply str_isdigit_iff in SD. destruct SD as [Hn SD].
    destruct (run_cases s SD) as [[ds Hds]|[ds [a1 [c [a2 [-> [B1 [B2 B3]]]]]]]].
    + left. exists ds, []. left. repeat split; auto. intros ->. inversion Hds. subst. auto.
    + right. destruct (dec_run a1 ds B1) as [I1 [I2 [I3 _]]].
      assert (MA : map to_ascii (a1 ++ c :: a2) = map dchar ds ++ 63 :: map to_ascii a2) by (rewrite map_app; cbn [map]; rewrite I2, B2; auto).
      pose proof (py_float_okc _ _ MA) as PF. rewrite float_core_bad in PF by auto.
      rewrite <- MA in PF. rewrite (PF (okc_isdigit _ SD)). reflexivity.
  - cbn [Nat.eqb orb negb]. destruct (count1 s C) as [a [b [-> [Ha Hb]]]]. destruct (one_dot a b Ha Hb) as [_ [C2 C3]].
    rewrite C2, C3. destruct (str_isdigit (a ++ b)) eqn:SD; [|right; reflexivity]. cbn [negb].
    apply str_isdigit_iff in SD. destruct SD as [Hn SD]. apply forallb_app_iff in SD. destruct SD as [Sa Sb].
    assert (OK : Forall okc (map to_ascii (a ++ [46] ++ b))).
    { rewrite !map_app. apply Forall_app. split; [apply okc_isdigit; auto|]. apply Forall_app. split; [constructor; [cbv; lia|constructor]|apply okc_isdigit; auto]. }
    assert (BAD : py_float_str (a ++ [46] ++ b) = Err ValueError ->
      ((if Nat.ltb 8 (length b) then Err ValueError else Ok tt) ;;; f <- py_float_str (a ++ [46] ++ b) ;; fmax <- py_float_int max_amount ;;
        if SFltb f (S754_zero false) then Err ValueError else if SFltb fmax f then Err ValueError else Ok tt) = Err ValueError).
    { intros Q. rewrite Q. destruct (Nat.ltb 8 (length b)); reflexivity. }
    destruct (run_cases a Sa) as [[ip Hip]|[ds [a1 [c [a2 [-> [B1 [B2 B3]]]]]]]].
    + destruct (run_cases b Sb) as [[fp Hfp]|[ds [a1 [c [a2 [-> [B1 [B2 B3]]]]]]]].
      * left. exists ip, fp. right. exists a, b. repeat split; auto.
        intros A. apply app_eq_nil in A. destruct A; subst. inversion Hip; inversion Hfp; subst. auto.
      * right. apply BAD. destruct (dec_run a ip Hip) as [I1 [I2 _]]. destruct (dec_run a1 ds B1) as [J1 [J2 _]].
        assert (MA : map to_ascii (a ++ [46] ++ a1 ++ c :: a2) = map dchar ip ++ [46] ++ map dchar ds ++ 63 :: map to_ascii a2).
        { rewrite !map_app. cbn [map]. rewrite I2, J2, B2. reflexivity. }
        pose proof (py_float_okc _ _ MA) as PF. rewrite float_core_bad2 in PF by auto. rewrite <- MA in PF. apply PF; auto.
    + right. apply BAD. destruct (dec_run a1 ds B1) as [I1 [I2 _]].
      assert (MA : map to_ascii ((a1 ++ c :: a2) ++ [46] ++ b) = map dchar ds ++ 63 :: map to_ascii (a2 ++ [46] ++ b)).
      { rewrite <- app_assoc, map_app. cbn [map app]. rewrite I2, B2. reflexivity. }
      pose proof (py_float_okc _ _ MA) as PF. rewrite float_core_bad in PF by auto. rewrite <- MA in PF. apply PF; auto.
  - right. reflexivity.
Qed.

Lemma validate_amount_nonstr : forall v, (forall s, v <> PStr s) -> validate_bitcoin_amount v = Err TypeError.
Proof. intros v H. destruct v; try reflexivity. congruence. Qed.

Lemma sat_value : forall ip fp, (length fp <= 8)%nat ->
  (in_range ip fp <-> val 10 (ip ++ fp) * 10 ^ (8 - Z.of_nat (length fp)) <= 2100000000000000).
Proof.
  intros ip fp H. unfold in_range.
  assert (P : 0 < 10 ^ (8 - Z.of_nat (length fp))) by (apply Z.pow_pos_nonneg; lia).
  assert (Q : 10 ^ Z.of_nat (length fp) * 10 ^ (8 - Z.of_nat (length fp)) = 10 ^ 8).
  { rewrite <- Z.pow_add_r by lia. f_equal. lia. }
  split.
  - intros [_ A]. apply Z.mul_le_mono_pos_r with (p := 10 ^ (8 - Z.of_nat (length fp))) in A; auto.
    rewrite <- Z.mul_assoc, Q in A. lia.
  - intros A. split; auto. apply Z.mul_le_mono_pos_r with (p := 10 ^ (8 - Z.of_nat (length fp))); auto.
    rewrite <- Z.mul_assoc, Q. lia.
Qed.

Lemma validate_amount_iff : forall s,
  validate_bitcoin_amount (PStr s) = Ok tt <-> exists n, amount_of s n /\ n <= 2100000000000000.
Proof.
  intros s. split.
  - intros H. destruct (validate_amount_cases s) as [[ip [fp N]]|A]; [|congruence].
    destruct (validate_amount_numeral s ip fp N) as [A B].
    assert (R : in_range ip fp).
    { unfold in_range. destruct (le_dec (length fp) 8) as [L|L].
      - destruct (Z_le_dec (val 10 (ip ++ fp)) (21000000 * 10 ^ Z.of_nat (length fp))) as [M|M]; auto.
        rewrite B in H; [discriminate|]. unfold in_range. lia.
      - rewrite B in H; [discriminate|]. unfold in_range. lia. }
    exists (val 10 (ip ++ fp) * 10 ^ (8 - Z.of_nat (length fp))). destruct R as [R1 R2]. split.
    + exists ip, fp. auto.
    + apply sat_value; auto. split; auto.
  - intros [n [[ip [fp [N [L ->]]]] M]]. apply (validate_amount_numeral s ip fp N). apply sat_value; auto.
Qed.

Lemma validate_amount_err : forall s, validate_bitcoin_amount (PStr s) <> Ok tt -> validate_bitcoin_amount (PStr s) = Err ValueError.
Proof.
  intros s H. destruct (validate_amount_cases s) as [[ip [fp N]]|A]; [|exact A].
  destruct (validate_amount_numeral s ip fp N) as [A B]. apply B. intros R. apply H. auto.
Qed.

Lemma dec_char_fun : forall c d d', dec_char c d -> dec_char c d' -> d = d'.
Proof. intros c d d' [[A B]|[A B]] [[C D]|[C D]]; try lia. congruence. Qed.

Lemma dec_run_fun : forall a ds ds', Forall2 dec_char a ds -> Forall2 dec_char a ds' -> ds = ds'.
Proof.
  intros a ds ds' H; revert ds'. induction H as [|c d a ds Hc Ha IH]; intros ds' H'; inversion H' as [|x y u v Hxy Huv]; subst; auto.
  f_equal; [eapply dec_char_fun; eauto|auto].
Qed.

Lemma dot_unique : forall a b a' b' : pystr, ~ In 46 a -> ~ In 46 a' -> a ++ [46] ++ b = a' ++ [46] ++ b' -> a = a' /\ b = b'.
Proof.
  induction a as [|x a IH]; intros b a' b' Ha Ha' H; destruct a' as [|y a']; simpl in H.
  - injection H as <-; auto.
  - injection H as <- _. exfalso; apply Ha'; left; auto.
  - injection H as -> _. exfalso; apply Ha; left; auto.
  - injection H as <- H. destruct (IH b a' b') as [<- <-]; auto; simpl in *; tauto.
Qed.

Lemma numeral_fun : forall s ip fp ip' fp', numeral s ip fp -> numeral s ip' fp' -> ip = ip' /\ fp = fp'.
Proof.
  intros s ip fp ip' fp' [[A [-> B]]|[a [b [-> [A [B C]]]]]] [[A' [-> B']]|[a' [b' [E' [A' [B' C']]]]]].
  - split; auto. eapply dec_run_fun; eauto.
  - subst. destruct (dec_run _ _ A) as [_ [_ [_ [X _]]]]. exfalso. apply X. apply in_or_app. right. left. auto.
  - destruct (dec_run _ _ A') as [_ [_ [_ [X _]]]]. exfalso. apply X. apply in_or_app. right. left. auto.
  - destruct (dec_run _ _ A) as [_ [_ [_ [X _]]]]. destruct (dec_run _ _ A') as [_ [_ [_ [X' _]]]].
    apply dot_unique in E'; auto. destruct E' as [-> ->]. split; eapply dec_run_fun; eauto.
Qed.

Lemma amount_of_fun : forall s n n', amount_of s n -> amount_of s n' -> n = n'.
Proof.
  intros s n n' [ip [fp [N [L ->]]]] [ip' [fp' [N' [L' ->]]]]. destruct (numeral_fun _ _ _ _ _ N N') as [-> ->]. auto.
Qed.

Lemma amount_of_nonneg : forall s n, amount_of s n -> 0 <= n.
Proof.
  intros s n [ip [fp [N [L ->]]]]. apply Z.mul_nonneg_nonneg.
  - apply (val_bounds 10); [lia|]. apply Forall_app.
    destruct N as [[A [-> B]]|[a [b [_ [A [B C]]]]]].
    + split; [|constructor]. apply (dec_run _ _ A).
    + split; [apply (dec_run _ _ A)|apply (dec_run _ _ B)].
  - apply Z.pow_nonneg. lia.
Qed.

(** int() of a run of decimal digits after removal of leading ASCII zeros. *)
Lemma lstrip_run : forall a ds, Forall2 dec_char a ds ->
  exists ds', Forall2 dec_char (lstrip 48 a) ds' /\ val 10 ds' = val 10 ds.
Proof.
  induction 1 as [|c d a ds Hc Ha IH].
  - exists []. split; [constructor|reflexivity].
  - cbn [lstrip]. destruct (c =? 48) eqn:E1.
    + apply Z.eqb_eq in E1. subst. destruct IH as [ds' [A B]]. exists ds'. split; auto.
      rewrite val_cons, B. assert (d = 0) by (destruct Hc; lia). subst. lia.
    + exists (d :: ds). split; auto.
Qed.

Lemma lstrip_nil : forall a, lstrip 48 a = [] <-> forall c, In c a -> c = 48.
Proof.
  induction a as [|c a IH]; simpl. { tauto. }
  destruct (c =? 48) eqn:E1.
  - apply Z.eqb_eq in E1. rewrite IH. split; intros H; [intros x [<-|X]; auto|auto].
  - apply Z.eqb_neq in E1. split; [discriminate|]. intros H. elim E1. apply H. auto.
Qed.

Lemma int_of_run : forall a ds, Forall2 dec_char a ds -> a <> [] -> py_int_str 10 a = Ok (val 10 ds).
Proof.
  intros a ds H Hn. destruct (dec_run a ds H) as [I1 [I2 [_ [_ I5]]]].
  apply py_int_str_digits; auto.
  - destruct a; [congruence|]. destruct ds; [discriminate|discriminate].
  - rewrite I2. apply map_ext_in. intros d Hd. unfold digits_in in I1. rewrite Forall_forall in I1. apply I1 in Hd. unfold dchar, digit_char.
    replace (d <? 10) with true; auto. symmetry. apply Z.ltb_lt. lia.
Qed.

Lemma zeros_run : forall n, Forall2 dec_char (rep_str n (lit "0")) (repeat 0 n).
Proof.
  unfold rep_str. induction n; simpl; constructor; auto. left. lia.
Qed.

Lemma rep_zero_in : forall n c, In c (rep_str n (lit "0")) -> c = 48.
Proof. unfold rep_str. induction n; simpl; intros c H; [tauto|]. destruct H as [<-|H]; auto. Qed.

Lemma bitcoin_to_satoshi_ok : forall s n, amount_of s n -> n <= 2100000000000000 ->
  (zero_text s -> bitcoin_to_satoshi (PStr s) = Err ValueError) /\
  (~ zero_text s -> bitcoin_to_satoshi (PStr s) = Ok n).
Proof.
  intros s n A M. assert (V : validate_bitcoin_amount (PStr s) = Ok tt) by (apply validate_amount_iff; eauto).
  pose proof (amount_of_nonneg s n A) as NN.
  destruct A as [ip [fp [N [L Hn]]]].
  assert (O : exists o, (if Nat.eqb (count_char 46 s) 0 then Ok (s ++ rep_str 8 (lit "0"))
     else if Nat.eqb (count_char 46 s) 1 then
       match split_char 46 s with
       | [s1; s2] => Ok (remove_char 46 s ++ rep_str (8 - length s2) (lit "0"))
       | _ => Err ValueError
       end
     else Err ValueError) = Ok o /\ Forall2 dec_char o ((ip ++ fp) ++ repeat 0 (8 - length fp)) /\
     (zero_text s <-> forall c, In c o -> c = 48)).
  { destruct N as [[D [-> Hx]]|[a [b [-> [Da [Db Hx]]]]]].
    - destruct (dec_run s ip D) as [I1 [I2 [I3 [I4 I5]]]]. destruct (count_none s I4) as [C1 [C2 C3]].
      rewrite C1. cbn [Nat.eqb]. eexists. split; [reflexivity|]. rewrite app_nil_r. split.
      + apply Forall2_app; auto. apply zeros_run.
      + split; intros H c Hc.
        * apply in_app_or in Hc. destruct Hc as [Hc|Hc]; [|apply (rep_zero_in 8); auto].
          destruct (H c Hc) as [?|?]; auto. subst. contradiction.
        * left. apply H. apply in_or_app. auto.
    - destruct (dec_run a ip Da) as [I1 [I2 [I3 [I4 I5]]]]. destruct (dec_run b fp Db) as [J1 [J2 [J3 [J4 J5]]]].
      destruct (one_dot a b I4 J4) as [C1 [C2 C3]]. rewrite C1, C2, C3. cbn [Nat.eqb].
      eexists. split; [reflexivity|]. rewrite J5. split.
      + apply Forall2_app; [apply Forall2_app; auto|apply zeros_run].
      + split; intros H c Hc.
        * apply in_app_or in Hc. destruct Hc as [Hc|Hc]; [|apply (rep_zero_in (8 - length fp)); auto].
          destruct (H c) as [?|?]; auto.
          { apply in_app_or in Hc. apply in_or_app. destruct Hc; [left; auto|right; right; auto]. }
          subst. apply in_app_or in Hc. tauto.
        * apply in_app_or in Hc. destruct Hc as [Hc|[Hc|Hc]].
          -- left. apply H. apply in_or_app. left. apply in_or_app. auto.
          -- right. auto.
          -- left. apply H. apply in_or_app. left. apply in_or_app. auto. }
  destruct O as [o [O1 [O2 O3]]]. unfold bitcoin_to_satoshi. rewrite V. cbn [bind as_str]. rewrite O1. cbn [bind]. cbv zeta.
  assert (VN : val 10 ((ip ++ fp) ++ repeat 0 (8 - length fp)) = n).
  { rewrite (val_app 10 (ip ++ fp)), val_repeat0, repeat_length, Hn, Nat2Z.inj_sub by auto. change (Z.of_nat 8) with 8. lia. }
  destruct (lstrip_run o _ O2) as [ds' [R1 R2]]. rewrite VN in R2. split; intros Z0.
  - pose proof (proj1 O3 Z0) as Z1. apply lstrip_nil in Z1. rewrite Z1, py_int_str_empty. reflexivity.
  - rewrite (int_of_run _ ds' R1), R2. 2:{ intros X. apply Z0. apply (proj2 O3). apply lstrip_nil. auto. }
    cbn [bind]. unfold validate_whole_number. cbn [py_eq_int].
    destruct (n =? 0) eqn:E0. { reflexivity. }
    unfold validate_positive_integer. cbn [as_int]. apply Z.eqb_neq in E0.
    replace (n <? 1) with false by (symmetry; apply Z.ltb_ge; lia). reflexivity.
Qed.

Lemma zero_text_dec : forall s, zero_text s \/ ~ zero_text s.
Proof.
  intros s. destruct (forallb (fun c => (c =? 48) || (c =? 46)) s) eqn:F.
  - left. rewrite forallb_forall in F. intros c H. apply F in H. apply orb_prop in H. rewrite !Z.eqb_eq in H. auto.
  - right. intros H. assert (forallb (fun c => (c =? 48) || (c =? 46)) s = true); [|congruence].
    apply forallb_forall. intros c Hc. apply orb_true_intro. rewrite !Z.eqb_eq. auto.
Qed.

Lemma bitcoin_to_satoshi_iff : forall s n, bitcoin_to_satoshi (PStr s) = Ok n <->
  amount_of s n /\ n <= 2100000000000000 /\ ~ zero_text s.
Proof.
  intros s n. split.
  - intros H. assert (V : validate_bitcoin_amount (PStr s) = Ok tt).
    { unfold bitcoin_to_satoshi in H. destruct (validate_bitcoin_amount (PStr s)) as [[]|]; auto. discriminate. }
    apply validate_amount_iff in V. destruct V as [m [A M]]. destruct (bitcoin_to_satoshi_ok s m A M) as [B C].
    destruct (zero_text_dec s) as [Z0|Z0].
    + rewrite B in H by auto. discriminate.
    + rewrite C in H by auto. injection H as <-. auto.
  - intros [A [M Z0]]. apply (bitcoin_to_satoshi_ok s n A M). auto.
Qed.

Lemma bitcoin_to_satoshi_err : forall s, (forall n, bitcoin_to_satoshi (PStr s) <> Ok n) -> bitcoin_to_satoshi (PStr s) = Err ValueError.
Proof.
  intros s H. destruct (validate_bitcoin_amount (PStr s)) as [[]|e] eqn:V.
  - apply validate_amount_iff in V. destruct V as [m [A M]]. destruct (bitcoin_to_satoshi_ok s m A M) as [B C].
    destruct (zero_text_dec s) as [Z0|Z0]; auto. elim (H m). auto.
  - assert (X : validate_bitcoin_amount (PStr s) = Err ValueError) by (apply validate_amount_err; congruence).
    unfold bitcoin_to_satoshi. rewrite X. reflexivity.
Qed.

Lemma bitcoin_to_satoshi_nonstr : forall v, (forall s, v <> PStr s) -> bitcoin_to_satoshi v = Err TypeError.
Proof. intros v H. unfold bitcoin_to_satoshi. rewrite validate_amount_nonstr by auto. reflexivity. Qed.

(** satoshi to text *)
Lemma text10_run : forall ds, digits_in 10 ds -> Forall2 dec_char (text10 ds) ds.
Proof. unfold text10. induction 1 as [|d r Hd Hr IH]; cbn [map]; constructor; auto. left. cbv beta in Hd. lia. Qed.

Lemma btc_amount : forall s n, btc_text s n -> amount_of s n.
Proof.
  intros s n [ip [fp [-> [H1 [H2 [H3 [H4 H5]]]]]]]. exists ip, fp. split; [|split].
  - right. exists (text10 ip), (text10 fp). repeat split; auto using text10_run. destruct fp; [discriminate|]. destruct ip; discriminate.
  - lia.
  - rewrite H3, H5. change (8 - Z.of_nat 8) with 0. lia.
Qed.

Lemma nat_text10 : forall n, 0 <= n -> exists ds, nat_text 10 n = text10 ds /\ digits_in 10 ds /\
  ds <> [] /\ val 10 ds = n /\ (ds = [0] \/ no_lead0 ds).
Proof.
  intros n Hn. unfold nat_text. destruct (Z.eqb_spec n 0).
  - exists [0]. subst. repeat split; try reflexivity; try discriminate; auto. constructor; [lia|constructor].
  - destruct (digits_spec 10 n ltac:(lia)) as (A & B & C). exists (digits 10 n). repeat split; auto; try lia.
    + unfold text10. apply map_ext_in. intros d Hd. unfold digits_in in A. rewrite Forall_forall in A. apply A in Hd.
      unfold digit_char. replace (d <? 10) with true; auto. symmetry. apply Z.ltb_lt. lia.
    + intros X. rewrite X, val_nil in C. lia.
Qed.

Lemma rep_zero_text : forall n, rep_str n (lit "0") = text10 (repeat 0 n).
Proof.
  unfold rep_str, text10. induction n as [|n IH]; [reflexivity|]. cbn [repeat concat map]. rewrite IH. reflexivity.
Qed.

Lemma satoshi_to_bitcoin_ok : forall n, 0 <= n <= 2100000000000000 ->
  exists s, satoshi_to_bitcoin (PInt n) = Ok s /\ btc_text s n.
Proof.
  intros n Hn. destruct (nat_text10 n ltac:(lia)) as [ds [T [D [Hne [V Lead]]]]].
  set (s := if Nat.leb (length (int_str n)) 8 then lit "0." ++ (rep_str (8 - length (int_str n)) (lit "0") ++ int_str n)
    else drop_last_n 8 (int_str n) ++ lit "." ++ last_n 8 (int_str n)).
  assert (I : int_str n = text10 ds). { unfold int_str. replace (n <? 0) with false by (symmetry; apply Z.ltb_ge; lia). auto. }
  assert (B : btc_text s n).
  { unfold s. rewrite I. assert (Ln : length (text10 ds) = length ds) by apply map_length. rewrite Ln.
    destruct (Nat.leb (length ds) 8) eqn:L8.
    - apply Nat.leb_le in L8. exists [0], (repeat 0 (8 - length ds) ++ ds). repeat split.
      + rewrite rep_zero_text. unfold text10. rewrite map_app. reflexivity.
      + constructor; [lia|constructor].
      + apply Forall_app. split; auto. apply Forall_forall. intros x Hx. apply repeat_spec in Hx. lia.
      + rewrite app_length, repeat_length. lia.
      + left; auto.
      + change ([0] ++ repeat 0 (8 - length ds) ++ ds) with (repeat 0 (S (8 - length ds)) ++ ds). rewrite val_repeat0_app. auto.
    - apply Nat.leb_gt in L8. exists (firstn (length ds - 8) ds), (skipn (length ds - 8) ds).
      assert (FS : firstn (length ds - 8) ds ++ skipn (length ds - 8) ds = ds) by apply firstn_skipn.
      repeat split.
      + unfold drop_last_n, last_n, text10. rewrite map_length, firstn_map, skipn_map. reflexivity.
      + rewrite <- FS in D. apply Forall_app in D. tauto.
      + rewrite <- FS in D. apply Forall_app in D. tauto.
      + rewrite skipn_length. lia.
      + right. destruct ds as [|d r]; [simpl in L8; lia|]. replace (length (d :: r) - 8)%nat with (S (length r - 8)) by (simpl in *; lia).
        split; [discriminate|]. destruct Lead as [X|X]; [injection X as -> ->; simpl in L8; lia|]. exact X.
      + rewrite FS. auto. }
  exists s. split; auto. unfold satoshi_to_bitcoin. rewrite validate_integer_domain_ok by (unfold max_amount_satoshi, max_amount; lia).
  cbn [bind py_str_int]. cbv zeta. fold s.
  assert (VA : validate_bitcoin_amount (PStr s) = Ok tt).
  { apply validate_amount_iff. exists n. split; [apply btc_amount; auto|lia]. }
  rewrite VA. reflexivity.
Qed.

Lemma satoshi_to_bitcoin_bad : forall n, ~ (0 <= n <= 2100000000000000) -> satoshi_to_bitcoin (PInt n) = Err ValueError.
Proof. intros n H. unfold satoshi_to_bitcoin. rewrite validate_integer_domain_bad; auto. Qed.

Lemma satoshi_to_bitcoin_nonint : forall v, as_int v = None -> satoshi_to_bitcoin v = Err TypeError.
Proof. intros v H. unfold satoshi_to_bitcoin, validate_integer_domain. rewrite H. reflexivity. Qed.

Lemma satoshi_to_bitcoin_bool : forall b, satoshi_to_bitcoin (PBool b) = Err ValueError.
Proof. intros []; reflexivity. Qed.

Lemma satoshi_to_bitcoin_iff : forall v s, satoshi_to_bitcoin v = Ok s <->
  exists n, v = PInt n /\ 0 <= n <= 2100000000000000 /\ btc_text s n.
Proof.
  assert (U : forall s s' n, btc_text s n -> btc_text s' n -> s = s').
  { intros s s' n [ip [fp [-> [A1 [A2 [A3 [A4 A5]]]]]]] [ip' [fp' [-> [B1 [B2 [B3 [B4 B5]]]]]]].
    assert (Q : ip = ip' /\ fp = fp').
    { rewrite val_app, A3 in A5. rewrite val_app, B3 in B5. change (10 ^ Z.of_nat 8) with 100000000 in *.
      pose proof (val_bounds 10 fp ltac:(lia) A2) as X. pose proof (val_bounds 10 fp' ltac:(lia) B2) as Y.
      rewrite A3 in X. rewrite B3 in Y. change (10 ^ Z.of_nat 8) with 100000000 in *.
      assert (val 10 ip = val 10 ip' /\ val 10 fp = val 10 fp') as [P1 P2] by lia. split.
      - destruct A4 as [->|[A4 A4']], B4 as [->|[B4 B4']]; auto.
        + change (val 10 [0]) with 0 in P1. destruct ip' as [|d r]; [congruence|]. apply no_lead0_cons in B4'.
          pose proof (val_lead_lower 10 d r ltac:(lia) B1 B4'). assert (0 < 10 ^ Z.of_nat (length r)) by (apply Z.pow_pos_nonneg; lia). lia.
        + change (val 10 [0]) with 0 in P1. destruct ip as [|d r]; [congruence|]. apply no_lead0_cons in A4'.
          pose proof (val_lead_lower 10 d r ltac:(lia) A1 A4'). assert (0 < 10 ^ Z.of_nat (length r)) by (apply Z.pow_pos_nonneg; lia). lia.
        + apply (val_inj_lead 10); auto; lia.
      - apply (val_inj_len 10); auto; try lia. }
    destruct Q as [-> ->]. auto. }
  intros v s. split.
  - intros H. destruct v; try (rewrite satoshi_to_bitcoin_nonint in H by reflexivity; discriminate).
    + rewrite satoshi_to_bitcoin_bool in H. discriminate.
    + exists z. split; auto. destruct (Z_le_dec 0 z) as [L1|L1]; [destruct (Z_le_dec z 2100000000000000) as [L2|L2]|].
      * destruct (satoshi_to_bitcoin_ok z ltac:(lia)) as [s' [P Q]]. rewrite P in H. injection H as ->. auto.
      * rewrite satoshi_to_bitcoin_bad in H by lia. discriminate.
      * rewrite satoshi_to_bitcoin_bad in H by lia. discriminate.
  - intros [n [-> [R B]]]. destruct (satoshi_to_bitcoin_ok n R) as [s' [P Q]]. rewrite P. f_equal. eapply U; eauto.
Qed.

(** Round trips *)
Lemma btc_zero_text : forall s n, btc_text s n -> (zero_text s <-> n = 0).
Proof.
  intros s n [ip [fp [-> [H1 [H2 [H3 [H4 H5]]]]]]].
  assert (D : digits_in 10 (ip ++ fp)) by (apply Forall_app; auto).
  split.
  - intros Z0. assert (A : forall d, In d (ip ++ fp) -> d = 0).
    { intros d Hd. unfold digits_in in D. rewrite Forall_forall in D. pose proof (D d Hd) as X.
      assert (I : In (48 + d) (text10 ip ++ [46] ++ text10 fp)).
      { apply in_app_or in Hd. apply in_or_app. destruct Hd as [Hd|Hd].
        - left. unfold text10. apply (in_map (fun d => 48 + d)). auto.
        - right. right. unfold text10. apply (in_map (fun d => 48 + d)). auto. }
      apply Z0 in I. lia. }
    rewrite <- H5. generalize (ip ++ fp), A. clear. induction l as [|d l IH]; intros A; auto.
    rewrite val_cons, IH by (intros; apply A; right; auto). rewrite (A d) by (left; auto). lia.
  - intros ->. assert (A : forall d, In d (ip ++ fp) -> d = 0).
    { revert D H5. generalize (ip ++ fp). clear. induction l as [|d l IH]; intros D H5 x Hx; [destruct Hx|].
      inversion D; subst. rewrite val_cons in H5. pose proof (val_bounds 10 l ltac:(lia) H2) as VB.
      assert (0 < 10 ^ Z.of_nat (length l)) by (apply Z.pow_pos_nonneg; lia).
      assert (d = 0) by nia. subst. destruct Hx as [<-|Hx]; auto. }
    intros c Hc. apply in_app_or in Hc. destruct Hc as [Hc|[Hc|Hc]].
    + unfold text10 in Hc. apply in_map_iff in Hc. destruct Hc as [d [<- Hd]]. rewrite (A d) by (apply in_or_app; auto). left. auto.
    + right. auto.
    + unfold text10 in Hc. apply in_map_iff in Hc. destruct Hc as [d [<- Hd]]. rewrite (A d) by (apply in_or_app; auto). left. auto.
Qed.

Lemma btc_roundtrip : forall s n, 1 <= n <= 2100000000000000 -> btc_text s n -> bitcoin_to_satoshi (PStr s) = Ok n.
Proof.
  intros s n R B. apply bitcoin_to_satoshi_iff. repeat split; [apply btc_amount; auto|lia|].
  rewrite (btc_zero_text s n B). lia.
Qed.

Lemma btc_roundtrip0 : forall s, btc_text s 0 -> bitcoin_to_satoshi (PStr s) = Err ValueError.
Proof.
  intros s B. apply (bitcoin_to_satoshi_ok s 0 (btc_amount _ _ B) ltac:(lia)). apply (btc_zero_text s 0 B). auto.
Qed.

(** ensure_8_decimal_places *)
Lemma ensure8_ok : forall s n, amount_of s n -> exists t, ensure_8_decimal_places s = Ok t /\ amount_of t n /\
  (zero_text t <-> zero_text s) /\ exists a b, t = a ++ [46] ++ b /\ length b = 8%nat /\ ~ In 46 b.
Proof.
  intros s n [ip [fp [N [L ->]]]]. destruct N as [[D [-> Hx]]|[a [b [-> [Da [Db Hx]]]]]].
  - destruct (dec_run s ip D) as [I1 [I2 [I3 [I4 I5]]]]. destruct (count_none s I4) as [C1 [C2 C3]].
    unfold ensure_8_decimal_places. rewrite C1. cbn [Nat.eqb].
    change (s ++ lit ".") with (s ++ [46] ++ []). rewrite split_dot by auto. cbn [split_char length Nat.ltb Nat.leb Nat.sub].
    eexists. split; [reflexivity|]. rewrite <- app_assoc. split; [|split].
    + exists ip, (repeat 0 8). split; [|split; [reflexivity|]].
      * right. exists s, (rep_str 8 (lit "0")). repeat split; auto. apply zeros_run. destruct ip; discriminate.
      * rewrite app_nil_r, (val_app 10 ip (repeat 0 8)), val_repeat0, repeat_length. change (Z.of_nat 8) with 8. cbn [length Z.of_nat]. change (10 ^ (8 - 8)) with 1.
        change (8 - 0) with 8. lia.
    + split; intros H c Hc.
      * apply H. apply in_or_app. auto.
      * apply in_app_or in Hc. destruct Hc as [Hc|[Hc|Hc]]; auto. left. apply (rep_zero_in 8). auto.
    + exists s, (rep_str 8 (lit "0")). repeat split; auto. intros X. apply (rep_zero_in 8) in X. discriminate.
  - destruct (dec_run a ip Da) as [I1 [I2 [I3 [I4 I5]]]]. destruct (dec_run b fp Db) as [J1 [J2 [J3 [J4 J5]]]].
    destruct (one_dot a b I4 J4) as [C1 [C2 C3]].
    unfold ensure_8_decimal_places. rewrite C1. cbn [Nat.eqb]. rewrite C3. rewrite J5.
    replace (Nat.ltb 8 (length fp)) with false by (symmetry; apply Nat.ltb_ge; auto).
    eexists. split; [reflexivity|]. rewrite <- !app_assoc. split; [|split].
    + exists ip, (fp ++ repeat 0 (8 - length fp)). split; [|split].
      * right. exists a, (b ++ rep_str (8 - length fp) (lit "0")). repeat split; auto. { apply Forall2_app; auto. apply zeros_run. }
        intros X. apply Hx. apply app_eq_nil in X. destruct X as [-> X]. apply app_eq_nil in X. destruct X as [-> _]. auto.
      * rewrite app_length, repeat_length. lia.
      * rewrite app_length, repeat_length. replace (length fp + (8 - length fp))%nat with 8%nat by lia.
        rewrite (app_assoc ip), (val_app 10 (ip ++ fp)), val_repeat0, repeat_length, Nat2Z.inj_sub by auto.
        change (Z.of_nat 8) with 8. change (10 ^ (8 - 8)) with 1. lia.
    + split; intros H c Hc.
      * apply H. apply in_app_or in Hc. apply in_or_app.
        destruct Hc as [Hc|[Hc|Hc]]; [left; auto|right; left; auto|right; right; change (In c (b ++ rep_str (8 - length fp) (lit "0"))); apply in_or_app; auto].
      * apply in_app_or in Hc. destruct Hc as [Hc|[Hc|Hc]]; auto. { apply H. apply in_or_app. auto. }
        change (In c (b ++ rep_str (8 - length fp) (lit "0"))) in Hc.
        apply in_app_or in Hc. destruct Hc as [Hc|Hc]. { apply H. apply in_or_app. right. right. auto. }
        left. apply (rep_zero_in (8 - length fp)). auto.
    + exists a, (b ++ rep_str (8 - length fp) (lit "0")). repeat split; auto.
      * rewrite app_length. assert (length (rep_str (8 - length fp) (lit "0")) = (8 - length fp)%nat).
        { rewrite rep_zero_text. unfold text10. rewrite map_length, repeat_length. auto. } lia.
      * intros X. apply in_app_or in X. destruct X as [X|X]; auto. apply (rep_zero_in (8 - length fp)) in X. discriminate.
Qed.

End WithEnv.
