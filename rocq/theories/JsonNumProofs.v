(** Numbers of JSON: scan_number reads exactly number. *)
From Coq Require Import String Floats.SpecFloat Reals Lia.
From Verif Require Import PyBase Env PyNum Spec EnvOk NumSpec Json JsonGrammar Demo.
From Verif Require Import NumLemmas HexProofs AmountProofs NumProofs DemoProofs JsonTextProofs.
Open Scope Z_scope.

(** What may follow a value: nothing, white space, or one of , ] } *)
Definition ends (s : pystr) : Prop := match s with [] => True | c :: _ => c = 32 \/ c = 9 \/ c = 10 \/ c = 13 \/ c = 44 \/ c = 93 \/ c = 125 end.
Definition no_digit (s : pystr) : Prop := match s with [] => True | c :: _ => ~ 48 <= c <= 57 end.

Lemma ascii_digit_iff : forall c, ascii_digit c = true <-> 48 <= c <= 57.
Proof. intros c. unfold ascii_digit. rewrite andb_true_iff, !Z.leb_le. tauto. Qed.
Lemma span_digits_at : forall ds r, digits_in 10 ds -> no_digit r -> span_digits (text10 ds ++ r) = (text10 ds, r).
Proof.
  intros ds r D N. induction D as [|d ds Hd D IH]; cbn [text10 map app].
  - destruct r as [|c r]; [reflexivity|]. cbn [span_digits]. destruct (ascii_digit c) eqn:A; [apply ascii_digit_iff in A; contradiction|reflexivity].
  - cbn [span_digits]. replace (ascii_digit (48 + d)) with true by (symmetry; apply ascii_digit_iff; lia). unfold text10 in IH. rewrite IH. reflexivity.
Qed.
Lemma span_digits_spec : forall s a b, span_digits s = (a, b) -> exists ds, s = a ++ b /\ a = text10 ds /\ digits_in 10 ds /\ no_digit b.
Proof.
  induction s as [|c s IH]; intros a b H; cbn [span_digits] in H.
  - injection H as <- <-. exists []. repeat split. constructor.
  - destruct (ascii_digit c) eqn:A.
    + destruct (span_digits s) as [a' b'] eqn:S. injection H as <- <-. destruct (IH _ _ eq_refl) as (ds & -> & -> & D & N). apply ascii_digit_iff in A. exists (c - 48 :: ds). split; [reflexivity|]. split; [cbn [text10 map]; f_equal; lia|].
      split; auto. constructor; auto. lia.
    + injection H as <- <-. exists []. repeat split; [constructor|]. cbn [no_digit]. intros X. apply ascii_digit_iff in X. congruence.
Qed.
Lemma int_part_spec : forall s a b, int_part s = Some (a, b) -> exists ds, s = a ++ b /\ whole a ds.
Proof.
  intros s a b H. destruct s as [|c r]; [discriminate|]. cbn [int_part] in H. destruct (c =? 48) eqn:A.
  - zb. subst c. injection H as <- <-. exists [0]. split; [reflexivity|]. split; [reflexivity|]. split; [constructor; [lia|constructor]|]. auto.
  - destruct ((49 <=? c) && (c <=? 57)) eqn:B; [|discriminate]. destruct (span_digits r) as [a' b'] eqn:S. injection H as <- <-. destruct (span_digits_spec _ _ _ S) as (ds & -> & -> & D & N). zb. exists (c - 48 :: ds).
    split; [reflexivity|]. split; [cbn [text10 map]; f_equal; lia|]. split; [constructor; auto; lia|]. right. split; [discriminate|]. unfold no_lead0. destruct (c - 48) eqn:Q; auto; lia.
Qed.
Lemma int_part_at : forall a ds r, whole a ds -> no_digit r -> int_part (a ++ r) = Some (a, r).
Proof.
  intros a ds r (-> & D & [-> |[NE NL]]) N; [reflexivity|]. destruct ds as [|d ds]; [congruence|]. inversion D as [|x l Hd D']; subst. assert (d <> 0) by (intros ->; exact NL).
  cbn [text10 map app int_part]. replace (48 + d =? 48) with false by (symmetry; apply Z.eqb_neq; lia). replace ((49 <=? 48 + d) && (48 + d <=? 57)) with true by (symmetry; apply andb_true_iff; split; apply Z.leb_le; lia).
  pose proof (span_digits_at ds r D' N) as S. unfold text10 in S. rewrite S. reflexivity.
Qed.
Lemma frac_part_spec : forall s a b, frac_part s = (a, b) -> s = a ++ b /\ (a = [] \/ exists ds, fraction a ds).
Proof.
  intros s a b H. destruct s as [|c r]; [injection H as <- <-; auto|]. cbn [frac_part] in H. destruct (c =? 46) eqn:A; [|injection H as <- <-; auto].
  zb. subst c. destruct (span_digits r) as [a' b'] eqn:S. destruct (span_digits_spec _ _ _ S) as (ds & -> & -> & D & N). destruct ds as [|d ds]; cbn [text10 map] in H; [injection H as <- <-; auto|].
  injection H as <- <-. split; [reflexivity|]. right. exists (d :: ds). split; [reflexivity|]. split; auto. discriminate.
Qed.
Lemma frac_part_at : forall a ds r, fraction a ds -> no_digit r -> frac_part (a ++ r) = (a, r).
Proof.
  intros a ds r (-> & D & NE) N. cbn [app frac_part]. change (46 =? 46) with true. cbv iota. rewrite (span_digits_at ds r D N). destruct ds as [|d ds]; [congruence|]. reflexivity.
Qed.
Lemma frac_part_none : forall r, (match r with c :: _ => c <> 46 | [] => True end) -> frac_part r = ([], r).
Proof. intros [|c r] N; [reflexivity|]. cbn [frac_part]. apply Z.eqb_neq in N. rewrite N. reflexivity. Qed.
Lemma exp_part_spec : forall s a b, exp_part s = (a, b) -> s = a ++ b /\ (a = [] \/ exists x, exponent a x).
Proof.
  intros s a b H. destruct s as [|c r]; [injection H as <- <-; auto|]. cbn [exp_part] in H. destruct ((c =? 101) || (c =? 69)) eqn:A; [|injection H as <- <-; auto].
  assert (C : c = 101 \/ c = 69) by (apply orb_true_iff in A as [A|A]; zb; auto).
  set (q := match r with x :: r' => if (x =? 43) || (x =? 45) then ([x], r') else ([], r) | [] => ([], []) end) in *.
  assert (Q : exists sg r1 neg, q = (sg, r1) /\ r = sg ++ r1 /\ sign_text sg neg).
  { unfold q. destruct r as [|x r']; [exists [], [], false; repeat split; constructor|]. destruct ((x =? 43) || (x =? 45)) eqn:X; [|exists [], (x :: r'), false; repeat split; constructor].
    apply orb_true_iff in X as [X|X]; zb; subst x; eexists _, _, _; repeat split; constructor. }
  destruct Q as (sg & r1 & neg & -> & -> & SG). destruct (span_digits r1) as [a' b'] eqn:S. destruct (span_digits_spec _ _ _ S) as (ds & -> & -> & D & N).
  destruct ds as [|d ds]; cbn [text10 map] in H; [injection H as <- <-; auto|]. injection H as <- <-. split; [rewrite <- app_comm_cons, <- app_assoc; reflexivity|]. right. exists (signed neg (val 10 (d :: ds))), c, sg, neg, (d :: ds).
  split; [reflexivity|]. split; auto. split; auto. split; auto. split; [discriminate|reflexivity].
Qed.
Lemma exp_part_at : forall a x r, exponent a x -> no_digit r -> exp_part (a ++ r) = (a, r).
Proof.
  intros a x r (c & sg & neg & ds & -> & C & SG & D & NE & ->) N. cbn [app exp_part]. replace ((c =? 101) || (c =? 69)) with true by (destruct C as [-> | ->]; reflexivity).
  rewrite <- app_assoc. destruct ds as [|d ds]; [congruence|]. inversion D as [|y l Hd D']; subst. destruct SG; cbn [app text10 map].
  - replace ((48 + d =? 43) || (48 + d =? 45)) with false by (symmetry; apply orb_false_iff; split; apply Z.eqb_neq; lia). change (48 + d :: map (fun d => 48 + d) ds ++ r) with (text10 (d :: ds) ++ r). rewrite (span_digits_at _ _ D N). reflexivity.
  - change ((43 =? 43) || (43 =? 45)) with true. cbv iota. change (48 + d :: map (fun d => 48 + d) ds ++ r) with (text10 (d :: ds) ++ r). rewrite (span_digits_at _ _ D N). reflexivity.
  - change ((45 =? 43) || (45 =? 45)) with true. cbv iota. change (48 + d :: map (fun d => 48 + d) ds ++ r) with (text10 (d :: ds) ++ r). rewrite (span_digits_at _ _ D N). reflexivity.
Qed.
Lemma exp_part_none : forall r, (match r with c :: _ => c <> 101 /\ c <> 69 | [] => True end) -> exp_part r = ([], r).
Proof. intros [|c r] N; [reflexivity|]. cbn [exp_part]. destruct N as [N1 N2]. apply Z.eqb_neq in N1, N2. rewrite N1, N2. reflexivity. Qed.

(** The texts are ASCII: their values do not depend on the Unicode database. *)
Definition low_text (s : pystr) : Prop := Forall (fun c => c < 128) s.
Lemma map_low : forall (E : Env) s, low_text s -> map to_ascii s = s.
Proof. intros E s. induction 1 as [|c s H _ IH]; [reflexivity|]. cbn [map]. rewrite IH, other_ascii_id by auto. reflexivity. Qed.
Lemma int_env : forall (E : Env) s, low_text s -> @py_int_str E 10 s = @py_int_str demo_env 10 s.
Proof. intros E s L. unfold py_int_str. rewrite (map_low E s L), (map_low demo_env s L). reflexivity. Qed.
Lemma float_env : forall (E : Env) s, low_text s -> @py_float_str E s = @py_float_str demo_env s.
Proof. intros E s L. unfold py_float_str. rewrite (map_low E s L), (map_low demo_env s L). reflexivity. Qed.
Lemma low_text10 : forall ds, digits_in 10 ds -> low_text (text10 ds).
Proof. intros ds D. unfold low_text, text10. apply Forall_map. eapply Forall_impl; [|exact D]. intros a H. cbv beta in *. lia. Qed.
Lemma digits_text10 : forall ds, digits_in 10 ds -> ds <> [] -> @digits_text demo_env (text10 ds) ds.
Proof.
  intros ds D. induction D as [|d ds Hd D IH]; intros NE; [congruence|]. destruct ds as [|d' ds]; [apply one_digit; left; lia|]. apply next_digit; [left; lia|]. apply IH. discriminate.
Qed.
Lemma low_minus : forall sg neg, minus_text sg neg -> low_text sg.
Proof. intros sg neg []; repeat constructor. Qed.
Lemma low_sign : forall sg neg, sign_text sg neg -> low_text sg.
Proof. intros sg neg []; repeat constructor. Qed.
Lemma low_app : forall a b, low_text a -> low_text b -> low_text (a ++ b).
Proof. intros a b A B. apply Forall_app. auto. Qed.
Lemma minus_sign : forall sg neg, minus_text sg neg -> sign_text sg neg.
Proof. intros sg neg []; constructor. Qed.
Lemma whole_digits : forall a ds, whole a ds -> a = text10 ds /\ digits_in 10 ds /\ ds <> [].
Proof. intros a ds (A & B & [-> |[C _]]); repeat split; auto. discriminate. Qed.
Lemma int_value_at : forall (E : Env) sg neg i ip, minus_text sg neg -> whole i ip -> @py_int_str E 10 (sg ++ i) = Ok (signed neg (val 10 ip)).
Proof.
  intros E sg neg i ip M W. destruct (whole_digits _ _ W) as (-> & D & NE). rewrite int_env by (apply low_app; [eapply low_minus; eauto|apply low_text10; auto]).
  apply (int_text_iff demo_uni). exists [], sg, neg, (text10 ip), ip, []. rewrite app_nil_r. repeat split; auto; [apply minus_sign; auto|apply digits_text10; auto].
Qed.
Lemma float_value_at : forall (E : Env) sg neg i ip f fp e x r, minus_text sg neg -> whole i ip ->
  (f = [] /\ fp = [] \/ fraction f fp) -> (e = [] /\ x = 0 \/ exponent e x) ->
  (@py_float_str E (sg ++ i ++ f ++ e) = Ok r <-> rounds (IZR (signed neg (val 10 (ip ++ fp))) * powerRZ 10 (x - Z.of_nat (length fp))) neg r).
Proof.
  intros E sg neg i ip f fp e x r M W F X. destruct (whole_digits _ _ W) as (-> & D & NE).
  assert (LF : low_text f) by (destruct F as [[-> _]|(-> & DF & _)]; [constructor|constructor; [lia|apply low_text10; auto]]).
  assert (LE : low_text e) by (destruct X as [[-> _]|(c & s & n & ds & -> & C & S & DE & _)]; [constructor|constructor; [lia|apply low_app; [eapply low_sign; eauto|apply low_text10; auto]]]).
  rewrite float_env by (apply low_app; [eapply low_minus; eauto|]; apply low_app; [apply low_text10; auto|]; apply low_app; auto).
  assert (G : exists r0, @py_float_str demo_env (sg ++ text10 ip ++ f ++ e) = Ok r0 /\ rounds (IZR (signed neg (val 10 (ip ++ fp))) * powerRZ 10 (x - Z.of_nat (length fp))) neg r0).
  { exists (float_of_dec neg (val 10 (ip ++ fp)) (x - Z.of_nat (length fp))).
    assert (V : 0 <= val 10 (ip ++ fp)) by (apply val_bounds; [lia|]; apply Forall_app; split; auto; destruct F as [[_ ->]|(_ & DF & _)]; [constructor|auto]).
    assert (R : rounds (IZR (signed neg (val 10 (ip ++ fp))) * powerRZ 10 (x - Z.of_nat (length fp))) neg (float_of_dec neg (val 10 (ip ++ fp)) (x - Z.of_nat (length fp)))) by (apply float_of_dec_rounds; auto).
    split; auto. apply (float_text_iff demo_uni). exists [], sg, neg, (text10 ip ++ f ++ e), []. rewrite app_nil_r. repeat split; auto; [apply minus_sign; auto|]. right. right. exists (text10 ip ++ f), e, ip, fp, x. split; [rewrite app_assoc; reflexivity|]. split.
    - destruct F as [[-> ->]|(-> & DF & NF)]; [left; rewrite app_nil_r; split; auto; apply digits_text10; auto|]. right. exists (text10 ip), (text10 fp). split; auto. split; [right; apply digits_text10; auto|]. split; [right; apply digits_text10; auto|]. destruct ip; [congruence|discriminate].
    - split; auto. destruct X as [[-> ->]|(c & s & n & ds & -> & C & S & DE & N2 & ->)]; [left; auto|right]. exists c, s, n, (text10 ds), ds. repeat split; auto. apply digits_text10; auto. }
  destruct G as (r0 & G1 & G2). rewrite G1. split; [intros H; injection H as <-; auto|]. intros R. f_equal. eapply rounds_fun; eauto.
Qed.

Section WithEnv.
Context {E : Env}.
Lemma scan_number_sound : forall s v z, scan_number s = Ok (v, z) -> exists t, s = t ++ z /\ number t v.
Proof.
  intros s v z H. unfold scan_number in H. set (q := match s with c :: r => if c =? 45 then ([c], r) else ([], s) | [] => ([], s) end) in *.
  assert (Q : exists sg s1 neg, q = (sg, s1) /\ s = sg ++ s1 /\ minus_text sg neg).
  { unfold q. destruct s as [|c r]; [exists [], [], false; repeat split; constructor|]. destruct (c =? 45) eqn:C; [zb; subst c|]; eexists _, _, _; repeat split; constructor. }
  destruct Q as (sg & s1 & neg & -> & -> & M). destruct (int_part s1) as [[ip s2]|] eqn:I; [|discriminate]. destruct (int_part_spec _ _ _ I) as (ds & -> & W).
  destruct (frac_part s2) as [fp s3] eqn:F. destruct (frac_part_spec _ _ _ F) as (-> & FP). destruct (exp_part s3) as [ep s4] eqn:X. destruct (exp_part_spec _ _ _ X) as (-> & EP).
  assert (FL : fp <> [] \/ ep <> [] -> (f <- py_float_str (sg ++ ip ++ fp ++ ep) ;; Ok (PFloat f, s4)) = Ok (v, z) -> exists t, sg ++ ip ++ fp ++ ep ++ s4 = t ++ z /\ number t v).
  { intros NE G. destruct (py_float_str (sg ++ ip ++ fp ++ ep)) as [f|] eqn:PF; [|discriminate]. injection G as <- <-. exists (sg ++ ip ++ fp ++ ep). split; [rewrite <- !app_assoc; reflexivity|].
    assert (F' : exists fd, fp = [] /\ fd = [] \/ fraction fp fd) by (destruct FP as [-> |(fd & FD)]; [exists []; auto|exists fd; auto]). destruct F' as (fd & F').
    assert (E' : exists x, ep = [] /\ x = 0 \/ exponent ep x) by (destruct EP as [-> |(x & XD)]; [exists 0; auto|exists x; auto]). destruct E' as (x & E').
    eapply n_float; eauto. apply (float_value_at E sg neg ip ds fp fd ep x f); auto. }
  destruct fp as [|c fp].
  - destruct ep as [|c ep]; [|apply FL; auto; right; discriminate]. cbn [app] in *. rewrite (int_value_at E _ _ _ _ M W) in H. cbn [bind] in H. injection H as <- <-. exists (sg ++ ip). split; [rewrite <- app_assoc; reflexivity|]. constructor; auto.
  - apply FL; auto. left. discriminate.
Qed.
Lemma ends_no_digit : forall s, ends s -> no_digit s.
Proof. intros [|c s] H; [exact I|]. cbn in *. lia. Qed.
Lemma scan_number_complete : forall t v, number t v -> forall z, ends z -> scan_number (t ++ z) = Ok (v, z).
Proof.
  assert (G : forall sg neg i ip f fp e x z, minus_text sg neg -> whole i ip -> (f = [] /\ fp = [] \/ fraction f fp) -> (e = [] /\ x = 0 \/ exponent e x) -> ends z ->
    scan_number ((sg ++ i ++ f ++ e) ++ z) = match f, e with [], [] => z0 <- py_int_str 10 (sg ++ i) ;; Ok (PInt z0, z) | _, _ => f0 <- py_float_str (sg ++ i ++ f ++ e) ;; Ok (PFloat f0, z) end).
  { intros sg neg i ip f fp e x z M W F X EZ. unfold scan_number. rewrite <- !app_assoc.
    match goal with |- context [let '(_, _) := ?X in _] => assert (Q : X = (sg, i ++ f ++ e ++ z)) end.
    { destruct M; cbn [app]; [|reflexivity]. destruct (whole_digits _ _ W) as (-> & D & NE). destruct ip as [|d ip]; [congruence|]. inversion D as [|? ? Hd _]; subst. cbn [text10 map app]. replace (48 + d =? 45) with false by (symmetry; apply Z.eqb_neq; lia). reflexivity. }
    rewrite Q. assert (NDZ : no_digit z) by (apply ends_no_digit; auto).
    assert (NDE : no_digit (e ++ z) /\ match e ++ z with c :: _ => c <> 46 | [] => True end).
    { destruct X as [[-> _]|(c & s & n & ds & -> & C & _)]; cbn [app no_digit]; [split; auto; destruct z; auto; cbn in EZ; lia|split; lia]. }
    assert (NDF : no_digit (f ++ e ++ z)) by (destruct F as [[-> _]|(-> & _ & _)]; cbn [app no_digit]; [apply NDE|lia]).
    rewrite (int_part_at i ip _ W NDF).
    assert (FQ : frac_part (f ++ e ++ z) = (f, e ++ z)) by (destruct F as [[-> _]|F]; [apply frac_part_none, NDE|eapply frac_part_at; [eauto|apply NDE]]).
    rewrite FQ. assert (EQ : exp_part (e ++ z) = (e, z)) by (destruct X as [[-> _]|X]; [apply exp_part_none; destruct z; auto; cbn in EZ; cbn [app]; lia|eapply exp_part_at; eauto]).
    rewrite EQ. reflexivity. }
  intros t v N z EZ. destruct N as [sg neg i ip M W|sg neg i ip f fp e x r M W F X NE R].
  - pose proof (G sg neg i ip [] [] [] 0 z M W (or_introl (conj eq_refl eq_refl)) (or_introl (conj eq_refl eq_refl)) EZ) as H. cbn [app] in H. rewrite app_nil_r in H. rewrite H, (int_value_at E _ _ _ _ M W). reflexivity.
  - rewrite (G sg neg i ip f fp e x z M W F X EZ). assert (PF : @py_float_str E (sg ++ i ++ f ++ e) = Ok r) by (apply (float_value_at E sg neg i ip f fp e x r); auto).
    rewrite PF. destruct f; [destruct e; [destruct NE; congruence|reflexivity]|reflexivity].
Qed.
Lemma number_head : forall t v, number t v -> exists c r, t = c :: r /\ (c = 45 \/ 48 <= c <= 57) /\ (c = 45 -> exists d r', r = d :: r' /\ 48 <= d <= 57).
Proof.
  assert (G : forall sg neg i ip q, minus_text sg neg -> whole i ip -> exists c r, sg ++ i ++ q = c :: r /\ (c = 45 \/ 48 <= c <= 57) /\ (c = 45 -> exists d r', r = d :: r' /\ 48 <= d <= 57)).
  { intros sg neg i ip q M W. destruct (whole_digits _ _ W) as (-> & D & NE). destruct ip as [|d ip]; [congruence|]. inversion D as [|? ? Hd _]; subst. destruct M; cbn [app text10 map].
    - eexists _, _. split; [reflexivity|]. split; [lia|]. intros; lia.
    - eexists _, _. split; [reflexivity|]. split; [lia|]. intros _. eexists _, _. split; [reflexivity|]. lia. }
  intros t v N. destruct N as [sg neg i ip M W|sg neg i ip f fp e x r M W F X NE R]; [|eapply G; eauto]. destruct (G sg neg i ip [] M W) as (c & r & Q & H). rewrite app_nil_r in Q. eauto.
Qed.
Lemma scan_number_err : forall s e, scan_number s = Err e -> e = ValueError.
Proof.
  intros s e H. unfold scan_number in H. destruct (match s with c :: r => if c =? 45 then ([c], r) else ([], s) | [] => ([], s) end) as [sg s1]. destruct (int_part s1) as [[ip s2]|]; [|congruence].
  destruct (frac_part s2) as [fp s3]. destruct (exp_part s3) as [ep s4].
  assert (G : forall q, (f <- py_float_str q ;; Ok (PFloat f, s4)) = Err e -> e = ValueError) by (intros q G; destruct (py_float_str q) as [|e'] eqn:P; [discriminate|]; injection G as ->; eapply py_float_str_err; eauto).
  destruct fp; [destruct ep|]; eauto. destruct (py_int_str 10 (sg ++ ip)) as [|e'] eqn:P; [discriminate|]. injection H as ->. eapply py_int_str_err; eauto.
Qed.
End WithEnv.
