(** Strings of JSON: scan_string reads exactly chars; dump_string writes it. *)
From Coq Require Import String Lia.
From Verif Require Import PyBase Env Spec NumSpec Json JsonGrammar HexProofs.
Open Scope Z_scope.

Ltac zb := repeat match goal with
  | H : (_ && _) = true |- _ => apply andb_true_iff in H as [? ?]
  | H : (_ || _) = false |- _ => apply orb_false_iff in H as [? ?]
  | H : (_ <=? _) = true |- _ => apply Z.leb_le in H
  | H : (_ <=? _) = false |- _ => apply Z.leb_gt in H
  | H : (_ <? _) = true |- _ => apply Z.ltb_lt in H
  | H : (_ <? _) = false |- _ => apply Z.ltb_ge in H
  | H : (_ =? _) = true |- _ => apply Z.eqb_eq in H
  | H : (_ =? _) = false |- _ => apply Z.eqb_neq in H
  end.

Lemma hex_digit_iff : forall c d, hex_digit c = Some d <-> hex_value c d.
Proof.
  intros c d. unfold hex_digit. split.
  - destruct ((48 <=? c) && (c <=? 57)) eqn:A; [intros H; injection H as <-; zb; replace c with (48 + (c - 48)) at 1 by lia; constructor; lia|].
    destruct ((97 <=? c) && (c <=? 102)) eqn:B; [intros H; injection H as <-; zb; replace c with (87 + (c - 87)) at 1 by lia; constructor; lia|].
    destruct ((65 <=? c) && (c <=? 70)) eqn:C; [intros H; injection H as <-; zb; replace c with (55 + (c - 55)) at 1 by lia; constructor; lia|]. discriminate.
  - intros H. destruct H as [d H|d H|d H].
    + replace ((48 <=? 48 + d) && (48 + d <=? 57)) with true by (symmetry; apply andb_true_iff; split; apply Z.leb_le; lia). f_equal. lia.
    + replace ((48 <=? 87 + d) && (87 + d <=? 57)) with false by (symmetry; apply andb_false_iff; right; apply Z.leb_gt; lia).
      replace ((97 <=? 87 + d) && (87 + d <=? 102)) with true by (symmetry; apply andb_true_iff; split; apply Z.leb_le; lia). f_equal. lia.
    + replace ((48 <=? 55 + d) && (55 + d <=? 57)) with false by (symmetry; apply andb_false_iff; right; apply Z.leb_gt; lia).
      replace ((97 <=? 55 + d) && (55 + d <=? 102)) with false by (symmetry; apply andb_false_iff; left; apply Z.leb_gt; lia).
      replace ((65 <=? 55 + d) && (55 + d <=? 70)) with true by (symmetry; apply andb_true_iff; split; apply Z.leb_le; lia). f_equal. lia.
Qed.
Lemma hex4_iff : forall a b c d n, hex4 a b c d = Ok n <-> four [a; b; c; d] n.
Proof.
  intros a b c d n. unfold hex4, four. split.
  - destruct (hex_digit a) as [a'|] eqn:A; [|discriminate]. destruct (hex_digit b) as [b'|] eqn:B; [|discriminate]. destruct (hex_digit c) as [c'|] eqn:C; [|discriminate]. destruct (hex_digit d) as [d'|] eqn:D; [|discriminate].
    apply hex_digit_iff in A, B, C, D. intros H. injection H as <-. exists [a'; b'; c'; d']. split; [repeat (constructor; auto)|]. split; auto. unfold val. cbn [fold_left]. lia.
  - intros (ds & F & L & ->). inversion F as [|? a' ? l1 A F1]; subst. inversion F1 as [|? b' ? l2 B F2]; subst. inversion F2 as [|? c' ? l3 C F3]; subst. inversion F3 as [|? d' ? l4 D F4]; subst. inversion F4; subst.
    apply hex_digit_iff in A, B, C, D. rewrite A, B, C, D. f_equal. unfold val. cbn [fold_left]. lia.
Qed.
Lemma hex4_err : forall a b c d e, hex4 a b c d = Err e -> e = ValueError.
Proof. intros a b c d e. unfold hex4. destruct (hex_digit a), (hex_digit b), (hex_digit c), (hex_digit d); congruence. Qed.
Lemma four_length : forall s n, four s n -> length s = 4%nat.
Proof. intros s n (ds & F & L & _). rewrite <- L. clear L. induction F; cbn [length]; auto. Qed.
Lemma four_cases : forall s n, four s n -> exists a b c d, s = [a; b; c; d] /\ hex4 a b c d = Ok n.
Proof.
  intros s n F. pose proof (four_length s n F) as L. destruct s as [|a [|b [|c [|d [|? ?]]]]]; try discriminate. exists a, b, c, d. split; auto. apply hex4_iff. exact F.
Qed.
Lemma four_fun : forall s n m, four s n -> four s m -> n = m.
Proof. intros s n m A B. destruct (four_cases _ _ A) as (a & b & c & d & -> & H). apply hex4_iff in B. congruence. Qed.
Lemma simple_escape_iff : forall e c, simple_escape e = Some c <-> escape e c.
Proof.
  intros e c. unfold simple_escape. split.
  - destruct ((e =? 34) || (e =? 92) || (e =? 47)) eqn:A.
    + intros H. injection H as <-. apply orb_true_iff in A as [A|A]; [apply orb_true_iff in A as [A|A]|]; apply Z.eqb_eq in A; subst; constructor.
    + repeat match goal with |- (if ?b then _ else _) = _ -> _ => let Q := fresh in destruct b eqn:Q; [zb; subst; intros X; injection X as <-; constructor|] end. discriminate.
  - intros []; reflexivity.
Qed.
Lemma escape_not_u : forall c, ~ escape 117 c.
Proof. intros c H. inversion H. Qed.
Lemma is_high_iff : forall n, is_high n = true <-> high n.
Proof. intros n. unfold is_high, high. rewrite andb_true_iff, !Z.leb_le. tauto. Qed.
Lemma is_low_iff : forall n, is_low n = true <-> low n.
Proof. intros n. unfold is_low, low. rewrite andb_true_iff, !Z.leb_le. tauto. Qed.

(** Unfolding scan_string once. *)
Definition string_step (rec : pystr -> res (pystr * pystr)) (s : pystr) : res (pystr * pystr) :=
  match s with
  | [] => Err ValueError
  | c :: r =>
      if c =? 34 then Ok ([], r)
      else if c =? 92 then
        match r with
        | [] => Err ValueError
        | e :: r1 =>
            if e =? 117 then
              match r1 with
              | h1 :: h2 :: h3 :: h4 :: r2 =>
                  n <- hex4 h1 h2 h3 h4 ;;
                  let plain := fun _ : unit => '(t, z) <- rec r2 ;; Ok (n :: t, z) in
                  if is_high n then
                    match r2 with
                    | x :: y :: k1 :: k2 :: k3 :: k4 :: r3 =>
                        if (x =? 92) && (y =? 117) then
                          m <- hex4 k1 k2 k3 k4 ;;
                          if is_low m then '(t, z) <- rec r3 ;; Ok (65536 + (n - 55296) * 1024 + (m - 56320) :: t, z)
                          else plain tt
                        else plain tt
                    | _ => plain tt
                    end
                  else plain tt
              | _ => Err ValueError
              end
            else
              match simple_escape e with
              | None => Err ValueError
              | Some k => '(t, z) <- rec r1 ;; Ok (k :: t, z)
              end
        end
      else if c <=? 31 then Err ValueError
      else '(t, z) <- rec r ;; Ok (c :: t, z)
  end.
Lemma scan_string_step : forall s, scan_string s = string_step scan_string s.
Proof. intros [|c r]; reflexivity. Qed.

Lemma bind_cons : forall (m : res (pystr * pystr)) c t z, ('(t', z') <- m ;; Ok (c :: t', z')) = Ok (t, z) -> exists t', m = Ok (t', z) /\ t = c :: t'.
Proof. intros [[t' z']|e] c t z H; [|discriminate]. cbn [bind] in H. injection H as <- <-. eauto. Qed.

Lemma scan_string_sound : forall k s t z, (length s <= k)%nat -> scan_string s = Ok (t, z) -> exists b, s = b ++ [34] ++ z /\ chars b t.
Proof.
  induction k as [|k IH]; intros s t z L H; [destruct s; [discriminate|cbn in L; lia]|].
  rewrite scan_string_step in H. destruct s as [|c r]; [discriminate|]. cbn [length] in L. cbn [string_step] in H.
  destruct (c =? 34) eqn:C1; [zb; subst; injection H as <- <-; exists []; split; [reflexivity|constructor]|]. destruct (c =? 92) eqn:C2.
  - zb. subst c. destruct r as [|e r1]; [discriminate|]. cbn [length] in L. destruct (e =? 117) eqn:C3.
    + zb. subst e. destruct r1 as [|h1 [|h2 [|h3 [|h4 r2]]]]; try discriminate. cbn [length] in L. destruct (hex4 h1 h2 h3 h4) as [n|] eqn:N; [|discriminate]. cbn [bind] in H. cbv zeta in H.
      pose proof N as FN. apply hex4_iff in FN.
      assert (PL : ('(t', z') <- scan_string r2 ;; Ok (n :: t', z')) = Ok (t, z) -> ~ (high n /\ exists l m r, r2 = [92; 117] ++ l ++ r /\ four l m /\ low m) ->
                   exists b, 92 :: 117 :: h1 :: h2 :: h3 :: h4 :: r2 = b ++ [34] ++ z /\ chars b t).
      { intros P NP. apply bind_cons in P as (t' & P & ->). apply IH in P as (b & Q & CB); [|lia]. exists ([92; 117] ++ [h1; h2; h3; h4] ++ b). split; [cbn [app]; rewrite Q; reflexivity|].
        apply ch_unit; auto. intros (Hn & l & m & r & -> & F & Lo). apply NP. split; auto. exists l, m, (r ++ [34] ++ z). split; auto. rewrite Q. rewrite <- !app_assoc. reflexivity. }
      destruct (is_high n) eqn:HN.
      * assert (NP : forall P : Prop, (forall k1 k2 k3 k4 r3 m, r2 = 92 :: 117 :: k1 :: k2 :: k3 :: k4 :: r3 -> hex4 k1 k2 k3 k4 = Ok m -> is_low m = true -> False) -> ~ (high n /\ exists l m r, r2 = [92; 117] ++ l ++ r /\ four l m /\ low m)).
        { intros _ G (_ & l & m & r & Q & F & Lo). destruct (four_cases _ _ F) as (k1 & k2 & k3 & k4 & -> & Hm). apply (G k1 k2 k3 k4 r m); auto. apply is_low_iff. auto. }
        destruct r2 as [|x [|y [|k1 [|k2 [|k3 [|k4 r3]]]]]]; try (apply (PL H), (NP True); intros; discriminate).
        destruct ((x =? 92) && (y =? 117)) eqn:XY.
        -- zb. subst x y. destruct (hex4 k1 k2 k3 k4) as [m|] eqn:M; [|discriminate]. cbn [bind] in H. destruct (is_low m) eqn:LM.
           ++ apply bind_cons in H as (t' & H & ->). apply IH in H as (b & -> & CB); [|cbn [length] in L; lia]. exists ([92; 117] ++ [h1; h2; h3; h4] ++ [92; 117] ++ [k1; k2; k3; k4] ++ b). split; [reflexivity|].
              apply ch_pair; auto; [apply is_high_iff; auto|apply hex4_iff; auto|apply is_low_iff; auto].
           ++ apply (PL H), (NP True). intros ? ? ? ? ? m' Q Q2 Q3. injection Q as -> -> -> -> ->. congruence.
        -- apply (PL H), (NP True). intros ? ? ? ? ? m' Q Q2 Q3. injection Q as -> -> -> -> -> -> ->. discriminate.
      * apply (PL H). intros [Q _]. apply is_high_iff in Q. congruence.
    + destruct (simple_escape e) as [k'|] eqn:SE; [|discriminate]. apply simple_escape_iff in SE. apply bind_cons in H as (t' & H & ->). apply IH in H as (b & -> & CB); [|lia].
      exists ([92; e] ++ b). split; [reflexivity|]. apply ch_escape; auto.
  - destruct (c <=? 31) eqn:C4; [discriminate|]. apply bind_cons in H as (t' & H & ->). apply IH in H as (b & -> & CB); [|lia]. exists ([c] ++ b). split; [reflexivity|]. zb. apply ch_plain; auto. lia.
Qed.
Lemma chars_u : forall s t, chars s t -> forall r, s = 92 :: 117 :: r -> exists h n r', r = h ++ r' /\ four h n.
Proof.
  intros s t C r Q. destruct C as [|c s t H1 H2 H3 C|e c s t H C|h l n m s t F1 H1 F2 H2 C|h n s t F N C]; cbn [app] in Q; try discriminate.
  - injection Q as -> _. congruence.
  - injection Q as -> _. elim (escape_not_u _ H).
  - injection Q as <-. exists h, n, (92 :: 117 :: l ++ s). auto.
  - injection Q as <-. eauto.
Qed.
Lemma scan_string_complete : forall b t, chars b t -> forall z, scan_string (b ++ [34] ++ z) = Ok (t, z).
Proof.
  intros b t C. induction C as [|c s t H1 H2 H3 C IH|e c s t H C IH|h l n m s t F1 H1 F2 H2 C IH|h n s t F N C IH]; intros z.
  - reflexivity.
  - rewrite scan_string_step. cbn [app string_step]. replace (c =? 34) with false by (symmetry; apply Z.eqb_neq; auto). replace (c =? 92) with false by (symmetry; apply Z.eqb_neq; auto).
    replace (c <=? 31) with false by (symmetry; apply Z.leb_gt; lia). cbn [app] in IH. rewrite IH. reflexivity.
  - rewrite scan_string_step. cbn [app string_step]. change (92 =? 34) with false. change (92 =? 92) with true. cbv iota.
    replace (e =? 117) with false by (symmetry; apply Z.eqb_neq; intros ->; elim (escape_not_u _ H)). apply simple_escape_iff in H. rewrite H. cbn [app] in IH. rewrite IH. reflexivity.
  - destruct (four_cases _ _ F1) as (h1 & h2 & h3 & h4 & -> & E1), (four_cases _ _ F2) as (k1 & k2 & k3 & k4 & -> & E2).
    rewrite scan_string_step. cbn [app string_step]. change (92 =? 34) with false. change (92 =? 92) with true. change (117 =? 117) with true. cbv iota. rewrite E1. cbn [bind]. cbv zeta.
    apply is_high_iff in H1. rewrite H1. cbn [andb]. rewrite E2. cbn [bind]. apply is_low_iff in H2. rewrite H2. cbn [app] in IH. rewrite IH. reflexivity.
  - destruct (four_cases _ _ F) as (h1 & h2 & h3 & h4 & -> & E1). rewrite scan_string_step. cbn [app string_step]. change (92 =? 34) with false. change (92 =? 92) with true. change (117 =? 117) with true. cbv iota. rewrite E1. cbn [bind]. cbv zeta.
    cbn [app] in IH. destruct (is_high n) eqn:HN; [|rewrite IH; reflexivity]. pose proof (IH z) as IHz. remember (s ++ 34 :: z) as r2 eqn:R2.
    destruct r2 as [|x [|y [|k1 [|k2 [|k3 [|k4 r3]]]]]]; try (rewrite IHz; reflexivity).
    destruct ((x =? 92) && (y =? 117)) eqn:XY; [|rewrite IHz; reflexivity]. zb. subst x y.
    assert (S : exists r, s = 92 :: 117 :: r). { destruct s as [|x [|y s]]; cbn [app] in R2; injection R2; intros; subst; try discriminate. eauto. }
    destruct S as (r & ->). destruct (chars_u _ _ C _ eq_refl) as (h' & n' & r' & -> & F'). destruct (four_cases _ _ F') as (a & b & c & d & -> & E2). cbn [app] in R2. injection R2 as -> -> -> -> ->.
    rewrite E2. cbn [bind]. destruct (is_low n') eqn:LN; [|rewrite IHz; reflexivity]. exfalso. apply N. split; [apply is_high_iff; auto|]. exists [a; b; c; d], n', r'. split; [reflexivity|]. split; auto. apply is_low_iff. auto.
Qed.
Lemma scan_string_iff : forall s t z, scan_string s = Ok (t, z) <-> exists b, s = b ++ [34] ++ z /\ chars b t.
Proof. intros s t z. split; [apply (scan_string_sound (length s)); auto|]. intros (b & -> & C). apply scan_string_complete. auto. Qed.
Lemma scan_string_err : forall k s e, (length s <= k)%nat -> scan_string s = Err e -> e = ValueError.
Proof.
  induction k as [|k IH]; intros s e L H; [destruct s; [cbn in H; congruence|cbn in L; lia]|].
  assert (B : forall r c, (length r <= k)%nat -> ('(t, z) <- scan_string r ;; Ok (c :: t, z)) = Err e -> e = ValueError).
  { intros r c Lr Q. destruct (scan_string r) as [[? ?]|e'] eqn:S; [discriminate|]. cbn [bind] in Q. injection Q as ->. eauto. }
  rewrite scan_string_step in H. destruct s as [|c r]; [cbn in H; congruence|]. cbn [length] in L. cbn [string_step] in H.
  destruct (c =? 34); [discriminate|]. destruct (c =? 92).
  - destruct r as [|x r1]; [congruence|]. cbn [length] in L. destruct (x =? 117).
    + destruct r1 as [|h1 [|h2 [|h3 [|h4 r2]]]]; try congruence. cbn [length] in L. destruct (hex4 h1 h2 h3 h4) as [n|] eqn:N; [|apply hex4_err in N; cbn in H; congruence]. cbn [bind] in H. cbv zeta in H.
      assert (L2 : (length r2 <= k)%nat) by lia. pose proof (B r2 n L2) as B2.
      destruct (is_high n); [|exact (B2 H)]. destruct r2 as [|x' [|y [|k1 [|k2 [|k3 [|k4 r3]]]]]]; try exact (B2 H).
      destruct (_ && _); [|exact (B2 H)]. destruct (hex4 k1 k2 k3 k4) as [m|] eqn:M; [|apply hex4_err in M; cbn in H; congruence]. cbn [bind] in H. destruct (is_low m); [|exact (B2 H)].
      refine (B r3 _ _ H). cbn [length] in L. lia.
    + destruct (simple_escape x) as [y|]; [|congruence]. refine (B r1 y _ H). lia.
  - destruct (c <=? 31); [congruence|]. refine (B r c _ H). lia.
Qed.
Lemma scan_string_shorter : forall s t z, scan_string s = Ok (t, z) -> (length z < length s)%nat.
Proof. intros s t z H. apply scan_string_iff in H as (b & -> & _). rewrite !app_length. cbn. lia. Qed.

(** * Writing strings *)
Lemma digit_char_value : forall d, 0 <= d <= 15 -> hex_value (digit_char d) d.
Proof. intros d D. unfold digit_char. destruct (d <? 10) eqn:Q; zb; [apply hv_digit; lia|apply hv_lower; lia]. Qed.
Lemma hex4_text_four : forall n, 0 <= n < 65536 -> four (hex4_text n) n.
Proof.
  intros n N. exists [n / 4096 mod 16; n / 256 mod 16; n / 16 mod 16; n mod 16]. split; [|split; [reflexivity|]].
  - unfold hex4_text. cbn [map]. repeat constructor; apply digit_char_value; match goal with |- 0 <= ?x mod 16 <= 15 => pose proof (Z.mod_pos_bound x 16 ltac:(lia)); lia end.
  - unfold val. cbn [fold_left]. assert (n / 256 = n / 16 / 16) by (rewrite Z.div_div by lia; reflexivity). assert (n / 4096 = n / 16 / 16 / 16) by (rewrite !Z.div_div by lia; reflexivity).
    rewrite H, H0. pose proof (Z.div_mod n 16 ltac:(lia)). pose proof (Z.div_mod (n / 16) 16 ltac:(lia)). pose proof (Z.div_mod (n / 16 / 16) 16 ltac:(lia)).
    assert (0 <= n / 16 / 16 / 16 < 16) by (rewrite !Z.div_div by lia; split; [apply Z.div_pos; lia|apply Z.div_lt_upper_bound; lia]). rewrite (Z.mod_small (n / 16 / 16 / 16)) by lia. lia.
Qed.
Lemma escape_shape : forall c, character c ->
  (32 <= c /\ c <> 34 /\ c <> 92 /\ escape_char c = [c]) \/ (exists e, escape e c /\ escape_char c = [92; e]) \/
  (0 <= c < 65536 /\ escape_char c = [92; 117] ++ hex4_text c) \/
  (65536 <= c /\ exists n m, 0 <= n < 65536 /\ 0 <= m < 65536 /\ high n /\ low m /\ c = 65536 + (n - 55296) * 1024 + (m - 56320) /\ escape_char c = [92; 117] ++ hex4_text n ++ [92; 117] ++ hex4_text m).
Proof.
  intros c CH. unfold character in CH. unfold escape_char.
  destruct (c =? 34) eqn:Q1; [zb; subst; right; left; exists 34; split; [constructor|reflexivity]|]. destruct (c =? 92) eqn:Q2; [zb; subst; right; left; exists 92; split; [constructor|reflexivity]|].
  destruct (c =? 10) eqn:Q3; [zb; subst; right; left; exists 110; split; [constructor|reflexivity]|]. destruct (c =? 13) eqn:Q4; [zb; subst; right; left; exists 114; split; [constructor|reflexivity]|].
  destruct (c =? 9) eqn:Q5; [zb; subst; right; left; exists 116; split; [constructor|reflexivity]|]. destruct (c =? 12) eqn:Q6; [zb; subst; right; left; exists 102; split; [constructor|reflexivity]|].
  destruct (c =? 8) eqn:Q7; [zb; subst; right; left; exists 98; split; [constructor|reflexivity]|]. destruct ((32 <=? c) && (c <=? 126)) eqn:Q8; [zb; left; auto|].
  destruct (c <? 65536) eqn:Q9; zb; [right; right; left; split; [lia|reflexivity]|]. right. right. right. split; auto.
  pose proof (Z.div_mod (c - 65536) 1024 ltac:(lia)) as DM. pose proof (Z.mod_pos_bound (c - 65536) 1024 ltac:(lia)) as MB. assert (0 <= (c - 65536) / 1024 < 1024) by (split; [apply Z.div_pos; lia|apply Z.div_lt_upper_bound; lia]).
  exists (55296 + (c - 65536) / 1024), (56320 + (c - 65536) mod 1024). unfold high, low. repeat (split; [lia|]). reflexivity.
Qed.
Lemma chars_dump : forall s, plain_text s -> chars (flat_map escape_char s) s.
Proof.
  induction s as [|c s IH]; intros [F N]; [constructor|]. inversion F as [|x l CH F']; subst. destruct N as [N0 N]. cbn [flat_map]. assert (C : chars (flat_map escape_char s) s) by (apply IH; split; auto). clear IH.
  destruct (escape_shape c CH) as [(A1 & A2 & A3 & ->)|[(e & A & ->)|[(A & ->)|(A & n & m & A1 & A2 & A3 & A4 & -> & ->)]]].
  - apply ch_plain; auto.
  - apply ch_escape; auto.
  - rewrite <- app_assoc. apply ch_unit; auto; [apply hex4_text_four; auto|]. intros (H & l & m & r & Q & FL & LO). specialize (N0 H).
    destruct s as [|d s]; [discriminate|]. cbn [flat_map] in Q. inversion F' as [|x l0 CD _]; subst. apply four_cases in FL as (a & b & c' & d' & -> & FL). apply hex4_iff in FL. destruct (escape_shape d CD) as [(B1 & B2 & B3 & W)|[(e & B & W)|[(B & W)|(B & n' & m' & B1 & B2 & B3 & B4 & -> & W)]]]; rewrite W in Q; cbn [app] in Q.
    + injection Q as -> _. congruence.
    + injection Q as -> _. elim (escape_not_u _ B).
    + pose proof (hex4_text_four d B) as FD. destruct (four_cases _ _ FD) as (x1 & x2 & x3 & x4 & E4 & _). rewrite E4 in *. cbn [app] in Q. injection Q as <- <- <- <- _. pose proof (four_fun _ _ _ FL FD). subst m. contradiction.
    + pose proof (hex4_text_four n' B1) as FD. destruct (four_cases _ _ FD) as (x1 & x2 & x3 & x4 & E4 & _). rewrite E4 in *. cbn [app] in Q. injection Q as <- <- <- <- _. pose proof (four_fun _ _ _ FL FD). subst m. unfold high, low in *. lia.
  - rewrite <- !app_assoc. apply ch_pair; auto using hex4_text_four.
Qed.
