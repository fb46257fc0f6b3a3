(** scriptSig building and parsing, DER wrapping. *)
From Coq Require Import String Lia.
From Verif Require Import PyBase Env PyNum Validate Basic Spec EnvOk TxSpec NumLemmas HexProofs Base58Proofs AddrProofs.

Section WithEnv.
Context {E : Env}.

Lemma skipn_add : forall A a b (l : list A), skipn (a + b) l = skipn b (skipn a l).
Proof.
  intros A. induction a as [|a IH]; intros b l; [reflexivity|]. destruct l; [destruct b; reflexivity|]. cbn. apply IH.
Qed.

Lemma hex_length_cases : forall s n,
  ((exists bs, bytes bs /\ length bs = n /\ s = hex_of bs) /\ validate_hex_length (PStr s) n = Ok tt) \/
  (~ (exists bs, bytes bs /\ length bs = n /\ s = hex_of bs) /\ validate_hex_length (PStr s) n = Err ValueError).
Proof.
  intros s n. destruct (validate_hex_cases s) as [[[bs [B ->]] V]|[N V]].
  - destruct (Nat.eq_dec (length bs) n) as [L|L].
    + left. split; [exists bs; auto|]. apply validate_hex_length_ok; auto.
    + right. split; [|apply validate_hex_length_bad; auto].
      intros [b2 [B2 [L2 Q]]]. apply hex_of_inj in Q; auto. congruence.
  - right. split.
    + intros [b2 [B2 [L2 Q]]]. apply N. exists b2. auto.
    + unfold validate_hex_length. rewrite V. reflexivity.
Qed.

Lemma hex1_len : forall b, length (hex_of [b]) = 2%nat.
Proof. reflexivity. Qed.

Lemma hex_inj1 : forall a b, byte a -> byte b -> hex_of [a] = hex_of [b] -> a = b.
Proof. intros a b Ha Hb H. apply hex_of_inj in H; try (apply bytes1; auto). congruence. Qed.

Lemma slice_hex : forall a b bs, slice (2 * a) (2 * b) (hex_of bs) = hex_of (firstn (b - a) (skipn a bs)).
Proof.
  intros a b bs. unfold slice. rewrite skipn_hex. replace (2 * b - 2 * a)%nat with (2 * (b - a))%nat by lia. apply firstn_hex.
Qed.

Lemma var_int_byte : forall b, byte b -> var_int_to_int (PStr (hex_of [b])) = if b <=? 252 then Ok b else Err ValueError.
Proof.
  intros b H. destruct (b <=? 252) eqn:L.
  - apply Z.leb_le in L. apply var_int_to_int_ok. unfold byte in H. lia.
  - apply Z.leb_gt in L. apply var_int_to_int_big. unfold byte in H. lia.
Qed.

Lemma var_int_nil : var_int_to_int (PStr (hex_of [])) = Err ValueError.
Proof. reflexivity. Qed.

(** The parser on arbitrary hex, as a function on bytes. *)
Definition parse_script (bs : list Z) : res (list Z * list Z) :=
  match bs with
  | n :: r =>
      if n <=? 252 then
        let sig := firstn (Z.to_nat n) r in
        match skipn (Z.to_nat n) r with
        | n2 :: r2 =>
            if n2 <=? 252 then
              let pk := firstn (Z.to_nat n2) r2 in
              if str_eqb (last_n 1 sig) [1] then
                if str_eqb (firstn 1 pk) [4] then Ok (drop_last_n 1 sig, skipn 1 pk) else Err ValueError
              else Err ValueError
            else Err ValueError
        | [] => Err ValueError
        end
      else Err ValueError
  | [] => Err ValueError
  end.

Lemma str_eqb_hex : forall a b, bytes a -> bytes b -> str_eqb (hex_of a) (hex_of b) = str_eqb a b.
Proof.
  intros a b Ha Hb. destruct (str_eqb a b) eqn:E1.
  - apply str_eqb_eq in E1. subst. apply str_eqb_refl.
  - apply str_eqb_neq in E1. apply str_eqb_neq. intros H. apply E1. apply hex_of_inj; auto.
Qed.

Lemma parse_script_hex : forall bs, bytes bs ->
  script_sig_to_signature_hex_and_public_key_hex (hex_of bs) =
  match parse_script bs with Ok (s, p) => Ok (hex_of s, hex_of p) | Err e => Err e end.
Proof.
  intros bs H. unfold script_sig_to_signature_hex_and_public_key_hex. rewrite validate_hex_ok by auto. cbn [bind]. cbv zeta.
  change (slice 0 2 (hex_of bs)) with (slice (2 * 0) (2 * 1) (hex_of bs)). rewrite slice_hex. change (1 - 0)%nat with 1%nat. change (skipn 0 bs) with bs.
  destruct bs as [|n r]; [reflexivity|]. change (firstn 1 (n :: r)) with [n]. inversion H as [|x y Hn Hr]; subst. rewrite var_int_byte by auto.
  cbn [parse_script]. destruct (n <=? 252) eqn:L1; [|reflexivity]. cbn [bind].
  assert (N0 : 0 <= n) by (unfold byte in Hn; lia).
  replace (Z.to_nat n * 2 + 2)%nat with (2 * (Z.to_nat n + 1))%nat by lia.
  change (slice 2 (2 * (Z.to_nat n + 1)) (hex_of (n :: r))) with (slice (2 * 1) (2 * (Z.to_nat n + 1)) (hex_of (n :: r))).
  rewrite slice_hex. replace (Z.to_nat n + 1 - 1)%nat with (Z.to_nat n) by lia. change (skipn 1 (n :: r)) with r.
  set (sig := firstn (Z.to_nat n) r). assert (Bs : bytes sig) by (apply bytes_firstn; auto).
  rewrite hex_len_ok by auto. cbn [bind].
  replace (2 * (Z.to_nat n + 1) + 2)%nat with (2 * (Z.to_nat n + 2))%nat by lia.
  rewrite slice_hex. replace (Z.to_nat n + 2 - (Z.to_nat n + 1))%nat with 1%nat by lia.
  replace (skipn (Z.to_nat n + 1) (n :: r)) with (skipn (Z.to_nat n) r) by (replace (Z.to_nat n + 1)%nat with (S (Z.to_nat n)) by lia; reflexivity).
  assert (Br : bytes (skipn (Z.to_nat n) r)) by (apply bytes_skipn; auto).
  destruct (skipn (Z.to_nat n) r) as [|n2 r2] eqn:Sk; [reflexivity|]. change (firstn 1 (n2 :: r2)) with [n2].
  inversion Br as [|x y Hn2 Hr2]; subst. rewrite var_int_byte by auto.
  destruct (n2 <=? 252) eqn:L2; [|reflexivity]. cbn [bind].
  assert (N2 : 0 <= n2) by (unfold byte in Hn2; lia).
  replace (2 * (Z.to_nat n + 2) + Z.to_nat n2 * 2)%nat with (2 * (Z.to_nat n + 2 + Z.to_nat n2))%nat by lia.
  rewrite slice_hex. replace (Z.to_nat n + 2 + Z.to_nat n2 - (Z.to_nat n + 2))%nat with (Z.to_nat n2) by lia.
  replace (skipn (Z.to_nat n + 2) (n :: r)) with r2.
  2:{ replace (Z.to_nat n + 2)%nat with (1 + (Z.to_nat n + 1))%nat by lia. rewrite skipn_add. cbn [skipn].
      rewrite skipn_add, Sk. reflexivity. }
  set (pk := firstn (Z.to_nat n2) r2). assert (Bp : bytes pk) by (apply bytes_firstn; auto).
  rewrite hex_len_ok by auto. cbn [bind].
  change (last_n 2 (hex_of sig)) with (last_n (2 * 1) (hex_of sig)). rewrite last_n_hex.
  change (lit "01") with (hex_of [1]). assert (Bl : bytes (last_n 1 sig)) by (apply bytes_skipn; auto).
  rewrite str_eqb_hex by (auto; apply bytes1; unfold byte; lia).
  destruct (str_eqb (last_n 1 sig) [1]); [|reflexivity]. cbn [negb].
  change (drop_last_n 2 (hex_of sig)) with (drop_last_n (2 * 1) (hex_of sig)). rewrite drop_last_n_hex.
  assert (Bd : bytes (drop_last_n 1 sig)) by (apply bytes_firstn; auto).
  rewrite hex_len_ok by auto. cbn [bind].
  change (firstn 2 (hex_of pk)) with (firstn (2 * 1) (hex_of pk)). rewrite firstn_hex.
  change (lit "04") with (hex_of [4]). rewrite str_eqb_hex by (try apply bytes_firstn; auto; apply bytes1; unfold byte; lia).
  destruct (str_eqb (firstn 1 pk) [4]); [|reflexivity]. cbn [negb].
  change (skipn 2 (hex_of pk)) with (skipn (2 * 1) (hex_of pk)). rewrite skipn_hex.
  rewrite hex_len_ok by (apply bytes_skipn; auto). reflexivity.
Qed.

Lemma parse_script_iff : forall bs sig pub, bytes bs ->
  (parse_script bs = Ok (sig, pub) <-> script_sig_parts bs sig pub).
Proof.
  intros bs sig pub H. split.
  - intros P. destruct bs as [|n r]; [discriminate|]. cbn [parse_script] in P. inversion H as [|x y Hn Hr]; subst.
    destruct (n <=? 252) eqn:L1; [|discriminate]. apply Z.leb_le in L1. cbv zeta in P.
    destruct (skipn (Z.to_nat n) r) as [|n2 r2] eqn:Sk; [discriminate|].
    destruct (n2 <=? 252) eqn:L2; [|discriminate]. apply Z.leb_le in L2.
    destruct (str_eqb (last_n 1 (firstn (Z.to_nat n) r)) [1]) eqn:Q1; [|discriminate]. apply str_eqb_eq in Q1.
    destruct (str_eqb (firstn 1 (firstn (Z.to_nat n2) r2)) [4]) eqn:Q2; [|discriminate]. apply str_eqb_eq in Q2.
    injection P as P1 P2.
    assert (LN : (Z.to_nat n <= length r)%nat).
    { destruct (le_lt_dec (length r) (Z.to_nat n)) as [C|C]; [|lia]. rewrite skipn_all2 in Sk by lia. discriminate. }
    assert (SG : firstn (Z.to_nat n) r = sig ++ [1]). { rewrite <- (last_drop 1 (firstn (Z.to_nat n) r)), Q1, P1. reflexivity. }
    assert (LS : len sig + 1 = n).
    { assert (X : length (firstn (Z.to_nat n) r) = Z.to_nat n) by (rewrite firstn_length; lia).
      rewrite SG, app_length in X. cbn [length] in X. unfold len. unfold byte in Hn. lia. }
    pose proof (bytes_skipn (Z.to_nat n) r Hr) as Bk. rewrite Sk in Bk. inversion Bk as [|x y Hn2 Hr2]; subst x y.
    unfold byte in Hn2.
    exists n2, r2. rewrite LS. split; [|split; [lia|split; [lia|]]].
    + cbn [app]. f_equal. change (1 :: n2 :: r2) with ([1] ++ n2 :: r2). rewrite app_assoc, <- SG, <- Sk. symmetry. apply firstn_skipn.
    + destruct (firstn (Z.to_nat n2) r2) as [|a l]; [discriminate|]. cbn in Q2. cbn in P2. congruence.
  - intros [n2 [rest [-> [L1 [L2 F]]]]]. cbn [app parse_script].
    assert (N : Z.to_nat (len sig + 1) = length (sig ++ [1])) by (rewrite app_length; unfold len; cbn [length]; lia).
    replace (len sig + 1 <=? 252) with true by (symmetry; apply Z.leb_le; auto). cbv zeta.
    rewrite N. change (sig ++ 1 :: n2 :: rest) with (sig ++ [1] ++ n2 :: rest). rewrite app_assoc.
    rewrite skipn_app, skipn_all, Nat.sub_diag, firstn_app, firstn_all, Nat.sub_diag. cbn [skipn firstn app]. rewrite app_nil_r.
    replace (n2 <=? 252) with true by (symmetry; apply Z.leb_le; lia). rewrite F.
    rewrite last_n_app, drop_last_n_app by reflexivity. rewrite str_eqb_refl. cbn [firstn skipn]. rewrite str_eqb_refl. reflexivity.
Qed.

Lemma parse_script_err : forall bs e, parse_script bs = Err e -> e = ValueError.
Proof.
  intros bs e H. destruct bs as [|n r]; cbn [parse_script] in H; [congruence|]. cbv zeta in H.
  destruct (n <=? 252); [|congruence]. destruct (skipn (Z.to_nat n) r) as [|n2 r2]; [congruence|].
  destruct (n2 <=? 252); [|congruence]. destruct (str_eqb _ [1]); [|congruence]. destruct (str_eqb _ [4]); congruence.
Qed.

Lemma script_parts_fun : forall bs s p s' p', bytes bs -> script_sig_parts bs s p -> script_sig_parts bs s' p' -> s = s' /\ p = p'.
Proof.
  intros bs s p s' p' H A B. apply parse_script_iff in A; auto. apply parse_script_iff in B; auto. rewrite A in B. injection B as -> ->. auto.
Qed.

Lemma script_parts_bytes : forall bs s p, bytes bs -> script_sig_parts bs s p -> bytes s /\ bytes p.
Proof.
  intros bs s p H [n2 [rest [-> [_ [_ F]]]]]. apply bytes_app in H. destruct H as [_ H]. apply bytes_app in H. destruct H as [Hs H]. split; auto.
  apply bytes_app in H. destruct H as [_ H]. apply bytes_app in H. destruct H as [_ H].
  apply (bytes_firstn (Z.to_nat n2)) in H. rewrite F in H. inversion H; auto.
Qed.

(** All outcomes of the parser on a string. *)
Lemma script_sig_cases : forall s,
  (exists bs sig pub, bytes bs /\ s = hex_of bs /\ script_sig_parts bs sig pub /\ bytes sig /\ bytes pub /\
     script_sig_to_signature_hex_and_public_key_hex s = Ok (hex_of sig, hex_of pub)) \/
  ((forall bs sig pub, bytes bs -> s = hex_of bs -> ~ script_sig_parts bs sig pub) /\
   script_sig_to_signature_hex_and_public_key_hex s = Err ValueError).
Proof.
  intros s. destruct (validate_hex_cases s) as [[[bs [B ->]] V]|[N V]].
  - rewrite parse_script_hex by auto. destruct (parse_script bs) as [[sig pub]|e] eqn:P.
    + left. apply parse_script_iff in P; auto. destruct (script_parts_bytes bs sig pub B P) as [A1 A2]. exists bs, sig, pub. auto 10.
    + right. split.
      * intros bs' sig pub B' Eq S. apply hex_of_inj in Eq; auto. subst bs'. apply parse_script_iff in S; auto. congruence.
      * f_equal. eapply parse_script_err; eauto.
  - right. split.
    + intros bs sig pub B -> _. apply N. exists bs. auto.
    + unfold script_sig_to_signature_hex_and_public_key_hex. rewrite V. reflexivity.
Qed.

(** Building. *)
Lemma build_script_ok : forall sig pub, bytes sig -> bytes pub -> length pub = 64%nat -> (length sig <= 184)%nat ->
  signature_hex_and_public_key_hex_to_script_sig (hex_of (sig ++ [1])) (hex_of pub) =
  Ok (hex_of (build_script_sig sig pub), hex_of [len (build_script_sig sig pub)]) /\
  len (build_script_sig sig pub) = len sig + 68 /\ bytes (build_script_sig sig pub).
Proof.
  intros sig pub Hs Hp Lp Ls.
  assert (B1 : bytes (sig ++ [1])) by (apply bytes_app; split; auto; apply bytes1; unfold byte; lia).
  assert (L : len (build_script_sig sig pub) = len sig + 68).
  { unfold len, build_script_sig. rewrite !app_length. cbn [length]. lia. }
  assert (Bb : bytes (build_script_sig sig pub)).
  { unfold build_script_sig. apply bytes_app. split; [apply bytes1; unfold byte, len; lia|].
    rewrite app_assoc. apply bytes_app. split; auto. constructor; [unfold byte; lia|]. constructor; [unfold byte; lia|auto]. }
  split; auto. unfold signature_hex_and_public_key_hex_to_script_sig.
  rewrite validate_hex_ok by auto. cbn [bind]. rewrite validate_hex_length_ok by auto. cbn [bind].
  change (lit "04" ++ hex_of pub) with (hex_of (4 :: pub)).
  rewrite hex_len_ok by auto. cbn [bind]. rewrite app_length. cbn [length].
  rewrite int_to_var_int_ok by lia. cbn [bind].
  rewrite hex_len_ok by (constructor; [unfold byte; lia|auto]). cbn [bind length]. rewrite Lp.
  rewrite int_to_var_int_ok by lia. cbn [bind]. cbv zeta.
  rewrite <- !hex_of_app. 
  replace ([Z.of_nat (length sig + 1)] ++ (sig ++ [1]) ++ [Z.of_nat 65] ++ 4 :: pub) with (build_script_sig sig pub).
  2:{ unfold build_script_sig, len. rewrite <- app_assoc. replace (Z.of_nat (length sig + 1)) with (Z.of_nat (length sig) + 1) by lia. reflexivity. }
  rewrite hex_len_ok by auto. cbn [bind]. fold (len (build_script_sig sig pub)).
  rewrite int_to_var_int_ok. 2:{ rewrite L. unfold len. lia. } reflexivity.
Qed.

Lemma build_script_long : forall sig pub, bytes sig -> bytes pub -> length pub = 64%nat -> (184 < length sig)%nat ->
  signature_hex_and_public_key_hex_to_script_sig (hex_of (sig ++ [1])) (hex_of pub) = Err ValueError.
Proof.
  intros sig pub Hs Hp Lp Ls.
  assert (B1 : bytes (sig ++ [1])) by (apply bytes_app; split; auto; apply bytes1; unfold byte; lia).
  unfold signature_hex_and_public_key_hex_to_script_sig.
  rewrite validate_hex_ok by auto. cbn [bind]. rewrite validate_hex_length_ok by auto. cbn [bind].
  change (lit "04" ++ hex_of pub) with (hex_of (4 :: pub)).
  rewrite hex_len_ok by auto. cbn [bind]. rewrite app_length. cbn [length].
  destruct (le_lt_dec (length sig) 251) as [C|C].
  - rewrite int_to_var_int_ok by lia. cbn [bind].
    rewrite hex_len_ok by (constructor; [unfold byte; lia|auto]). cbn [bind length]. rewrite Lp.
    rewrite int_to_var_int_ok by lia. cbn [bind]. cbv zeta. rewrite <- !hex_of_app. rewrite hex_len_ok.
    + cbn [bind]. rewrite !app_length. cbn [length]. rewrite int_to_var_int_bad; [reflexivity|lia].
    + apply bytes_app. split; [apply bytes1; unfold byte; lia|]. apply bytes_app. split; auto.
      constructor; [unfold byte; lia|]. constructor; [unfold byte; lia|auto].
  - rewrite int_to_var_int_bad by lia. reflexivity.
Qed.

Lemma built_parts : forall sig pub, (length sig <= 184)%nat -> length pub = 64%nat ->
  script_sig_parts (build_script_sig sig pub) sig pub.
Proof.
  intros sig pub Ls Lp. exists 65, (4 :: pub). split; [reflexivity|]. split; [unfold len; lia|]. split; [lia|].
  apply firstn_all2. cbn [length]. change (Z.to_nat 65) with 65%nat. lia.
Qed.

(** DER *)
Lemma half_values : forall r, bytes r -> length r = 32%nat -> 0 <= be_val r < 256 ^ 32.
Proof. intros r H L. pose proof (val_bounds 256 r ltac:(lia) H) as X. rewrite L in X. exact X. Qed.

Lemma to_der_ok : SplitOk E -> DerOk E -> forall sig, bytes sig -> length sig = 64%nat ->
  exists d, bytes d /\ (length d <= 72)%nat /\ signature_to_der (hex_of sig) = Ok (hex_of d) /\
    signature_from_der (hex_of d) = Ok (hex_of sig).
Proof.
  intros HS HD sig Hs Ls. set (r := firstn 32 sig). set (s := skipn 32 sig).
  assert (RS : sig = r ++ s) by (symmetry; apply firstn_skipn).
  assert (Br : bytes r) by (apply bytes_firstn; auto). assert (Bs : bytes s) by (apply bytes_skipn; auto).
  assert (Lr : length r = 32%nat) by (unfold r; rewrite firstn_length; lia).
  assert (Ll : length s = 32%nat) by (unfold s; rewrite skipn_length; lia).
  pose proof (half_values r Br Lr) as Vr. pose proof (half_values s Bs Ll) as Vs.
  destruct (HD (be_val r) (be_val s) Vr Vs) as [D1 [D2 D3]].
  exists (der_encode (be_val r) (be_val s)). split; auto. split; auto. split.
  - unfold signature_to_der. rewrite RS, hex_of_app, HS by auto. cbn [bind].
    rewrite !py_int_hex by (auto; destruct r, s; discriminate). cbn [bind]. rewrite bytes_hex_hex_of by auto. reflexivity.
  - unfold signature_from_der. rewrite validate_hex_ok by auto. cbn [bind]. rewrite bytes_fromhex_ok by auto. cbn [bind].
    rewrite D3. cbn [bind]. rewrite !int_to_hex_ok by lia. cbn [bind].
    assert (P : forall x, bytes x -> length x = 32%nat -> pad_hex (hex_of (be_bytes (be_val x))) 32 = Ok (hex_of x)).
    { intros x Bx Lx. pose proof (half_values x Bx Lx) as Vx.
      pose proof (be_bytes_length (be_val x) 32 Vx ltac:(lia)) as LB.
      rewrite pad_hex_ok by (try assumption; apply be_bytes_bytes). f_equal. f_equal.
      apply (val_inj_len 256); try lia; auto.
      - apply bytes_app. split; [apply bytes_repeat0|apply be_bytes_bytes].
      - rewrite app_length, repeat_length. lia.
      - rewrite val_repeat0_app. apply be_bytes_val. exact (proj1 Vx). }
    rewrite !P by auto. cbn [bind]. rewrite RS, hex_of_app. reflexivity.
Qed.

End WithEnv.
