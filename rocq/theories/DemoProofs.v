(** The environment of Demo.v satisfies every assumption of EnvOk.v. *)
From Coq Require Import String Floats.SpecFloat Lia.
From Verif Require Import PyBase Env PyNum Spec EnvOk NumLemmas HexProofs Demo.

Lemma demo_uni : UniOk demo_env.
Proof.
  split; cbn.
  - intros c d H. unfold demo_isdigit. rewrite H. unfold demo_decimal in H.
    destruct ((1632 <=? c) && (c <=? 1641)) eqn:E; [|discriminate]. injection H as <-.
    apply andb_prop in E. destruct E as [A B]. apply Z.leb_le in A, B. split; [lia|reflexivity].
  - intros c H. unfold demo_isspace in H. apply orb_prop in H. destruct H as [H|H]; apply Z.eqb_eq in H; subst; split; reflexivity.
Qed.

Lemma byte_mod : forall x, byte (x mod 256).
Proof. intros. unfold byte. apply Z.mod_pos_bound. lia. Qed.

Lemma stretch_ok : forall n s, bytes (toy_stretch n s) /\ length (toy_stretch n s) = n.
Proof.
  induction n as [|n IH]; intros s; cbn [toy_stretch]; [split; [constructor|reflexivity]|].
  destruct (IH ((s * 17 + 5) mod 65521)) as [A B]. split; [constructor; [apply byte_mod|exact A]|cbn [length]; congruence].
Qed.
Lemma demo_sha_ok : forall x, bytes (demo_sha256 x) /\ length (demo_sha256 x) = 32%nat.
Proof. intros x. apply stretch_ok. Qed.
Lemma demo_rmd_ok : forall x, bytes (demo_ripemd160 x) /\ length (demo_ripemd160 x) = 20%nat.
Proof. intros x. apply stretch_ok. Qed.

Lemma demo_hash : HashOk demo_env.
Proof. split; cbn; [apply demo_sha_ok|apply demo_rmd_ok]. Qed.

Lemma all_hex_chars : forall s, all_hex s = true -> forallb (fun c => char_in c Validate.hex_digits) s = true.
Proof. intros s H. exact H. Qed.

Lemma toy_valid_hex : forall k, toy_valid k = true -> exists bs, bytes bs /\ length bs = 32%nat /\ k = hex_of bs.
Proof.
  intros k H. unfold toy_valid in H. apply andb_prop in H. destruct H as [H _]. apply andb_prop in H. destruct H as [L H].
  apply Nat.eqb_eq in L. destruct (even_chars_hex k) as [bs [B ->]]; auto. { rewrite L. reflexivity. }
  exists bs. repeat split; auto. rewrite hex_of_length in L. lia.
Qed.

Lemma toy_valid_length : forall k, toy_valid k = true -> length k = 64%nat.
Proof. intros k H. destruct (toy_valid_hex k H) as [bs [_ [L ->]]]. rewrite hex_of_length. lia. Qed.

Lemma toy_public_hex : forall k, exists p, bytes p /\ length p = 64%nat /\ toy_public k = hex_of p.
Proof.
  intros k. destruct (demo_sha_ok (1 :: k)) as [A B]. destruct (demo_sha_ok (2 :: k)) as [C D].
  exists (demo_sha256 (1 :: k) ++ demo_sha256 (2 :: k)). split; [|split].
  - apply bytes_app; auto. - rewrite app_length. lia. - unfold toy_public. now rewrite hex_of_app.
Qed.

Lemma demo_keys : KeysOk demo_env.
Proof.
  split; [|split]; cbn.
  - intros k k' _ H. unfold toy_validate in H. destruct (toy_valid k') eqn:V; [|discriminate]. apply toy_valid_hex. auto.
  - intros k H. unfold toy_validate in H. destruct (toy_valid k) eqn:V; [|discriminate]. split.
    + unfold toy_format. rewrite (toy_valid_length k V). reflexivity.
    + destruct (toy_public_hex k) as [p [A [B C]]]. exists p. repeat split; auto. unfold toy_public_key. rewrite V. congruence.
  - intros bs Hb Hl. unfold toy_format. rewrite hex_of_length, Hl. reflexivity.
Qed.

Lemma demo_sign_total : SignTotal demo_env.
Proof.
  intros k d H _ _. cbn in *. unfold toy_validate in H. unfold toy_sign. destruct (toy_valid k); [|discriminate]. eauto.
Qed.

Lemma ok_inj : forall {A} (a b : A), Ok a = Ok b -> a = b.
Proof. intros A a b H. congruence. Qed.

Lemma toy_sign_ok : forall k d r s, toy_sign k d r = Ok s ->
  (exists bs, bytes bs /\ length bs = 64%nat /\ s = hex_of bs) /\
  forall p, toy_public_key k = Ok p -> toy_verify p d s = Ok true.
Proof.
  intros k d r s H. unfold toy_sign in H. destruct (toy_valid k) eqn:V; [|discriminate]. apply ok_inj in H. subst s.
  destruct (demo_sha_ok (toy_public k ++ d)) as [A B]. destruct (demo_sha_ok (k ++ d ++ r)) as [C D]. split.
  - exists (demo_sha256 (toy_public k ++ d) ++ demo_sha256 (k ++ d ++ r)). split; [|split].
    + apply bytes_app; auto. + rewrite app_length. lia. + now rewrite hex_of_app.
  - intros p H. unfold toy_public_key in H. rewrite V in H. apply ok_inj in H. subst p. unfold toy_verify.
    rewrite firstn_app. assert (L : length (hex_of (demo_sha256 (toy_public k ++ d))) = 64%nat) by (rewrite hex_of_length; lia).
    rewrite firstn_all2 by lia. rewrite L. cbn [Nat.sub firstn]. rewrite app_nil_r, str_eqb_refl. reflexivity.
Qed.

Lemma demo_sign : SignOk demo_env.
Proof. split; [|split]; cbn; intros; eapply toy_sign_ok; eassumption. Qed.

Lemma demo_split : SplitOk demo_env.
Proof.
  intros r s Hr Lr Hs Ls. cbn [ec_split demo_env]. rewrite app_length, !hex_of_length, Lr, Ls. change (Nat.eqb (2 * 32 + 2 * 32) 128) with true. cbv iota.
  assert (L : length (hex_of r) = 64%nat) by (rewrite hex_of_length; lia).
  rewrite firstn_app, skipn_app, L. cbn [Nat.sub]. rewrite firstn_all2, skipn_all2 by lia.
  cbn [firstn skipn app]. rewrite app_nil_r. reflexivity.
Qed.

Lemma der_body_ok : forall n, 0 <= n < 256 ^ 32 ->
  bytes (der_body n) /\ (1 <= length (der_body n) <= 33)%nat /\ val 256 (der_body n) = n.
Proof.
  intros n Hn. unfold der_body.
  set (b := if n =? 0 then [0] else digits 256 n).
  assert (B : bytes b /\ (1 <= length b <= 32)%nat /\ val 256 b = n).
  { unfold b. destruct (n =? 0) eqn:E.
    - apply Z.eqb_eq in E. subst. repeat split; cbn; try lia. repeat constructor; unfold byte; lia.
    - apply Z.eqb_neq in E. destruct (digits_spec 256 n ltac:(lia)) as [A [_ C]]. repeat split.
      + exact A.
      + destruct (digits 256 n); [rewrite val_nil in C; lia|cbn; lia].
      + apply digits_length; lia.
      + lia. }
  destruct B as [B1 [B2 B3]]. destruct (128 <=? hd 0 b).
  - repeat split; cbn [length]; try lia. + constructor; auto. unfold byte; lia. + rewrite val_cons, B3. lia.
  - repeat split; auto; lia.
Qed.

Lemma der_read_ok : forall n rest, 0 <= n < 256 ^ 32 -> der_read_int (der_int n ++ rest) = Ok (n, rest).
Proof.
  intros n rest H. destruct (der_body_ok n H) as [A [B C]]. unfold der_int. cbn [app der_read_int].
  rewrite app_length, Nat2Z.inj_add.
  replace (_ <? _) with false by (symmetry; apply Z.ltb_ge; lia).
  rewrite Nat2Z.id, firstn_app, skipn_app, Nat.sub_diag, firstn_all, skipn_all. cbn [firstn skipn app]. rewrite app_nil_r, C. reflexivity.
Qed.

Lemma demo_der : DerOk demo_env.
Proof.
  intros r s Hr Hs. cbn [der_encode der_decode demo_env].
  destruct (der_body_ok r Hr) as [A1 [A2 A3]]. destruct (der_body_ok s Hs) as [B1 [B2 B3]].
  assert (L : length (der_int r ++ der_int s) = (2 + length (der_body r) + (2 + length (der_body s)))%nat).
  { rewrite app_length. unfold der_int. cbn [length]. lia. }
  unfold demo_der_encode. split; [|split].
  - constructor; [unfold byte; lia|]. constructor; [unfold byte; lia|]. apply bytes_app. unfold der_int.
    split; repeat (constructor; [unfold byte; lia|]); auto.
  - cbn [length]. lia.
  - unfold demo_der_decode. rewrite Z.eqb_refl. cbn [negb]. rewrite der_read_ok by auto. cbn [bind].
    rewrite <- (app_nil_r (der_int s)), der_read_ok by auto. reflexivity.
Qed.

(** The toy serialisation is invertible. *)
Fixpoint depth (v : pyval) : nat :=
  match v with
  | PList l => S (fold_right (fun x m => Nat.max (depth x) m) 0%nat l)
  | PDict d => S (fold_right (fun p m => Nat.max (depth (snd p)) m) 0%nat d)
  | _ => 1%nat
  end.

Lemma depth_le_length : forall n v, (depth v <= n)%nat -> (depth v <= length (ser v))%nat.
Proof.
  induction n as [|n IH]; intros v H. { destruct v; cbn in H; lia. }
  destruct v as [|b|z|f|s|l|d]; try (cbn; lia).
  - cbn [depth ser length] in *. assert (fold_right (fun x m => Nat.max (depth x) m) 0%nat l <= length (concat (map ser l)))%nat; [|lia].
    apply le_S_n in H. revert H. induction l as [|x l IHl]; intros H; cbn in *; [lia|]. rewrite app_length.
    pose proof (IH x ltac:(lia)). pose proof (IHl ltac:(lia)). lia.
  - cbn [depth ser length] in *.
    assert (fold_right (fun p m => Nat.max (depth (snd p)) m) 0%nat d <=
      length (concat (map (fun p => Z.of_nat (length (fst p)) :: fst p ++ ser (snd p)) d)))%nat; [|lia].
    apply le_S_n in H. revert H. induction d as [|[k x] l IHl]; intros H; [cbn; lia|].
    cbn [map concat fold_right fst snd] in *. rewrite app_length. cbn [length]. rewrite app_length.
    pose proof (IH x ltac:(lia)) as P1. pose proof (IHl ltac:(lia)) as P2. apply Nat.max_lub; [lia|].
    eapply Nat.le_trans; [exact P2|]. apply Nat.le_add_l.
Qed.

Lemma des_ser : forall f v rest, (depth v <= f)%nat -> json_plain v = true -> des f (ser v ++ rest) = Ok (v, rest).
Proof.
  induction f as [|f IH]; intros v rest H P. { destruct v; cbn in H; lia. }
  destruct v as [|b|z|g|s|l|d]; try reflexivity.
  - destruct b; reflexivity.
  - discriminate.
  - cbn [ser app des]. rewrite Nat2Z.id, firstn_app, skipn_app, Nat.sub_diag, firstn_all, skipn_all. cbn [firstn skipn app]. now rewrite app_nil_r.
  - cbn [ser app des]. rewrite Nat2Z.id. cbn [depth] in H. apply le_S_n in H. cbn [json_plain] in P.
    match goal with |- context [_ <- ?m (length l) ?x ;; _] => assert (M : m (length l) x = Ok (l, rest)) end.
    { revert H P. induction l as [|x l IHl]; intros H P; [reflexivity|]. cbn [map concat length] in *. cbn [fold_right] in H. cbn [forallb] in P.
      apply andb_prop in P. destruct P as [P1 P2]. rewrite <- app_assoc. rewrite IH by (auto; lia). cbn [bind].
      rewrite IHl by (auto; lia). reflexivity. }
    rewrite M. reflexivity.
  - cbn [ser app des]. rewrite Nat2Z.id. cbn [depth] in H. apply le_S_n in H. cbn [json_plain] in P.
    apply andb_prop in P. destruct P as [_ P].
    match goal with |- context [_ <- ?m (length d) ?x ;; _] => assert (M : m (length d) x = Ok (d, rest)) end.
    { revert H P. induction d as [|[k x] l IHl]; intros H P; [reflexivity|]. cbn [map concat length fst snd app] in *. cbn [fold_right snd] in H. cbn [forallb fst snd] in P.
      apply andb_prop in P. destruct P as [P1 P2]. apply andb_prop in P1. destruct P1 as [_ P1].
      rewrite <- !app_assoc. rewrite Nat2Z.id, firstn_app, skipn_app, Nat.sub_diag, firstn_all, skipn_all. cbn [firstn skipn app].
      rewrite IH by (auto; lia). cbn [bind].
      rewrite IHl by (auto; lia). rewrite app_nil_r. reflexivity. }
    rewrite M. reflexivity.
Qed.

Lemma demo_json : JsonOk demo_env.
Proof.
  intros v P. cbn [json_loads json_dumps demo_env]. unfold demo_loads.
  rewrite <- (app_nil_r (ser v)) at 2. rewrite des_ser; auto.
  pose proof (depth_le_length (depth v) v ltac:(lia)). lia.
Qed.

Lemma demo_zero_address : ZeroAddressOk demo_env.
Proof. unfold ZeroAddressOk. vm_compute. discriminate. Qed.

(** All assumptions hold together. *)
Theorem assumptions_satisfiable : EnvAll demo_env.
Proof.
  exact (conj demo_uni (conj demo_hash (conj demo_keys (conj demo_sign (conj demo_sign_total (conj demo_split (conj demo_der (conj demo_json demo_zero_address)))))))).
Qed.
