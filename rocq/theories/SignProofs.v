(** Lemmas about signing and verifying. *)
From Coq Require Import String Lia.
From Verif Require Import PyBase Env PyNum Validate Basic Spec EnvOk TxInput TxOutput Tx TxSpec SignSpec.
From Verif Require Import NumLemmas HexProofs Base58Proofs AddrProofs AmountProofs ScriptProofs WireProofs.

Section WithEnv.
Context {E : Env}.

Lemma str_in_In : forall s l, str_in s l = true <-> In s l.
Proof.
  intros s l. unfold str_in. rewrite existsb_exists. split.
  - intros [x [I H]]. apply str_eqb_eq in H. subst. exact I.
  - intros I. exists s. split; [exact I|apply str_eqb_refl].
Qed.
Lemma distinct_le : forall l, (distinct_count l <= length l)%nat.
Proof. induction l as [|x l IH]; cbn; [lia|]. destruct (str_in x l); lia. Qed.
Lemma distinct_NoDup : forall l, length l = distinct_count l <-> NoDup l.
Proof.
  induction l as [|x l IH]; cbn [length distinct_count]; [split; [constructor|reflexivity]|].
  destruct (str_in x l) eqn:I.
  - split; [intros H; pose proof (distinct_le l); lia|]. intros H. inversion H as [|a b N _]; subst. exfalso. apply N, str_in_In, I.
  - split.
    + intros H. injection H as H. apply IH in H. constructor; auto. intros C. apply str_in_In in C. congruence.
    + intros H. inversion H as [|a b _ N]; subst. apply IH in N. congruence.
Qed.

Lemma check_random_ok : forall keys rv,
  check_random_values keys rv = Ok tt <->
  (rv = None \/ rv = Some [] \/ exists l, rv = Some l /\ NoDup l /\ length l = length keys).
Proof.
  intros keys rv. unfold check_random_values. destruct rv as [[|a l]|].
  - split; auto.
  - destruct (Nat.eqb_spec (length (a :: l)) (distinct_count (a :: l))) as [D|D].
    + destruct (Nat.eqb_spec (length (a :: l)) (length keys)) as [L|L].
      * split; auto. intros _. right. right. exists (a :: l). split; auto. split; auto. apply distinct_NoDup; auto.
      * split; [discriminate|]. intros [H|[H|[l' [H [_ L']]]]]; try discriminate. injection H as <-. contradiction.
    + split; [discriminate|]. intros [H|[H|[l' [H [N _]]]]]; try discriminate. injection H as <-.
      apply distinct_NoDup in N. contradiction.
  - split; auto.
Qed.
Lemma check_random_err : forall keys rv e, check_random_values keys rv = Err e -> e = ValueError.
Proof.
  intros keys rv e. unfold check_random_values. destruct rv as [[|a l]|]; try discriminate.
  destruct (negb (Nat.eqb _ (distinct_count (a :: l)))); [congruence|]. destruct (negb _); congruence.
Qed.

(** The key map. *)
Lemma map_find_set : forall k v m k', map_find k' (map_set k v m) = if str_eqb k k' then Some v else map_find k' m.
Proof.
  intros k v. induction m as [|[a b] m IH]; intros k'; cbn [map_set map_find].
  - reflexivity.
  - destruct (str_eqb a k) eqn:A.
    + apply str_eqb_eq in A. subst a. cbn [map_find]. destruct (str_eqb k k'); reflexivity.
    + cbn [map_find]. rewrite IH. destruct (str_eqb a k') eqn:B; auto.
      apply str_eqb_eq in B. subst a. destruct (str_eqb k k') eqn:C; auto. apply str_eqb_eq in C. subst. rewrite str_eqb_refl in A. discriminate.
Qed.

Section Keys.
Hypothesis HH : HashOk E.
Hypothesis HK : KeysOk E.

Lemma key_pub_fun : forall k p p', key_pub k p -> key_pub k p' -> p = p'.
Proof.
  intros k p p' (_ & _ & P & B & _) (_ & _ & P' & B' & _). rewrite P in P'. injection P' as P'. apply hex_of_inj in P'; auto.
Qed.
Lemma key_public : forall k p, key_pub k p -> private_key_hex_to_public_key_hex k = Ok (hex_of p).
Proof.
  intros k p (_ & V & P & _). unfold private_key_hex_to_public_key_hex. destruct HK as [_ [K2 _]].
  destruct (K2 k V) as [F _]. rewrite F. cbn [bind]. rewrite V. cbn [bind]. exact P.
Qed.
Lemma key_step : forall k,
  (exists a, controls k a /\ validate_hex_length (PStr k) 32 = Ok tt /\ private_key_hex_to_address k = Ok a) \/
  ((forall a, ~ controls k a) /\ exists e, (validate_hex_length (PStr k) 32 ;;; private_key_hex_to_address k) = Err e).
Proof.
  intros k. destruct (hex_length_cases k 32) as [[[bs [B [L ->]]] V]|[N V]].
  - rewrite V. cbn [bind]. unfold private_key_hex_to_address. destruct HK as [_ [K2 K3]]. rewrite (K3 bs) by auto. cbn [bind].
    destruct (ec_validate_private_key_hex (hex_of bs)) as [[]|e] eqn:W.
    + left. destruct (K2 _ W) as [_ [p [Bp [Lp P]]]]. rewrite P. cbn [bind].
      destruct (hash_to_address_ok HH (hash160 p)) as [a [Ha _]]; [apply hash160_bytes; auto|apply hash160_length; auto|].
      exists a. assert (Ia : is_address (hash160 p) a).
      { apply (hash_to_address_iff HH) in Ha; auto; [apply hash160_bytes|apply hash160_length]; auto. }
      split; [|split; auto].
      * exists p. split; auto. repeat split; auto. exists bs. auto.
      * apply (public_key_to_address_iff HH); auto.
    + right. split; [|cbn [bind]; eauto]. intros a [p [(_ & W' & _) _]]. congruence.
  - right. split.
    + intros a [p [(X & _) _]]. apply N. exact X.
    + rewrite V. cbn [bind]. eauto.
Qed.
Lemma key_step_ok : forall k a, controls k a -> validate_hex_length (PStr k) 32 = Ok tt /\ private_key_hex_to_address k = Ok a.
Proof.
  intros k a C. destruct (key_step k) as [[a' [C' [V P]]]|[N _]]; [|exfalso; eapply N; eauto].
  split; auto. rewrite P. f_equal. destruct C as [p [K I]]. destruct C' as [p' [K' I']].
  rewrite (key_pub_fun k p' p K' K) in I'. eapply is_address_fun; eauto.
Qed.

Lemma build_map_ok : forall keys m, Forall (fun k => exists a, controls k a) keys ->
  exists m', build_key_map keys m = Ok m' /\
    forall a, (exists k, map_find a m' = Some k /\ ((In k keys /\ controls k a) \/ map_find a m = Some k)) \/
              (map_find a m' = None /\ map_find a m = None /\ forall k, In k keys -> ~ controls k a).
Proof.
  induction keys as [|k keys IH]; intros m F; cbn [build_key_map].
  - exists m. split; auto. intros a. destruct (map_find a m) as [k|] eqn:Q; [left; eauto|right]. auto.
  - inversion F as [|x y [a0 C] F']; subst. destruct (key_step_ok k a0 C) as [V P]. rewrite V. cbn [bind]. rewrite P. cbn [bind].
    destruct (IH (map_set a0 k m) F') as [m' [B R]]. exists m'. split; auto. intros a. specialize (R a). rewrite map_find_set in R.
    destruct (str_eqb a0 a) eqn:Q.
    + apply str_eqb_eq in Q. subst a0. destruct R as [[k' [R [[I C']|R']]]|[R [R' _]]]; [| |discriminate].
      * left. exists k'. split; auto. left. split; auto. right; auto.
      * injection R' as <-. left. exists k. split; auto. left. split; auto. left; auto.
    + destruct R as [[k' [R [[I C']|R']]]|[R [R' N]]].
      * left. exists k'. split; auto. left. split; auto. right; auto.
      * left. exists k'. split; auto.
      * right. split; auto. split; auto. intros k' [<-|I] C'; [|exact (N k' I C')].
        destruct (key_step_ok k a C') as [_ P']. rewrite P in P'. injection P' as ->. rewrite str_eqb_refl in Q. discriminate.
Qed.
Lemma build_map_bad : forall keys m, ~ Forall (fun k => exists a, controls k a) keys -> exists e, build_key_map keys m = Err e.
Proof.
  induction keys as [|k keys IH]; intros m N; [exfalso; apply N; constructor|]. cbn [build_key_map].
  destruct (key_step k) as [[a [C [V P]]]|[NC [e Q]]].
  - rewrite V. cbn [bind]. rewrite P. cbn [bind]. apply IH. intros F. apply N. constructor; eauto.
  - destruct (validate_hex_length (PStr k) 32) as [[]|e1]; cbn [bind] in *; [|eauto].
    rewrite Q. cbn [bind]. eauto.
Qed.

(** Sighash. *)
Hypothesis HS : SignOk E.
Hypothesis HP : SplitOk E.
Hypothesis HD : DerOk E.

Lemma to_der_of : forall sig, bytes sig -> length sig = 64%nat ->
  bytes (der_of sig) /\ len (der_of sig) <= 72 /\ signature_to_der (hex_of sig) = Ok (hex_of (der_of sig)).
Proof.
  intros sig Hs Ls. unfold der_of. set (r := firstn 32 sig). set (s := skipn 32 sig).
  assert (RS : sig = r ++ s) by (symmetry; apply firstn_skipn).
  assert (Br : bytes r) by (apply bytes_firstn; auto). assert (Bs : bytes s) by (apply bytes_skipn; auto).
  assert (Lr : length r = 32%nat) by (unfold r; rewrite firstn_length; lia).
  assert (Ll : length s = 32%nat) by (unfold s; rewrite skipn_length; lia).
  pose proof (half_values r Br Lr) as Vr. pose proof (half_values s Bs Ll) as Vs.
  destruct (HD (be_val r) (be_val s) Vr Vs) as [D1 [D2 D3]]. split; auto. split; [unfold len; lia|].
  unfold signature_to_der. rewrite RS, hex_of_app, HP by auto. cbn [bind].
  rewrite !py_int_hex by (auto; destruct r, s; discriminate). cbn [bind]. rewrite bytes_hex_hex_of by auto. reflexivity.
Qed.

Lemma sig_bytes : forall k d n s, signature k d n = Ok s ->
  exists bs, bytes bs /\ length bs = 64%nat /\ s = hex_of bs /\ forall p, ec_public_key k = Ok p -> ec_verify_digest p (hex_of d) s = Ok true.
Proof.
  intros k d n s H. unfold signature in H. destruct n as [n|].
  - destruct HS as [_ [S2 _]]. destruct (S2 _ _ _ _ H) as [[bs [B [L Q]]] V]. exists bs. auto.
  - destruct HS as [S1 _]. destruct (S1 _ _ _ H) as [[bs [B [L Q]]] V]. exists bs. auto.
Qed.

Lemma bytes_digest : forall f, bytes (digest f) /\ length (digest f) = 32%nat.
Proof. intros f. split; apply HH. Qed.

Definition opt_nonce (k : option pystr) : option pystr := match k with None | Some [] => None | Some k => Some k end.

(** create_signature_for_one_input, given the signable form. *)
Lemma create_sig_ok : forall t i form key k, to_hex_signable_form t i = Ok (hex_of form) -> bytes form ->
  create_signature_for_one_input t i key k =
  signature key (digest form) (opt_nonce k).
Proof.
  intros t i form key k F B. unfold create_signature_for_one_input. rewrite F. cbn [bind].
  rewrite get_double_sha256_ok by auto. cbn [bind]. fold (digest form).
  rewrite validate_hex_length_ok by apply bytes_digest. cbn [bind]. destruct k as [[|c k]|]; reflexivity.
Qed.

Lemma make_script_spec : forall t i form key pub k,
  to_hex_signable_form t i = Ok (hex_of form) -> bytes form -> tx_hash_type_1_byte t = hex_of [1] -> bytes pub -> length pub = 64%nat ->
  let k' := opt_nonce k in
  (exists sig, bytes sig /\ length sig = 64%nat /\ signature key (digest form) k' = Ok (hex_of sig) /\
     bytes (der_of sig) /\ len (der_of sig) <= 72 /\
     make_script_sig t i key (hex_of pub) k =
       Ok (hex_of [len (build_script_sig (der_of sig) pub)], len (build_script_sig (der_of sig) pub), hex_of (build_script_sig (der_of sig) pub))) \/
  (exists e, signature key (digest form) k' = Err e /\ make_script_sig t i key (hex_of pub) k = Err e).
Proof.
  intros t i form key pub k F B T Bp Lp k'. unfold make_script_sig. rewrite hex_len_ok by auto. cbn [bind].
  rewrite (create_sig_ok t i form key k F B). fold k'. destruct (signature key (digest form) k') as [s|e] eqn:S0; [left|right; exists e; auto].
  destruct (sig_bytes _ _ _ _ S0) as [sig [Bs [Ls [-> _]]]]. destruct (to_der_of sig Bs Ls) as [D1 [D2 D3]].
  exists sig. split; auto. split; auto. split; auto. split; auto. split; auto. cbn [bind].
  rewrite hex_len_ok by auto. cbn [bind]. rewrite D3. cbn [bind]. rewrite hex_len_ok by auto. cbn [bind]. cbv zeta. rewrite T, <- hex_of_app.
  rewrite hex_len_ok by (apply bytes_app; split; auto; apply bytes1; unfold byte; lia). cbn [bind].
  unfold len in D2. destruct (build_script_ok (der_of sig) pub) as [R1 [R2 R3]]; auto; [lia|]. rewrite R1. cbn [bind].
  unfold len in R2 at 2. rewrite var_int_to_int_ok by (unfold len; unfold len in R2; lia). reflexivity.
Qed.

(** Well-formed transactions: sighash of an input that pays to its owner. *)
Lemma outpoint_unsign : forall x y t i, unsign x = unsign y -> in_outpoint x t i -> in_outpoint y t i.
Proof.
  intros x y t i H (A1 & A2 & A3 & A4 & A5 & A6 & A7 & A8). injection H as E1 E2 E3 E4 E5 E6 E7 E8 E9 E10 E11.
  unfold in_outpoint. rewrite <- E1, <- E2, <- E3, <- E4. rewrite <- E9. auto 10.
Qed.

Lemma replace_ok : forall k spk ins outs, bytes spk -> len spk <= 252 ->
  Forall (fun i => bytes (i_txid i) /\ length (i_txid i) = 32%nat /\ 0 <= i_index i < 2 ^ 32) ins ->
  Forall output_ok outs -> (length ins <= 252)%nat -> (length outs <= 252)%nat -> tx_ok (replace_scripts k spk ins) outs.
Proof.
  intros k spk ins outs B L FI FO LI LO. split; [|split; [auto|split; [rewrite replace_length; auto|auto]]].
  clear LI. revert k. induction FI as [|i r (A1 & A2 & A3) FI IH]; intros k; [destruct k; constructor|].
  assert (G : Forall input_ok (map (fun i => mk_sinput (i_txid i) (i_index i) []) r)).
  { clear - FI. induction FI as [|i r (A1 & A2 & A3) FI IH]; constructor; auto. repeat split; auto; try apply A3. constructor. cbn. lia. }
  destruct k; cbn [replace_scripts]; constructor; auto; repeat split; auto; try apply A3. constructor. cbn. lia.
Qed.
Lemma outs_ok : forall ys os, Forall2 out_wire ys os -> Forall output_ok os.
Proof. intros ys os H. induction H as [|y o ys os B _ IH]; constructor; auto. apply B. Qed.
Lemma ins_ok : forall xs is, Forall2 (fun x i => in_outpoint x (i_txid i) (i_index i)) xs is ->
  Forall (fun i => bytes (i_txid i) /\ length (i_txid i) = 32%nat /\ 0 <= i_index i < 2 ^ 32) is.
Proof. intros xs is H. induction H as [|x i xs is B _ IH]; constructor; auto. destruct B as (A1 & A2 & A3 & _). auto. Qed.

Lemma sighash_bytes_ok : forall t ins outs k spk, tx_header t ->
  Forall2 (fun x i => in_outpoint x (i_txid i) (i_index i)) (tx_inputs t) ins -> Forall2 out_wire (tx_outputs t) outs ->
  bytes spk -> len spk <= 252 -> bytes (sighash_bytes k spk ins outs).
Proof.
  intros t ins outs k spk (A1 & A2 & A3 & A4 & A5 & A6 & A7 & A8) HI HO B L. unfold sighash_bytes. apply bytes_app. split; [|apply le_bytes_bytes].
  apply wire_bytes, replace_ok; auto.
  - eapply ins_ok; eauto.
  - eapply outs_ok; eauto.
  - rewrite <- (F2_len _ _ _ _ _ HI). auto.
  - rewrite <- (F2_len _ _ _ _ _ HO). auto.
Qed.

Lemma bytes_p2pkh' : forall p, bytes (p2pkh (hash160 p)).
Proof. intros p. apply bytes_p2pkh, hash160_bytes, HH. Qed.
Lemma len_p2pkh' : forall p, len (p2pkh (hash160 p)) = 25.
Proof. intros p. unfold len. rewrite p2pkh_length. rewrite hash160_length by auto. reflexivity. Qed.

Lemma header_inputs : forall t xs, tx_header t -> length xs = length (tx_inputs t) -> tx_header (set_inputs t xs).
Proof. intros t xs (A1 & A2 & A3 & A4 & A5 & A6 & A7 & A8) L. unfold tx_header, set_inputs. cbn. rewrite L. auto 10. Qed.

(** Form of input n of t in any signing state. *)
Lemma form_ok : forall t ins outs xs n x pub, tx_body t ins outs -> map unsign xs = map unsign (tx_inputs t) ->
  nth_error (tx_inputs t) n = Some x -> in_owner x (hash160 pub) ->
  to_hex_signable_form (set_inputs t xs) n = Ok (hex_of (sighash_bytes n (p2pkh (hash160 pub)) ins outs)) /\
  bytes (sighash_bytes n (p2pkh (hash160 pub)) ins outs).
Proof.
  intros t ins outs xs n x pub (T & HI & HO & _) M N (O1 & O2 & O3 & O4). split.
  - rewrite signable_unsign by auto. apply signable_ok; auto. exists x. rewrite len_p2pkh'. auto.
  - eapply sighash_bytes_ok; eauto; [apply bytes_p2pkh'|rewrite len_p2pkh'; lia].
Qed.

Lemma no_nonce_random : forall rv n,
  (no_nonce rv n /\ random_value_at rv n = Err IndexError) \/
  (~ no_nonce rv n /\ exists k, random_value_at rv n = Ok k /\ nonce rv n = opt_nonce k).
Proof.
  intros [[|a l]|] n; unfold random_value_at, nonce, no_nonce.
  - right. split; [intros [l [H [NE _]]]; injection H as <-; contradiction|]. exists None. destruct n; auto.
  - destruct (nth_error (a :: l) n) as [k|] eqn:N.
    + right. split; [|exists (Some k); destruct k; auto]. intros [l' [H [_ L]]]. injection H as <-. apply nth_error_None in L. congruence.
    + left. split; auto. exists (a :: l). split; auto. split; [discriminate|]. apply nth_error_None; auto.
  - right. split; [intros [l [H _]]; discriminate|]. exists None. auto.
Qed.

Lemma nth_mid : forall A (a b : list A) x, nth_error (a ++ x :: b) (length a) = Some x.
Proof. intros A a b x. rewrite nth_error_app2, Nat.sub_diag by lia. reflexivity. Qed.

Hypothesis HZ : ZeroAddressOk E.

(** The signing loop does what [signing] says. *)
Lemma sign_loop_spec : forall t ins outs keys rv m todo dn pre,
  tx_body t ins outs ->
  (forall a, (exists k, map_find a m = Some k /\ In k keys /\ controls k a) \/ (map_find a m = None /\ forall k, In k keys -> ~ controls k a)) ->
  tx_inputs t = pre ++ todo -> map unsign dn = map unsign pre ->
  exists r xs', sign_loop t m rv dn todo = (r, dn ++ xs') /\ signing keys rv ins outs (length dn) todo r xs'.
Proof.
  intros t ins outs keys rv m. induction todo as [|x todo IH]; intros dn pre HB HM HT HU.
  - exists (Ok tt), []. cbn [sign_loop]. rewrite app_nil_r. split; auto. constructor.
  - cbn [sign_loop]. assert (LP : length dn = length pre) by (rewrite <- (map_length unsign dn), HU, map_length; auto).
    destruct (no_nonce_random rv (length dn)) as [[NN ->]|[NN [k [-> NK]]]]; [exists (Err IndexError), (x :: todo); split; auto; constructor; auto|].
    destruct (HM (ti_address x)) as [[key [MF [IK [pub [KP IA]]]]]|[MF NC]]; rewrite MF; [|exists (Err ValueError), (x :: todo); split; auto; apply sg_no_key; auto].
    rewrite (key_public key pub KP).
    assert (OW : in_owner x (hash160 pub)).
    { destruct HB as (_ & _ & _ & HO). rewrite HT in HO. apply Forall_app in HO as [_ HO]. inversion HO as [|q1 q2 [h OW] _]; subst.
      pose proof OW as [IA' _]. rewrite (is_address_inj HH HZ _ _ _ IA IA'). exact OW. }
    cbv zeta.
    assert (MU : map unsign (dn ++ set_public_key x (hex_of pub) :: todo) = map unsign (tx_inputs t)).
    { rewrite HT, !map_app, HU. reflexivity. }
    assert (NT : nth_error (tx_inputs t) (length dn) = Some x) by (rewrite HT, LP; apply nth_mid).
    destruct (form_ok t ins outs _ _ x pub HB MU NT OW) as [FO FB].
    pose proof KP as (_ & _ & _ & Bp & Lp).
    destruct (make_script_spec _ _ _ key pub k FO FB) as [(sig & Bs & Ls & SG & D1 & D2 & ->)|(e & SG & ->)]; auto.
    { destruct HB as [(_ & _ & _ & T & _) _]. exact T. }
    + set (x' := set_script _ _ _ _).
      destruct (IH (dn ++ [x']) (pre ++ [x])) as (r & xs' & SL & SI); auto.
      { rewrite HT, <- app_assoc. reflexivity. }
      { rewrite !map_app, HU. reflexivity. }
      exists r, (x' :: xs'). rewrite SL, <- app_assoc. split; auto. rewrite app_length in SI. cbn [length] in SI. rewrite Nat.add_1_r in SI.
      eapply sg_signed; eauto. exists pub, sig. rewrite NK. split; [exact KP|]. split; [exact OW|]. auto 10.
    + exists (Err e), (with_public_key x pub :: todo). split; auto. eapply sg_refused; eauto. rewrite NK. exact SG.
Qed.

Lemma set_inputs_self : forall t, set_inputs t (tx_inputs t) = t.
Proof. intros []. reflexivity. Qed.

Lemma sign_spec : forall t ins outs keys rv, tx_body t ins outs ->
  check_random_values keys rv = Ok tt -> Forall (fun k => exists a, controls k a) keys ->
  exists r xs', sign t keys rv = (r, set_inputs t xs') /\ signing keys rv ins outs 0 (tx_inputs t) r xs'.
Proof.
  intros t ins outs keys rv HB CR FK. unfold sign. rewrite CR. destruct (build_map_ok keys [] FK) as [m [-> HM]].
  destruct (sign_loop_spec t ins outs keys rv m (tx_inputs t) [] []) as (r & xs' & SL & SI); auto.
  - intros a. destruct (HM a) as [[k [MF [[I C]|N]]]|[MF [_ NC]]]; [left; exists k; auto|discriminate|right; auto].
  - rewrite SL. exists r, xs'. auto.
Qed.

Lemma signing_all : forall keys rv ins outs n xs xs', signing keys rv ins outs n xs (Ok tt) xs' -> all_signed keys rv ins outs n xs xs'.
Proof.
  intros keys rv ins outs n xs xs' H. remember (Ok tt : res unit) as r eqn:R. induction H; try discriminate; econstructor; eauto.
Qed.

(** signing is a function of the state before. *)
Lemma signing_nonces : forall keys rv ins outs n xs xs', signing keys rv ins outs n xs (Ok tt) xs' ->
  forall i, (n <= i < n + length xs)%nat -> ~ no_nonce rv i.
Proof.
  intros keys rv ins outs n xs xs' H. remember (Ok tt : res unit) as r eqn:R. induction H; try discriminate; intros i L; cbn [length] in L; [lia|].
  destruct (Nat.eq_dec i n) as [->|NE]; auto. apply IHsigning; auto. lia.
Qed.

End Keys.

(** Any transaction: only the signature fields change. *)
Lemma sign_loop_unsign : forall t m rv todo dn r xs, sign_loop t m rv dn todo = (r, xs) -> map unsign xs = map unsign (dn ++ todo).
Proof.
  intros t m rv. induction todo as [|x todo IH]; intros dn r xs H; cbn [sign_loop] in H.
  - injection H as <- <-. rewrite app_nil_r. reflexivity.
  - destruct (random_value_at rv (length dn)) as [k|e]; [|injection H as <- <-; reflexivity].
    destruct (map_find (ti_address x) m) as [key|]; [|injection H as <- <-; reflexivity].
    destruct (private_key_hex_to_public_key_hex key) as [p|e]; [|injection H as <- <-; reflexivity]. cbv zeta in H.
    destruct (make_script_sig _ _ _ _ _) as [[[sl n] ss]|e]; [|injection H as <- <-; rewrite !map_app; reflexivity].
    apply IH in H. rewrite H, !map_app, <- app_assoc. reflexivity.
Qed.

End WithEnv.
