(** C99: what is said of a signed transaction in hex that is refused. *)
From Coq Require Import String Floats.SpecFloat Lia.
From Verif Require Import PyBase Env PyNum Validate Basic Spec EnvOk ValidSpec TxInput TxOutput Tx TxSpec SignSpec JsonSpec Cli Messages MessagesSpec Complaints ComplaintsSpec Answer BasicSays BasicSaysSpec DocSays DocSaysSpec HexSays HexSaysSpec Demo DemoTx.
From Verif Require Import NumLemmas HexProofs Base58Proofs AddrProofs PrepProofs AmountProofs DesignProofs ScriptProofs WireProofs MakeProofs SignProofs JsonProofs DemoProofs C_Valid C_Messages C_Complaints C_Amount C_BasicSays C_DocSays.
Open Scope Z_scope.

Section WithEnv.
Context {E : Env}.

(** *** The same as without texts. *)
Lemma same_quietly : forall {A} (m : res A), m = unsaid (quietly m).
Proof. intros A [x|e]; reflexivity. Qed.
Lemma same_take1 : forall bs, take1 bs = unsaid (take1_says bs).
Proof. intros []; reflexivity. Qed.
Lemma same_hex_le : forall repr v, hex_le_to_int v = unsaid (hex_le_to_int_says repr v).
Proof. intros repr v. unfold hex_le_to_int, hex_le_to_int_says, hex_to_int. apply same_bind; [apply same_reverse|]. intros x _. apply same_int. Qed.
Lemma same_if : forall {A} (b : bool) (e : exn) (m : res A) (a : answer A), (b = false -> m = unsaid a) -> (if b then Err e else m) = unsaid (if b then Says e [] else a).
Proof. intros A [] e m a H; [reflexivity|]. now apply H. Qed.
Lemma same_parts : forall repr s, script_sig_to_signature_hex_and_public_key_hex s = unsaid (script_sig_to_signature_hex_and_public_key_hex_says repr s).
Proof.
  intros repr s. unfold script_sig_to_signature_hex_and_public_key_hex, script_sig_to_signature_hex_and_public_key_hex_says. apply same_check; [apply same_hex|]. intros _. cbv zeta.
  apply same_bind; [apply same_count_read|]. intros n _. apply same_bind; [apply same_hex_len|]. intros _ _. apply same_bind; [apply same_count_read|]. intros n2 _. apply same_bind; [apply same_hex_len|]. intros _ _.
  apply same_if. intros _. apply same_bind; [apply same_hex_len|]. intros _ _. apply same_if. intros _. apply same_bind; [apply same_hex_len|]. reflexivity.
Qed.
Lemma same_txin_signed : forall repr a b c d s, txin_create_from_signed_tx_data a b c d s = unsaid (txin_create_from_signed_tx_data_says repr a b c d s).
Proof.
  intros repr a b c d s. unfold txin_create_from_signed_tx_data, txin_create_from_signed_tx_data_says.
  apply same_check; [apply (same_length repr _ 64)|]. intros _. apply same_check; [apply (same_length repr _ 32)|]. intros _. apply same_check; [apply (same_length repr _ 4)|]. intros _.
  apply same_check; [apply same_hex|]. intros _. apply same_check; [apply same_hex|]. intros _. apply same_bind; [apply same_count_read|]. intros n _.
  apply same_bind; [apply same_quietly|]. intros [spk l] _. apply same_bind; [apply same_count_read|]. intros n2 _. apply same_bind; [apply same_quietly|]. intros ad _.
  apply same_bind; [apply same_hex_le|]. intros i _. apply same_bind; [apply same_reverse|]. reflexivity.
Qed.
Lemma same_txout_signed : forall repr a b s, txout_create_from_signed_tx_data a b s = unsaid (txout_create_from_signed_tx_data_says repr a b s).
Proof.
  intros repr a b s. unfold txout_create_from_signed_tx_data, txout_create_from_signed_tx_data_says. apply same_bind; [apply same_count_read|]. intros n _. apply same_bind; [apply same_quietly|]. intros ad _.
  apply same_bind; [apply same_hex_le|]. intros i _. apply same_bind; [apply same_satoshi|]. reflexivity.
Qed.
Lemma same_read_input : forall repr bs, parse_input bs = unsaid (read_input_says repr bs).
Proof.
  intros repr bs. unfold parse_input, read_input_says, take_n. apply same_bind; [apply same_take1|]. intros [l r] _. apply same_bind; [apply same_count_read|]. intros n _.
  apply same_bind; [apply same_parts|]. intros [sg pk] _. apply same_bind; [apply same_hex_len|]. intros _ _. apply same_bind; [apply same_hex_len|]. intros _ _. apply same_if. intros _.
  apply same_bind; [apply same_txin_signed|]. reflexivity.
Qed.
Lemma same_read_output : forall repr bs, parse_output bs = unsaid (read_output_says repr bs).
Proof.
  intros repr bs. unfold parse_output, read_output_says, take_n. apply same_bind; [apply same_hex_le|]. intros i _. apply same_bind; [apply same_satoshi|]. intros _ _.
  apply same_bind; [apply same_take1|]. intros [l r] _. apply same_bind; [apply same_count_read|]. intros n _. apply same_bind; [apply same_txout_signed|]. reflexivity.
Qed.
Lemma same_many : forall {A} (f : list pystr -> res (A * list pystr)) g, (forall bs, f bs = unsaid (g bs)) -> forall n bs, parse_many f n bs = unsaid (read_many_says g n bs).
Proof.
  intros A f g H. induction n as [|n IH]; intros bs; cbn [parse_many read_many_says]; [reflexivity|]. apply same_bind; [apply H|]. intros [x r] _. apply same_bind; [apply IH|]. intros [l r'] _. reflexivity.
Qed.

(** C99.  Without the texts this is the function of C21: the same values, the same exceptions. *)
Lemma c99_same : forall repr s, from_hex_signed s = unsaid (from_hex_signed_says repr s).
Proof.
  intros repr s. unfold from_hex_signed, from_hex_signed_says, take_n. apply same_bind; [apply same_hex_len|]. intros _ _. cbv zeta. apply same_if. intros _.
  apply same_bind; [apply same_take1|]. intros [c r] _. apply same_bind; [apply same_count_read|]. intros n _. apply same_bind; [apply same_many, same_read_input|]. intros [ins r'] _.
  apply same_bind; [apply same_take1|]. intros [c' r''] _. apply same_bind; [apply same_count_read|]. intros n' _. apply same_bind; [apply same_many, same_read_output|]. intros [outs r3] _. apply same_if. intros _.
  unfold tx_create. apply same_bind; [apply same_count|]. intros x _. apply same_bind; [apply same_count|]. reflexivity.
Qed.

(** *** Reading, one part after the other. *)
Definition image {A} (m : answer (A * list pystr)) (a : answer (list Z)) : Prop :=
  match a with Says e t => m = Says e t | Gives rest => bytes rest /\ exists x, m = Gives (x, map hex1 rest) end.
Definition reads {A} (m : answer (A * list pystr)) (Q : answer (list Z) -> Prop) : Prop := (exists a, Q a) /\ forall a, Q a -> image m a.
Definition says_reads {A} (m : answer A) (Q : answer (list Z) -> Prop) : Prop :=
  (exists a, Q a) /\ forall a, Q a -> match a with Says e t => m = Says e t | Gives _ => exists x, m = Gives x end.
Lemma reads_then : forall {A B} (m : answer (A * list pystr)) (k : A -> list pystr -> answer (B * list pystr)) (R R' : reader) bs,
  reads m (R bs) -> (forall x rest, m = Gives (x, map hex1 rest) -> bytes rest -> reads (k x (map hex1 rest)) (R' rest)) -> reads (abind m (fun '(x, r) => k x r)) (then_read R R' bs).
Proof.
  intros A B m k R R' bs [(a & T) S] K. unfold then_read. split.
  - pose proof (S a T) as I. destruct a as [rest|e t]; [|exists (Says e t); left; eauto]. destruct I as (Br & x & I). destruct (K x rest I Br) as [(a & T') _]. exists a. right. eauto.
  - intros a' [(e & t & Q & ->)|(rest & Q & F)]; apply S in Q; cbn [image] in Q.
    + rewrite Q. reflexivity.
    + destruct Q as (Br & x & Q). rewrite Q. cbn [abind]. now apply (K x rest Q Br).
Qed.
Lemma says_then : forall {A B} (m : answer (A * list pystr)) (k : A -> list pystr -> answer B) (R R' : reader) bs,
  reads m (R bs) -> (forall x rest, m = Gives (x, map hex1 rest) -> bytes rest -> says_reads (k x (map hex1 rest)) (R' rest)) -> says_reads (abind m (fun '(x, r) => k x r)) (then_read R R' bs).
Proof.
  intros A B m k R R' bs [(a & T) S] K. unfold then_read. split.
  - pose proof (S a T) as I. destruct a as [rest|e t]; [|exists (Says e t); left; eauto]. destruct I as (Br & x & I). destruct (K x rest I Br) as [(a & T') _]. exists a. right. eauto.
  - intros a' [(e & t & Q & ->)|(rest & Q & F)]; apply S in Q; cbn [image] in Q.
    + rewrite Q. reflexivity.
    + destruct Q as (Br & x & Q). rewrite Q. cbn [abind]. now apply (K x rest Q Br).
Qed.
Lemma reads_times : forall {A} (f : list pystr -> answer (A * list pystr)) (R : reader), (forall bs, bytes bs -> reads (f (map hex1 bs)) (R bs)) ->
  forall n bs, bytes bs -> reads (read_many_says f n (map hex1 bs)) (times n R bs).
Proof.
  intros A f R H. induction n as [|n IH]; intros bs Bb; cbn [read_many_says times].
  - split; [eauto|]. intros a ->. split; [exact Bb|]. eauto.
  - apply (reads_then (f (map hex1 bs)) (fun a bs => abind (read_many_says f n bs) (fun '(l, bs) => Gives (a :: l, bs))) R); [now apply H|]. intros x rest _ Br. destruct (IH rest Br) as [T S]. split; [exact T|]. intros a Q. apply S in Q.
    destruct a as [rest'|e t]; cbn [image] in *; [|now rewrite Q]. destruct Q as (Br' & l & Q). split; [exact Br'|]. rewrite Q. cbn [abind]. eauto.
Qed.
Lemma times_length : forall {A} (f : list pystr -> answer (A * list pystr)) n bs l r, read_many_says f n bs = Gives (l, r) -> length l = n.
Proof.
  intros A f. induction n as [|n IH]; intros bs l r H; cbn [read_many_says] in H; [injection H as <- <-; reflexivity|]. destruct (f bs) as [[x r1]|]; [|discriminate]. cbn [abind] in H.
  destruct (read_many_says f n r1) as [[l2 r2]|] eqn:Q; [|discriminate]. cbn [abind] in H. injection H as <- <-. cbn [length]. f_equal. eapply IH; eauto.
Qed.
Lemma byte_count : forall repr b, byte b -> var_int_to_int_says repr (PStr (hex_of [b])) = if b <=? 252 then Gives b else Says ValueError [].
Proof.
  intros repr b B. apply (proj2 (c95_var_int repr _)). unfold byte in B. destruct (Z.leb_spec b 252); [apply (count_value repr _ b); auto; lia|apply (count_long repr _ b); auto; lia].
Qed.
Lemma says_counted : forall {A} repr (k : Z -> list pystr -> answer A) (next : nat -> reader) bs, bytes bs ->
  (forall n r, 0 <= n <= 252 -> bytes r -> says_reads (k n (map hex1 r)) (next (Z.to_nat n) r)) ->
  says_reads (abind (take1_says (map hex1 bs)) (fun '(c, r) => abind (var_int_to_int_says repr (PStr c)) (fun n => k n r))) (counted next bs).
Proof.
  intros A repr k next bs Bb K. unfold counted. destruct bs as [|n r]; cbn [map take1_says abind].
  - split; [eexists; left; split; reflexivity|]. intros a [(_ & ->)|(n & r & Q & _)]; [reflexivity|discriminate].
  - inversion Bb as [|? ? Bn Br]; subst. change (hex1 n) with (hex_of [n]). rewrite (byte_count repr n Bn). unfold byte in Bn. destruct (Z.leb_spec n 252); cbn [abind].
    + destruct (K n r ltac:(lia) Br) as [(a & T) S]. split; [exists a; right; exists n, r; auto|]. intros a' [(Q & _)|(n' & r' & Q & [(L & _)|(_ & F)])]; [discriminate|injection Q as <- <-; lia|]. injection Q as <- <-. now apply S.
    + split; [eexists; right; exists n, r; split; [reflexivity|]; left; split; [lia|reflexivity]|]. intros a' [(Q & _)|(n' & r' & Q & [(_ & ->)|(L & _)])]; [discriminate|reflexivity|injection Q as <- <-; lia].
Qed.
Lemma prefix_dec : forall l bs : list Z, (exists rest, bs = l ++ rest) \/ (forall rest, bs <> l ++ rest).
Proof.
  intros l bs. destruct (list_eq_dec Z.eq_dec (firstn (length l) bs) l) as [Q|Q].
  - left. exists (skipn (length l) bs). rewrite <- Q at 1. symmetry. apply firstn_skipn.
  - right. intros rest ->. apply Q. apply firstn_exact.
Qed.
Lemma prefix_hex : forall l bs, bytes l -> bytes bs -> str_eqb (hex_of (firstn (length l) bs)) (hex_of l) = true <-> exists rest, bs = l ++ rest.
Proof.
  intros l bs Bl Bb. rewrite str_eqb_hex by (try apply bytes_firstn; auto). rewrite str_eqb_eq. split.
  - intros Q. exists (skipn (length l) bs). rewrite <- Q at 1. symmetry. apply firstn_skipn.
  - intros (rest & ->). apply firstn_exact.
Qed.

(** *** The script. *)
Lemma parts_hex : forall repr s, bytes s -> script_sig_to_signature_hex_and_public_key_hex_says repr (hex_of s) =
  abind (var_int_to_int_says repr (PStr (hex_of (firstn 1 s)))) (fun n =>
  abind (var_int_to_int_says repr (PStr (hex_of (firstn 1 (skipn (Z.to_nat n) (skipn 1 s)))))) (fun m =>
    let sig := firstn (Z.to_nat n) (skipn 1 s) in let pk := firstn (Z.to_nat m) (skipn 1 (skipn (Z.to_nat n) (skipn 1 s))) in
    if negb (str_eqb (last_n 1 sig) [1]) then Says ValueError [] else if negb (str_eqb (firstn 1 pk) [4]) then Says ValueError [] else Gives (hex_of (drop_last_n 1 sig), hex_of (skipn 1 pk)))).
Proof.
  intros repr s B. unfold script_sig_to_signature_hex_and_public_key_hex_says. rewrite hex_fine_check by auto. cbn [check]. cbv zeta.
  change (slice 0 2 (hex_of s)) with (slice (2 * 0) (2 * 1) (hex_of s)). rewrite slice_hex. change (1 - 0)%nat with 1%nat. change (skipn 0 s) with s.
  destruct (var_int_to_int_says repr (PStr (hex_of (firstn 1 s)))) as [n|]; cbn [abind]; [|reflexivity].
  replace (Z.to_nat n * 2 + 2)%nat with (2 * (Z.to_nat n + 1))%nat by lia.
  change (slice 2 (2 * (Z.to_nat n + 1)) (hex_of s)) with (slice (2 * 1) (2 * (Z.to_nat n + 1)) (hex_of s)).
  rewrite slice_hex. replace (Z.to_nat n + 1 - 1)%nat with (Z.to_nat n) by lia. set (sig := firstn (Z.to_nat n) (skipn 1 s)).
  assert (Bs : bytes sig) by (apply bytes_firstn, bytes_skipn; auto). rewrite hex_length_says by auto. cbn [abind].
  replace (2 * (Z.to_nat n + 1) + 2)%nat with (2 * (Z.to_nat n + 2))%nat by lia.
  rewrite slice_hex. replace (Z.to_nat n + 2 - (Z.to_nat n + 1))%nat with 1%nat by lia.
  replace (skipn (Z.to_nat n + 1) s) with (skipn (Z.to_nat n) (skipn 1 s)) by (rewrite <- skipn_add; f_equal; lia).
  destruct (var_int_to_int_says repr (PStr (hex_of (firstn 1 (skipn (Z.to_nat n) (skipn 1 s)))))) as [m|]; cbn [abind]; [|reflexivity].
  replace (2 * (Z.to_nat n + 2) + Z.to_nat m * 2)%nat with (2 * (Z.to_nat n + 2 + Z.to_nat m))%nat by lia.
  rewrite slice_hex. replace (Z.to_nat n + 2 + Z.to_nat m - (Z.to_nat n + 2))%nat with (Z.to_nat m) by lia.
  replace (skipn (Z.to_nat n + 2) s) with (skipn 1 (skipn (Z.to_nat n) (skipn 1 s))) by (rewrite <- !skipn_add; f_equal; lia).
  set (pk := firstn (Z.to_nat m) _). assert (Bp : bytes pk) by (apply bytes_firstn, bytes_skipn, bytes_skipn, bytes_skipn; auto).
  rewrite hex_length_says by auto. cbn [abind].
  change (last_n 2 (hex_of sig)) with (last_n (2 * 1) (hex_of sig)). rewrite last_n_hex. change (lit "01") with (hex_of [1]). assert (Bl : bytes (last_n 1 sig)) by (apply bytes_skipn; auto).
  rewrite str_eqb_hex by (auto; apply bytes1; unfold byte; lia). destruct (str_eqb (last_n 1 sig) [1]); [|reflexivity]. cbn [negb].
  change (drop_last_n 2 (hex_of sig)) with (drop_last_n (2 * 1) (hex_of sig)). rewrite drop_last_n_hex. assert (Bd : bytes (drop_last_n 1 sig)) by (apply bytes_firstn; auto).
  rewrite hex_length_says by auto. cbn [abind].
  change (firstn 2 (hex_of pk)) with (firstn (2 * 1) (hex_of pk)). rewrite firstn_hex. change (lit "04") with (hex_of [4]). rewrite str_eqb_hex by (try apply bytes_firstn; auto; apply bytes1; unfold byte; lia).
  destruct (str_eqb (firstn 1 pk) [4]); [|reflexivity]. cbn [negb].
  change (skipn 2 (hex_of pk)) with (skipn (2 * 1) (hex_of pk)). rewrite skipn_hex. rewrite hex_length_says by (apply bytes_skipn; auto). reflexivity.
Qed.
Lemma count_first : forall repr s, bytes s -> (s = [] /\ exists e t, count_read repr (PStr (hex_of (firstn 1 s))) (Says e t) /\ var_int_to_int_says repr (PStr (hex_of (firstn 1 s))) = Says e t) \/
  exists n r, s = n :: r /\ bytes r /\ (n <= 252 /\ 0 <= n /\ var_int_to_int_says repr (PStr (hex_of (firstn 1 s))) = Gives n \/
    252 < n /\ count_read repr (PStr (hex_of (firstn 1 s))) (Says ValueError []) /\ var_int_to_int_says repr (PStr (hex_of (firstn 1 s))) = Says ValueError []).
Proof.
  intros repr [|n r] B.
  - left. split; [reflexivity|]. destruct (var_int_to_int_says repr (PStr (hex_of (firstn 1 [])))) as [n|e t] eqn:Q; [|exists e, t; split; [now apply (proj2 (c95_var_int repr _))|reflexivity]].
    apply (proj2 (c95_var_int repr _)) in Q. inversion Q as [n0 X Y| |]; subst. discriminate.
  - right. inversion B as [|? ? Bn Br]; subst. exists n, r. split; [reflexivity|]. split; [exact Br|]. change (firstn 1 (n :: r)) with [n]. pose proof (byte_count repr n Bn) as Q. unfold byte in Bn.
    destruct (Z.leb_spec n 252); [left; auto with zarith|right]. repeat split; auto. now apply (proj2 (c95_var_int repr _)).
Qed.
Lemma last_one : forall sig : list Z, str_eqb (last_n 1 sig) [1] = true <-> exists der, sig = der ++ [1].
Proof.
  intros sig. rewrite str_eqb_eq. split.
  - intros Q. exists (drop_last_n 1 sig). unfold last_n in Q. unfold drop_last_n. rewrite <- Q. symmetry. apply firstn_skipn.
  - intros (der & ->). unfold last_n. rewrite app_length. cbn [length]. replace (length der + 1 - 1)%nat with (length der) by lia. apply skipn_exact.
Qed.
Lemma first_four : forall pk : list Z, str_eqb (firstn 1 pk) [4] = true <-> exists key, pk = 4 :: key.
Proof.
  intros pk. rewrite str_eqb_eq. split; [|intros (k & ->); reflexivity]. intros Q. exists (skipn 1 pk). rewrite <- (firstn_skipn 1 pk) at 1. rewrite Q. reflexivity.
Qed.
Lemma two_parts : forall n r m r', 0 <= n -> skipn (Z.to_nat n) r = m :: r' -> r = firstn (Z.to_nat n) r ++ m :: r' /\ len (firstn (Z.to_nat n) r) = n.
Proof.
  intros n r m r' N Q. split; [rewrite <- Q; symmetry; apply firstn_skipn|]. assert (L : (Z.to_nat n < length r)%nat).
  { destruct (le_lt_dec (length r) (Z.to_nat n)) as [C|C]; [|lia]. rewrite skipn_all2 in Q by lia. discriminate. }
  unfold len. rewrite firstn_length. lia.
Qed.
Lemma read_parts : forall n sig (r : list Z), len sig = n -> firstn (Z.to_nat n) (sig ++ r) = sig /\ skipn (Z.to_nat n) (sig ++ r) = r.
Proof. intros n sig r <-. unfold len. rewrite Nat2Z.id. split; [apply firstn_exact|apply skipn_exact]. Qed.
Lemma key_script_read : forall repr s, bytes s -> (exists a, key_script repr s a) /\
  forall a, key_script repr s a -> match a with Says e t => script_sig_to_signature_hex_and_public_key_hex_says repr (hex_of s) = Says e t
    | Gives key => bytes key /\ exists sig, bytes sig /\ script_sig_to_signature_hex_and_public_key_hex_says repr (hex_of s) = Gives (hex_of sig, hex_of key) end.
Proof.
  intros repr s B. split.
  - destruct (count_first repr s B) as [(_ & e & t & C & _)|(n & r & -> & Br & [(N & N0 & _)|(_ & C & _)])]; [eexists; eapply script_no_count; eauto| |eexists; eapply script_no_count; eauto].
    destruct (count_first repr (skipn (Z.to_nat n) r) ltac:(now apply bytes_skipn)) as [(_ & e & t & C & _)|(m & r' & Q & _ & [(M & M0 & _)|(_ & C & _)])];
      [eexists; eapply script_no_count2; eauto| |eexists; eapply script_no_count2; eauto].
    destruct (two_parts n r m r' N0 Q) as (Q1 & L). set (sig := firstn (Z.to_nat n) r) in *. destruct (str_eqb (last_n 1 sig) [1]) eqn:S1.
    + apply last_one in S1. destruct S1 as (der & S1). rewrite S1 in *. destruct (str_eqb (firstn 1 (firstn (Z.to_nat m) r')) [4]) eqn:S4.
      * apply first_four in S4. destruct S4 as (key & S4). exists (Gives key). apply (script_key repr _ n der m r' key); auto. now rewrite <- Q1.
      * eexists. apply (script_compressed repr _ n der m r'); auto; [now rewrite <- Q1|]. intros key K. enough (str_eqb (firstn 1 (firstn (Z.to_nat m) r')) [4] = true) by congruence. apply first_four. eauto.
    + eexists. apply (script_hash_type repr _ n sig m r'); auto; [now rewrite <- Q1|]. intros der K. enough (str_eqb (last_n 1 sig) [1] = true) by congruence. apply last_one. eauto.
  - intros a K. rewrite parts_hex by exact B. inversion K as [e t C|n r e t Q N C|n sig m r Q N L M H|n der m r Q N L M H|n der m r key Q N L M H]; subst a.
    + apply (proj2 (c95_var_int repr _)) in C. rewrite C. reflexivity.
    + subst s. inversion B as [|? ? Bn Br]; subst. change (firstn 1 (n :: r)) with [n]. rewrite byte_count by exact Bn. destruct (Z.leb_spec n 252); [|lia]. cbn [abind].
      change (skipn 1 (n :: r)) with r. apply (proj2 (c95_var_int repr _)) in C. rewrite C. reflexivity.
    + assert (X : str_eqb (last_n 1 sig) [1] = false). { apply Bool.not_true_iff_false. rewrite last_one. intros (der & D). now apply (H der). }
      subst s. inversion B as [|? ? Bn Br]; subst. change (firstn 1 (len sig :: sig ++ m :: r)) with [len sig]. rewrite byte_count by exact Bn. destruct (Z.leb_spec (len sig) 252); [|lia]. cbn [abind]. change (skipn 1 (len sig :: sig ++ m :: r)) with (sig ++ m :: r).
      destruct (read_parts (len sig) sig (m :: r) eq_refl) as (P1 & P2). rewrite P1, P2. apply Forall_app in Br. destruct Br as [Bs Br]. inversion Br as [|? ? Bm Br']; subst. change (firstn 1 (m :: r)) with [m]. rewrite byte_count by exact Bm.
      destruct (Z.leb_spec m 252); [|lia]. cbn [abind]. cbv zeta. rewrite X. reflexivity.
    + assert (X : str_eqb (firstn 1 (firstn (Z.to_nat m) r)) [4] = false). { apply Bool.not_true_iff_false. rewrite first_four. intros (key & D). now apply (H key). }
      assert (Y : str_eqb (last_n 1 (der ++ [1])) [1] = true) by (apply last_one; eauto). set (sig := der ++ [1]) in *.
      subst s. inversion B as [|? ? Bn Br]; subst. change (firstn 1 (len sig :: sig ++ m :: r)) with [len sig]. rewrite byte_count by exact Bn. destruct (Z.leb_spec (len sig) 252); [|lia]. cbn [abind]. change (skipn 1 (len sig :: sig ++ m :: r)) with (sig ++ m :: r).
      destruct (read_parts (len sig) sig (m :: r) eq_refl) as (P1 & P2). rewrite P1, P2. apply Forall_app in Br. destruct Br as [Bs Br]. inversion Br as [|? ? Bm Br']; subst. change (firstn 1 (m :: r)) with [m]. rewrite byte_count by exact Bm.
      destruct (Z.leb_spec m 252); [|lia]. cbn [abind]. cbv zeta. rewrite Y. cbn [negb]. change (skipn 1 (m :: r)) with r. rewrite X. reflexivity.
    + assert (X : str_eqb (firstn 1 (firstn (Z.to_nat m) r)) [4] = true) by (apply first_four; eauto).
      assert (Y : str_eqb (last_n 1 (der ++ [1])) [1] = true) by (apply last_one; eauto). set (sig := der ++ [1]) in *.
      subst s. inversion B as [|? ? Bn Br]; subst. change (firstn 1 (len sig :: sig ++ m :: r)) with [len sig]. rewrite byte_count by exact Bn. destruct (Z.leb_spec (len sig) 252); [|lia]. cbn [abind]. change (skipn 1 (len sig :: sig ++ m :: r)) with (sig ++ m :: r).
      destruct (read_parts (len sig) sig (m :: r) eq_refl) as (P1 & P2). rewrite P1, P2. apply Forall_app in Br. destruct Br as [Bs Br]. inversion Br as [|? ? Bm Br']; subst. change (firstn 1 (m :: r)) with [m]. rewrite byte_count by exact Bm.
      destruct (Z.leb_spec m 252); [|lia]. cbn [abind]. cbv zeta. rewrite Y. cbn [negb]. change (skipn 1 (m :: r)) with r. rewrite X. cbn [negb]. rewrite H. change (skipn 1 (4 :: key)) with key.
      assert (Bk : bytes (4 :: key)) by (rewrite <- H; now apply bytes_firstn). inversion Bk; subst. split; [assumption|]. exists (drop_last_n 1 sig). split; [now apply bytes_firstn|reflexivity].
Qed.

(** *** An input. *)
Lemma length_refused : forall repr n key e t, bytes key -> length key <> Z.to_nat n -> 0 <= n ->
  reported repr (PStr (hex_of key)) None PNone (PStr (lit "hex_length_" ++ int_str n ++ lit "_bytes")) (Wrong ValueError (lit "whose length is " ++ int_str (2 * len key) ++ lit " chars, not " ++ int_str (2 * n) ++ lit " chars.")) (Some (e, t)) ->
  hex_length_check repr (PStr (hex_of key)) n = Some (e, t).
Proof.
  intros repr n key e t B L N T. unfold hex_length_check. apply c94_hex_length. eexists. split; [apply kind_made; constructor|].
  eexists _, _, _, _. split; [apply (length_wrong _ _ _ _ (hex_of key) n eq_refl); [now apply hexadecimal_of|constructor|rewrite hex_of_length; lia]|]. rewrite hex_of_length, Nat2Z.inj_mul. exact T.
Qed.
Lemma length_passed : forall repr n key, bytes key -> length key = n -> hex_length_check repr (PStr (hex_of key)) (Z.of_nat n) = None.
Proof. intros repr n key B L. exact (outcome_ok _ _ (same_length repr (PStr (hex_of key)) n) (validate_hex_length_ok key n B L)). Qed.
Lemma le_read : forall repr bs, bytes bs -> bs <> [] -> hex_le_to_int_says repr (PStr (hex_of bs)) = Gives (le_val bs).
Proof. intros repr bs B N. eapply unsaid_ok; [apply same_hex_le|]. now apply hex_le_to_int_ok. Qed.
Lemma signed_input_read : HashOk E -> forall repr key h i n sc, bytes key -> bytes h -> length h = 32%nat -> bytes i -> length i = 4%nat -> 0 <= n <= 252 -> bytes sc ->
  (forall e t, length key <> 64%nat -> told repr (PStr (hex_of key)) "hex_length_64_bytes" (Wrong ValueError (lit "whose length is " ++ int_str (2 * len key) ++ lit " chars, not 128 chars.")) e t ->
    txin_create_from_signed_tx_data_says repr (hex_of key) (hex_of h) (hex_of i) (hex_of [n]) (hex_of sc) = Says e t) /\
  (length key = 64%nat -> exists x, txin_create_from_signed_tx_data_says repr (hex_of key) (hex_of h) (hex_of i) (hex_of [n]) (hex_of sc) = Gives x).
Proof.
  intros HH repr key h i n sc Bk Bh Lh Bi Li N Bs. assert (Bn : byte n) by (unfold byte; lia). unfold txin_create_from_signed_tx_data_says. split.
  - intros e t L T. rewrite (length_refused repr 64 key e t Bk L ltac:(lia) T). reflexivity.
  - intros L. rewrite (length_passed repr 64 key Bk L : hex_length_check repr (PStr (hex_of key)) 64 = None), (length_passed repr 32 h Bh Lh : hex_length_check repr (PStr (hex_of h)) 32 = None), (length_passed repr 4 i Bi Li : hex_length_check repr (PStr (hex_of i)) 4 = None). cbn [check]. rewrite (hex_fine_check repr [n]) by now apply bytes1. rewrite (hex_fine_check repr sc) by exact Bs. cbn [check].
    rewrite byte_count by exact Bn. destruct (Z.leb_spec n 252); [|lia]. cbn [abind]. rewrite (public_key_to_script_ok HH key Bk). cbn [quietly abind].
    assert (B25 : byte 25) by (unfold byte; lia). rewrite byte_count by exact B25. cbn [Z.leb Z.compare Pos.compare Pos.compare_cont abind].
    destruct (script_address_ok HH (p2pkh (hash160 key))) as (a & Ha). { unfold p2pkh. repeat first [apply Forall_app; split | apply Forall_cons; [unfold byte; lia|] | apply Forall_nil | apply hash160_bytes]; auto. }
    rewrite Ha. cbn [quietly abind]. rewrite le_read by first [exact Bi | intros ->; discriminate]. cbn [abind].
    rewrite (unsaid_ok _ _ _ (same_reverse repr _) (reverse_hex_order_ok h Bh)). cbn [abind]. eauto.
Qed.
Lemma input_parts : forall repr p n r, length p = 36%nat -> bytes (p ++ n :: r) -> read_input_says repr (map hex1 (p ++ n :: r)) =
  if n <=? 252 then abind (script_sig_to_signature_hex_and_public_key_hex_says repr (hex_of (firstn (Z.to_nat n) r))) (fun '(signature_hex, public_key_hex) =>
    abind (hex_len_says repr (PStr signature_hex)) (fun _ => abind (hex_len_says repr (PStr public_key_hex)) (fun _ =>
    if negb (str_eqb (hex_of (firstn 4 (skipn (Z.to_nat n) r))) (lit "ffffffff")) then Says ValueError []
    else abind (txin_create_from_signed_tx_data_says repr public_key_hex (hex_of (firstn 32 p)) (hex_of (skipn 32 p)) (hex_of [n]) (hex_of (firstn (Z.to_nat n) r))) (fun input_ =>
      Gives (input_, map hex1 (skipn 4 (skipn (Z.to_nat n) r)))))))
  else Says ValueError [].
Proof.
  intros repr p n r L B. apply Forall_app in B. destruct B as [_ B]. inversion B as [|? ? Bn _]; subst. unfold read_input_says. rewrite take_n_hex. rewrite take_n_hex.
  assert (Q1 : firstn 32 (p ++ n :: r) = firstn 32 p). { rewrite firstn_app. replace (32 - length p)%nat with 0%nat by lia. cbn [firstn]. apply app_nil_r. }
  assert (Q2 : skipn 32 (p ++ n :: r) = skipn 32 p ++ n :: r). { rewrite skipn_app. replace (32 - length p)%nat with 0%nat by lia. reflexivity. }
  assert (L4 : length (skipn 32 p) = 4%nat) by (rewrite skipn_length; lia). rewrite Q1, Q2, firstn_exact', skipn_exact' by exact L4. cbn [map take1_says abind].
  change (hex1 n) with (hex_of [n]). rewrite byte_count by exact Bn. destruct (n <=? 252); [|reflexivity]. cbn [abind]. rewrite take_n_hex. rewrite take_n_hex. reflexivity.
Qed.
Lemma input_cut : forall bs : list Z, (length bs <= 36)%nat \/ exists p n r, bs = p ++ n :: r /\ length p = 36%nat.
Proof.
  intros bs. destruct (le_lt_dec (length bs) 36) as [L|L]; [auto|right]. destruct (skipn 36 bs) as [|n r] eqn:Q; [apply (f_equal (@length Z)) in Q; rewrite skipn_length in Q; cbn [length] in Q; lia|].
  exists (firstn 36 bs), n, r. rewrite <- Q, firstn_skipn, firstn_length. split; [reflexivity|lia].
Qed.
Lemma input_read : HashOk E -> forall repr bs, bytes bs -> reads (read_input_says repr (map hex1 bs)) (an_input repr bs).
Proof.
  intros HH repr bs Bb. split.
  - destruct (input_cut bs) as [L|(p & n & r & -> & L)]; [eexists; now apply input_ends|]. pose proof Bb as Bb'. apply Forall_app in Bb'. destruct Bb' as [_ Br]. inversion Br as [|? ? Bn Br']; subst.
    destruct (Z_le_gt_dec n 252) as [N|N]; [|eexists; apply (input_length repr _ p n r); auto with zarith].
    destruct (key_script_read repr (firstn (Z.to_nat n) r) ltac:(now apply bytes_firstn)) as [([key|e t] & K) _]; [|eexists; eapply (input_script repr _ p n r); eauto].
    destruct (prefix_dec [255; 255; 255; 255] (skipn (Z.to_nat n) r)) as [(rest & Q)|Q]; [|eexists; eapply (input_sequence repr _ p n r); eauto].
    destruct (Nat.eq_dec (length key) 64) as [Lk|Lk]; [eexists; eapply (input_fine repr _ p n r); eauto|].
    destruct (wrong_told repr (PStr (hex_of key)) "hex_length_64_bytes" ValueError (lit "whose length is " ++ int_str (2 * len key) ++ lit " chars, not 128 chars.")) as (x & W). eexists. eapply (input_key repr _ p n r); eauto.
  - assert (FF : forall rest, bytes rest -> str_eqb (hex_of (firstn 4 rest)) (lit "ffffffff") = true <-> exists r, rest = [255; 255; 255; 255] ++ r).
    { intros rest B. change (lit "ffffffff") with (hex_of [255; 255; 255; 255]). change 4%nat with (length [255; 255; 255; 255]). apply prefix_hex; [|exact B]. repeat (apply Forall_cons; [unfold byte; lia|]). apply Forall_nil. }
    assert (PP : forall p n r key, bs = p ++ n :: r -> length p = 36%nat -> n <= 252 -> key_script repr (firstn (Z.to_nat n) r) (Gives key) -> bytes (skipn (Z.to_nat n) r) /\ bytes key /\ bytes (firstn 32 p) /\ bytes (skipn 32 p) /\ 0 <= n /\ bytes (firstn (Z.to_nat n) r) /\
      read_input_says repr (map hex1 bs) = if negb (str_eqb (hex_of (firstn 4 (skipn (Z.to_nat n) r))) (lit "ffffffff")) then Says ValueError []
        else abind (txin_create_from_signed_tx_data_says repr (hex_of key) (hex_of (firstn 32 p)) (hex_of (skipn 32 p)) (hex_of [n]) (hex_of (firstn (Z.to_nat n) r))) (fun input_ =>
          Gives (input_, map hex1 (skipn 4 (skipn (Z.to_nat n) r))))).
    { intros p n r key -> L N K. pose proof Bb as Bb'. apply Forall_app in Bb'. destruct Bb' as [Bp Br]. inversion Br as [|? ? Bn Br']; subst. unfold byte in Bn.
      rewrite (input_parts repr p n r L Bb). destruct (Z.leb_spec n 252); [|lia]. destruct (key_script_read repr (firstn (Z.to_nat n) r) ltac:(now apply bytes_firstn)) as [_ S]. destruct (S _ K) as (Bk & sig & Bs & ->).
      cbn [abind]. rewrite !hex_length_says by auto. cbn [abind]. repeat split; auto using bytes_firstn, bytes_skipn; lia. }
    intros a Q. inversion Q as [L|p n r D L N|p n r e t D L N K|p n r key D L N K S|p n r key rest e t D L N K S Lk T|p n r key rest D L N K S Lk]; subst a; cbn [image].
    + unfold read_input_says. rewrite take_n_hex. rewrite take_n_hex. replace (skipn 4 (skipn 32 bs)) with (@nil Z); [reflexivity|]. rewrite <- skipn_add. symmetry. apply skipn_all2. lia.
    + subst bs. rewrite (input_parts repr p n r L Bb). destruct (Z.leb_spec n 252); [lia|reflexivity].
    + subst bs. rewrite (input_parts repr p n r L Bb). destruct (Z.leb_spec n 252); [|lia]. pose proof Bb as Bb'. apply Forall_app in Bb'. destruct Bb' as [_ Br]. inversion Br; subst.
      destruct (key_script_read repr (firstn (Z.to_nat n) r) ltac:(now apply bytes_firstn)) as [_ F]. pose proof (F _ K) as F'. cbn beta iota in F'. rewrite F'. reflexivity.
    + destruct (PP p n r key D L N K) as (B1 & _ & _ & _ & _ & _ & ->). destruct (str_eqb _ _) eqn:X; [|reflexivity]. apply FF in X; [|exact B1]. destruct X as (rest & X). exfalso. now apply (S rest).
    + destruct (PP p n r key D L N K) as (B1 & Bk & Bh & Bi & N0 & Bs & ->). rewrite (proj2 (FF _ B1) (ex_intro _ rest S)). cbn [negb].
      destruct (signed_input_read HH repr key (firstn 32 p) (skipn 32 p) n (firstn (Z.to_nat n) r)) as (X & _); auto; [rewrite firstn_length; lia|rewrite skipn_length; lia|]. rewrite (X e t Lk T). reflexivity.
    + destruct (PP p n r key D L N K) as (B1 & Bk & Bh & Bi & N0 & Bs & ->). rewrite (proj2 (FF _ B1) (ex_intro _ rest S)). cbn [negb].
      destruct (signed_input_read HH repr key (firstn 32 p) (skipn 32 p) n (firstn (Z.to_nat n) r)) as (_ & X); auto; [rewrite firstn_length; lia|rewrite skipn_length; lia|]. destruct (X Lk) as (x & ->). cbn [abind].
      rewrite S in B1 |- *. apply Forall_app in B1. destruct B1 as [_ B1]. split; [exact B1|]. eauto.
Qed.

(** *** An output. *)
Lemma nothing_read : forall repr, hex_le_to_int_says repr (PStr (hex_of [])) = Says ValueError (lit "invalid literal for int() with base 16: " ++ repr (PStr [])).
Proof. intros repr. unfold hex_le_to_int_says. rewrite (unsaid_ok _ _ _ (same_reverse repr _) (reverse_hex_order_ok [] (Forall_nil _))). reflexivity. Qed.
Lemma amount_read : UniOk E -> forall repr n, 0 <= n -> n <= 21000000 * 10 ^ 8 \/ exists e t, to_bitcoin repr (PInt n) (Says e t).
Proof.
  intros HU repr n N. destruct (domain_passed repr (PInt n) 0 (21000000 * 10 ^ 8)) as [(x & f & e & t & I & T)|(_ & m & I & B)].
  - right. exists e, t. eapply to_bitcoin_refused; eauto.
  - left. inversion I; subst. lia.
Qed.
Lemma amount_given : UniOk E -> forall repr n, 0 <= n <= 21000000 * 10 ^ 8 -> exists s, satoshi_to_bitcoin_says repr (PInt n) = Gives s.
Proof.
  intros HU repr n N. destruct (satoshi_to_bitcoin_ok HU n ltac:(lia)) as (s & _ & T). exists s. apply (c95_satoshi_to_bitcoin HU). eapply to_bitcoin_given; eauto.
Qed.
Lemma output_cut : forall bs : list Z, (length bs <= 8)%nat \/ exists v n r, bs = v ++ n :: r /\ length v = 8%nat.
Proof.
  intros bs. destruct (le_lt_dec (length bs) 8) as [L|L]; [auto|right]. destruct (skipn 8 bs) as [|n r] eqn:Q; [apply (f_equal (@length Z)) in Q; rewrite skipn_length in Q; cbn [length] in Q; lia|].
  exists (firstn 8 bs), n, r. rewrite <- Q, firstn_skipn, firstn_length. split; [reflexivity|lia].
Qed.
Lemma output_read : HashOk E -> UniOk E -> forall repr bs, bytes bs -> reads (read_output_says repr (map hex1 bs)) (an_output repr bs).
Proof.
  intros HH HU repr bs Bb. assert (NN : 0 <= le_val (firstn 8 bs)) by (apply le_val_bounds; now apply bytes_firstn). split.
  - destruct bs as [|b0 bs0] eqn:D0; [eexists; now apply output_nothing|]. rewrite <- D0 in *. assert (NE : bs <> []) by congruence. clear D0 b0 bs0.
    destruct (amount_read HU repr (le_val (firstn 8 bs)) NN) as [A|(e & t & A)]; [|eexists; now apply output_value, A].
    destruct (output_cut bs) as [L|(v & n & r & -> & L)]; [eexists; now apply output_ends|]. rewrite firstn_exact' in A by exact L.
    destruct (Z_le_gt_dec n 252) as [N|N]; [eexists; now apply (output_fine repr _ v n r)|eexists; apply (output_length repr _ v n r); auto; lia].
  - intros a Q. unfold read_output_says. rewrite take_n_hex.
    assert (VV : forall v n r, bs = v ++ n :: r -> length v = 8%nat -> le_val v <= 21000000 * 10 ^ 8 -> firstn 8 bs = v /\ skipn 8 bs = n :: r /\ byte n /\ bytes r /\ bytes v /\ bs <> []).
    { intros v n r -> L _. rewrite firstn_exact', skipn_exact' by exact L. apply Forall_app in Bb. destruct Bb as [Bv Br]. inversion Br as [|? ? Bn Br']; subst. split; [reflexivity|]. split; [reflexivity|]. split; [exact Bn|]. split; [exact Br'|]. split; [exact Bv|]. destruct v; discriminate. }
    assert (RR : bs <> [] -> hex_le_to_int_says repr (PStr (hex_of (firstn 8 bs))) = Gives (le_val (firstn 8 bs))).
    { intros NE. apply le_read; [now apply bytes_firstn|]. destruct bs; [congruence|discriminate]. }
    inversion Q as [D|e t NE V|NE V L|v n r D L V N|v n r D L V N]; subst a; cbn [image].
    + subst bs. change (firstn 8 (@nil Z)) with (@nil Z). rewrite nothing_read. reflexivity.
    + rewrite (RR NE). cbn [abind]. apply (c95_satoshi_to_bitcoin HU) in V. rewrite V. reflexivity.
    + rewrite (RR NE). cbn [abind]. destruct (amount_given HU repr (le_val (firstn 8 bs)) ltac:(lia)) as (s & ->). cbn [abind]. rewrite (skipn_all2 bs L). reflexivity.
    + destruct (VV v n r D L V) as (F & S & Bn & Br & Bv & NE). rewrite (RR NE), F, S. cbn [abind]. rewrite F in NN. destruct (amount_given HU repr (le_val v) ltac:(lia)) as (s & ->). cbn [abind map take1_says].
      change (hex1 n) with (hex_of [n]). rewrite byte_count by exact Bn. destruct (Z.leb_spec n 252); [lia|reflexivity].
    + destruct (VV v n r D L V) as (F & S & Bn & Br & Bv & NE). rewrite (RR NE), F, S. cbn [abind]. rewrite F in NN. destruct (amount_given HU repr (le_val v) ltac:(lia)) as (s & A). rewrite A. cbn [abind map take1_says].
      change (hex1 n) with (hex_of [n]). rewrite byte_count by exact Bn. destruct (Z.leb_spec n 252); [|lia]. cbn [abind]. rewrite take_n_hex. unfold txout_create_from_signed_tx_data_says. rewrite byte_count by exact Bn. destruct (Z.leb_spec n 252); [|lia]. cbn [abind].
      destruct (script_address_ok HH (firstn (Z.to_nat n) r) ltac:(now apply bytes_firstn)) as (ad & ->). cbn [quietly abind]. specialize (RR NE). rewrite F in RR. rewrite RR. cbn [abind]. rewrite A. cbn [abind].
      split; [now apply bytes_skipn|]. eauto.
Qed.

(** *** The transaction. *)
Lemma says_expected : forall {A} l (k : list pystr -> answer A) R bs, bytes l -> bytes bs -> (forall rest, bytes rest -> says_reads (k (map hex1 rest)) (R rest)) ->
  says_reads (if negb (str_eqb (hex_of (firstn (length l) bs)) (hex_of l)) then Says ValueError [] else k (map hex1 (skipn (length l) bs))) (then_read (expected l) R bs).
Proof.
  intros A l k R bs Bl Bb K. pose proof (prefix_hex l bs Bl Bb) as P. unfold then_read, expected. destruct (str_eqb _ _).
  - destruct (proj1 P eq_refl) as (rest & ->). cbn [negb]. rewrite skipn_exact. apply Forall_app in Bb. destruct Bb as [_ Br]. destruct (K rest Br) as [(a & T) S]. split; [exists a; right; exists rest; split; [left; eauto|exact T]|].
    intros a' [(e & t & [(r & _ & Q)|(F & _)] & _)|(r & [(r' & Q & Q')|(_ & Q)] & F)]; [discriminate|exfalso; now apply (F rest)| |discriminate]. injection Q' as ->. apply app_inv_head in Q. subst r'. now apply S.
  - assert (F : forall rest, bs <> l ++ rest) by (intros rest Q; enough (false = true) by congruence; apply P; eauto). cbn [negb]. split; [eexists; left; exists ValueError, []; split; [right; split; [exact F|reflexivity]|reflexivity]|].
    intros a' [(e & t & [(r & _ & Q)|(_ & Q)] & ->)|(r & [(r' & Q & _)|(_ & Q)] & _)]; [discriminate|injection Q as -> ->; reflexivity|exfalso; now apply (F r')|discriminate].
Qed.
Lemma says_ends : forall {A} l (k : list pystr -> answer A) bs, bytes l -> bytes bs -> (forall r, exists x, k r = Gives x) ->
  says_reads (if negb (str_eqb (hex_of (firstn (length l) bs)) (hex_of l)) then Says ValueError [] else k (map hex1 (skipn (length l) bs))) (expected l bs).
Proof.
  intros A l k bs Bl Bb K. pose proof (prefix_hex l bs Bl Bb) as P. unfold expected. destruct (str_eqb _ _).
  - destruct (proj1 P eq_refl) as (rest & ->). cbn [negb]. split; [eexists; left; eauto|]. intros a [(r & _ & ->)|(F & _)]; [apply K|exfalso; now apply (F rest)].
  - assert (F : forall rest, bs <> l ++ rest) by (intros rest Q; enough (false = true) by congruence; apply P; eauto). cbn [negb]. split; [eexists; right; eauto|]. intros a [(r & Q & _)|(_ & ->)]; [exfalso; now apply (F r)|reflexivity].
Qed.
Lemma count_said : forall repr n, (n <= 252)%nat -> exists x, int_to_var_int_says repr (PInt (Z.of_nat n)) = Gives x.
Proof.
  intros repr n N. eexists. apply (proj1 (c95_var_int repr (PInt (Z.of_nat n)))). eapply count_given; [constructor|lia].
Qed.
Lemma transaction_says : HashOk E -> UniOk E -> forall repr bs, bytes bs -> says_reads (from_hex_signed_says repr (hex_of bs)) (a_transaction repr bs).
Proof.
  intros HH HU repr bs Bb. unfold from_hex_signed_says. rewrite hex_length_says by exact Bb. cbn [abind]. rewrite chunks2_hex. rewrite take_n_hex.
  assert (B1 : bytes [1; 0; 0; 0]) by (repeat (apply Forall_cons; [unfold byte; lia|]); apply Forall_nil). assert (B0 : bytes [0; 0; 0; 0]) by (repeat (apply Forall_cons; [unfold byte; lia|]); apply Forall_nil).
  unfold a_transaction. change (lit "01000000") with (hex_of [1; 0; 0; 0]). change 4%nat with (length [1; 0; 0; 0]) at 1 2.
  apply (says_expected [1; 0; 0; 0] (fun bs =>
    abind (take1_says bs) (fun '(input_count, bs) =>
    abind (var_int_to_int_says repr (PStr input_count)) (fun input_count_int =>
    abind (read_many_says (read_input_says repr) (Z.to_nat input_count_int) bs) (fun '(inputs, bs) =>
    abind (take1_says bs) (fun '(output_count, bs) =>
    abind (var_int_to_int_says repr (PStr output_count)) (fun output_count_int =>
    abind (read_many_says (read_output_says repr) (Z.to_nat output_count_int) bs) (fun '(outputs, bs) =>
    let '(block_lock_time, bs) := take_n 4 bs in
    if negb (str_eqb block_lock_time (lit "00000000")) then Says ValueError []
    else
      abind (int_to_var_int_says repr (PInt (Z.of_nat (length inputs)))) (fun input_count =>
      abind (int_to_var_int_says repr (PInt (Z.of_nat (length outputs)))) (fun output_count =>
      Gives (mk_tx default_version input_count inputs output_count outputs default_block_lock_time default_hash_type_4_byte default_hash_type_1_byte None))))))))))); auto.
  intros r Br. apply (says_counted repr (fun n bs => abind (read_many_says (read_input_says repr) (Z.to_nat n) bs) _)); [exact Br|]. intros n r1 N Br1.
  apply (says_then (read_many_says (read_input_says repr) (Z.to_nat n) (map hex1 r1)) (fun inputs bs => _) (times (Z.to_nat n) (an_input repr))); [now apply reads_times; [intros; apply input_read|]|]. intros inputs r2 Q1 Br2.
  apply (says_counted repr (fun n bs => abind (read_many_says (read_output_says repr) (Z.to_nat n) bs) _)); [exact Br2|]. intros m r3 M Br3.
  apply (says_then (read_many_says (read_output_says repr) (Z.to_nat m) (map hex1 r3)) (fun inputs bs => _) (times (Z.to_nat m) (an_output repr))); [now apply reads_times; [intros; apply output_read|]|]. intros outputs r4 Q2 Br4.
  rewrite take_n_hex. change (lit "00000000") with (hex_of [0; 0; 0; 0]). change 4%nat with (length [0; 0; 0; 0]).
  apply (says_ends [0; 0; 0; 0] (fun bs => _)); auto. intros _. apply times_length in Q1, Q2.
  destruct (count_said repr (length inputs)) as (x & ->); [lia|]. destruct (count_said repr (length outputs)) as (y & ->); [lia|]. cbn [abind]. eauto.
Qed.

(** C99.  from_hex_signed raises an exception exactly when the description says so, with the class and the text described; it gives a transaction exactly when the description reads the bytes to the end of the lock time. *)
Lemma c99_refused : HashOk E -> UniOk E -> forall repr s,
  (forall e text, from_hex_signed_says repr s = Says e text <-> transaction_hex repr s (Says e text)) /\
  ((exists t, from_hex_signed_says repr s = Gives t) <-> exists rest, transaction_hex repr s (Gives rest)).
Proof.
  intros HH HU repr s. destruct (hex_check repr (PStr s)) as [[e0 t0]|] eqn:C.
  - assert (A : a_hex repr (PStr s) (Some (e0, t0))) by now apply hex_test. assert (NB : forall bs, bytes bs -> s <> hex_of bs) by (intros bs B ->; rewrite hex_fine_check in C by exact B; discriminate).
    assert (Q : from_hex_signed_says repr s = Says e0 t0) by (unfold from_hex_signed_says, hex_len_says; rewrite C; reflexivity). rewrite Q. split.
    + intros e t. split; [intros H; injection H as <- <-; now apply transaction_no_hex|]. intros H. inversion H as [e' t' A'|bs a D B _]; subst; [|exfalso; now apply (NB bs)]. apply hex_test in A, A'. congruence.
    + split; [intros (t & H); discriminate|]. intros (rest & H). inversion H as [|bs a D B _]; subst. exfalso. now apply (NB bs).
  - apply hex_checked in C. destruct C as (bs & B & D). injection D as ->. assert (NA : forall e t, ~ a_hex repr (PStr (hex_of bs)) (Some (e, t))) by (intros e t A; apply hex_test in A; rewrite hex_fine_check in A by exact B; discriminate).
    assert (W : forall a, transaction_hex repr (hex_of bs) a <-> a_transaction repr bs a).
    { intros a. split; [|intros H; now apply (transaction_read repr _ bs)]. intros H. inversion H as [e t A|bs' a' D B' H']; subst; [exfalso; now apply (NA e t)|]. apply hex_of_inj in D; auto. now subst. }
    destruct (transaction_says HH HU repr bs B) as [(a & T) S]. split.
    + intros e t. rewrite W. split; [|apply S]. intros Q. pose proof (S a T) as X. destruct a as [rest|e' t']; [destruct X as (x & X); congruence|]. assert (Y : Says (A := tx) e t = Says e' t') by congruence. injection Y as -> ->. exact T.
    + split; [|intros (rest & H); apply W in H; exact (S _ H)]. intros (t & Q). pose proof (S a T) as X. destruct a as [rest|e' t']; [|congruence]. exists rest. now apply W.
Qed.
(** C99.  The exceptions of from_hex_signed, without the texts. *)
Lemma c99_raised : HashOk E -> UniOk E -> forall repr s e, from_hex_signed s = Err e <-> exists text, transaction_hex repr s (Says e text).
Proof.
  intros HH HU repr s e. rewrite (c99_same repr s). destruct (c99_refused HH HU repr s) as (R & _). split.
  - destruct (from_hex_signed_says repr s) as [t|e' text]; intros H; [discriminate|]. injection H as ->. exists text. now apply R.
  - intros (text & H). apply R in H. now rewrite H.
Qed.
(** C99.  What is said does not depend on anything else: there is one answer for every text. *)
Lemma c99_one_answer : HashOk E -> UniOk E -> forall repr s, (exists a, transaction_hex repr s a) /\
  (forall e text e' text', transaction_hex repr s (Says e text) -> transaction_hex repr s (Says e' text') -> e = e' /\ text = text') /\
  (forall e text rest, transaction_hex repr s (Says e text) -> ~ transaction_hex repr s (Gives rest)).
Proof.
  intros HH HU repr s. destruct (c99_refused HH HU repr s) as (R & G). split; [|split].
  - destruct (from_hex_signed_says repr s) as [t|e t] eqn:Q; [destruct (proj1 G (ex_intro _ t eq_refl)) as (rest & H); eauto|]. exists (Says e t). now apply R.
  - intros e t e' t' H H'. apply R in H, H'. assert (Y : Says (A := tx) e t = Says e' t') by congruence. now injection Y.
  - intros e t rest H H'. apply R in H. destruct (proj2 G (ex_intro _ rest H')) as (x & Y). congruence.
Qed.
End WithEnv.

(** Examples. *)
Example ex99_nothing : @from_hex_signed_says demo_env plain_repr [] = Says ValueError [] /\ transaction_hex plain_repr [] (Says ValueError []).
Proof.
  split; [vm_compute; reflexivity|]. apply (transaction_read plain_repr _ []); [reflexivity|apply Forall_nil|]. left. exists ValueError, []. split; [|reflexivity]. right. split; [discriminate|reflexivity].
Qed.
Example ex99_cut : @from_hex_signed_says demo_env plain_repr (lit "01000000") = Says IndexError (lit "list index out of range").
Proof. vm_compute. reflexivity. Qed.
Example ex99_no_hex : exists text, @from_hex_signed_says demo_env plain_repr (lit "0100000g") = Says ValueError text /\ text <> [].
Proof. eexists. split; [vm_compute; reflexivity|discriminate]. Qed.
Example ex99_no_output : @from_hex_signed_says demo_env plain_repr (lit "010000000001") = Says ValueError (lit "invalid literal for int() with base 16: ''").
Proof. vm_compute. reflexivity. Qed.
Example ex99_lock_time : @from_hex_signed_says demo_env plain_repr (lit "01000000000000000001") = Says ValueError [] /\ exists t, @from_hex_signed_says demo_env plain_repr (lit "01000000000000000000ff") = Gives t.
Proof. split; [vm_compute; reflexivity|]. eexists. vm_compute. reflexivity. Qed.
Example ex99_signed : exists rest, transaction_hex plain_repr signed_hex (Gives rest).
Proof.
  apply (proj2 (@c99_refused demo_env demo_hash demo_uni plain_repr signed_hex)). destruct decoded_ok as (t & D & _). exists t. exact (unsaid_ok _ _ _ (c99_same plain_repr signed_hex) D).
Qed.
