(** Log records: erasing them, and the texts. *)
From Coq Require Import String Lia.
From Verif Require Import PyBase Env PyNum Validate Basic Spec EnvOk TxInput TxOutput Tx Trace TxSpec SignSpec TraceSpec.
From Verif Require Import NumLemmas HexProofs Base58Proofs AddrProofs AmountProofs ScriptProofs WireProofs SignProofs VerifyProofs.
Open Scope Z_scope.

(** ** The calculus *)
Definition tpre {A : Type} (l : list record) (m : trace A) : trace A := (l ++ fst m, snd m).
Lemma snd_tbind : forall A B (m : trace A) (k : A -> trace B), snd (tbind m k) = bind (snd m) (fun x => snd (k x)).
Proof. intros A B [l [x|e]] k; cbn; [destruct (k x); reflexivity|reflexivity]. Qed.
Lemma tbind_ok : forall A B l (x : A) (k : A -> trace B), tbind (l, Ok x) k = tpre l (k x).
Proof. intros. unfold tbind, tpre. destruct (k x). reflexivity. Qed.
Lemma tbind_silent : forall A B (x : A) (k : A -> trace B), tbind (silent (Ok x)) k = k x.
Proof. intros. unfold tbind, silent. destruct (k x). reflexivity. Qed.
Lemma tbind_err : forall A B e (k : A -> trace B), tbind (silent (Err e)) k = silent (Err e).
Proof. reflexivity. Qed.
Lemma tbind_deb : forall B s (k : unit -> trace B), tbind (deb s) k = tpre [(10, s)] (k tt).
Proof. intros. apply tbind_ok. Qed.
Lemma tbind_info : forall B s (k : unit -> trace B), tbind (info s) k = tpre [(20, s)] (k tt).
Proof. intros. apply tbind_ok. Qed.
Lemma tbind_error : forall B s (k : unit -> trace B), tbind (error s) k = tpre [(40, s)] (k tt).
Proof. intros. apply tbind_ok. Qed.
Lemma tbind_pre : forall A B l (m : trace A) (k : A -> trace B), tbind (tpre l m) k = tpre l (tbind m k).
Proof. intros A B l [l' [x|e]] k; unfold tpre, tbind; cbn; [destruct (k x); cbn; rewrite app_assoc; reflexivity|reflexivity]. Qed.
Lemma tpre_tpre : forall A l l' (m : trace A), tpre l (tpre l' m) = tpre (l ++ l') m.
Proof. intros. unfold tpre. cbn. rewrite app_assoc. reflexivity. Qed.
Lemma tpre_silent : forall A l (r : res A), tpre l (silent r) = (l, r).
Proof. intros. unfold tpre, silent. cbn. rewrite app_nil_r. reflexivity. Qed.

Section WithEnv.
Context {E : Env}.

(** ** Erasing *)
Lemma snd_deb_hex : forall B n p s (k : unit -> res B), bind (snd (deb_hex n p s)) k = bind (hex_len (PStr s)) (fun _ => k tt).
Proof. intros. unfold deb_hex. rewrite snd_tbind. cbn [silent snd]. destruct (hex_len (PStr s)); reflexivity. Qed.
Lemma hex_len_app : forall a b, (exists x, bytes x /\ a = hex_of x) -> (exists x, bytes x /\ b = hex_of x) -> exists n, hex_len (PStr (a ++ b)) = Ok n.
Proof. intros a b (x & X & ->) (y & Y & ->). rewrite <- hex_of_app. eexists. apply hex_len_ok. apply bytes_app; auto. Qed.

Lemma script_parts_erase : forall s, snd (script_parts_says s) = script_sig_to_signature_hex_and_public_key_hex s.
Proof.
  intros s. unfold script_parts_says, script_sig_to_signature_hex_and_public_key_hex.
  rewrite snd_tbind. cbn [silent snd]. destruct (validate_hex (PStr s)) as [[]|e]; [cbn [bind]|reflexivity].
  rewrite snd_tbind. cbn [silent snd]. destruct (var_int_to_int _) as [n|e]; [cbn [bind]|reflexivity].
  rewrite snd_tbind, snd_deb_hex. destruct (hex_len _) as [n1|e]; [cbn [bind]|reflexivity].
  rewrite snd_tbind. cbn [silent snd]. destruct (var_int_to_int _) as [n2|e]; [cbn [bind]|reflexivity].
  rewrite snd_tbind, snd_deb_hex. destruct (hex_len _) as [n3|e]; [cbn [bind]|reflexivity].
  rewrite snd_tbind. cbn [deb snd bind]. destruct (negb _); [reflexivity|].
  rewrite snd_tbind, snd_deb_hex. destruct (hex_len _) as [n4|e]; [cbn [bind]|reflexivity].
  rewrite snd_tbind. cbn [deb snd bind]. destruct (negb _); [reflexivity|].
  rewrite snd_tbind, snd_deb_hex. destruct (hex_len _) as [n5|e]; reflexivity.
Qed.

Lemma deb_hex_ok : forall n p bs, bytes bs -> deb_hex n p (hex_of bs) = ([at_debug (sized n p bs)], Ok tt).
Proof. intros n p bs H. unfold deb_hex. rewrite hex_len_ok by auto. rewrite tbind_silent. reflexivity. Qed.
Lemma tbind_deb_hex : forall B n p bs (k : unit -> trace B), bytes bs -> tbind (deb_hex n p (hex_of bs)) k = tpre [at_debug (sized n p bs)] (k tt).
Proof. intros. rewrite deb_hex_ok by auto. apply tbind_ok. Qed.

Lemma parts_says_ok : forall script der pub, bytes script -> script_sig_parts script der pub ->
  script_parts_says (hex_of script) = (parts_log der pub, Ok (hex_of der, hex_of pub)).
Proof.
  intros script der pub B P. destruct (script_parts_bytes _ _ _ B P) as [Bd Bp]. destruct P as (n2 & rest & -> & L1 & L2 & F).
  unfold script_parts_says. rewrite validate_hex_ok by auto. rewrite tbind_silent. cbv zeta.
  set (n := len der + 1) in *. set (r := der ++ [1] ++ [n2] ++ rest) in *. change ([n] ++ r) with (n :: r) in *.
  inversion B as [|x y Hn Hr]; subst x y.
  change (slice 0 2 (hex_of (n :: r))) with (slice (2 * 0) (2 * 1) (hex_of (n :: r))). rewrite slice_hex. change (1 - 0)%nat with 1%nat. change (skipn 0 (n :: r)) with (n :: r).
  change (firstn 1 (n :: r)) with [n]. rewrite var_int_byte by auto. rewrite (proj2 (Z.leb_le n 252)) by auto. rewrite tbind_silent.
  assert (N : Z.to_nat n = length (der ++ [1])) by (unfold n, len; rewrite app_length; cbn [length]; lia).
  replace (Z.to_nat n * 2 + 2)%nat with (2 * (Z.to_nat n + 1))%nat by lia.
  change (slice 2 (2 * (Z.to_nat n + 1)) (hex_of (n :: r))) with (slice (2 * 1) (2 * (Z.to_nat n + 1)) (hex_of (n :: r))).
  rewrite slice_hex. replace (Z.to_nat n + 1 - 1)%nat with (Z.to_nat n) by lia. change (skipn 1 (n :: r)) with r.
  assert (R : r = (der ++ [1]) ++ n2 :: rest) by (unfold r; rewrite <- app_assoc; reflexivity).
  assert (F1 : firstn (Z.to_nat n) r = der ++ [1]) by (rewrite R, N; apply firstn_exact). rewrite F1.
  assert (F2 : skipn (Z.to_nat n) r = n2 :: rest) by (rewrite R, N; apply skipn_exact).
  assert (Bs : bytes (der ++ [1])) by (apply bytes_app; split; auto; apply bytes1; unfold byte; lia).
  assert (Bk : bytes (4 :: pub)) by (constructor; auto; unfold byte; lia).
  rewrite tbind_deb_hex by auto.
  replace (2 * (Z.to_nat n + 1) + 2)%nat with (2 * (Z.to_nat n + 2))%nat by lia.
  rewrite slice_hex. replace (Z.to_nat n + 2 - (Z.to_nat n + 1))%nat with 1%nat by lia.
  replace (skipn (Z.to_nat n + 1) (n :: r)) with (n2 :: rest) by (replace (Z.to_nat n + 1)%nat with (S (Z.to_nat n)) by lia; rewrite <- F2; reflexivity).
  change (firstn 1 (n2 :: rest)) with [n2]. rewrite var_int_byte by (unfold byte; lia). rewrite (proj2 (Z.leb_le n2 252)) by lia. rewrite tbind_silent.
  replace (2 * (Z.to_nat n + 2) + Z.to_nat n2 * 2)%nat with (2 * (Z.to_nat n + 2 + Z.to_nat n2))%nat by lia.
  rewrite slice_hex. replace (Z.to_nat n + 2 + Z.to_nat n2 - (Z.to_nat n + 2))%nat with (Z.to_nat n2) by lia.
  replace (skipn (Z.to_nat n + 2) (n :: r)) with rest.
  2:{ replace (Z.to_nat n + 2)%nat with (1 + (Z.to_nat n + 1))%nat by lia. rewrite skipn_add. cbn [skipn]. rewrite skipn_add, F2. reflexivity. }
  rewrite F, tbind_deb_hex, tbind_deb by auto. rewrite tpre_tpre.
  change (last_n 2 (hex_of (der ++ [1]))) with (last_n (2 * 1) (hex_of (der ++ [1]))). rewrite last_n_hex, last_n_app by reflexivity.
  change (hex_of [1]) with (lit "01"). rewrite str_eqb_refl. cbn [negb].
  change (drop_last_n 2 (hex_of (der ++ [1]))) with (drop_last_n (2 * 1) (hex_of (der ++ [1]))). rewrite drop_last_n_hex, drop_last_n_app by reflexivity.
  rewrite tbind_deb_hex, tbind_deb by auto. change (firstn 2 (hex_of (4 :: pub))) with (lit "04"). rewrite str_eqb_refl. cbn [negb].
  change (skipn 2 (hex_of (4 :: pub))) with (hex_of pub). rewrite tbind_deb_hex by auto. rewrite !tpre_tpre, tpre_silent. reflexivity.
Qed.

Lemma from_der_says_ok : forall der r s, bytes der -> der_decode der = Ok (r, s) -> 0 <= r < 256 ^ 32 -> 0 <= s < 256 ^ 32 ->
  from_der_says (hex_of der) = (der_log r s, Ok (hex_of (rev (le_bytes 32 r) ++ rev (le_bytes 32 s)))).
Proof.
  intros der r s B D R S. unfold from_der_says. rewrite validate_hex_ok, bytes_fromhex_ok by auto. rewrite !tbind_silent, D, tbind_silent. cbv beta iota.
  rewrite !int_to_hex_ok by lia. rewrite !tbind_silent, !pad_rev_le by auto. rewrite !tbind_silent. cbv zeta. rewrite <- hex_of_app.
  assert (B1 : bytes (rev (le_bytes 32 r))) by apply bytes_rev, le_bytes_bytes. assert (B2 : bytes (rev (le_bytes 32 s))) by apply bytes_rev, le_bytes_bytes.
  rewrite !hex_len_ok by (auto; apply bytes_app; auto). rewrite !tbind_silent, tbind_deb, tpre_silent. unfold der_log, at_debug, joined, sized. cbn [flat_map].
  rewrite app_nil_r. cbn [app]. rewrite <- !app_assoc. reflexivity.
Qed.
Lemma pad_inv : forall n x, 0 <= n -> pad_hex (hex_of (be_bytes n)) 32 = Ok x -> 0 <= n < 256 ^ 32.
Proof.
  intros n x N P. destruct (Z_lt_dec n (256 ^ 32)) as [L|L]; [lia|].
  rewrite pad_hex_long in P; [discriminate|apply be_bytes_bytes|]. apply be_bytes_long. change (Z.of_nat 32) with 32. lia.
Qed.
Lemma from_der_erase : forall s, snd (from_der_says s) = signature_from_der s.
Proof.
  intros s. unfold from_der_says, signature_from_der.
  rewrite snd_tbind. cbn [silent snd]. destruct (validate_hex (PStr s)) as [[]|e]; [cbn [bind]|reflexivity].
  rewrite snd_tbind. cbn [silent snd]. destruct (bytes_fromhex s) as [b|e]; [cbn [bind]|reflexivity].
  rewrite snd_tbind. cbn [silent snd]. destruct (der_decode b) as [[r q]|e]; [cbn [bind]|reflexivity].
  rewrite snd_tbind. cbn [silent snd]. destruct (int_to_hex (PInt r)) as [rh|e] eqn:H1; [cbn [bind]|reflexivity].
  rewrite snd_tbind. cbn [silent snd]. destruct (int_to_hex (PInt q)) as [sh|e] eqn:H2; [cbn [bind]|reflexivity].
  rewrite snd_tbind. cbn [silent snd]. destruct (pad_hex rh 32) as [rp|e] eqn:H3; [cbn [bind]|reflexivity].
  rewrite snd_tbind. cbn [silent snd]. destruct (pad_hex sh 32) as [sp|e] eqn:H4; [cbn [bind]|reflexivity].
  apply int_to_hex_inv in H1 as (r' & X & R0 & ->). injection X as <-. apply int_to_hex_inv in H2 as (q' & X & Q0 & ->). injection X as <-.
  pose proof (pad_inv _ _ R0 H3) as R1. pose proof (pad_inv _ _ Q0 H4) as Q1. rewrite pad_rev_le in H3, H4 by auto.
  assert (E3 : rp = hex_of (rev (le_bytes 32 r))) by (exact (f_equal (fun x => match x with Ok a => a | Err _ => rp end) (eq_sym H3))).
  assert (E4 : sp = hex_of (rev (le_bytes 32 q))) by (exact (f_equal (fun x => match x with Ok a => a | Err _ => sp end) (eq_sym H4))). subst rp sp. clear H3 H4.
  cbv zeta. rewrite <- hex_of_app.
  assert (B1 : bytes (rev (le_bytes 32 r))) by apply bytes_rev, le_bytes_bytes. assert (B2 : bytes (rev (le_bytes 32 q))) by apply bytes_rev, le_bytes_bytes.
  rewrite !hex_len_ok by (auto; apply bytes_app; auto). rewrite !tbind_silent, tbind_deb, tpre_silent. reflexivity.
Qed.

Lemma build_says_ok : forall sig pub, bytes sig -> bytes pub -> length pub = 64%nat -> (length sig <= 184)%nat ->
  build_script_says (hex_of (sig ++ [1])) (hex_of pub) =
  (map at_debug [ sized "public_key_hex (1-byte compression type prepended)" " = " (4 :: pub);
      sized "signature_hex_pushdata" " = " [len sig + 1]; sized "public_key_hex_pushdata" " = " [65];
      sized "script_sig" " = " (build_script_sig sig pub); sized "script_length" " = " [len (build_script_sig sig pub)] ],
   Ok (hex_of (build_script_sig sig pub), hex_of [len (build_script_sig sig pub)])).
Proof.
  intros sig pub Hs Hp Lp Ls. destruct (build_script_ok sig pub Hs Hp Lp Ls) as [_ [L Bb]].
  assert (B1 : bytes (sig ++ [1])) by (apply bytes_app; split; auto; apply bytes1; unfold byte; lia).
  assert (Bk : bytes (4 :: pub)) by (constructor; auto; unfold byte; lia).
  unfold build_script_says. rewrite validate_hex_ok, validate_hex_length_ok by auto. rewrite !tbind_silent. cbv zeta.
  change (lit "04" ++ hex_of pub) with (hex_of (4 :: pub)). rewrite tbind_deb_hex by auto.
  rewrite hex_len_ok, tbind_silent by auto. rewrite app_length. cbn [length].
  rewrite int_to_var_int_ok, tbind_silent by lia. rewrite hex_len_ok, tbind_silent by auto. cbn [length]. rewrite Lp.
  rewrite int_to_var_int_ok, tbind_silent by lia. change (Z.of_nat 65) with 65.
  replace (Z.of_nat (length sig + 1)) with (len sig + 1) by (unfold len; lia).
  rewrite tbind_deb_hex by (apply bytes1; unfold byte, len; lia). rewrite tbind_deb_hex by (apply bytes1; unfold byte; lia).
  rewrite <- !hex_of_app. replace ([len sig + 1] ++ (sig ++ [1]) ++ [65] ++ 4 :: pub) with (build_script_sig sig pub) by (unfold build_script_sig; rewrite <- app_assoc; reflexivity).
  rewrite hex_len_ok, tbind_silent by auto. fold (len (build_script_sig sig pub)).
  rewrite int_to_var_int_ok, tbind_silent by (rewrite L; unfold len; lia).
  rewrite tbind_deb_hex by auto. rewrite tbind_deb_hex by (apply bytes1; unfold byte; rewrite L; unfold len; lia).
  rewrite !tpre_tpre, tpre_silent. reflexivity.
Qed.
End WithEnv.
