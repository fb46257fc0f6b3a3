(** C18-C19: scriptSig building and parsing, DER wrapping. *)
From Coq Require Import String Lia.
From Verif Require Import PyBase Env PyNum Validate Basic Spec EnvOk TxInput TxOutput Tx TxSpec Demo.
From Verif Require Import NumLemmas HexProofs Base58Proofs AddrProofs ScriptProofs DemoProofs.

Section WithEnv.
Context {E : Env}.

(** C18.  The script built from a signature (hash type byte 01 appended) and a 64-byte public key pushes both,
    is returned with its one-byte length, and parses back to exactly that signature and key; it can be built
    exactly when the signature has at most 184 bytes (185 with the hash type byte).
    The parser accepts exactly the scripts described by [script_sig_parts]. *)
Lemma c18_script_sig :
  (forall sig pub, bytes sig -> bytes pub -> length pub = 64%nat -> (length sig <= 184)%nat ->
     signature_hex_and_public_key_hex_to_script_sig (hex_of (sig ++ [1])) (hex_of pub) =
       Ok (hex_of ([len sig + 1] ++ sig ++ [1] ++ [65] ++ [4] ++ pub), hex_of [len sig + 68]) /\
     script_sig_to_signature_hex_and_public_key_hex (hex_of ([len sig + 1] ++ sig ++ [1] ++ [65] ++ [4] ++ pub)) =
       Ok (hex_of sig, hex_of pub)) /\
  (forall sig pub, bytes sig -> bytes pub -> length pub = 64%nat -> (184 < length sig)%nat ->
     signature_hex_and_public_key_hex_to_script_sig (hex_of (sig ++ [1])) (hex_of pub) = Err ValueError) /\
  (forall s p, (~ is_hex s \/ ~ (exists pub, bytes pub /\ length pub = 64%nat /\ p = hex_of pub)) ->
     signature_hex_and_public_key_hex_to_script_sig s p = Err ValueError) /\
  (forall s a b, script_sig_to_signature_hex_and_public_key_hex s = Ok (a, b) <->
     exists bs sig pub, bytes bs /\ s = hex_of bs /\ script_sig_parts bs sig pub /\ a = hex_of sig /\ b = hex_of pub) /\
  (forall s, (exists x, script_sig_to_signature_hex_and_public_key_hex s = Ok x) \/
     script_sig_to_signature_hex_and_public_key_hex s = Err ValueError).
Proof.
  split; [|split; [|split; [|split]]].
  - intros sig pub Hs Hp Lp Ls. destruct (build_script_ok sig pub Hs Hp Lp Ls) as [B [L Bb]]. rewrite L in B.
    split; [exact B|]. change ([len sig + 1] ++ sig ++ [1] ++ [65] ++ [4] ++ pub) with (build_script_sig sig pub).
    rewrite parse_script_hex by exact Bb. replace (parse_script (build_script_sig sig pub)) with (@Ok (list Z * list Z) (sig, pub)); [reflexivity|].
    symmetry. apply parse_script_iff; auto. apply built_parts; auto.
  - exact build_script_long.
  - intros s p H. unfold signature_hex_and_public_key_hex_to_script_sig.
    destruct (validate_hex_cases s) as [[Hs ->]|[Hs ->]]; [|reflexivity]. cbn [bind]. destruct H as [H|H]; [contradiction|].
    destruct (hex_length_cases p 64) as [[C _]|[_ ->]]; [contradiction|reflexivity].
  - intros s a b. split.
    + intros H. destruct (script_sig_cases s) as [[bs [sig [pub [B [-> [P [Bs [Bp R]]]]]]]]|[_ R]]; [|congruence].
      rewrite R in H. injection H as <- <-. exists bs, sig, pub. auto.
    + intros [bs [sig [pub [B [-> [P [-> ->]]]]]]]. rewrite parse_script_hex by auto. apply parse_script_iff in P; auto. rewrite P. reflexivity.
  - intros s. destruct (script_sig_cases s) as [[bs [sig [pub [B [-> [P [Bs [Bp R]]]]]]]]|[_ R]]; [left; eauto|right; auto].
Qed.

Example ex18_script_sig :
  signature_hex_and_public_key_hex_to_script_sig (hex_of ([171; 205] ++ [1])) (hex_of (repeat 17 64)) =
    Ok (lit "03abcd014104" ++ hex_of (repeat 17 64), lit "46") /\
  script_sig_to_signature_hex_and_public_key_hex (lit "03abcd014104" ++ hex_of (repeat 17 64)) =
    Ok (lit "abcd", hex_of (repeat 17 64)) /\
  script_sig_to_signature_hex_and_public_key_hex (lit "03abcd024104" ++ hex_of (repeat 17 64)) = Err ValueError.
Proof. vm_compute. repeat split. Qed.

(** C18, leniency: bytes after the public key push are ignored, and a public key push that announces more bytes
    than there are is accepted; so different scripts parse to the same signature and key. *)
Lemma c18_script_sig_unique_refuted :
  exists s s' x, s <> s' /\ script_sig_to_signature_hex_and_public_key_hex s = Ok x /\
    script_sig_to_signature_hex_and_public_key_hex s' = Ok x.
Proof.
  exists (hex_of ([2; 7; 1; 65; 4] ++ repeat 9 64)), (hex_of ([2; 7; 1; 70; 4] ++ repeat 9 64)), (hex_of [7], hex_of (repeat 9 64)).
  split; [discriminate|]. split; vm_compute; reflexivity.
Qed.

(** C19.  DER wrapping of a 64-byte signature succeeds, gives at most 72 bytes, and is undone by
    signature_from_der, for any DER codec that decodes what it encodes. *)
Lemma c19_der_roundtrip : SplitOk E -> DerOk E ->
  forall sig, bytes sig -> length sig = 64%nat ->
  exists d, bytes d /\ (length d <= 72)%nat /\ signature_to_der (hex_of sig) = Ok (hex_of d) /\
    signature_from_der (hex_of d) = Ok (hex_of sig).
Proof. exact to_der_ok. Qed.

Example ex19_der : SplitOk demo_env /\ DerOk demo_env /\ bytes (repeat 0 31 ++ [200] ++ repeat 255 32) /\
  length (repeat 0 31 ++ [200] ++ repeat 255 32) = 64%nat.
Proof.
  split; [exact DemoProofs.demo_split|]. split; [exact DemoProofs.demo_der|].
  split; [repeat constructor; unfold byte; lia|reflexivity].
Qed.

End WithEnv.
