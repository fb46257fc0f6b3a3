(** The repository's own test vectors (bitcoin_toolset/test/*.py), evaluated in the model.  Generated by tools/fidelity.py from the literals
    of the test files (a selection; tools/fidelity.py --full checks all).  These are tests of the model, not proofs of properties. *)
From Coq Require Import String.
From Verif Require Import PyBase Env PyNum Validate Basic TxInput TxOutput Tx Create Demo DemoTx Spec EnvOk.
From Verif Require RealHash.

Definition find3 {A : Type} (l : list (pystr * pystr * pystr * A)) (a b c : pystr) : option A :=
  option_map snd (find (fun '(x, y, z, _) => str_eqb x a && str_eqb y b && str_eqb z c) l).
Definition vec_public : list (pystr * pystr) := [((lit "0000000000000000000000007468655f6c6962726172795f6f665f626162656c"), (lit "e8ade66f2cc0e43073f4ccea47db279bbab1a5e30a6e8ba49f12538b215c5b9e0d28bd080d35fde878081e8f05dbc23eeba02b544fa83e6d13b5f2145681e76d")); ((lit "c592e1dad5e9871fdeffb551b4544b0a1cf0378c6371d7a397ff5faf04c934ca"), (lit "3ab692792d6c8838fd30c2ff45bf3cbd44286a5cac52ba64dc06452810202b3206f5c7799c3b72ff77fd1976f105ced3cd7700b0412e11266f3888b88c3052c3")); ((lit "0000000000000000000000000000000000000000000000000000000000000001"), (lit "79be667ef9dcbbac55a06295ce870b07029bfcdb2dce28d959f2815b16f81798483ada7726a3c4655da4fbfc0e1108a8fd17b448a68554199c47d08ffb10d4b8")); ((lit "62b0d5ec1efa901eca870b75f743b12061f85b9e687d2a8a2393712363268fd2"), (lit "424462dc681c0f2b0fbb05deaa2569a6f8a71d20866c575cef43e2aed6401b163d9866f5d0b9bf84843adb3b11d9667c99252d35f512f2ef479762b69a208e1a")); ((lit "00000000000000000000007468655f6d6f74655f696e5f676f6427735f657965"), (lit "1ad06846fd7cf9998a827485d8dd5aaba9eccc385ba7759a6e9055fbdf90d7513c0d11fe5e5dcfcf8d4946c67f6c45f8e7f7d7a9c254ca8ebde1ffd64ab9dd58")); ((lit "7972b641101c0ad67b0e401b800a9b6f3225c97fc6b8115042cf66968c2fb2e5"), (lit "108e1c01a42bbd09b77a26b5f732f10d7108b2fe31cba137e9d15e24c7c30d2515904dfe646f3e94a3aa482afbbe0dc178b9b212154529768e0ba74452df1c2a"))].
Definition vec_signatures : list (pystr * pystr * pystr * pystr) := [((lit "0000000000000000000000007468655f6c6962726172795f6f665f626162656c"), (lit "b1bbeba742f45883e5508c7d408a829b2ec801b15a437a006d15fb7945fa5076"), (lit "0072616e646f6d5f627974655f737472696e675f61786178617861735f6d6c6f"), (lit "6a2eea0c908efbd780a34c48b48d80946a6e740c272468427bada3ba9773d39a76017028c4386020b19b7d1f1640558cd902aeffbfbd85f4637a8be0e92ee1de")); ((lit "00000000000000000000007468655f6d6f74655f696e5f676f6427735f657965"), (lit "0a32bfb86016e5fbcf45f390bac90f1c95ca563e26bcd24254ebd7f548bc90bd"), (lit "00000000005468652046616365206f6620476f64206468636d726c636874646a"), (lit "17ece35581a034a4838a577fe438f108cf22764927a1ad197ed379460c0764cd66723723eff05c10bac9a2f63b3e782e24fde290701c9408f3d1054722adad36")); ((lit "7972b641101c0ad67b0e401b800a9b6f3225c97fc6b8115042cf66968c2fb2e5"), (lit "365ea70b2cb8a1dd444ad83d3b6c940ff695f53c3da9cae2b1142edcc5a1e0a0"), (lit "257c2ff4ac1606d5e42fe152c2624cffac2aa58cdfe8578a69b12beefbce68b9"), (lit "2d8617427fc589848ef2e0481d148e0ce5d60aaa26e466fdfe62890d0d67ca690df89728ea73816cecfdfd6a734ca8b70da7000e213b87dcfdc9d48400164fac"))].
Definition vec_valid : list (pystr * pystr * pystr * bool) := [((lit "e8ade66f2cc0e43073f4ccea47db279bbab1a5e30a6e8ba49f12538b215c5b9e0d28bd080d35fde878081e8f05dbc23eeba02b544fa83e6d13b5f2145681e76d"), (lit "b1bbeba742f45883e5508c7d408a829b2ec801b15a437a006d15fb7945fa5076"), (lit "6a2eea0c908efbd780a34c48b48d80946a6e740c272468427bada3ba9773d39a76017028c4386020b19b7d1f1640558cd902aeffbfbd85f4637a8be0e92ee1de"), true); ((lit "1ad06846fd7cf9998a827485d8dd5aaba9eccc385ba7759a6e9055fbdf90d7513c0d11fe5e5dcfcf8d4946c67f6c45f8e7f7d7a9c254ca8ebde1ffd64ab9dd58"), (lit "0a32bfb86016e5fbcf45f390bac90f1c95ca563e26bcd24254ebd7f548bc90bd"), (lit "17ece35581a034a4838a577fe438f108cf22764927a1ad197ed379460c0764cd66723723eff05c10bac9a2f63b3e782e24fde290701c9408f3d1054722adad36"), true); ((lit "108e1c01a42bbd09b77a26b5f732f10d7108b2fe31cba137e9d15e24c7c30d2515904dfe646f3e94a3aa482afbbe0dc178b9b212154529768e0ba74452df1c2a"), (lit "365ea70b2cb8a1dd444ad83d3b6c940ff695f53c3da9cae2b1142edcc5a1e0a0"), (lit "2d8617427fc589848ef2e0481d148e0ce5d60aaa26e466fdfe62890d0d67ca690df89728ea73816cecfdfd6a734ca8b70da7000e213b87dcfdc9d48400164fac"), true)].
Definition vec_sign (k d r : pystr) : res pystr := match find3 vec_signatures k d r with Some s => Ok s | None => Err LibraryError end.
Definition vec_verify (p d s : pystr) : res bool := match find3 vec_valid p d s with Some b => Ok b | None => Ok false end.
(** Real hashes, recorded curve operations. *)
#[local] Instance vec_env : Env := {|
  uni_isdigit := demo_isdigit; uni_decimal := demo_decimal; uni_isspace := demo_isspace;
  sha256 := RealHash.demo_sha256; ripemd160 := RealHash.demo_ripemd160;
  ec_format_private_key_hex := toy_format;
  ec_validate_private_key_hex := toy_validate;
  ec_public_key := fun k => match map_find k vec_public with Some p => Ok p | None => Err LibraryError end;
  ec_sign := fun _ _ => Err LibraryError;
  ec_sign_digest := fun _ _ => Err LibraryError;
  ec_sign_digest_k := vec_sign;
  ec_verify := vec_verify;
  ec_verify_digest := vec_verify;
  ec_split := fun s => if Nat.eqb (length s) 128 then Ok (firstn 64 s, skipn 64 s) else Err LibraryError;
  der_encode := demo_der_encode; der_decode := demo_der_decode;
  json_dumps := ser; json_loads := demo_loads
|}.

(** Published vectors: FIPS 180-2 appendix B.1; the RIPEMD-160 page of its authors. *)
Example sha256_abc : hex_of (RealHash.demo_sha256 (lit "abc")) = lit "ba7816bf8f01cfea414140de5dae2223b00361a396177a9cb410ff61f20015ad".
Proof. vm_compute. reflexivity. Qed.
Example ripemd160_abc : hex_of (RealHash.demo_ripemd160 (lit "abc")) = lit "8eb208f7e05d987a9b044a8e98c6b087f15a0bfc".
Proof. vm_compute. reflexivity. Qed.

(** The assumptions about the hashes hold of the real ones. *)
Lemma be4_bytes : forall x, bytes (RealHash.be4 x).
Proof. intros x. unfold RealHash.be4. repeat constructor; try (apply Z.mod_pos_bound; reflexivity). Qed.
Lemma le4_bytes : forall x, bytes (RealHash.le4 x).
Proof. intros x. unfold RealHash.le4. repeat constructor; try (apply Z.mod_pos_bound; reflexivity). Qed.
Theorem vec_hash : HashOk vec_env.
Proof.
  split; intros x; (split; [|reflexivity]).
  - change (bytes (RealHash.demo_sha256 x)). unfold RealHash.demo_sha256, bytes. repeat (apply Forall_app; split); apply be4_bytes.
  - change (bytes (RealHash.demo_ripemd160 x)). unfold RealHash.demo_ripemd160, bytes. repeat (apply Forall_app; split); apply le4_bytes.
Qed.
Theorem vec_zero_address : ZeroAddressOk vec_env.
Proof. assert (H : (hd 0 (@checksum vec_env (repeat 0 21)) =? 0) = false) by (vm_compute; reflexivity). apply Z.eqb_neq in H. exact H. Qed.

(** == of Python dictionaries: the order of the keys does not count. *)
Fixpoint same (fuel : nat) (a b : pyval) : bool :=
  match fuel with
  | O => false
  | S f =>
      match a, b with
      | PNone, PNone => true
      | PBool x, PBool y => Bool.eqb x y
      | PInt x, PInt y => x =? y
      | PStr x, PStr y => str_eqb x y
      | PList x, PList y => Nat.eqb (length x) (length y) && forallb (fun '(u, v) => same f u v) (combine x y)
      | PDict x, PDict y =>
          Nat.eqb (length x) (length y) &&
          forallb (fun '(k, u) => existsb (fun '(k', v) => str_eqb k k' && same f u v) y) x
      | _, _ => false
      end
  end.
Definition same_dict (a : res pyval) (b : pyval) : bool := match a with Ok v => same 9 v b | Err _ => false end.

(** test_transaction.py L54-69: build_tx_inputs_and_outputs; then Transaction.create *)
Definition field (d : pyval) (k : pystr) : pyval := match d with PDict l => match find (fun p => str_eqb (fst p) k) l with Some p => snd p | None => PNone end | _ => PNone end.
Fixpoint each {A B : Type} (f : A -> res B) (l : list A) : res (list B) :=
  match l with [] => Ok [] | x :: r => y <- f x ;; ys <- each f r ;; Ok (y :: ys) end.
Definition built (ins outs : list pyval) : res tx :=
  ins <- each (fun x => s <- bitcoin_to_satoshi (field x (lit "bitcoin_amount")) ;;
                        txin_create (field x (lit "address")) (field x (lit "transaction_id")) (field x (lit "previous_output_index")) s) ins ;;
  outs <- each (fun x => s <- bitcoin_to_satoshi (field x (lit "bitcoin_amount")) ;; txout_create (field x (lit "address")) s) outs ;;
  tx_create ins outs.

Example test_a2 : private_key_hex_to_address (lit "7468655f6c6962726172795f6f665f626162656c") = Ok (lit "1CTumCMjzBfccCJBTkHoPQmAwEqU9Uj2sQ").
Proof. vm_compute. reflexivity. Qed.

Example test_a8 : private_key_hex_to_address (lit "c592e1dad5e9871fdeffb551b4544b0a1cf0378c6371d7a397ff5faf04c934ca") = Ok (lit "1vkb4YyPMFcxyC83Z5m5zuN45xASoHeNK").
Proof. vm_compute. reflexivity. Qed.

Example test_p1 : private_key_hex_to_wif (lit "01") = Ok (lit "5HpHagT65TZzG1PH3CSu63k8DbpvD8s5ip4nEB3kEsreAnchuDf").
Proof. vm_compute. reflexivity. Qed.

Example test_p1_reverse : private_key_wif_to_hex (PStr (lit "5HpHagT65TZzG1PH3CSu63k8DbpvD8s5ip4nEB3kEsreAnchuDf")) = Ok (lit "0000000000000000000000000000000000000000000000000000000000000001").
Proof. vm_compute. reflexivity. Qed.

Example test_p2 : private_key_hex_to_wif (lit "62b0d5ec1efa901eca870b75f743b12061f85b9e687d2a8a2393712363268fd2") = Ok (lit "5JZkWDonArJN8T8Uaz8br4uCd7jCFDv8cJLQMSNo5q8M9JAVHkY").
Proof. vm_compute. reflexivity. Qed.

Definition test_tx1_tx : res tx := Eval vm_compute in built [PDict [((lit "address"), PStr (lit "1CTumCMjzBfccCJBTkHoPQmAwEqU9Uj2sQ")); ((lit "transaction_id"), PStr (lit "8482e48391425d88fe30bd4066957000335f58e83f854f997146f41b9493b4ce")); ((lit "previous_output_index"), PInt 9); ((lit "bitcoin_amount"), PStr (lit "0.002"))]] [PDict [((lit "address"), PStr (lit "12RbVkKwHcwHbMZmnSVAyR4g88ZChpQD6f")); ((lit "bitcoin_amount"), PStr (lit "0.00199775"))]].
Definition test_tx1_u : tx := Eval vm_compute in or_dummy test_tx1_tx.

Example test_tx1_created : test_tx1_tx = Ok test_tx1_u.
Proof. vm_compute. reflexivity. Qed.

Example test_tx1_dict : same_dict (to_dict test_tx1_u) (PDict [((lit "version"), PStr (lit "01000000")); ((lit "input_count"), PStr (lit "01")); ((lit "inputs"), PList [PDict [((lit "previous_output_hash"), PStr (lit "ceb493941bf44671994f853fe8585f330070956640bd30fe885d429183e48284")); ((lit "previous_output_index"), PStr (lit "09000000")); ((lit "previous_output_index_int"), PInt 9); ((lit "script_length"), PNone); ((lit "script_length_int"), PNone); ((lit "script_sig"), PNone); ((lit "sequence"), PStr (lit "ffffffff")); ((lit "public_key_hex"), PNone); ((lit "script_pub_key_length"), PStr (lit "19")); ((lit "script_pub_key_length_int"), PInt 25); ((lit "script_pub_key"), PStr (lit "76a9147dc03dfbe8c62821bcd1ab95446b88ed7008a76e88ac")); ((lit "address"), PStr (lit "1CTumCMjzBfccCJBTkHoPQmAwEqU9Uj2sQ")); ((lit "txid"), PStr (lit "8482e48391425d88fe30bd4066957000335f58e83f854f997146f41b9493b4ce")); ((lit "satoshi_amount"), PInt 200000); ((lit "bitcoin_amount"), PStr (lit "0.00200000"))]]); ((lit "output_count"), PStr (lit "01")); ((lit "outputs"), PList [PDict [((lit "value"), PStr (lit "5f0c030000000000")); ((lit "script_length"), PStr (lit "19")); ((lit "script_length_int"), PInt 25); ((lit "script_pub_key"), PStr (lit "76a9140f9ee78522f6cc8a88784ae02b0408e452d8025988ac")); ((lit "address"), PStr (lit "12RbVkKwHcwHbMZmnSVAyR4g88ZChpQD6f")); ((lit "bitcoin_amount"), PStr (lit "0.00199775")); ((lit "satoshi_amount"), PInt 199775)]]); ((lit "block_lock_time"), PStr (lit "00000000")); ((lit "hash_type_4_byte"), PStr (lit "01000000")); ((lit "hash_type_1_byte"), PStr (lit "01")); ((lit "signed"), PBool false); ((lit "total_input"), PDict [((lit "satoshi_amount"), PInt 200000); ((lit "bitcoin_amount"), PStr (lit "0.00200000"))]); ((lit "total_output"), PDict [((lit "satoshi_amount"), PInt 199775); ((lit "bitcoin_amount"), PStr (lit "0.00199775"))]); ((lit "fee"), PDict [((lit "satoshi_amount"), PInt 225); ((lit "bitcoin_amount"), PStr (lit "0.00000225"))]); ((lit "change_address"), PNone); ((lit "change"), PDict [((lit "satoshi_amount"), PNone); ((lit "bitcoin_amount"), PNone)]); ((lit "estimated_size_bytes"), PInt 223); ((lit "estimated_fee_rate"), PDict [((lit "satoshi_per_byte"), PStr (lit "1.0090")); ((lit "bitcoin_per_byte"), PStr (lit "0.00000001"))]); ((lit "size_bytes"), PNone); ((lit "fee_rate"), PDict [((lit "satoshi_amount"), PNone); ((lit "bitcoin_amount"), PNone)])]) = true.
Proof. vm_compute. reflexivity. Qed.

Definition test_tx1_signed : res unit * tx := Eval vm_compute in sign test_tx1_u [(lit "0000000000000000000000007468655f6c6962726172795f6f665f626162656c")] (Some [(lit "0072616e646f6d5f627974655f737472696e675f61786178617861735f6d6c6f")]).

Example test_tx1_signed_ok : sign test_tx1_u [(lit "0000000000000000000000007468655f6c6962726172795f6f665f626162656c")] (Some [(lit "0072616e646f6d5f627974655f737472696e675f61786178617861735f6d6c6f")]) = (Ok tt, snd test_tx1_signed).
Proof. vm_compute. reflexivity. Qed.

Example test_tx1_signed_dict : same_dict (to_dict (snd test_tx1_signed)) (PDict [((lit "version"), PStr (lit "01000000")); ((lit "input_count"), PStr (lit "01")); ((lit "inputs"), PList [PDict [((lit "previous_output_hash"), PStr (lit "ceb493941bf44671994f853fe8585f330070956640bd30fe885d429183e48284")); ((lit "previous_output_index"), PStr (lit "09000000")); ((lit "previous_output_index_int"), PInt 9); ((lit "script_length"), PStr (lit "8a")); ((lit "script_length_int"), PInt 138); ((lit "script_sig"), PStr (lit "47304402206a2eea0c908efbd780a34c48b48d80946a6e740c272468427bada3ba9773d39a022076017028c4386020b19b7d1f1640558cd902aeffbfbd85f4637a8be0e92ee1de014104e8ade66f2cc0e43073f4ccea47db279bbab1a5e30a6e8ba49f12538b215c5b9e0d28bd080d35fde878081e8f05dbc23eeba02b544fa83e6d13b5f2145681e76d")); ((lit "sequence"), PStr (lit "ffffffff")); ((lit "public_key_hex"), PStr (lit "e8ade66f2cc0e43073f4ccea47db279bbab1a5e30a6e8ba49f12538b215c5b9e0d28bd080d35fde878081e8f05dbc23eeba02b544fa83e6d13b5f2145681e76d")); ((lit "script_pub_key_length"), PStr (lit "19")); ((lit "script_pub_key_length_int"), PInt 25); ((lit "script_pub_key"), PStr (lit "76a9147dc03dfbe8c62821bcd1ab95446b88ed7008a76e88ac")); ((lit "address"), PStr (lit "1CTumCMjzBfccCJBTkHoPQmAwEqU9Uj2sQ")); ((lit "txid"), PStr (lit "8482e48391425d88fe30bd4066957000335f58e83f854f997146f41b9493b4ce")); ((lit "satoshi_amount"), PInt 200000); ((lit "bitcoin_amount"), PStr (lit "0.00200000"))]]); ((lit "output_count"), PStr (lit "01")); ((lit "outputs"), PList [PDict [((lit "value"), PStr (lit "5f0c030000000000")); ((lit "script_length"), PStr (lit "19")); ((lit "script_length_int"), PInt 25); ((lit "script_pub_key"), PStr (lit "76a9140f9ee78522f6cc8a88784ae02b0408e452d8025988ac")); ((lit "address"), PStr (lit "12RbVkKwHcwHbMZmnSVAyR4g88ZChpQD6f")); ((lit "bitcoin_amount"), PStr (lit "0.00199775")); ((lit "satoshi_amount"), PInt 199775)]]); ((lit "block_lock_time"), PStr (lit "00000000")); ((lit "hash_type_4_byte"), PStr (lit "01000000")); ((lit "hash_type_1_byte"), PStr (lit "01")); ((lit "signed"), PBool true); ((lit "total_input"), PDict [((lit "satoshi_amount"), PInt 200000); ((lit "bitcoin_amount"), PStr (lit "0.00200000"))]); ((lit "total_output"), PDict [((lit "satoshi_amount"), PInt 199775); ((lit "bitcoin_amount"), PStr (lit "0.00199775"))]); ((lit "fee"), PDict [((lit "satoshi_amount"), PInt 225); ((lit "bitcoin_amount"), PStr (lit "0.00000225"))]); ((lit "change_address"), PNone); ((lit "change"), PDict [((lit "satoshi_amount"), PNone); ((lit "bitcoin_amount"), PNone)]); ((lit "estimated_size_bytes"), PInt 223); ((lit "estimated_fee_rate"), PDict [((lit "satoshi_per_byte"), PStr (lit "1.0090")); ((lit "bitcoin_per_byte"), PStr (lit "0.00000001"))]); ((lit "size_bytes"), PInt 223); ((lit "fee_rate"), PDict [((lit "satoshi_per_byte"), PStr (lit "1.0090")); ((lit "bitcoin_per_byte"), PStr (lit "0.00000001"))])]) = true.
Proof. vm_compute. reflexivity. Qed.

Example test_tx1_signed_hex : to_hex_signed_form (snd test_tx1_signed) = Ok (lit "0100000001ceb493941bf44671994f853fe8585f330070956640bd30fe885d429183e48284090000008a47304402206a2eea0c908efbd780a34c48b48d80946a6e740c272468427bada3ba9773d39a022076017028c4386020b19b7d1f1640558cd902aeffbfbd85f4637a8be0e92ee1de014104e8ade66f2cc0e43073f4ccea47db279bbab1a5e30a6e8ba49f12538b215c5b9e0d28bd080d35fde878081e8f05dbc23eeba02b544fa83e6d13b5f2145681e76dffffffff015f0c0300000000001976a9140f9ee78522f6cc8a88784ae02b0408e452d8025988ac00000000").
Proof. vm_compute. reflexivity. Qed.

Example test_tx1_txid : calculate_txid (snd test_tx1_signed) = Ok (lit "4bdd5f653d0100ea4735953e8e22e92321af9074926b3bd33c279c289f2d975a").
Proof. vm_compute. reflexivity. Qed.

Example test_tx1_verified : verify (snd test_tx1_signed) = Ok 0.
Proof. vm_compute. reflexivity. Qed.

Definition test_tx2_tx : res tx := Eval vm_compute in built [PDict [((lit "address"), PStr (lit "138obEZkdWaWEQ4x8ZAYw4MybHSZtX1Nam")); ((lit "transaction_id"), PStr (lit "e4609e0f1ca854b8b07381f32ba31adbad9713205f5a4f3f56a5a32853d47855")); ((lit "previous_output_index"), PInt 8); ((lit "bitcoin_amount"), PStr (lit "0.0024200"))]] [PDict [((lit "address"), PStr (lit "13xPBB175FtPbPQ84iB8KuawaVy3mHrady")); ((lit "bitcoin_amount"), PStr (lit "0.00241777"))]].
Definition test_tx2_u : tx := Eval vm_compute in or_dummy test_tx2_tx.

Example test_tx2_created : test_tx2_tx = Ok test_tx2_u.
Proof. vm_compute. reflexivity. Qed.

Example test_tx2_dict : same_dict (to_dict test_tx2_u) (PDict [((lit "version"), PStr (lit "01000000")); ((lit "input_count"), PStr (lit "01")); ((lit "inputs"), PList [PDict [((lit "previous_output_hash"), PStr (lit "5578d45328a3a5563f4f5a5f201397addb1aa32bf38173b0b854a81c0f9e60e4")); ((lit "previous_output_index"), PStr (lit "08000000")); ((lit "previous_output_index_int"), PInt 8); ((lit "script_length"), PNone); ((lit "script_length_int"), PNone); ((lit "script_sig"), PNone); ((lit "sequence"), PStr (lit "ffffffff")); ((lit "public_key_hex"), PNone); ((lit "script_pub_key_length"), PStr (lit "19")); ((lit "script_pub_key_length_int"), PInt 25); ((lit "script_pub_key"), PStr (lit "76a914176a0e0c2b9b0e77d630712ad301b749102a304488ac")); ((lit "address"), PStr (lit "138obEZkdWaWEQ4x8ZAYw4MybHSZtX1Nam")); ((lit "txid"), PStr (lit "e4609e0f1ca854b8b07381f32ba31adbad9713205f5a4f3f56a5a32853d47855")); ((lit "satoshi_amount"), PInt 242000); ((lit "bitcoin_amount"), PStr (lit "0.00242000"))]]); ((lit "output_count"), PStr (lit "01")); ((lit "outputs"), PList [PDict [((lit "value"), PStr (lit "71b0030000000000")); ((lit "script_length"), PStr (lit "19")); ((lit "script_length_int"), PInt 25); ((lit "script_pub_key"), PStr (lit "76a9142069a3fae01db74cef12d1d01811afdf6a3e1c2e88ac")); ((lit "address"), PStr (lit "13xPBB175FtPbPQ84iB8KuawaVy3mHrady")); ((lit "bitcoin_amount"), PStr (lit "0.00241777")); ((lit "satoshi_amount"), PInt 241777)]]); ((lit "block_lock_time"), PStr (lit "00000000")); ((lit "hash_type_4_byte"), PStr (lit "01000000")); ((lit "hash_type_1_byte"), PStr (lit "01")); ((lit "signed"), PBool false); ((lit "total_input"), PDict [((lit "satoshi_amount"), PInt 242000); ((lit "bitcoin_amount"), PStr (lit "0.00242000"))]); ((lit "total_output"), PDict [((lit "satoshi_amount"), PInt 241777); ((lit "bitcoin_amount"), PStr (lit "0.00241777"))]); ((lit "fee"), PDict [((lit "satoshi_amount"), PInt 223); ((lit "bitcoin_amount"), PStr (lit "0.00000223"))]); ((lit "change_address"), PNone); ((lit "change"), PDict [((lit "satoshi_amount"), PNone); ((lit "bitcoin_amount"), PNone)]); ((lit "estimated_size_bytes"), PInt 223); ((lit "estimated_fee_rate"), PDict [((lit "satoshi_per_byte"), PStr (lit "1.0000")); ((lit "bitcoin_per_byte"), PStr (lit "0.00000001"))]); ((lit "size_bytes"), PNone); ((lit "fee_rate"), PDict [((lit "satoshi_amount"), PNone); ((lit "bitcoin_amount"), PNone)])]) = true.
Proof. vm_compute. reflexivity. Qed.

Definition test_tx2_signed : res unit * tx := Eval vm_compute in sign test_tx2_u [(lit "00000000000000000000007468655f6d6f74655f696e5f676f6427735f657965")] (Some [(lit "00000000005468652046616365206f6620476f64206468636d726c636874646a")]).

Example test_tx2_signed_ok : sign test_tx2_u [(lit "00000000000000000000007468655f6d6f74655f696e5f676f6427735f657965")] (Some [(lit "00000000005468652046616365206f6620476f64206468636d726c636874646a")]) = (Ok tt, snd test_tx2_signed).
Proof. vm_compute. reflexivity. Qed.

Example test_tx2_signed_dict : same_dict (to_dict (snd test_tx2_signed)) (PDict [((lit "version"), PStr (lit "01000000")); ((lit "input_count"), PStr (lit "01")); ((lit "inputs"), PList [PDict [((lit "previous_output_hash"), PStr (lit "5578d45328a3a5563f4f5a5f201397addb1aa32bf38173b0b854a81c0f9e60e4")); ((lit "previous_output_index"), PStr (lit "08000000")); ((lit "previous_output_index_int"), PInt 8); ((lit "script_length"), PStr (lit "8a")); ((lit "script_length_int"), PInt 138); ((lit "script_sig"), PStr (lit "473044022017ece35581a034a4838a577fe438f108cf22764927a1ad197ed379460c0764cd022066723723eff05c10bac9a2f63b3e782e24fde290701c9408f3d1054722adad360141041ad06846fd7cf9998a827485d8dd5aaba9eccc385ba7759a6e9055fbdf90d7513c0d11fe5e5dcfcf8d4946c67f6c45f8e7f7d7a9c254ca8ebde1ffd64ab9dd58")); ((lit "sequence"), PStr (lit "ffffffff")); ((lit "public_key_hex"), PStr (lit "1ad06846fd7cf9998a827485d8dd5aaba9eccc385ba7759a6e9055fbdf90d7513c0d11fe5e5dcfcf8d4946c67f6c45f8e7f7d7a9c254ca8ebde1ffd64ab9dd58")); ((lit "script_pub_key_length"), PStr (lit "19")); ((lit "script_pub_key_length_int"), PInt 25); ((lit "script_pub_key"), PStr (lit "76a914176a0e0c2b9b0e77d630712ad301b749102a304488ac")); ((lit "address"), PStr (lit "138obEZkdWaWEQ4x8ZAYw4MybHSZtX1Nam")); ((lit "txid"), PStr (lit "e4609e0f1ca854b8b07381f32ba31adbad9713205f5a4f3f56a5a32853d47855")); ((lit "satoshi_amount"), PInt 242000); ((lit "bitcoin_amount"), PStr (lit "0.00242000"))]]); ((lit "output_count"), PStr (lit "01")); ((lit "outputs"), PList [PDict [((lit "value"), PStr (lit "71b0030000000000")); ((lit "script_length"), PStr (lit "19")); ((lit "script_length_int"), PInt 25); ((lit "script_pub_key"), PStr (lit "76a9142069a3fae01db74cef12d1d01811afdf6a3e1c2e88ac")); ((lit "address"), PStr (lit "13xPBB175FtPbPQ84iB8KuawaVy3mHrady")); ((lit "bitcoin_amount"), PStr (lit "0.00241777")); ((lit "satoshi_amount"), PInt 241777)]]); ((lit "block_lock_time"), PStr (lit "00000000")); ((lit "hash_type_4_byte"), PStr (lit "01000000")); ((lit "hash_type_1_byte"), PStr (lit "01")); ((lit "signed"), PBool true); ((lit "total_input"), PDict [((lit "satoshi_amount"), PInt 242000); ((lit "bitcoin_amount"), PStr (lit "0.00242000"))]); ((lit "total_output"), PDict [((lit "satoshi_amount"), PInt 241777); ((lit "bitcoin_amount"), PStr (lit "0.00241777"))]); ((lit "fee"), PDict [((lit "satoshi_amount"), PInt 223); ((lit "bitcoin_amount"), PStr (lit "0.00000223"))]); ((lit "change_address"), PNone); ((lit "change"), PDict [((lit "satoshi_amount"), PNone); ((lit "bitcoin_amount"), PNone)]); ((lit "estimated_size_bytes"), PInt 223); ((lit "estimated_fee_rate"), PDict [((lit "satoshi_per_byte"), PStr (lit "1.0000")); ((lit "bitcoin_per_byte"), PStr (lit "0.00000001"))]); ((lit "size_bytes"), PInt 223); ((lit "fee_rate"), PDict [((lit "satoshi_per_byte"), PStr (lit "1.0000")); ((lit "bitcoin_per_byte"), PStr (lit "0.00000001"))])]) = true.
Proof. vm_compute. reflexivity. Qed.

Example test_tx2_signed_hex : to_hex_signed_form (snd test_tx2_signed) = Ok (lit "01000000015578d45328a3a5563f4f5a5f201397addb1aa32bf38173b0b854a81c0f9e60e4080000008a473044022017ece35581a034a4838a577fe438f108cf22764927a1ad197ed379460c0764cd022066723723eff05c10bac9a2f63b3e782e24fde290701c9408f3d1054722adad360141041ad06846fd7cf9998a827485d8dd5aaba9eccc385ba7759a6e9055fbdf90d7513c0d11fe5e5dcfcf8d4946c67f6c45f8e7f7d7a9c254ca8ebde1ffd64ab9dd58ffffffff0171b00300000000001976a9142069a3fae01db74cef12d1d01811afdf6a3e1c2e88ac00000000").
Proof. vm_compute. reflexivity. Qed.

Example test_tx2_txid : calculate_txid (snd test_tx2_signed) = Ok (lit "745e224ccba0a033c55ea80523f207da18b903418ac1f5d293eed62c19e0334d").
Proof. vm_compute. reflexivity. Qed.

Example test_tx2_verified : verify (snd test_tx2_signed) = Ok 0.
Proof. vm_compute. reflexivity. Qed.

Definition test_output_shortfall_ns : namespace := mk_ns (Some (PList [PDict [((lit "address"), PStr (lit "12YCFdpsRDvEHNcj5rsmvJ5G2XXkW1icJP")); ((lit "transaction_id"), PStr (lit "585f054c01139bdae20ff8fa233c4cda47db6d891a387e37dfd56f9cb39d1bea")); ((lit "previous_output_index"), PInt 0); ((lit "bitcoin_amount"), PStr (lit "0.00474300"))]; PDict [((lit "address"), PStr (lit "1H5SUR7Fv7x252WuJPqBjewwpeHuJ218Ky")); ((lit "transaction_id"), PStr (lit "585f054c01139bdae20ff8fa233c4cda47db6d891a387e37dfd56f9cb39d1bea")); ((lit "previous_output_index"), PInt 1); ((lit "bitcoin_amount"), PStr (lit "0.00500000"))]])) (Some (PDict [((lit "change_address"), PStr (lit "136oURWq1zjkdQHKcanE7TyA3o36ibARNM")); ((lit "fee"), PInt 225); ((lit "max_fee"), PInt 250); ((lit "max_spend_percentage"), PStr (lit "100.00")); ((lit "outputs"), PList [PDict [((lit "address"), PStr (lit "12PX5jPyQYejyrU79nZUDmKXvB3ttMfDqZ")); ((lit "bitcoin_amount"), PStr (lit "0.00974301"))]])])) None None.

Example test_output_shortfall : fst (create_transaction test_output_shortfall_ns) = Err OutputValueNotCovered.
Proof. vm_compute. reflexivity. Qed.

Definition test_add_input_to_pay_fee_ns : namespace := mk_ns (Some (PList [PDict [((lit "address"), PStr (lit "12YCFdpsRDvEHNcj5rsmvJ5G2XXkW1icJP")); ((lit "transaction_id"), PStr (lit "585f054c01139bdae20ff8fa233c4cda47db6d891a387e37dfd56f9cb39d1bea")); ((lit "previous_output_index"), PInt 0); ((lit "bitcoin_amount"), PStr (lit "0.00474300"))]; PDict [((lit "address"), PStr (lit "1H5SUR7Fv7x252WuJPqBjewwpeHuJ218Ky")); ((lit "transaction_id"), PStr (lit "585f054c01139bdae20ff8fa233c4cda47db6d891a387e37dfd56f9cb39d1bea")); ((lit "previous_output_index"), PInt 1); ((lit "bitcoin_amount"), PStr (lit "0.00500000"))]])) (Some (PDict [((lit "change_address"), PStr (lit "136oURWq1zjkdQHKcanE7TyA3o36ibARNM")); ((lit "fee"), PInt 225); ((lit "max_fee"), PInt 250); ((lit "max_spend_percentage"), PStr (lit "100.00")); ((lit "input_selection_approaches"), PList [PStr (lit "smallest_first")]); ((lit "outputs"), PList [PDict [((lit "address"), PStr (lit "12PX5jPyQYejyrU79nZUDmKXvB3ttMfDqZ")); ((lit "bitcoin_amount"), PStr (lit "0.00474300"))]])])) None None.

Definition test_add_input_to_pay_fee_u : tx := Eval vm_compute in or_dummy (fst (create_transaction test_add_input_to_pay_fee_ns)).

Example test_add_input_to_pay_fee_created : fst (create_transaction test_add_input_to_pay_fee_ns) = Ok test_add_input_to_pay_fee_u.
Proof. vm_compute. reflexivity. Qed.

Example test_add_input_to_pay_fee_dict : same_dict (to_dict test_add_input_to_pay_fee_u) (PDict [((lit "version"), PStr (lit "01000000")); ((lit "input_count"), PStr (lit "02")); ((lit "inputs"), PList [PDict [((lit "previous_output_hash"), PStr (lit "ea1b9db39c6fd5df377e381a896ddb47da4c3c23faf80fe2da9b13014c055f58")); ((lit "previous_output_index"), PStr (lit "00000000")); ((lit "previous_output_index_int"), PInt 0); ((lit "script_length"), PNone); ((lit "script_length_int"), PNone); ((lit "script_sig"), PNone); ((lit "sequence"), PStr (lit "ffffffff")); ((lit "public_key_hex"), PNone); ((lit "script_pub_key_length"), PStr (lit "19")); ((lit "script_pub_key_length_int"), PInt 25); ((lit "script_pub_key"), PStr (lit "76a91410de69df99d4b834ee6f2bd1466edab556beb7d688ac")); ((lit "address"), PStr (lit "12YCFdpsRDvEHNcj5rsmvJ5G2XXkW1icJP")); ((lit "txid"), PStr (lit "585f054c01139bdae20ff8fa233c4cda47db6d891a387e37dfd56f9cb39d1bea")); ((lit "satoshi_amount"), PInt 474300); ((lit "bitcoin_amount"), PStr (lit "0.00474300"))]; PDict [((lit "previous_output_hash"), PStr (lit "ea1b9db39c6fd5df377e381a896ddb47da4c3c23faf80fe2da9b13014c055f58")); ((lit "previous_output_index"), PStr (lit "01000000")); ((lit "previous_output_index_int"), PInt 1); ((lit "script_length"), PNone); ((lit "script_length_int"), PNone); ((lit "script_sig"), PNone); ((lit "sequence"), PStr (lit "ffffffff")); ((lit "public_key_hex"), PNone); ((lit "script_pub_key_length"), PStr (lit "19")); ((lit "script_pub_key_length_int"), PInt 25); ((lit "script_pub_key"), PStr (lit "76a914b058f09e25382dd3b9339c25a5727085a22c8c6088ac")); ((lit "address"), PStr (lit "1H5SUR7Fv7x252WuJPqBjewwpeHuJ218Ky")); ((lit "txid"), PStr (lit "585f054c01139bdae20ff8fa233c4cda47db6d891a387e37dfd56f9cb39d1bea")); ((lit "satoshi_amount"), PInt 500000); ((lit "bitcoin_amount"), PStr (lit "0.00500000"))]]); ((lit "output_count"), PStr (lit "02")); ((lit "outputs"), PList [PDict [((lit "value"), PStr (lit "3fa0070000000000")); ((lit "script_length"), PStr (lit "19")); ((lit "script_length_int"), PInt 25); ((lit "script_pub_key"), PStr (lit "76a91417091ffac2b6bb51d9fd1d979fac6ec6bf3a2f1e88ac")); ((lit "address"), PStr (lit "136oURWq1zjkdQHKcanE7TyA3o36ibARNM")); ((lit "bitcoin_amount"), PStr (lit "0.00499775")); ((lit "satoshi_amount"), PInt 499775)]; PDict [((lit "value"), PStr (lit "bc3c070000000000")); ((lit "script_length"), PStr (lit "19")); ((lit "script_length_int"), PInt 25); ((lit "script_pub_key"), PStr (lit "76a9140f3a634504545b37a97b10214b2f640fb16085e588ac")); ((lit "address"), PStr (lit "12PX5jPyQYejyrU79nZUDmKXvB3ttMfDqZ")); ((lit "bitcoin_amount"), PStr (lit "0.00474300")); ((lit "satoshi_amount"), PInt 474300)]]); ((lit "block_lock_time"), PStr (lit "00000000")); ((lit "hash_type_4_byte"), PStr (lit "01000000")); ((lit "hash_type_1_byte"), PStr (lit "01")); ((lit "signed"), PBool false); ((lit "total_input"), PDict [((lit "satoshi_amount"), PInt 974300); ((lit "bitcoin_amount"), PStr (lit "0.00974300"))]); ((lit "total_output"), PDict [((lit "satoshi_amount"), PInt 974075); ((lit "bitcoin_amount"), PStr (lit "0.00974075"))]); ((lit "fee"), PDict [((lit "satoshi_amount"), PInt 225); ((lit "bitcoin_amount"), PStr (lit "0.00000225"))]); ((lit "change_address"), PStr (lit "136oURWq1zjkdQHKcanE7TyA3o36ibARNM")); ((lit "change"), PDict [((lit "satoshi_amount"), PInt 499775); ((lit "bitcoin_amount"), PStr (lit "0.00499775"))]); ((lit "estimated_size_bytes"), PInt 436); ((lit "estimated_fee_rate"), PDict [((lit "satoshi_per_byte"), PStr (lit "0.5161")); ((lit "bitcoin_per_byte"), PStr (lit "0.00000001"))]); ((lit "size_bytes"), PNone); ((lit "fee_rate"), PDict [((lit "satoshi_amount"), PNone); ((lit "bitcoin_amount"), PNone)])]) = true.
Proof. vm_compute. reflexivity. Qed.

Example test_add_input_to_pay_fee_fee : fee test_add_input_to_pay_fee_u = Some 225.
Proof. vm_compute. reflexivity. Qed.

Definition test_fee_rate_argument_3_ns : namespace := mk_ns (Some (PList [PDict [((lit "address"), PStr (lit "16ASCUS3s7D4UQh6J9oHGuT19agPvD3PFj")); ((lit "transaction_id"), PStr (lit "f02eca2852bf73f3c722db2d151e7755d853efd8dd6224249b14f8b51dffbc6e")); ((lit "previous_output_index"), PInt 12); ((lit "bitcoin_amount"), PStr (lit "0.00600000"))]])) (Some (PDict [((lit "change_address"), PStr (lit "1AppardGrpGdddB2HUTLRd2GGWaYAWDByX")); ((lit "fee_rate"), PStr (lit "3.01167")); ((lit "max_fee"), PInt 1000); ((lit "max_spend_percentage"), PStr (lit "100.00")); ((lit "outputs"), PList [PDict [((lit "address"), PStr (lit "1KHDLNmqBtiBELUsmTCkNASg79jfEVKrig")); ((lit "bitcoin_amount"), PStr (lit "0.00300000"))]; PDict [((lit "address"), PStr (lit "1DLg5i1kBjXYXy9f82xZcHokEMC9dtct7P")); ((lit "bitcoin_amount"), PStr (lit "0.00299226"))]])])) (Some (PBool true)) None.

Definition test_fee_rate_argument_3_u : tx := Eval vm_compute in or_dummy (fst (create_transaction test_fee_rate_argument_3_ns)).

Example test_fee_rate_argument_3_created : fst (create_transaction test_fee_rate_argument_3_ns) = Ok test_fee_rate_argument_3_u.
Proof. vm_compute. reflexivity. Qed.

Example test_fee_rate_argument_3_fee : fee test_fee_rate_argument_3_u = Some 774.
Proof. vm_compute. reflexivity. Qed.

Definition test_fee_rate_argument_3_signed : res unit * tx := Eval vm_compute in sign test_fee_rate_argument_3_u [(lit "7972b641101c0ad67b0e401b800a9b6f3225c97fc6b8115042cf66968c2fb2e5")] (Some [(lit "257c2ff4ac1606d5e42fe152c2624cffac2aa58cdfe8578a69b12beefbce68b9")]).

Example test_fee_rate_argument_3_signed_ok : sign test_fee_rate_argument_3_u [(lit "7972b641101c0ad67b0e401b800a9b6f3225c97fc6b8115042cf66968c2fb2e5")] (Some [(lit "257c2ff4ac1606d5e42fe152c2624cffac2aa58cdfe8578a69b12beefbce68b9")]) = (Ok tt, snd test_fee_rate_argument_3_signed).
Proof. vm_compute. reflexivity. Qed.

Example test_fee_rate_argument_3_signed_hex : to_hex_signed_form (snd test_fee_rate_argument_3_signed) = Ok (lit "01000000016ebcff1db5f8149b242462ddd8ef53d855771e152ddb22c7f373bf5228ca2ef00c0000008a47304402202d8617427fc589848ef2e0481d148e0ce5d60aaa26e466fdfe62890d0d67ca6902200df89728ea73816cecfdfd6a734ca8b70da7000e213b87dcfdc9d48400164fac014104108e1c01a42bbd09b77a26b5f732f10d7108b2fe31cba137e9d15e24c7c30d2515904dfe646f3e94a3aa482afbbe0dc178b9b212154529768e0ba74452df1c2affffffff02e0930400000000001976a914c8833727be832b6634d8ddf7bfcf51e379b28f6388acda900400000000001976a914875a093668adff783d0835f4db655c5a47a0ceaa88ac00000000").
Proof. vm_compute. reflexivity. Qed.

Example test_fee_rate_argument_3_txid : calculate_txid (snd test_fee_rate_argument_3_signed) = Ok (lit "db2c3d84708cd9d0e40ae1754021f9146a0d6ab555fc0e1d547d7876c0c092f4").
Proof. vm_compute. reflexivity. Qed.

Example test_fee_rate_argument_3_verified : verify (snd test_fee_rate_argument_3_signed) = Ok 0.
Proof. vm_compute. reflexivity. Qed.

Definition test_duplicate_change_output_address_error_ns : namespace := mk_ns (Some (PList [PDict [((lit "address"), PStr (lit "1AppardGrpGdddB2HUTLRd2GGWaYAWDByX")); ((lit "transaction_id"), PStr (lit "dcb76b885dd8130a5e926edde743b8cae969449213686313917eb4ccda6bf3cf")); ((lit "previous_output_index"), PInt 0); ((lit "bitcoin_amount"), PStr (lit "0.01000000"))]])) (Some (PDict [((lit "change_address"), PStr (lit "1AppardGrpGdddB2HUTLRd2GGWaYAWDByX")); ((lit "fee_rate"), PInt 100); ((lit "max_fee"), PInt 30000); ((lit "max_spend_percentage"), PStr (lit "100.00")); ((lit "outputs"), PList [PDict [((lit "address"), PStr (lit "1AppardGrpGdddB2HUTLRd2GGWaYAWDByX")); ((lit "bitcoin_amount"), PStr (lit "0.00174300"))]; PDict [((lit "address"), PStr (lit "1AppardGrpGdddB2HUTLRd2GGWaYAWDByX")); ((lit "bitcoin_amount"), PStr (lit "0.00500000"))]])])) (Some (PBool true)) None.

Example test_duplicate_change_output_address_error : fst (create_transaction test_duplicate_change_output_address_error_ns) = Err ValueError.
Proof. vm_compute. reflexivity. Qed.

(** In test_add_input_to_pay_fee the key input_selection_approach, which the code ignores, is read as input_selection_approaches. *)
