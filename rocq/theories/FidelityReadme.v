(** The sessions printed in the README of the repository, run in the model of the whole program.  Generated by tools/readme.py from README.md
    (a selection; tools/readme.py --full checks all).  These are tests of the model, not proofs of properties. *)
From Coq Require Import String Floats.SpecFloat.
From Verif Require Import PyBase Env PyNum Validate Basic TxInput TxOutput Tx Create Logger Cli Files Json Demo DemoTx DemoCreate.
From Verif Require Import Args.
From Verif Require RealHash.

Definition find2 {A : Type} (l : list (pystr * pystr * A)) (a b : pystr) : option A :=
  option_map snd (List.find (fun '(x, y, _) => str_eqb x a && str_eqb y b) l).
Definition readme_public_keys : list (pystr * pystr) := [((lit "0000000000000000000000000000000000000000000000000000000000000001"), (lit "79be667ef9dcbbac55a06295ce870b07029bfcdb2dce28d959f2815b16f81798483ada7726a3c4655da4fbfc0e1108a8fd17b448a68554199c47d08ffb10d4b8")); ((lit "0000000000000000000000007468655f6c6962726172795f6f665f626162656c"), (lit "e8ade66f2cc0e43073f4ccea47db279bbab1a5e30a6e8ba49f12538b215c5b9e0d28bd080d35fde878081e8f05dbc23eeba02b544fa83e6d13b5f2145681e76d"))].
Definition readme_signatures : list (pystr * pystr * pystr) := [((lit "0000000000000000000000000000000000000000000000000000000000000001"), (lit "68656c6c6f20776f726c64"), (lit "50abcc1d060f40ca0049124dadc0977ecca7a0ed05a32a1dae0a5178cf8ca28827f4d877497750ce5079f48a1beb4aa590110f165de67cd2c439fd2a3d91927e"))].
Definition readme_digest_signatures : list (pystr * pystr * pystr) := [((lit "0000000000000000000000007468655f6c6962726172795f6f665f626162656c"), (lit "b1bbeba742f45883e5508c7d408a829b2ec801b15a437a006d15fb7945fa5076"), (lit "e516545b7d5ec7222c11421da59171ce7fa1237723146ca82e0a90e1d16032137fcfad1c1734f6f5af208e2f8f43842ac01fc9b8b93d803d11c0f27fc9b749f7"))].
Definition readme_valid : list (pystr * pystr * pystr) := [((lit "79be667ef9dcbbac55a06295ce870b07029bfcdb2dce28d959f2815b16f81798483ada7726a3c4655da4fbfc0e1108a8fd17b448a68554199c47d08ffb10d4b8"), (lit "68656c6c6f20776f726c64"), (lit "50abcc1d060f40ca0049124dadc0977ecca7a0ed05a32a1dae0a5178cf8ca28827f4d877497750ce5079f48a1beb4aa590110f165de67cd2c439fd2a3d91927e")); ((lit "e8ade66f2cc0e43073f4ccea47db279bbab1a5e30a6e8ba49f12538b215c5b9e0d28bd080d35fde878081e8f05dbc23eeba02b544fa83e6d13b5f2145681e76d"), (lit "b1bbeba742f45883e5508c7d408a829b2ec801b15a437a006d15fb7945fa5076"), (lit "e516545b7d5ec7222c11421da59171ce7fa1237723146ca82e0a90e1d16032137fcfad1c1734f6f5af208e2f8f43842ac01fc9b8b93d803d11c0f27fc9b749f7"))].
Definition readme_sign (l : list (pystr * pystr * pystr)) (k d : pystr) : res pystr :=
  k <- toy_format k ;; match find2 l k d with Some s => Ok s | None => Err LibraryError end.
Definition readme_verify (p d s : pystr) : res bool := Ok (existsb (fun '(x, y, z) => str_eqb x p && str_eqb y d && str_eqb z s) readme_valid).
(** Real hashes and JSON, recorded curve operations. *)
Definition readme_env : Env := with_json (fun _ => []) {|
  uni_isdigit := demo_isdigit; uni_decimal := demo_decimal; uni_isspace := demo_isspace;
  sha256 := RealHash.demo_sha256; ripemd160 := RealHash.demo_ripemd160;
  ec_format_private_key_hex := toy_format;
  ec_validate_private_key_hex := toy_validate;
  ec_public_key := fun k => match map_find k readme_public_keys with Some p => Ok p | None => Err LibraryError end;
  ec_sign := readme_sign readme_signatures;
  ec_sign_digest := readme_sign readme_digest_signatures;
  ec_sign_digest_k := fun _ _ _ => Err LibraryError;
  ec_verify := readme_verify;
  ec_verify_digest := readme_verify;
  ec_split := fun s => if Nat.eqb (length s) 128 then Ok (firstn 64 s, skipn 64 s) else Err LibraryError;
  der_encode := demo_der_encode; der_decode := demo_der_decode;
  json_dumps := ser; json_loads := demo_loads
|}.

Example readme_address : program (E := readme_env) (mk_fs (fun f => Err LibraryError) (fun d => Err LibraryError)) no_shell [] (fun _ => Ok tt)
  [(lit "--task"); (lit "get_address"); (lit "--private-key-hex=01")] = ([(lit "1EHNa6Q4Jz2uvNExL497mE43ikXhwF6kZm")], Ok tt).
Proof. vm_compute. reflexivity. Qed.

Example readme_unsigned : program (E := readme_env) (mk_fs (fun f => if str_eqb f (lit "cli_input/inputs.json") then Ok (lit "[
  {
    ""address"": ""1CTumCMjzBfccCJBTkHoPQmAwEqU9Uj2sQ"",
    ""transaction_id"": ""8482e48391425d88fe30bd4066957000335f58e83f854f997146f41b9493b4ce"",
    ""previous_output_index"": 9,
    ""bitcoin_amount"": ""0.002""
  }
]
") else if str_eqb f (lit "cli_input/design.json") then Ok (lit "{
  ""change_address"": ""1CTumCMjzBfccCJBTkHoPQmAwEqU9Uj2sQ"",
  ""fee"": 225,
  ""max_fee"": 250,
  ""max_spend_percentage"": ""100.00"",
  ""outputs"": [
    {
      ""address"": ""12RbVkKwHcwHbMZmnSVAyR4g88ZChpQD6f"",
      ""bitcoin_amount"": ""0.00199775""
    }
  ]
}
") else Err LibraryError) (fun d => Err LibraryError)) no_shell [] (fun _ => Ok tt)
  [(lit "--task"); (lit "create_unsigned_transaction_json"); (lit "--input-file"); (lit "cli_input/inputs.json"); (lit "--design-file"); (lit "cli_input/design.json")] = ([(lit "{
  ""version"": ""01000000"",
  ""input_count"": ""01"",
  ""inputs"": [
    {
      ""previous_output_hash"": ""ceb493941bf44671994f853fe8585f330070956640bd30fe885d429183e48284"",
      ""previous_output_index"": ""09000000"",
      ""previous_output_index_int"": 9,
      ""script_length"": null,
      ""script_length_int"": null,
      ""script_sig"": null,
      ""sequence"": ""ffffffff"",
      ""public_key_hex"": null,
      ""script_pub_key_length"": ""19"",
      ""script_pub_key_length_int"": 25,
      ""script_pub_key"": ""76a9147dc03dfbe8c62821bcd1ab95446b88ed7008a76e88ac"",
      ""address"": ""1CTumCMjzBfccCJBTkHoPQmAwEqU9Uj2sQ"",
      ""txid"": ""8482e48391425d88fe30bd4066957000335f58e83f854f997146f41b9493b4ce"",
      ""satoshi_amount"": 200000,
      ""bitcoin_amount"": ""0.00200000""
    }
  ],
  ""output_count"": ""01"",
  ""outputs"": [
    {
      ""value"": ""5f0c030000000000"",
      ""script_length"": ""19"",
      ""script_length_int"": 25,
      ""script_pub_key"": ""76a9140f9ee78522f6cc8a88784ae02b0408e452d8025988ac"",
      ""address"": ""12RbVkKwHcwHbMZmnSVAyR4g88ZChpQD6f"",
      ""bitcoin_amount"": ""0.00199775"",
      ""satoshi_amount"": 199775
    }
  ],
  ""block_lock_time"": ""00000000"",
  ""hash_type_4_byte"": ""01000000"",
  ""hash_type_1_byte"": ""01"",
  ""signed"": false,
  ""total_input"": {
    ""satoshi_amount"": 200000,
    ""bitcoin_amount"": ""0.00200000""
  },
  ""total_output"": {
    ""satoshi_amount"": 199775,
    ""bitcoin_amount"": ""0.00199775""
  },
  ""fee"": {
    ""satoshi_amount"": 225,
    ""bitcoin_amount"": ""0.00000225""
  },
  ""change_address"": ""1CTumCMjzBfccCJBTkHoPQmAwEqU9Uj2sQ"",
  ""change"": {
    ""satoshi_amount"": 0,
    ""bitcoin_amount"": ""0.00000000""
  },
  ""estimated_size_bytes"": 223,
  ""estimated_fee_rate"": {
    ""satoshi_per_byte"": ""1.0090"",
    ""bitcoin_per_byte"": ""0.00000001""
  },
  ""size_bytes"": null,
  ""fee_rate"": {
    ""satoshi_amount"": null,
    ""bitcoin_amount"": null
  }
}")], Ok tt).
Proof. vm_compute. reflexivity. Qed.

Example readme_verified_json : program (E := readme_env) (mk_fs (fun f => if str_eqb f (lit "cli_output/tx_signed.json") then Ok (lit "{
  ""version"": ""01000000"",
  ""input_count"": ""01"",
  ""inputs"": [
    {
      ""previous_output_hash"": ""ceb493941bf44671994f853fe8585f330070956640bd30fe885d429183e48284"",
      ""previous_output_index"": ""09000000"",
      ""previous_output_index_int"": 9,
      ""script_length"": ""8b"",
      ""script_length_int"": 139,
      ""script_sig"": ""483045022100e516545b7d5ec7222c11421da59171ce7fa1237723146ca82e0a90e1d160321302207fcfad1c1734f6f5af208e2f8f43842ac01fc9b8b93d803d11c0f27fc9b749f7014104e8ade66f2cc0e43073f4ccea47db279bbab1a5e30a6e8ba49f12538b215c5b9e0d28bd080d35fde878081e8f05dbc23eeba02b544fa83e6d13b5f2145681e76d"",
      ""sequence"": ""ffffffff"",
      ""public_key_hex"": ""e8ade66f2cc0e43073f4ccea47db279bbab1a5e30a6e8ba49f12538b215c5b9e0d28bd080d35fde878081e8f05dbc23eeba02b544fa83e6d13b5f2145681e76d"",
      ""script_pub_key_length"": ""19"",
      ""script_pub_key_length_int"": 25,
      ""script_pub_key"": ""76a9147dc03dfbe8c62821bcd1ab95446b88ed7008a76e88ac"",
      ""address"": ""1CTumCMjzBfccCJBTkHoPQmAwEqU9Uj2sQ"",
      ""txid"": ""8482e48391425d88fe30bd4066957000335f58e83f854f997146f41b9493b4ce"",
      ""satoshi_amount"": 200000,
      ""bitcoin_amount"": ""0.00200000""
    }
  ],
  ""output_count"": ""01"",
  ""outputs"": [
    {
      ""value"": ""5f0c030000000000"",
      ""script_length"": ""19"",
      ""script_length_int"": 25,
      ""script_pub_key"": ""76a9140f9ee78522f6cc8a88784ae02b0408e452d8025988ac"",
      ""address"": ""12RbVkKwHcwHbMZmnSVAyR4g88ZChpQD6f"",
      ""bitcoin_amount"": ""0.00199775"",
      ""satoshi_amount"": 199775
    }
  ],
  ""block_lock_time"": ""00000000"",
  ""hash_type_4_byte"": ""01000000"",
  ""hash_type_1_byte"": ""01"",
  ""signed"": true,
  ""total_input"": {
    ""satoshi_amount"": 200000,
    ""bitcoin_amount"": ""0.00200000""
  },
  ""total_output"": {
    ""satoshi_amount"": 199775,
    ""bitcoin_amount"": ""0.00199775""
  },
  ""fee"": {
    ""satoshi_amount"": 225,
    ""bitcoin_amount"": ""0.00000225""
  },
  ""change_address"": null,
  ""change"": {
    ""satoshi_amount"": null,
    ""bitcoin_amount"": null
  },
  ""estimated_size_bytes"": 223,
  ""estimated_fee_rate"": {
    ""satoshi_per_byte"": ""1.0090"",
    ""bitcoin_per_byte"": ""0.00000001""
  },
  ""size_bytes"": 224,
  ""fee_rate"": {
    ""satoshi_per_byte"": ""1.0045"",
    ""bitcoin_per_byte"": ""0.00000001""
  }
}
") else Err LibraryError) (fun d => Err LibraryError)) no_shell [] (fun _ => Ok tt)
  [(lit "--task"); (lit "verify_signed_transaction_json"); (lit "--data-file"); (lit "cli_output/tx_signed.json")] = ([(lit "Valid signature.")], Ok tt).
Proof. vm_compute. reflexivity. Qed.
