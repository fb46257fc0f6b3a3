(** A concrete environment: DER; a fragment of the Unicode database; toy hashes, a toy signature scheme and a toy
    serialisation standing in for hashlib, the ecdsa submodule and json.
    It shows that the assumptions of EnvOk.v are satisfiable together, and lets the model be executed. *)
From Coq Require Import String Floats.SpecFloat.
From Verif Require Import PyBase Env PyNum Spec.

(** * Toy hashes: a 16-bit polynomial hash, stretched to 32 or 20 bytes.  They are cheap to evaluate; no theorem
    assumes more of a hash than the length of its result. *)
Definition toy_mix (seed : Z) (l : list Z) : Z := fold_left (fun h b => (h * 31 + b + 7) mod 65521) l seed.
Fixpoint toy_stretch (n : nat) (s : Z) : list Z :=
  match n with O => [] | S n' => s mod 256 :: toy_stretch n' ((s * 17 + 5) mod 65521) end.
Definition demo_sha256 (l : list Z) : list Z := toy_stretch 32 (toy_mix 1 l).
Definition demo_ripemd160 (l : list Z) : list Z := toy_stretch 20 (toy_mix 2 l).

(** * DER of an ECDSA signature *)
Definition der_body (n : Z) : list Z :=
  let b := if n =? 0 then [0] else digits 256 n in
  if 128 <=? hd 0 b then 0 :: b else b.
Definition der_int (n : Z) : list Z := 2 :: Z.of_nat (length (der_body n)) :: der_body n.
Definition demo_der_encode (r s : Z) : list Z :=
  let b := der_int r ++ der_int s in
  48 :: Z.of_nat (length b) :: b.
Definition der_read_int (l : list Z) : res (Z * list Z) :=
  match l with
  | 2 :: n :: rest =>
      if Z.of_nat (length rest) <? n then Err LibraryError
      else Ok (val 256 (firstn (Z.to_nat n) rest), skipn (Z.to_nat n) rest)
  | _ => Err LibraryError
  end.
Definition demo_der_decode (l : list Z) : res (Z * Z) :=
  match l with
  | 48 :: n :: rest =>
      if negb (n =? Z.of_nat (length rest)) then Err LibraryError
      else '(r, rest) <- der_read_int rest ;;
           '(s, rest) <- der_read_int rest ;;
           match rest with [] => Ok (r, s) | _ => Err LibraryError end
  | _ => Err LibraryError
  end.

(** * Toy signatures: r = SHA-256(public key || digest), s = SHA-256(private key || digest || nonce). *)
Definition hex_chars : pystr := lit "0123456789abcdef".
Definition all_hex (s : pystr) : bool := forallb (fun c => existsb (Z.eqb c) hex_chars) s.
Definition toy_valid (k : pystr) : bool := Nat.eqb (length k) 64 && all_hex k && negb (str_eqb k (repeat 48 64)).
Definition toy_format (k : pystr) : res pystr :=
  if Nat.leb (length k) 64 then Ok (repeat 48 (64 - length k) ++ k) else Err LibraryError.
Definition toy_validate (k : pystr) : res unit := if toy_valid k then Ok tt else Err LibraryError.
Definition toy_public (k : pystr) : pystr := hex_of (demo_sha256 (1 :: k)) ++ hex_of (demo_sha256 (2 :: k)).
Definition toy_public_key (k : pystr) : res pystr := if toy_valid k then Ok (toy_public k) else Err LibraryError.
Definition toy_sign (k d nonce : pystr) : res pystr :=
  if toy_valid k then Ok (hex_of (demo_sha256 (toy_public k ++ d)) ++ hex_of (demo_sha256 (k ++ d ++ nonce)))
  else Err LibraryError.
Definition toy_verify (p d s : pystr) : res bool :=
  Ok (str_eqb (firstn 64 s) (hex_of (demo_sha256 (p ++ d)))).

(** * Toy serialisation of JSON values *)
Fixpoint ser (v : pyval) : list Z :=
  match v with
  | PNone => [0]
  | PBool b => [1; if b then 1 else 0]
  | PInt z => [2; z]
  | PStr s => 3 :: Z.of_nat (length s) :: s
  | PList l => 4 :: Z.of_nat (length l) :: concat (map ser l)
  | PDict d => 5 :: Z.of_nat (length d) ::
      concat (map (fun p => Z.of_nat (length (fst p)) :: fst p ++ ser (snd p)) d)
  | PFloat _ => [6]
  end.
Fixpoint des (fuel : nat) (l : list Z) : res (pyval * list Z) :=
  match fuel with
  | O => Err ValueError
  | S f =>
      let fix many (n : nat) (l : list Z) : res (list pyval * list Z) :=
        match n with
        | O => Ok ([], l)
        | S n' => '(v, l) <- des f l ;; '(vs, l) <- many n' l ;; Ok (v :: vs, l)
        end in
      let fix pairs (n : nat) (l : list Z) : res (list (pystr * pyval) * list Z) :=
        match n with
        | O => Ok ([], l)
        | S n' =>
            match l with
            | k :: l =>
                '(v, l2) <- des f (skipn (Z.to_nat k) l) ;;
                '(vs, l3) <- pairs n' l2 ;;
                Ok ((firstn (Z.to_nat k) l, v) :: vs, l3)
            | [] => Err ValueError
            end
        end in
      match l with
      | 0 :: r => Ok (PNone, r)
      | 1 :: b :: r => Ok (PBool (b =? 1), r)
      | 2 :: z :: r => Ok (PInt z, r)
      | 3 :: n :: r => Ok (PStr (firstn (Z.to_nat n) r), skipn (Z.to_nat n) r)
      | 4 :: n :: r => '(vs, r) <- many (Z.to_nat n) r ;; Ok (PList vs, r)
      | 5 :: n :: r => '(ps, r) <- pairs (Z.to_nat n) r ;; Ok (PDict ps, r)
      | 6 :: r => Ok (PFloat S754_nan, r)
      | _ => Err ValueError
      end
  end.
Definition demo_loads (s : pystr) : res pyval :=
  match des (S (length s)) s with Ok (v, []) => Ok v | Ok _ => Err ValueError | Err e => Err e end.

(** * Unicode fragment: Arabic-Indic digits, superscript digits, two spaces. *)
Definition demo_decimal (c : Z) : option Z := if (1632 <=? c) && (c <=? 1641) then Some (c - 1632) else None.
Definition demo_isdigit (c : Z) : bool :=
  (if demo_decimal c then true else false) || (c =? 178) || (c =? 179) || (c =? 185).
Definition demo_isspace (c : Z) : bool := (c =? 160) || (c =? 8195).

Definition demo_env : Env := {|
  uni_isdigit := demo_isdigit; uni_decimal := demo_decimal; uni_isspace := demo_isspace;
  sha256 := demo_sha256; ripemd160 := demo_ripemd160;
  ec_format_private_key_hex := toy_format;
  ec_validate_private_key_hex := toy_validate;
  ec_public_key := toy_public_key;
  ec_sign := fun k d => toy_sign k d [];
  ec_sign_digest := fun k d => toy_sign k d [];
  ec_sign_digest_k := toy_sign;
  ec_verify := toy_verify;
  ec_verify_digest := toy_verify;
  ec_split := fun s => if Nat.eqb (length s) 128 then Ok (firstn 64 s, skipn 64 s) else Err LibraryError;
  der_encode := demo_der_encode; der_decode := demo_der_decode;
  json_dumps := ser; json_loads := demo_loads
|}.
