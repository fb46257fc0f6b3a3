(** Model of the json module of CPython 3.6 as the repository uses it: json.dumps(d, indent=2) (transaction.py L326, L471, L555), json.loads(s)
    (transaction.py L337) and json.load(open(f)) (cli.py L246, L250), which is json.loads of the text of the file.
    CPython: Lib/json/encoder.py (_make_iterencode; ensure_ascii, no sort_keys), Lib/json/decoder.py, Modules/_json.c (scanner and strings).
    Every JSONDecodeError is a ValueError.  Not modelled: the text of errors, RecursionError for very deep nesting, the text of a float
    (float.__repr__), which is the argument float_repr: the repository writes no float. *)
From Coq Require Import String Floats.SpecFloat.
From Verif Require Import PyBase Env PyNum.

(** * json.dumps *)

(** encoder.py ESCAPE_DCT, py_encode_basestring_ascii; _json.c ascii_escape_unichar: a character inside a string. *)
Definition hex4_text (n : Z) : pystr := map digit_char [n / 4096 mod 16; n / 256 mod 16; n / 16 mod 16; n mod 16].
Definition u_escape (n : Z) : pystr := [92; 117] ++ hex4_text n.
Definition escape_char (c : Z) : pystr :=
  if c =? 34 then [92; 34]
  else if c =? 92 then [92; 92]
  else if c =? 10 then [92; 110]
  else if c =? 13 then [92; 114]
  else if c =? 9 then [92; 116]
  else if c =? 12 then [92; 102]
  else if c =? 8 then [92; 98]
  else if (32 <=? c) && (c <=? 126) then [c]
  else if c <? 65536 then u_escape c
  else u_escape (55296 + (c - 65536) / 1024) ++ u_escape (56320 + (c - 65536) mod 1024).
Definition dump_string (s : pystr) : pystr := [34] ++ flat_map escape_char s ++ [34].

(** '\n' + _indent * level with indent=2 (newline_indent) *)
Definition new_line (level : nat) : pystr := 10 :: repeat 32 (2 * level).
(** separator.join(parts) *)
Fixpoint join (sep : pystr) (parts : list pystr) : pystr :=
  match parts with
  | [] => []
  | [p] => p
  | p :: r => p ++ sep ++ join sep r
  end.

Section Dumps.
Context (float_repr : spec_float -> pystr).

(** _iterencode, _iterencode_list, _iterencode_dict at a level of indentation; the separators are ',' and ': '. *)
Fixpoint dump (level : nat) (v : pyval) : pystr :=
  match v with
  | PNone => lit "null"
  | PBool true => lit "true"
  | PBool false => lit "false"
  | PInt z => int_str z
  | PFloat S754_nan => lit "NaN"
  | PFloat (S754_infinity false) => lit "Infinity"
  | PFloat (S754_infinity true) => lit "-Infinity"
  | PFloat f => float_repr f
  | PStr s => dump_string s
  | PList [] => lit "[]"
  | PList l => lit "[" ++ new_line (S level) ++ join (lit "," ++ new_line (S level)) (map (dump (S level)) l) ++ new_line level ++ lit "]"
  | PDict [] => lit "{}"
  | PDict d =>
      lit "{" ++ new_line (S level) ++
      join (lit "," ++ new_line (S level)) (map (fun e => dump_string (fst e) ++ lit ": " ++ dump (S level) (snd e)) d) ++ new_line level ++ lit "}"
  end.
Definition dumps (v : pyval) : pystr := dump 0 v.
End Dumps.

(** * json.loads *)

(** WHITESPACE: ' ', '\t', '\n', '\r' *)
Definition is_ws (c : Z) : bool := (c =? 32) || (c =? 9) || (c =? 10) || (c =? 13).
Fixpoint skip_ws (s : pystr) : pystr :=
  match s with
  | c :: r => if is_ws c then skip_ws r else s
  | [] => []
  end.

(** scanstring_unicode (strict): the rest of a string after its opening quote: its content, and what follows the closing quote. *)
Definition hex_digit (c : Z) : option Z :=
  if (48 <=? c) && (c <=? 57) then Some (c - 48)
  else if (97 <=? c) && (c <=? 102) then Some (c - 87)
  else if (65 <=? c) && (c <=? 70) then Some (c - 55)
  else None.
Definition hex4 (a b c d : Z) : res Z :=
  match hex_digit a, hex_digit b, hex_digit c, hex_digit d with
  | Some a', Some b', Some c', Some d' => Ok (a' * 4096 + b' * 256 + c' * 16 + d')
  | _, _, _, _ => Err ValueError
  end.
Definition simple_escape (e : Z) : option Z :=
  if (e =? 34) || (e =? 92) || (e =? 47) then Some e
  else if e =? 98 then Some 8
  else if e =? 102 then Some 12
  else if e =? 110 then Some 10
  else if e =? 114 then Some 13
  else if e =? 116 then Some 9
  else None.
Definition is_high (n : Z) : bool := (55296 <=? n) && (n <=? 56319).
Definition is_low (n : Z) : bool := (56320 <=? n) && (n <=? 57343).
Fixpoint scan_string (s : pystr) : res (pystr * pystr) :=
  match s with
  | [] => Err ValueError
  | c :: r =>
      if c =? 34 then Ok ([], r)
      else if c =? 92 then
        match r with
        | [] => Err ValueError
        | e :: r1 =>
            if e =? 117 then
              match r1 with
              | h1 :: h2 :: h3 :: h4 :: r2 =>
                  n <- hex4 h1 h2 h3 h4 ;;
                  let plain := fun _ : unit => '(t, z) <- scan_string r2 ;; Ok (n :: t, z) in
                  if is_high n then
                    match r2 with
                    | x :: y :: k1 :: k2 :: k3 :: k4 :: r3 =>
                        if (x =? 92) && (y =? 117) then
                          m <- hex4 k1 k2 k3 k4 ;;
                          if is_low m then '(t, z) <- scan_string r3 ;; Ok (65536 + (n - 55296) * 1024 + (m - 56320) :: t, z)
                          else plain tt
                        else plain tt
                    | _ => plain tt
                    end
                  else plain tt
              | _ => Err ValueError
              end
            else
              match simple_escape e with
              | None => Err ValueError
              | Some k => '(t, z) <- scan_string r1 ;; Ok (k :: t, z)
              end
        end
      else if c <=? 31 then Err ValueError
      else '(t, z) <- scan_string r ;; Ok (c :: t, z)
  end.

(** _match_number_unicode: the number at the front. *)
Definition ascii_digit (c : Z) : bool := (48 <=? c) && (c <=? 57).
Fixpoint span_digits (s : pystr) : pystr * pystr :=
  match s with
  | c :: r => if ascii_digit c then let '(a, b) := span_digits r in (c :: a, b) else ([], s)
  | [] => ([], [])
  end.
Definition int_part (s : pystr) : option (pystr * pystr) :=
  match s with
  | c :: r => if c =? 48 then Some ([c], r) else if (49 <=? c) && (c <=? 57) then let '(a, b) := span_digits r in Some (c :: a, b) else None
  | [] => None
  end.
Definition frac_part (s : pystr) : pystr * pystr :=
  match s with
  | c :: r => if c =? 46 then match span_digits r with ([], _) => ([], s) | (a, b) => (c :: a, b) end else ([], s)
  | [] => ([], s)
  end.
Definition exp_part (s : pystr) : pystr * pystr :=
  match s with
  | c :: r =>
      if (c =? 101) || (c =? 69) then
        let '(sg, r1) := match r with x :: r' => if (x =? 43) || (x =? 45) then ([x], r') else ([], r) | [] => ([], []) end in
        match span_digits r1 with ([], _) => ([], s) | (a, b) => (c :: sg ++ a, b) end
      else ([], s)
  | [] => ([], s)
  end.
Section WithEnv.
Context {E : Env}.
Definition scan_number (s : pystr) : res (pyval * pystr) :=
  let '(sg, s1) := match s with c :: r => if c =? 45 then ([c], r) else ([], s) | [] => ([], s) end in
  match int_part s1 with
  | None => Err ValueError
  | Some (ip, s2) =>
      let '(fp, s3) := frac_part s2 in
      let '(ep, s4) := exp_part s3 in
      match fp, ep with
      | [], [] => z <- py_int_str 10 (sg ++ ip) ;; Ok (PInt z, s4)
      | _, _ => f <- py_float_str (sg ++ ip ++ fp ++ ep) ;; Ok (PFloat f, s4)
      end
  end.

(** Text after the prefix p. *)
Fixpoint after_prefix (p s : pystr) : option pystr :=
  match p, s with
  | [], _ => Some s
  | x :: p', y :: s' => if x =? y then after_prefix p' s' else None
  | _ :: _, [] => None
  end.
(** The words scan_once_unicode knows. *)
Definition constants : list (pystr * pyval) :=
  [ (lit "null", PNone); (lit "true", PBool true); (lit "false", PBool false);
    (lit "NaN", PFloat S754_nan); (lit "Infinity", PFloat (S754_infinity false)); (lit "-Infinity", PFloat (S754_infinity true)) ].
Fixpoint scan_constant (l : list (pystr * pyval)) (s : pystr) : option (pyval * pystr) :=
  match l with
  | [] => None
  | (w, v) :: r => match after_prefix w s with Some z => Some (v, z) | None => scan_constant r s end
  end.

(** scan_once_unicode, _parse_array_unicode (items: after '[' and white space, when ']' does not follow), _parse_object_unicode (members).
    The fuel in loads is always sufficient. *)
Fixpoint scan_once (fuel : nat) (s : pystr) : res (pyval * pystr) :=
  match fuel with
  | O => Err ValueError
  | S f =>
      match s with
      | [] => Err ValueError
      | c :: r =>
          if c =? 34 then '(t, z) <- scan_string r ;; Ok (PStr t, z)
          else if c =? 123 then
            match skip_ws r with
            | x :: z => if x =? 125 then Ok (PDict [], z) else '(d, z) <- members f (x :: z) [] ;; Ok (PDict d, z)
            | [] => Err ValueError
            end
          else if c =? 91 then
            match skip_ws r with
            | x :: z => if x =? 93 then Ok (PList [], z) else '(l, z) <- items f (x :: z) ;; Ok (PList l, z)
            | [] => Err ValueError
            end
          else match scan_constant constants s with Some vz => Ok vz | None => scan_number s end
      end
  end
with items (fuel : nat) (s : pystr) : res (list pyval * pystr) :=
  match fuel with
  | O => Err ValueError
  | S f =>
      '(v, s1) <- scan_once f s ;;
      match skip_ws s1 with
      | x :: z => if x =? 93 then Ok ([v], z)
                  else if x =? 44 then '(l, z') <- items f (skip_ws z) ;; Ok (v :: l, z')
                  else Err ValueError
      | [] => Err ValueError
      end
  end
with members (fuel : nat) (s : pystr) (d : dict) : res (dict * pystr) :=
  match fuel with
  | O => Err ValueError
  | S f =>
      match s with
      | q :: s0 =>
          if q =? 34 then
            '(k, s1) <- scan_string s0 ;;
            match skip_ws s1 with
            | x :: s2 =>
                if x =? 58 then
                  '(v, s3) <- scan_once f (skip_ws s2) ;;
                  match skip_ws s3 with
                  | y :: z => if y =? 125 then Ok (dict_set k v d, z)
                              else if y =? 44 then members f (skip_ws z) (dict_set k v d)
                              else Err ValueError
                  | [] => Err ValueError
                  end
                else Err ValueError
            | [] => Err ValueError
            end
          else Err ValueError
      | [] => Err ValueError
      end
  end.

(** decoder.py JSONDecoder.decode: white space, a value, white space, the end. *)
Definition loads (s : pystr) : res pyval :=
  '(v, z) <- scan_once (2 * length s + 2) (skip_ws s) ;;
  match skip_ws z with [] => Ok v | _ => Err ValueError end.
End WithEnv.

(** The environment with the json module of CPython. *)
Definition with_json (float_repr : spec_float -> pystr) (E : Env) : Env := {|
  uni_isdigit := @uni_isdigit E; uni_decimal := @uni_decimal E; uni_isspace := @uni_isspace E;
  sha256 := @sha256 E; ripemd160 := @ripemd160 E;
  ec_format_private_key_hex := @ec_format_private_key_hex E; ec_validate_private_key_hex := @ec_validate_private_key_hex E; ec_public_key := @ec_public_key E;
  ec_sign := @ec_sign E; ec_sign_digest := @ec_sign_digest E; ec_sign_digest_k := @ec_sign_digest_k E;
  ec_verify := @ec_verify E; ec_verify_digest := @ec_verify_digest E; ec_split := @ec_split E;
  der_encode := @der_encode E; der_decode := @der_decode E;
  json_dumps := dumps float_repr; json_loads := @loads E
|}.
