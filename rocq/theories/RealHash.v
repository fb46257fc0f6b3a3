(** SHA-256 and RIPEMD-160, to run the model on the repository's own test vectors (Fidelity.v).  No theorem uses them. *)
From Verif Require Import PyBase.

(** * 32-bit words *)
Definition w32 (x : Z) : Z := x mod 2 ^ 32.
Definition rotr (x n : Z) : Z := Z.lor (Z.shiftr x n) (w32 (Z.shiftl x (32 - n))).
Definition rotl (x n : Z) : Z := rotr x (32 - n).
Definition not32 (x : Z) : Z := Z.lxor x (2 ^ 32 - 1).

Fixpoint chunk (fuel n : nat) (l : list Z) : list (list Z) :=
  match fuel with
  | O => []
  | S f => match l with [] => [] | _ => firstn n l :: chunk f n (skipn n l) end
  end.
Definition be4 (x : Z) : list Z := [x / 2 ^ 24 mod 256; x / 2 ^ 16 mod 256; x / 2 ^ 8 mod 256; x mod 256].
Definition le4 (x : Z) : list Z := [x mod 256; x / 2 ^ 8 mod 256; x / 2 ^ 16 mod 256; x / 2 ^ 24 mod 256].

(** Padding to 64-byte blocks; [len8] is the 8-byte encoding of the bit length. *)
Definition md_pad (l : list Z) (len8 : list Z) : list Z :=
  l ++ [128] ++ repeat 0 (Nat.modulo (119 - Nat.modulo (length l) 64) 64) ++ len8.

(** * SHA-256 *)
Definition sha_k : list Z :=
 [0x428a2f98;0x71374491;0xb5c0fbcf;0xe9b5dba5;0x3956c25b;0x59f111f1;0x923f82a4;0xab1c5ed5;
  0xd807aa98;0x12835b01;0x243185be;0x550c7dc3;0x72be5d74;0x80deb1fe;0x9bdc06a7;0xc19bf174;
  0xe49b69c1;0xefbe4786;0x0fc19dc6;0x240ca1cc;0x2de92c6f;0x4a7484aa;0x5cb0a9dc;0x76f988da;
  0x983e5152;0xa831c66d;0xb00327c8;0xbf597fc7;0xc6e00bf3;0xd5a79147;0x06ca6351;0x14292967;
  0x27b70a85;0x2e1b2138;0x4d2c6dfc;0x53380d13;0x650a7354;0x766a0abb;0x81c2c92e;0x92722c85;
  0xa2bfe8a1;0xa81a664b;0xc24b8b70;0xc76c51a3;0xd192e819;0xd6990624;0xf40e3585;0x106aa070;
  0x19a4c116;0x1e376c08;0x2748774c;0x34b0bcb5;0x391c0cb3;0x4ed8aa4a;0x5b9cca4f;0x682e6ff3;
  0x748f82ee;0x78a5636f;0x84c87814;0x8cc70208;0x90befffa;0xa4506ceb;0xbef9a3f7;0xc67178f2].

Definition be_word (l : list Z) : Z := fold_left (fun a b => a * 256 + b mod 256) l 0.
Definition le_word (l : list Z) : Z := fold_right (fun b a => b mod 256 + 256 * a) 0 l.

(** Message schedule; [ws] is kept with the most recent word first. *)
Fixpoint sha_extend (n : nat) (ws : list Z) : list Z :=
  match n with
  | O => ws
  | S n' =>
      let w i := nth i ws 0 in
      let s0 := Z.lxor (Z.lxor (rotr (w 14%nat) 7) (rotr (w 14%nat) 18)) (Z.shiftr (w 14%nat) 3) in
      let s1 := Z.lxor (Z.lxor (rotr (w 1%nat) 17) (rotr (w 1%nat) 19)) (Z.shiftr (w 1%nat) 10) in
      sha_extend n' (w32 (w 15%nat + s0 + w 6%nat + s1) :: ws)
  end.

Record st8 := mk8 { a8 : Z; b8 : Z; c8 : Z; d8 : Z; e8 : Z; f8 : Z; g8 : Z; h8 : Z }.
Fixpoint sha_rounds (ks ws : list Z) (s : st8) : st8 :=
  match ks, ws with
  | k :: ks', w :: ws' =>
      let '(mk8 a b c d e f g h) := s in
      let S1 := Z.lxor (Z.lxor (rotr e 6) (rotr e 11)) (rotr e 25) in
      let ch := Z.lxor (Z.land e f) (Z.land (not32 e) g) in
      let t1 := w32 (h + S1 + ch + k + w) in
      let S0 := Z.lxor (Z.lxor (rotr a 2) (rotr a 13)) (rotr a 22) in
      let maj := Z.lxor (Z.lxor (Z.land a b) (Z.land a c)) (Z.land b c) in
      let t2 := w32 (S0 + maj) in
      sha_rounds ks' ws' (mk8 (w32 (t1 + t2)) a b c (w32 (d + t1)) e f g)
  | _, _ => s
  end.
Definition sha_block (s : st8) (blk : list Z) : st8 :=
  let ws := map be_word (chunk 16 4 blk) in
  let ws := rev (sha_extend 48 (rev ws)) in
  let r := sha_rounds sha_k ws s in
  mk8 (w32 (a8 s + a8 r)) (w32 (b8 s + b8 r)) (w32 (c8 s + c8 r)) (w32 (d8 s + d8 r))
      (w32 (e8 s + e8 r)) (w32 (f8 s + f8 r)) (w32 (g8 s + g8 r)) (w32 (h8 s + h8 r)).
Definition sha_init : st8 :=
  mk8 0x6a09e667 0xbb67ae85 0x3c6ef372 0xa54ff53a 0x510e527f 0x9b05688c 0x1f83d9ab 0x5be0cd19.
Definition demo_sha256 (l : list Z) : list Z :=
  let n := 8 * Z.of_nat (length l) in
  let m := md_pad l (be4 (n / 2 ^ 32) ++ be4 n) in
  let s := fold_left sha_block (chunk (length m) 64 m) sha_init in
  be4 (a8 s) ++ be4 (b8 s) ++ be4 (c8 s) ++ be4 (d8 s) ++ be4 (e8 s) ++ be4 (f8 s) ++ be4 (g8 s) ++ be4 (h8 s).

(** * RIPEMD-160 *)
Definition rmd_rl : list nat := [0;1;2;3;4;5;6;7;8;9;10;11;12;13;14;15;
  7;4;13;1;10;6;15;3;12;0;9;5;2;14;11;8; 3;10;14;4;9;15;8;1;2;7;0;6;13;11;5;12;
  1;9;11;10;0;8;12;4;13;3;7;15;14;5;6;2; 4;0;5;9;7;12;2;10;14;1;3;8;11;6;15;13]%nat.
Definition rmd_rr : list nat := [5;14;7;0;9;2;11;4;13;6;15;8;1;10;3;12;
  6;11;3;7;0;13;5;10;14;15;8;12;4;9;1;2; 15;5;1;3;7;14;6;9;11;8;12;2;10;0;4;13;
  8;6;4;1;3;11;15;0;5;12;2;13;9;7;10;14; 12;15;10;4;1;5;8;7;6;2;13;14;0;3;9;11]%nat.
Definition rmd_sl : list Z := [11;14;15;12;5;8;7;9;11;13;14;15;6;7;9;8;
  7;6;8;13;11;9;7;15;7;12;15;9;11;7;13;12; 11;13;6;7;14;9;13;15;14;8;13;6;5;12;7;5;
  11;12;14;15;14;15;9;8;9;14;5;6;8;6;5;12; 9;15;5;11;6;8;13;12;5;12;13;14;11;8;5;6].
Definition rmd_sr : list Z := [8;9;9;11;13;15;15;5;7;7;8;11;14;14;12;6;
  9;13;15;7;12;8;9;11;7;7;12;7;6;15;13;11; 9;7;15;11;8;6;6;14;12;13;5;14;13;13;7;5;
  15;5;8;11;14;14;6;14;6;9;12;9;12;5;15;8; 8;5;12;9;12;5;14;6;8;13;6;5;15;13;11;11].
Definition rmd_kl : list Z := [0;0x5A827999;0x6ED9EBA1;0x8F1BBCDC;0xA953FD4E].
Definition rmd_kr : list Z := [0x50A28BE6;0x5C4DD124;0x6D703EF3;0x7A6D76E9;0].
Definition rmd_f (j : nat) (x y z : Z) : Z :=
  match j with
  | 0%nat => Z.lxor (Z.lxor x y) z
  | 1%nat => Z.lor (Z.land x y) (Z.land (not32 x) z)
  | 2%nat => Z.lxor (Z.lor x (not32 y)) z
  | 3%nat => Z.lor (Z.land x z) (Z.land y (not32 z))
  | _ => Z.lxor x (Z.lor y (not32 z))
  end.
Record st5 := mk5 { a5 : Z; b5 : Z; c5 : Z; d5 : Z; e5 : Z }.
Definition rmd_step (left : bool) (ws : list Z) (s : st5) (j : nat) : st5 :=
  let '(mk5 a b c d e) := s in
  let q := Nat.div j 16 in
  let f := if left then rmd_f q b c d else rmd_f (4 - q) b c d in
  let w := nth (nth j (if left then rmd_rl else rmd_rr) 0%nat) ws 0 in
  let k := nth q (if left then rmd_kl else rmd_kr) 0 in
  let t := w32 (rotl (w32 (a + f + w + k)) (nth j (if left then rmd_sl else rmd_sr) 0) + e) in
  mk5 e t b (rotl c 10) d.
Definition rmd_block (s : st5) (blk : list Z) : st5 :=
  let ws := map le_word (chunk 16 4 blk) in
  let l := fold_left (rmd_step true ws) (seq 0 80) s in
  let r := fold_left (rmd_step false ws) (seq 0 80) s in
  mk5 (w32 (b5 s + c5 l + d5 r)) (w32 (c5 s + d5 l + e5 r)) (w32 (d5 s + e5 l + a5 r))
      (w32 (e5 s + a5 l + b5 r)) (w32 (a5 s + b5 l + c5 r)).
Definition rmd_init : st5 := mk5 0x67452301 0xEFCDAB89 0x98BADCFE 0x10325476 0xC3D2E1F0.
Definition demo_ripemd160 (l : list Z) : list Z :=
  let n := 8 * Z.of_nat (length l) in
  let m := md_pad l (le4 n ++ le4 (n / 2 ^ 32)) in
  let s := fold_left rmd_block (chunk (length m) 64 m) rmd_init in
  le4 (a5 s) ++ le4 (b5 s) ++ le4 (c5 s) ++ le4 (d5 s) ++ le4 (e5 s).
