(** FIPS 180-4 (SHA-1, SHA-256, SHA-384, SHA-512) and RFC 1321 (MD5).  Messages
    are lists of bytes, words are integers. *)
From Verif Require Import Base BytesSpec.

(** FIPS 180-4, 3.2: rotations of a w-bit word *)
Definition ROTR (w n x : Z) : Z := x / 2 ^ n + (x mod 2 ^ n) * 2 ^ (w - n).
Definition ROTL (w n x : Z) : Z := (x mod 2 ^ (w - n)) * 2 ^ n + x / 2 ^ (w - n).
Definition SHR (n x : Z) : Z := x / 2 ^ n.
Definition xor3 (a b c : Z) : Z := Z.lxor (Z.lxor a b) c.
(** 4.1 *)
Definition Ch (x y z : Z) : Z := Z.lxor (Z.land x y) (Z.land (Z.lnot x) z).
Definition Maj (x y z : Z) : Z := xor3 (Z.land x y) (Z.land x z) (Z.land y z).
Definition Parity (x y z : Z) : Z := xor3 x y z.

(** 5.1: one bit 1, the least number of zeros, the length in bits; [lb] is the
    size of the length field and [bs] that of a block, in bytes *)
Definition zeros_needed (bs lb len : nat) : nat := ((2 * bs - lb - 1 - len mod bs) mod bs)%nat.
Definition pad_with (bs lb : nat) (field : list Z) (m : list Z) : list Z :=
  m ++ [128] ++ repeat 0 (zeros_needed bs lb (length m)) ++ field.
Definition sha_pad (bs lb : nat) (m : list Z) : list Z := pad_with bs lb (be_bytes lb (8 * Z.of_nat (length m))) m.
(** 6: iteration of the compression function over the blocks *)
Definition iterate (bs : nat) (f : list Z -> list Z -> list Z) (iv m : list Z) : list Z := fold_left f (chunks bs m) iv.
Definition add_words (w : Z) (a b : list Z) : list Z := map (fun p => (fst p + snd p) mod 2 ^ w) (combine a b).
Definition words_be (n : nat) (block : list Z) : list Z := map be_val (chunks n block).
Definition out_be (n : nat) (ws : list Z) : list Z := concat (map (be_bytes n) ws).

(** constants: first bits of the fractional parts of roots of the first primes (4.2, 5.3) *)
Definition primes : list Z :=
  filter (fun p => forallb (fun d => negb (p mod d =? 0)) (map Z.of_nat (seq 2 (Z.to_nat p - 2)))) (map Z.of_nat (seq 2 408)).
(** the integer part of the k-th root of n *)
Definition iroot (k n : Z) : Z := fold_left (fun r b => if (r + 2 ^ b) ^ k <=? n then r + 2 ^ b else r) (map Z.of_nat (rev (seq 0 80))) 0.
(** the first w bits of the fractional part of the k-th root of p *)
Definition frac_root (k w p : Z) : Z := iroot k (p * 2 ^ (k * w)) mod 2 ^ w.

(** 6.2 and 6.4: SHA-2 with words of w bits *)
Definition sha2_schedule (w : Z) (s0 s1 : Z -> Z) (n : nat) (m : list Z) : list Z :=
  Nat.iter n (fun W => let t := length W in
    W ++ [(s1 (nth (t - 2) W 0) + nth (t - 7) W 0 + s0 (nth (t - 15) W 0) + nth (t - 16) W 0) mod 2 ^ w]) m.
Definition sha2_step (w : Z) (S0 S1 : Z -> Z) (r : list Z) (kw : Z * Z) : list Z :=
  match r with
  | [a; b; c; d; e; f; g; h] =>
      let T1 := h + S1 e + Ch e f g + fst kw + snd kw in
      let T2 := S0 a + Maj a b c in
      [(T1 + T2) mod 2 ^ w; a; b; c; (d + T1) mod 2 ^ w; e; f; g]
  | _ => []
  end.
Definition Sigma (w a b c x : Z) : Z := xor3 (ROTR w a x) (ROTR w b x) (ROTR w c x).
Definition sigma (w a b c x : Z) : Z := xor3 (ROTR w a x) (ROTR w b x) (SHR c x).
Definition K256 : list Z := map (frac_root 3 32) (firstn 64 primes).
Definition H256 : list Z := map (frac_root 2 32) (firstn 8 primes).
Definition sha256_compress (H block : list Z) : list Z :=
  let W := sha2_schedule 32 (sigma 32 7 18 3) (sigma 32 17 19 10) 48 (words_be 4 block) in
  add_words 32 H (fold_left (sha2_step 32 (Sigma 32 2 13 22) (Sigma 32 6 11 25)) (combine K256 W) H).
Definition SHA256 (m : list Z) : list Z := out_be 4 (iterate 64 sha256_compress H256 (sha_pad 64 8 m)).
Definition K512 : list Z := map (frac_root 3 64) (firstn 80 primes).
Definition H512 : list Z := map (frac_root 2 64) (firstn 8 primes).
Definition H384 : list Z := map (frac_root 2 64) (firstn 8 (skipn 8 primes)).
Definition sha512_compress (H block : list Z) : list Z :=
  let W := sha2_schedule 64 (sigma 64 1 8 7) (sigma 64 19 61 6) 64 (words_be 8 block) in
  add_words 64 H (fold_left (sha2_step 64 (Sigma 64 28 34 39) (Sigma 64 14 18 41)) (combine K512 W) H).
Definition SHA512 (m : list Z) : list Z := out_be 8 (iterate 128 sha512_compress H512 (sha_pad 128 16 m)).
Definition SHA384 (m : list Z) : list Z := firstn 48 (out_be 8 (iterate 128 sha512_compress H384 (sha_pad 128 16 m))).

(** 6.1: SHA-1 *)
Definition sha1_fn (t : nat) : Z -> Z -> Z -> Z :=
  if Nat.ltb t 20 then Ch else if Nat.ltb t 40 then Parity else if Nat.ltb t 60 then Maj else Parity.
Definition sha1_k (t : nat) : Z :=
  (* 2^30 times the square roots of 2, 3, 5 and 10 *)
  iroot 2 ((if Nat.ltb t 20 then 2 else if Nat.ltb t 40 then 3 else if Nat.ltb t 60 then 5 else 10) * 2 ^ 60).
Definition sha1_schedule (m : list Z) : list Z :=
  Nat.iter 64 (fun W => let t := length W in
    W ++ [ROTL 32 1 (Z.lxor (xor3 (nth (t - 3) W 0) (nth (t - 8) W 0) (nth (t - 14) W 0)) (nth (t - 16) W 0))]) m.
Definition sha1_step (r : list Z) (tw : nat * Z) : list Z :=
  match r with
  | [a; b; c; d; e] =>
      [(ROTL 32 5 a + sha1_fn (fst tw) b c d + e + sha1_k (fst tw) + snd tw) mod 2 ^ 32; a; ROTL 32 30 b; c; d]
  | _ => []
  end.
Definition sha1_compress (H block : list Z) : list Z :=
  add_words 32 H (fold_left sha1_step (combine (seq 0 80) (sha1_schedule (words_be 4 block))) H).
Definition H160 : list Z := [0x67452301; 0xefcdab89; 0x98badcfe; 0x10325476; 0xc3d2e1f0].
Definition SHA1 (m : list Z) : list Z := out_be 4 (iterate 64 sha1_compress H160 (sha_pad 64 8 m)).

(** RFC 1321: MD5.  T[i] is the integer part of 2^32 |sin i|.  [sin_fix i] is
    2^256 sin i, from the first 120 terms of the series i - i^3/3! + i^5/5! - ...,
    each computed from the one before with integer division (for i <= 64 the
    rounding and the terms left out change it by far less than 2^200). *)
Definition sin_fix (i : Z) : Z :=
  snd (fold_left (fun '(term, sum) k => (- (term * i * i) / ((2 * k + 2) * (2 * k + 3)), sum + term))
         (map Z.of_nat (seq 0 120)) (i * 2 ^ 256, 0)).
Definition md5_T (i : nat) : Z := Z.abs (sin_fix (Z.of_nat i)) / 2 ^ 224.
Definition md5_F (t : nat) (x y z : Z) : Z :=
  let not v := 2 ^ 32 - 1 - v in
  match (t / 16)%nat with
  | 0%nat => Z.lor (Z.land x y) (Z.land (not x) z)
  | 1%nat => Z.lor (Z.land x z) (Z.land y (not z))
  | 2%nat => Z.lxor (Z.lxor x y) z
  | _ => Z.lxor y (Z.lor x (not z))
  end.
Definition md5_index (t : nat) : nat :=
  match (t / 16)%nat with 0%nat => t | 1%nat => (5 * t + 1) mod 16 | 2%nat => (3 * t + 5) mod 16 | _ => (7 * t) mod 16 end%nat.
Definition md5_shift (t : nat) : Z :=
  nth (t mod 4) (nth (t / 16) [[7; 12; 17; 22]; [5; 9; 14; 20]; [4; 11; 16; 23]; [6; 10; 15; 21]] []) 0.
(** step t takes registers (a, b, c, d) to (d, b + ((a + F(b,c,d) + X[k] + T[t+1]) <<< s), b, c) *)
Definition md5_step (X : list Z) (r : list Z) (t : nat) : list Z :=
  match r with
  | [a; b; c; d] => [d; (b + ROTL 32 (md5_shift t) ((a + md5_F t b c d + nth (md5_index t) X 0 + md5_T (t + 1)) mod 2 ^ 32)) mod 2 ^ 32; b; c]
  | _ => []
  end.
Definition md5_compress (H block : list Z) : list Z :=
  add_words 32 H (fold_left (md5_step (map le_val (chunks 4 block))) (seq 0 64) H).
Definition HMD5 : list Z := [0x67452301; 0xefcdab89; 0x98badcfe; 0x10325476].
Definition MD5 (m : list Z) : list Z :=
  concat (map (le_bytes 4) (iterate 64 md5_compress HMD5 (pad_with 64 8 (le_bytes 8 (8 * Z.of_nat (length m))) m))).
