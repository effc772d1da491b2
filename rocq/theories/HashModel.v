(** Model of src/hash/md5.c, sha1.c, sha256.c and sha512.c.
    A register or word is a Z in 0..2^w-1.  A digest call returns the bytes
    written; the context it leaves is in HashCtxModel.v. *)
From Verif Require Import Base HashTables.

(** w-bit unsigned arithmetic *)
Definition wadd (w a b : Z) : Z := (a + b) mod 2 ^ w.
Definition wnot (w a : Z) : Z := Z.lnot a mod 2 ^ w.
(** src/misc.h CRY_ROTL / CRY_ROTR, src/hash/sha256.c:5-6, src/hash/md5.c:12 ROL *)
Definition rotl (w x n : Z) : Z := Z.lor (Z.shiftl x n mod 2 ^ w) (Z.shiftr x (w - n)).
Definition rotr (w x n : Z) : Z := Z.lor (Z.shiftr x n) (Z.shiftl x (w - n) mod 2 ^ w).
(** src/misc.h CRY_READ32_BE, CRY_READ32_LE, CRY_READ64_BE of [n] bytes at offset [o] *)
Fixpoint read_be (n : nat) (l : list Z) (o : nat) : Z :=
  match n with
  | O => 0
  | S k => Z.lor (read_be k l o * 256) (nth (o + k) l 0)
  end.
Fixpoint read_le (n : nat) (l : list Z) (o : nat) : Z :=
  match n with
  | O => 0
  | S n => Z.lor (nth o l 0) (read_le n l (o + 1) * 256)
  end.
(** src/misc.h CRY_WRITE32_BE, CRY_WRITE64_BE, and the little endian form *)
Definition write_be (n : nat) (v : Z) : list Z := map (fun i => Z.land (Z.shiftr v (8 * Z.of_nat i)) 255) (rev (seq 0 n)).
Definition write_le (n : nat) (v : Z) : list Z := map (fun i => Z.land (Z.shiftr v (8 * Z.of_nat i)) 255) (seq 0 n).
(** memcpy of [src] to [dst] + [o]; in every use it stays inside [dst] *)
Definition blit (dst : list Z) (o : nat) (src : list Z) : list Z :=
  firstn o dst ++ src ++ skipn (o + length src) dst.
Definition ctx_add (w : Z) (st r : list Z) : list Z := map (fun p => wadd w (fst p) (snd p)) (combine st r).

(** * SHA-256 *)
(** include/cry/sha256.h struct cry_sha256_ctx *)
Record sha256 := { s2_data : list Z; s2_datalen : nat; s2_bitlen : Z; s2_state : list Z }.
(** src/hash/sha256.c:8-13 *)
Definition s2_ch (x y z : Z) : Z := Z.lxor (Z.land x y) (Z.land (wnot 32 x) z).
Definition s2_maj (x y z : Z) : Z := Z.lxor (Z.lxor (Z.land x y) (Z.land x z)) (Z.land y z).
Definition s2_ep0 (x : Z) : Z := Z.lxor (Z.lxor (rotr 32 x 2) (rotr 32 x 13)) (rotr 32 x 22).
Definition s2_ep1 (x : Z) : Z := Z.lxor (Z.lxor (rotr 32 x 6) (rotr 32 x 11)) (rotr 32 x 25).
Definition s2_sig0 (x : Z) : Z := Z.lxor (Z.lxor (rotr 32 x 7) (rotr 32 x 18)) (Z.shiftr x 3).
Definition s2_sig1 (x : Z) : Z := Z.lxor (Z.lxor (rotr 32 x 17) (rotr 32 x 19)) (Z.shiftr x 10).
(** src/hash/sha256.c:43-44; m grows *)
Fixpoint s2_extend (n i : nat) (m : list Z) : list Z :=
  match n with
  | O => m
  | S n => s2_extend n (i + 1)
      (m ++ [wadd 32 (wadd 32 (wadd 32 (s2_sig1 (nth (i - 2) m 0)) (nth (i - 7) m 0)) (s2_sig0 (nth (i - 15) m 0))) (nth (i - 16) m 0)])
  end.
(** src/hash/sha256.c:55-66 *)
Definition s2_round (m : list Z) (r : list Z) (i : nat) : list Z :=
  match r with
  | [a; b; c; d; e; f; g; h] =>
      let t1 := wadd 32 (wadd 32 (wadd 32 (wadd 32 h (s2_ep1 e)) (s2_ch e f g)) (nth i sha256_k 0)) (nth i m 0) in
      let t2 := wadd 32 (s2_ep0 a) (s2_maj a b c) in
      [wadd 32 t1 t2; a; b; c; wadd 32 d t1; e; f; g]
  | _ => r
  end.
(** src/hash/sha256.c:34-76 *)
Definition sha256_transform (st data : list Z) : list Z :=
  let m := s2_extend 48 16 (map (fun i => read_be 4 data (4 * i)) (seq 0 16)) in
  ctx_add 32 st (fold_left (s2_round m) (seq 0 64) st).
(** src/hash/sha256.c:78-90 *)
Definition sha256_iv : list Z := [0x6a09e667; 0xbb67ae85; 0x3c6ef372; 0xa54ff53a; 0x510e527f; 0x9b05688c; 0x1f83d9ab; 0x5be0cd19].
Definition sha256_init : sha256 := {| s2_data := repeat 0 64; s2_datalen := 0; s2_bitlen := 0; s2_state := sha256_iv |}.
(** src/hash/sha256.c:97-111 *)
Definition sha256_byte (c : sha256) (b : Z) : sha256 :=
  let d := upd (s2_data c) (s2_datalen c) b in
  if Nat.eqb (s2_datalen c + 1) 64
  then {| s2_data := d; s2_datalen := 0; s2_bitlen := (s2_bitlen c + 512) mod 2 ^ 64; s2_state := sha256_transform (s2_state c) d |}
  else {| s2_data := d; s2_datalen := s2_datalen c + 1; s2_bitlen := s2_bitlen c; s2_state := s2_state c |}.
Definition sha256_update (c : sha256) (data : list Z) : sha256 := fold_left sha256_byte data c.
(** src/hash/sha256.c:113-153; the loops storing zeros are [blit]s *)
Definition sha256_digest (c : sha256) : list Z :=
  let i := s2_datalen c in
  let '(st, d) :=
    if Nat.ltb i 56 then (s2_state c, blit (s2_data c) i (128 :: repeat 0 (56 - (i + 1))))
    else let d := blit (s2_data c) i (128 :: repeat 0 (64 - (i + 1))) in
         let st := sha256_transform (s2_state c) d in
         (st, blit d 0 (repeat 0 56)) in
  let bitlen := (s2_bitlen c + Z.of_nat i * 8 mod 2 ^ 32) mod 2 ^ 64 in
  let d := blit d 56 (write_be 8 bitlen) in
  concat (map (write_be 4) (sha256_transform st d)).

(** * SHA-1 *)
(** include/cry/sha1.h struct cry_sha1_ctx *)
Record sha1 := { s1_data : list Z; s1_len0 : Z; s1_len1 : Z; s1_state : list Z }.
(** src/hash/sha1.c:46-144: the four F and K, by row *)
Definition s1_f (t : nat) (x y z : Z) : Z :=
  if Nat.ltb t 20 then Z.lxor z (Z.land x (Z.lxor y z))
  else if Nat.ltb t 40 then Z.lxor (Z.lxor x y) z
  else if Nat.ltb t 60 then Z.lor (Z.land x y) (Z.land z (Z.lor x y))
  else Z.lxor (Z.lxor x y) z.
Definition s1_k (t : nat) : Z :=
  if Nat.ltb t 20 then 0x5A827999 else if Nat.ltb t 40 then 0x6ED9EBA1 else if Nat.ltb t 60 then 0x8F1BBCDC else 0xCA62C1D6.
(** src/hash/sha1.c:6-11 R: the 16-word window after it *)
Definition s1_r (W : list Z) (t : nat) : list Z :=
  let tmp := Z.lxor (Z.lxor (Z.lxor (nth ((t - 3) mod 16) W 0) (nth ((t - 8) mod 16) W 0)) (nth ((t - 14) mod 16) W 0)) (nth (t mod 16) W 0) in
  upd W (t mod 16) (rotl 32 tmp 1).
(** src/hash/sha1.c:13-16 P on the registers at positions [pos] *)
Definition s1_p (t : nat) (pos : list nat) (r : list Z) (x : Z) : list Z :=
  match pos with
  | [a; b; c; d; e] =>
      let v i := nth i r 0 in
      let sum := wadd 32 (wadd 32 (wadd 32 (rotl 32 (v a) 5) (s1_f t (v b) (v c) (v d))) (s1_k t)) x in
      let r := upd r e (wadd 32 (v e) sum) in
      upd r b (rotl 32 (nth b r 0) 30)
  | _ => r
  end.
Definition s1_row (wr : list Z * list Z) (row : list nat * nat) : list Z * list Z :=
  let '(W, r) := wr in
  let '(pos, t) := row in
  let W := if Nat.ltb t 16 then W else s1_r W t in
  (W, s1_p t pos r (nth (t mod 16) W 0)).
(** src/hash/sha1.c:19-151 *)
Definition sha1_process (st data : list Z) : list Z :=
  let W := map (fun i => read_be 4 data (4 * i)) (seq 0 16) in
  ctx_add 32 st (snd (fold_left s1_row sha1_rows (W, st))).
(** src/hash/sha1.c:154-163 *)
Definition sha1_iv : list Z := [0x67452301; 0xEFCDAB89; 0x98BADCFE; 0x10325476; 0xC3D2E1F0].
Definition sha1_init : sha1 := {| s1_data := repeat 0 64; s1_len0 := 0; s1_len1 := 0; s1_state := sha1_iv |}.
(** src/hash/sha1.c:195-199 and src/hash/sha512.c:187-191: while (len >= bs).
    The fuel [length data] is enough. *)
Fixpoint blocks (fuel bs : nat) (f : list Z -> list Z -> list Z) (st data : list Z) : list Z * list Z :=
  match fuel with
  | O => (st, data)
  | S n => if Nat.leb bs (length data) then blocks n bs f (f st (firstn bs data)) (skipn bs data) else (st, data)
  end.
(** src/hash/sha1.c:186-202 and src/hash/sha512.c:178-194: buffer and state after
    [data], with [left] bytes in the buffer *)
Definition absorb (bs : nat) (f : list Z -> list Z -> list Z) (buf st : list Z) (left : nat) (data : list Z) : list Z * list Z :=
  let fill := (bs - left)%nat in
  let '(buf, st, nleft, data) :=
    if (negb (Nat.eqb left 0) && Nat.leb fill (length data))%bool
    then let buf := blit buf left (firstn fill data) in (buf, f st buf, 0%nat, skipn fill data)
    else (buf, st, left, data) in
  let '(st, data) := blocks (length data) bs f st data in
  (blit buf nleft data, st).
(** src/hash/sha1.c:172-203 *)
Definition sha1_update (c : sha1) (data : list Z) : sha1 :=
  let len := Z.of_nat (length data) in
  if len =? 0 then c
  else
    let left := Z.to_nat (Z.land (s1_len0 c) 0x3F) in
    let len0 := (s1_len0 c + len mod 2 ^ 32) mod 2 ^ 32 in
    let len1 := if len0 <? len mod 2 ^ 32 then (s1_len1 c + 1) mod 2 ^ 32 else s1_len1 c in
    let '(buf, st) := absorb 64 sha1_process (s1_data c) (s1_state c) left data in
    {| s1_data := buf; s1_len0 := len0; s1_len1 := len1; s1_state := st |}.
(** src/hash/sha1.c:206-233 *)
Definition sha1_digest (c : sha1) : list Z :=
  let hi := Z.lor (Z.shiftr (s1_len0 c) 29) (Z.shiftl (s1_len1 c) 3 mod 2 ^ 32) in
  let lo := Z.shiftl (s1_len0 c) 3 mod 2 ^ 32 in
  let last := Z.to_nat (Z.land (s1_len0 c) 0x3F) in
  let padlen := (if Nat.ltb last 56 then 56 - last else 120 - last)%nat in
  let c := sha1_update c (firstn padlen (128 :: repeat 0 63)) in
  let c := sha1_update c (write_be 4 hi ++ write_be 4 lo) in
  concat (map (write_be 4) (s1_state c)).

(** * SHA-512 and SHA-384 *)
(** include/cry/sha512.h struct cry_sha512_ctx *)
Record sha512 := { s5_data : list Z; s5_len0 : Z; s5_len1 : Z; s5_state : list Z; s5_is384 : bool }.
(** src/hash/sha512.c:6-13 *)
Definition s5_s0 (x : Z) : Z := Z.lxor (Z.lxor (rotr 64 x 1) (rotr 64 x 8)) (Z.shiftr x 7).
Definition s5_s1 (x : Z) : Z := Z.lxor (Z.lxor (rotr 64 x 19) (rotr 64 x 61)) (Z.shiftr x 6).
Definition s5_s2 (x : Z) : Z := Z.lxor (Z.lxor (rotr 64 x 28) (rotr 64 x 34)) (rotr 64 x 39).
Definition s5_s3 (x : Z) : Z := Z.lxor (Z.lxor (rotr 64 x 14) (rotr 64 x 18)) (rotr 64 x 41).
Definition s5_f0 (x y z : Z) : Z := Z.lor (Z.land x y) (Z.land z (Z.lor x y)).
Definition s5_f1 (x y z : Z) : Z := Z.lxor z (Z.land x (Z.lxor y z)).
(** src/hash/sha512.c:85-86 *)
Fixpoint s5_extend (n i : nat) (m : list Z) : list Z :=
  match n with
  | O => m
  | S n => s5_extend n (i + 1)
      (m ++ [wadd 64 (wadd 64 (wadd 64 (s5_s1 (nth (i - 2) m 0)) (nth (i - 7) m 0)) (s5_s0 (nth (i - 15) m 0))) (nth (i - 16) m 0)])
  end.
(** src/hash/sha512.c:15-20 P on the registers at positions [pos] *)
Definition s5_p (pos : list nat) (r : list Z) (x K : Z) : list Z :=
  match pos with
  | [a; b; c; d; e; f; g; h] =>
      let v i := nth i r 0 in
      let t1 := wadd 64 (wadd 64 (wadd 64 (wadd 64 (v h) (s5_s3 (v e))) (s5_f1 (v e) (v f) (v g))) K) x in
      let t2 := wadd 64 (s5_s2 (v a)) (s5_f0 (v a) (v b) (v c)) in
      let r := upd r d (wadd 64 (v d) t1) in
      upd r h (wadd 64 t1 t2)
  | _ => r
  end.
(** src/hash/sha512.c:98-114: the eight macro uses of the loop body *)
Definition s5_perms : list (list nat) :=
  [[0; 1; 2; 3; 4; 5; 6; 7]; [7; 0; 1; 2; 3; 4; 5; 6]; [6; 7; 0; 1; 2; 3; 4; 5]; [5; 6; 7; 0; 1; 2; 3; 4];
   [4; 5; 6; 7; 0; 1; 2; 3]; [3; 4; 5; 6; 7; 0; 1; 2]; [2; 3; 4; 5; 6; 7; 0; 1]; [1; 2; 3; 4; 5; 6; 7; 0]]%nat.
(** src/hash/sha512.c:97-115: ten turns *)
Definition s5_rows : list (list nat * nat) := combine (concat (repeat s5_perms 10)) (seq 0 80).
(** src/hash/sha512.c:76-125 *)
Definition sha512_process (st data : list Z) : list Z :=
  let W := s5_extend 64 16 (map (fun i => read_be 8 data (8 * i)) (seq 0 16)) in
  ctx_add 64 st (fold_left (fun r row => s5_p (fst row) r (nth (snd row) W 0) (nth (snd row) sha512_k 0)) s5_rows st).
(** src/hash/sha512.c:128-156 *)
Definition sha512_iv : list Z :=
  [0x6A09E667F3BCC908; 0xBB67AE8584CAA73B; 0x3C6EF372FE94F82B; 0xA54FF53A5F1D36F1;
   0x510E527FADE682D1; 0x9B05688C2B3E6C1F; 0x1F83D9ABFB41BD6B; 0x5BE0CD19137E2179].
Definition sha384_iv : list Z :=
  [0xCBBB9D5DC1059ED8; 0x629A292A367CD507; 0x9159015A3070DD17; 0x152FECD8F70E5939;
   0x67332667FFC00B31; 0x8EB44A8768581511; 0xDB0C2E0D64F98FA7; 0x47B5481DBEFA4FA4].
Definition sha512_init (is384 : bool) : sha512 :=
  {| s5_data := repeat 0 128; s5_len0 := 0; s5_len1 := 0; s5_state := if is384 then sha384_iv else sha512_iv; s5_is384 := is384 |}.
(** src/hash/sha512.c:163-195 *)
Definition sha512_update (c : sha512) (data : list Z) : sha512 :=
  let len := Z.of_nat (length data) in
  if len =? 0 then c
  else
    let left := Z.to_nat (Z.land (s5_len0 c) 0x7F) in
    let len0 := (s5_len0 c + len mod 2 ^ 32) mod 2 ^ 64 in
    let len1 := if len0 <? len mod 2 ^ 32 then (s5_len1 c + 1) mod 2 ^ 64 else s5_len1 c in
    let '(buf, st) := absorb 128 sha512_process (s5_data c) (s5_state c) left data in
    {| s5_data := buf; s5_len0 := len0; s5_len1 := len1; s5_state := st; s5_is384 := s5_is384 c |}.
(** src/hash/sha512.c:197-229 *)
Definition sha512_digest (c : sha512) : list Z :=
  let hi := Z.lor (Z.shiftr (s5_len0 c) 61) (Z.shiftl (s5_len1 c) 3 mod 2 ^ 64) in
  let lo := Z.shiftl (s5_len0 c) 3 mod 2 ^ 64 in
  let last := Z.to_nat (Z.land (s5_len0 c) 0x7F) in
  let padlen := (if Nat.ltb last 112 then 112 - last else 128 - last)%nat in
  let c := sha512_update c (firstn padlen (128 :: repeat 0 127)) in
  let c := sha512_update c (write_be 8 hi ++ write_be 8 lo) in
  concat (map (write_be 8) (firstn (if s5_is384 c then 6 else 8) (s5_state c))).

(** * MD5 *)
(** include/cry/md5.h struct cry_md5_ctx *)
Record md5 := { m5_data : list Z; m5_len0 : Z; m5_len1 : Z; m5_state : list Z }.
(** src/hash/md5.c:6-9 *)
Definition m5_f (k x y z : Z) : Z :=
  if k =? 0 then Z.lor (Z.land x y) (Z.land (wnot 32 x) z)
  else if k =? 1 then Z.lor (Z.land x z) (Z.land y (wnot 32 z))
  else if k =? 2 then Z.lxor (Z.lxor x y) z
  else Z.lxor y (Z.lor x (wnot 32 z)).
(** src/hash/md5.c:19-41 FF, GG, HH, II *)
Definition m5_row (inp : list Z) (r : list Z) (row : Z * (nat * nat * nat * nat) * nat * Z * Z) : list Z :=
  let '(k, (a, b, c, d), x, s, ac) := row in
  let v i := nth i r 0 in
  let va := wadd 32 (v a) (wadd 32 (wadd 32 (m5_f k (v b) (v c) (v d)) (nth x inp 0)) ac) in
  upd r a (wadd 32 (rotl 32 va s) (v b)).
(** src/hash/md5.c:43-142 *)
Definition md5_process (buf inp : list Z) : list Z := ctx_add 32 buf (fold_left (m5_row inp) md5_rows buf).
(** src/hash/md5.c:145-153 *)
Definition md5_iv : list Z := [0x67452301; 0xefcdab89; 0x98badcfe; 0x10325476].
Definition md5_init : md5 := {| m5_data := repeat 0 64; m5_len0 := 0; m5_len1 := 0; m5_state := md5_iv |}.
(** src/hash/md5.c:177-193: buffer, state and mdi after one byte *)
Definition md5_byte (s : list Z * list Z * nat) (b : Z) : list Z * list Z * nat :=
  let '(data, st, mdi) := s in
  let data := upd data mdi b in
  if Nat.eqb (mdi + 1) 64 then (data, md5_process st (map (fun i => read_le 4 data (4 * i)) (seq 0 16)), 0%nat)
  else (data, st, mdi + 1)%nat.
(** src/hash/md5.c:162-194 *)
Definition md5_update (c : md5) (data : list Z) : md5 :=
  let size := Z.of_nat (length data) mod 2 ^ 32 in
  let mdi := Z.to_nat (Z.land (Z.shiftr (m5_len0 c) 3) 0x3F) in
  let bits := Z.shiftl size 3 mod 2 ^ 32 in
  let sum := (m5_len0 c + bits) mod 2 ^ 32 in
  let len1 := if sum <? m5_len0 c then (m5_len1 c + 1) mod 2 ^ 32 else m5_len1 c in
  let len1 := (len1 + Z.shiftr size 29) mod 2 ^ 32 in
  let '(d, st, _) := fold_left md5_byte data (m5_data c, m5_state c, mdi) in
  {| m5_data := d; m5_len0 := sum; m5_len1 := len1; m5_state := st |}.
(** src/hash/md5.c:197-232 *)
Definition md5_digest (c : md5) : list Z :=
  let mdi := Z.to_nat (Z.land (Z.shiftr (m5_len0 c) 3) 0x3F) in
  let padlen := (if Nat.ltb mdi 56 then 56 - mdi else 120 - mdi)%nat in
  let c' := md5_update c (firstn padlen (128 :: repeat 0 63)) in
  let inp := map (fun i => read_le 4 (m5_data c') (4 * i)) (seq 0 14) ++ [m5_len0 c; m5_len1 c] in
  concat (map (write_le 4) (md5_process (m5_state c') inp)).
