(** The hash context between calls, and HMAC with the optional entries of the
    hash interface.  HashModel.v gives the bytes a digest call writes; here a
    digest call also returns the context it leaves, [init] and [clear] are
    functions of the context they are given, and a store outside the block
    buffer is [UB]. *)
From Verif Require Import Base HashModel HmacModel.

(** include/cry/hash.h:54-61 struct cry_hash_itf; NULL is [None] *)
Record hash_ops (C : Type) := { ho_init : option (C -> C); ho_clear : option (C -> C);
  ho_update : C -> list Z -> res C; ho_digest : C -> res (C * list Z) }.
Arguments ho_init {C}. Arguments ho_clear {C}. Arguments ho_update {C}. Arguments ho_digest {C}.

(** src/hash/sha256.c:78-90: memset of the whole context, then the constants *)
Definition sha256_init_c (c : sha256) : sha256 := sha256_init.
(** src/hash/sha256.c:92-95 *)
Definition sha256_clear_c (c : sha256) : sha256 := {| s2_data := repeat 0 64; s2_datalen := 0; s2_bitlen := 0; s2_state := repeat 0 8 |}.
(** src/hash/sha256.c:97-111; ctx->data[ctx->datalen] lies in the buffer only if
    datalen < 64, which every turn of the loop then keeps *)
Definition sha256_update_c (c : sha256) (d : list Z) : res sha256 :=
  match d with
  | [] => Ok c
  | _ => if Nat.ltb (s2_datalen c) 64 then Ok (sha256_update c d) else UB
  end.
(** src/hash/sha256.c:113-153: datalen is not reset *)
Definition sha256_digest_c (c : sha256) : res (sha256 * list Z) :=
  let i := s2_datalen c in
  if Nat.leb 64 i then UB
  else
    let '(st, d) :=
      if Nat.ltb i 56 then (s2_state c, blit (s2_data c) i (128 :: repeat 0 (56 - (i + 1))))
      else let d := blit (s2_data c) i (128 :: repeat 0 (64 - (i + 1))) in
           let st := sha256_transform (s2_state c) d in
           (st, blit d 0 (repeat 0 56)) in
    let bitlen := (s2_bitlen c + Z.of_nat i * 8 mod 2 ^ 32) mod 2 ^ 64 in
    let d := blit d 56 (write_be 8 bitlen) in
    let st := sha256_transform st d in
    Ok ({| s2_data := d; s2_datalen := i; s2_bitlen := bitlen; s2_state := st |}, concat (map (write_be 4) st)).
Definition sha256_ops : hash_ops sha256 :=
  {| ho_init := Some sha256_init_c; ho_clear := Some sha256_clear_c; ho_update := sha256_update_c; ho_digest := sha256_digest_c |}.

(** src/hash/sha1.c:154-163 *)
Definition sha1_init_c (c : sha1) : sha1 := sha1_init.
(** src/hash/sha1.c:166-169 *)
Definition sha1_clear_c (c : sha1) : sha1 := {| s1_data := repeat 0 64; s1_len0 := 0; s1_len1 := 0; s1_state := repeat 0 5 |}.
(** src/hash/sha1.c:206-233 *)
Definition sha1_digest_c (c : sha1) : res (sha1 * list Z) :=
  let hi := Z.lor (Z.shiftr (s1_len0 c) 29) (Z.shiftl (s1_len1 c) 3 mod 2 ^ 32) in
  let lo := Z.shiftl (s1_len0 c) 3 mod 2 ^ 32 in
  let last := Z.to_nat (Z.land (s1_len0 c) 0x3F) in
  let padlen := (if Nat.ltb last 56 then 56 - last else 120 - last)%nat in
  let c := sha1_update c (firstn padlen (128 :: repeat 0 63)) in
  let c := sha1_update c (write_be 4 hi ++ write_be 4 lo) in
  Ok (c, concat (map (write_be 4) (s1_state c))).
(** src/hash/sha1.c:172-203: the offset into the buffer is len[0] & 0x3F *)
Definition sha1_ops : hash_ops sha1 :=
  {| ho_init := Some sha1_init_c; ho_clear := Some sha1_clear_c; ho_update := fun c d => Ok (sha1_update c d); ho_digest := sha1_digest_c |}.

(** src/hash/md5.c:145-153 *)
Definition md5_init_c (c : md5) : md5 := md5_init.
(** src/hash/md5.c:156-159 *)
Definition md5_clear_c (c : md5) : md5 := {| m5_data := repeat 0 64; m5_len0 := 0; m5_len1 := 0; m5_state := repeat 0 4 |}.
(** src/hash/md5.c:197-232: the last block is put together in a local array, so
    data and len are those the padding left *)
Definition md5_digest_c (c : md5) : res (md5 * list Z) :=
  let mdi := Z.to_nat (Z.land (Z.shiftr (m5_len0 c) 3) 0x3F) in
  let padlen := (if Nat.ltb mdi 56 then 56 - mdi else 120 - mdi)%nat in
  let c' := md5_update c (firstn padlen (128 :: repeat 0 63)) in
  let inp := map (fun i => read_le 4 (m5_data c') (4 * i)) (seq 0 14) ++ [m5_len0 c; m5_len1 c] in
  let st := md5_process (m5_state c') inp in
  Ok ({| m5_data := m5_data c'; m5_len0 := m5_len0 c'; m5_len1 := m5_len1 c'; m5_state := st |}, concat (map (write_le 4) st)).
(** src/hash/md5.c:162-194: the offset into the buffer is (len[0] >> 3) & 0x3F *)
Definition md5_ops : hash_ops md5 :=
  {| ho_init := Some md5_init_c; ho_clear := Some md5_clear_c; ho_update := fun c d => Ok (md5_update c d); ho_digest := md5_digest_c |}.

(** src/hash/sha512.c:128-156; the interface has no second argument, so this
    stands for a caller's wrapper *)
Definition sha512_init_c (is384 : bool) (c : sha512) : sha512 := sha512_init is384.
(** src/hash/sha512.c:158-161 *)
Definition sha512_clear_c (c : sha512) : sha512 :=
  {| s5_data := repeat 0 128; s5_len0 := 0; s5_len1 := 0; s5_state := repeat 0 8; s5_is384 := false |}.
(** src/hash/sha512.c:197-229 *)
Definition sha512_digest_c (c : sha512) : res (sha512 * list Z) :=
  let hi := Z.lor (Z.shiftr (s5_len0 c) 61) (Z.shiftl (s5_len1 c) 3 mod 2 ^ 64) in
  let lo := Z.shiftl (s5_len0 c) 3 mod 2 ^ 64 in
  let last := Z.to_nat (Z.land (s5_len0 c) 0x7F) in
  let padlen := (if Nat.ltb last 112 then 112 - last else 128 - last)%nat in
  let c := sha512_update c (firstn padlen (128 :: repeat 0 127)) in
  let c := sha512_update c (write_be 8 hi ++ write_be 8 lo) in
  Ok (c, concat (map (write_be 8) (firstn (if s5_is384 c then 6 else 8) (s5_state c)))).
(** src/hash/sha512.c:163-195: the offset into the buffer is len[0] & 0x7F *)
Definition sha512_ops (is384 : bool) : hash_ops sha512 :=
  {| ho_init := Some (sha512_init_c is384); ho_clear := Some sha512_clear_c; ho_update := fun c d => Ok (sha512_update c d); ho_digest := sha512_digest_c |}.

(** A caller's calls on one context *)
Inductive hcall := CInit | CUpdate (d : list Z) | CDigest | CClear.
Definition opt_call {C} (f : option (C -> C)) (c : C) : C := match f with Some f => f c | None => c end.
(** the context after the calls, and what the digest calls wrote, in order *)
Fixpoint hash_calls {C} (h : hash_ops C) (c : C) (l : list hcall) : res (C * list (list Z)) :=
  match l with
  | [] => Ok (c, [])
  | CInit :: l => hash_calls h (opt_call (ho_init h) c) l
  | CClear :: l => hash_calls h (opt_call (ho_clear h) c) l
  | CUpdate d :: l => do c <- ho_update h c d; hash_calls h c l
  | CDigest :: l => do '(c, o) <- ho_digest h c; do '(c, os) <- hash_calls h c l; Ok (c, o :: os)
  end.

(** src/crypt/hmac.c:6-36.  The result is the hash context and the key bytes in
    use.  As in HmacModel.v, [hash_len] is the caller's word for the digest size. *)
Definition hmac_init_c {C} (h : hash_ops C) (hash_len : nat) (c : C) (key : list Z) : res (C * list Z) :=
  do '(c, key) <-
    (if Nat.leb (length key) 64 then Ok (c, key)
     else
       let c := opt_call (ho_init h) c in
       do c <- ho_update h c key;
       do '(c, d) <- ho_digest h c;
       let c := opt_call (ho_clear h) c in
       if (Nat.ltb 64 (length d) || Nat.ltb (length d) hash_len)%bool then UB else Ok (c, firstn hash_len d));
  let c := opt_call (ho_init h) c in
  do c <- ho_update h c (hmac_pad 0x36 key);
  Ok (c, key).
(** src/crypt/hmac.c:38-41, once for each piece *)
Fixpoint hmac_updates_c {C} (h : hash_ops C) (c : C) (ds : list (list Z)) : res C :=
  match ds with
  | [] => Ok c
  | d :: ds => do c <- ho_update h c d; hmac_updates_c h c ds
  end.
(** src/crypt/hmac.c:43-63 *)
Definition hmac_digest_c {C} (h : hash_ops C) (hash_len : nat) (c : C) (key : list Z) : res (C * list Z) :=
  do '(c, mac) <- ho_digest h c;
  let c := opt_call (ho_clear h) c in
  let c := opt_call (ho_init h) c in
  do c <- ho_update h c (hmac_pad 0x5C key);
  if Nat.ltb (length mac) hash_len then UB
  else
    do c <- ho_update h c (firstn hash_len mac);
    do '(c, mac) <- ho_digest h c;
    Ok (opt_call (ho_clear h) c, mac).
(** init, updates, digest on the hash context [c] *)
Definition hmac_run_c {C} (h : hash_ops C) (hash_len : nat) (c : C) (key : list Z) (ds : list (list Z)) : res (C * list Z) :=
  do '(c, key) <- hmac_init_c h hash_len c key;
  do c <- hmac_updates_c h c ds;
  hmac_digest_c h hash_len c key.
(** several messages, each with its key, on one hash context *)
Fixpoint hmac_runs_c {C} (h : hash_ops C) (hash_len : nat) (c : C) (l : list (list Z * list (list Z))) : res (C * list (list Z)) :=
  match l with
  | [] => Ok (c, [])
  | (key, ds) :: l => do '(c, m) <- hmac_run_c h hash_len c key ds; do '(c, ms) <- hmac_runs_c h hash_len c l; Ok (c, m :: ms)
  end.
