(** Model of src/crypt/hmac.c.  [C] is the hash context; what a hash context
    holds after a digest is never used again (every use is preceded by init),
    so digest only returns the bytes written.  A NULL init pointer, which would
    leave the context of the previous run in use, is in HashCtxModel.v. *)
From Verif Require Import Base.

(** include/cry/hash.h:54-61 struct cry_hash_itf *)
Record hash_itf (C : Type) := { hi_init : C; hi_update : C -> list Z -> C; hi_digest : C -> list Z }.
Arguments hi_init {C}. Arguments hi_update {C}. Arguments hi_digest {C}.
(** include/cry/hmac.h:13-19; the bytes of key in use only *)
Record hmac (C : Type) := { hm_ctx : C; hm_key : list Z }.
Arguments hm_ctx {C}. Arguments hm_key {C}.
(** src/crypt/hmac.c:30-32 and 53-55: memset, then the loop *)
Definition hmac_pad (v : Z) (key : list Z) : list Z :=
  map (fun i => if Nat.ltb i (length key) then Z.lxor v (nth i key 0) else v) (seq 0 64).
(** src/crypt/hmac.c:6-36.  [hash_len] is the caller's word for the size of a
    digest; if it is larger than the digest or than the key buffer, the loop
    reads memory that was never written or lies outside. *)
Definition hmac_init {C} (itf : hash_itf C) (hash_len : nat) (key : list Z) : res (hmac C) :=
  let start key := {| hm_ctx := hi_update itf (hi_init itf) (hmac_pad 0x36 key); hm_key := key |} in
  if Nat.leb (length key) 64 then Ok (start key)
  else
    let d := hi_digest itf (hi_update itf (hi_init itf) key) in
    if (Nat.ltb 64 (length d) || Nat.ltb (length d) hash_len)%bool then UB else Ok (start (firstn hash_len d)).
(** src/crypt/hmac.c:38-41 *)
Definition hmac_update {C} (itf : hash_itf C) (c : hmac C) (d : list Z) : hmac C :=
  {| hm_ctx := hi_update itf (hm_ctx c) d; hm_key := hm_key c |}.
(** src/crypt/hmac.c:43-63 *)
Definition hmac_digest {C} (itf : hash_itf C) (hash_len : nat) (c : hmac C) : res (list Z) :=
  let mac := hi_digest itf (hm_ctx c) in
  if Nat.ltb (length mac) hash_len then UB
  else Ok (hi_digest itf (hi_update itf (hi_update itf (hi_init itf) (hmac_pad 0x5C (hm_key c))) (firstn hash_len mac))).
(** init, updates, digest *)
Definition hmac_run {C} (itf : hash_itf C) (hash_len : nat) (key : list Z) (ds : list (list Z)) : res (list Z) :=
  do c <- hmac_init itf hash_len key; hmac_digest itf hash_len (fold_left (hmac_update itf) ds c).
