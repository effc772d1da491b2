(** Model of src/crypt/gcm.c and src/crypt/cmac.c over an arbitrary cipher [E]
    on 16-byte blocks. *)
From Verif Require Import Base ModesModel.

(** src/misc.h CRY_READ32_BE / CRY_WRITE32_BE at offset [o] *)
Definition read32be (l : list Z) (o : nat) : Z :=
  Z.lor (Z.lor (Z.lor (Z.shiftl (nth o l 0) 24) (Z.shiftl (nth (o + 1) l 0) 16)) (Z.shiftl (nth (o + 2) l 0) 8)) (nth (o + 3) l 0).
Definition write32be (v : Z) : list Z :=
  map (fun s => Z.land (Z.shiftr v s) 255) [24; 16; 8; 0].

(** four 32-bit words *)
Record w4 := { w0 : Z; w1 : Z; w2 : Z; w3 : Z }.
Definition w4xor (a b : w4) : w4 :=
  {| w0 := Z.lxor (w0 a) (w0 b); w1 := Z.lxor (w1 a) (w1 b); w2 := Z.lxor (w2 a) (w2 b); w3 := Z.lxor (w3 a) (w3 b) |}.
(** src/crypt/gcm.c:33-37, uint32_t arithmetic *)
Definition w4dbl (v : w4) : w4 :=
  let mask := (Z.lxor (Z.land (w3 v) 1) (2 ^ 32 - 1) + 1) mod 2 ^ 32 in
  {| w3 := Z.lor (Z.shiftr (w3 v) 1) (Z.shiftl (Z.land (w2 v) 1) 31);
     w2 := Z.lor (Z.shiftr (w2 v) 1) (Z.shiftl (Z.land (w1 v) 1) 31);
     w1 := Z.lor (Z.shiftr (w1 v) 1) (Z.shiftl (Z.land (w0 v) 1) 31);
     w0 := Z.lxor (Z.shiftr (w0 v) 1) (Z.land mask (Z.shiftl 225 24)) |}.
(** src/crypt/gcm.c:24-38: the eight bits of one byte of y, most significant first *)
Fixpoint gf_bits (n : nat) (b : Z) (v z : w4) : w4 * w4 :=
  match n with
  | O => (v, z)
  | S n => let z := if Z.land b 128 =? 0 then z else w4xor z v in
           gf_bits n ((2 * b) mod 256) (w4dbl v) z
  end.
Fixpoint gf_bytes (y : list Z) (v z : w4) : w4 :=
  match y with
  | [] => z
  | b :: r => let '(v, z) := gf_bits 8 b v z in gf_bytes r v z
  end.
(** src/crypt/gcm.c:10-44 gcm_gf_mul: the new x *)
Definition gf_mul (x y : list Z) : list Z :=
  let v := {| w0 := read32be x 0; w1 := read32be x 4; w2 := read32be x 8; w3 := read32be x 12 |} in
  let z := gf_bytes y v {| w0 := 0; w1 := 0; w2 := 0; w3 := 0 |} in
  write32be (w0 z) ++ write32be (w1 z) ++ write32be (w2 z) ++ write32be (w3 z).

(** XOR of [d] into the start of [h] *)
Definition xor_into (h d : list Z) : list Z := xorl h d ++ skipn (length d) h.
(** src/crypt/gcm.c:46-59 gcm_hash *)
Fixpoint gcm_hash_f (fuel : nat) (h key data : list Z) : list Z :=
  match fuel with
  | O => h
  | S f =>
      if Nat.leb 16 (length data)
      then gcm_hash_f f (gf_mul (xor_into h (firstn 16 data)) key) key (skipn 16 data)
      else match data with
           | [] => h
           | _ => gf_mul (xor_into h data) key
           end
  end.
(** the loop runs at most [length data] times *)
Definition gcm_hash (h key data : list Z) : list Z := gcm_hash_f (S (length data)) h key data.
(** src/crypt/gcm.c:61-73: the bit counts are cut to 32 bits *)
Definition gcm_hash_sizes (h key : list Z) (auth ciph : Z) : list Z :=
  gcm_hash h key (repeat 0 4 ++ write32be ((8 * auth) mod 2 ^ 32) ++ repeat 0 4 ++ write32be ((8 * ciph) mod 2 ^ 32)).

(** include/cry/gcm.h struct cry_gcm_ctx *)
Record gcm := { g_iv : list Z; g_ctr : list Z; g_hs : list Z; g_key : list Z; g_auth : Z; g_ciph : Z }.
(** src/crypt/gcm.c:93-112 cry_gcm_key_set ([E] is the cipher with the key set) *)
Definition gcm_key_set (E : list Z -> list Z) : gcm :=
  let z := repeat 0 16 in
  {| g_iv := z; g_ctr := z; g_hs := z; g_key := E z; g_auth := 0; g_ciph := 0 |}.
(** CRY_INCREMENT_BE on the last four bytes of a block *)
Definition inc_last4 (l : list Z) : res (list Z) := do r <- increment_be (skipn 12 l); Ok (firstn 12 l ++ r).
(** src/crypt/gcm.c:115-136 cry_gcm_iv_set *)
Definition gcm_iv_set (c : gcm) (iv : list Z) : res gcm :=
  let j := if Nat.eqb (length iv) 12 then iv ++ [0; 0; 0; 1]
           else gcm_hash_sizes (gcm_hash (repeat 0 16) (g_key c) iv) (g_key c) 0 (Z.of_nat (length iv)) in
  do t <- inc_last4 j;
  Ok {| g_iv := j; g_ctr := t; g_hs := repeat 0 16; g_key := g_key c; g_auth := 0; g_ciph := 0 |}.
(** src/crypt/gcm.c:138-168 gcm_operate.  The in-place and the separate variant
    write the same bytes: one block of data XOR the encrypted counter. *)
Fixpoint gcm_operate_f (fuel : nat) (E : list Z -> list Z) (ctr src : list Z) : res (list Z * list Z) :=
  match fuel with
  | O => Fuel
  | S f =>
      match src with
      | [] => Ok (ctr, [])
      | _ =>
          let o := xorl (firstn 16 src) (E ctr) in
          do ctr <- inc_last4 ctr;
          do ' (ctr, r) <- gcm_operate_f f E ctr (skipn 16 src);
          Ok (ctr, o ++ r)
      end
  end.
Definition gcm_operate (E : list Z -> list Z) (ctr src : list Z) := gcm_operate_f (S (length src)) E ctr src.
(** src/crypt/gcm.c:170-176 cry_gcm_encrypt *)
Definition gcm_encrypt (E : list Z -> list Z) (c : gcm) (src : list Z) : res (gcm * list Z) :=
  do ' (ctr, o) <- gcm_operate E (g_ctr c) src;
  Ok ({| g_iv := g_iv c; g_ctr := ctr; g_hs := gcm_hash (g_hs c) (g_key c) o; g_key := g_key c;
         g_auth := g_auth c; g_ciph := (g_ciph c + Z.of_nat (length src)) mod 2 ^ 64 |}, o).
(** src/crypt/gcm.c:178-184 cry_gcm_decrypt *)
Definition gcm_decrypt (E : list Z -> list Z) (c : gcm) (src : list Z) : res (gcm * list Z) :=
  let hs := gcm_hash (g_hs c) (g_key c) src in
  do ' (ctr, o) <- gcm_operate E (g_ctr c) src;
  Ok ({| g_iv := g_iv c; g_ctr := ctr; g_hs := hs; g_key := g_key c;
         g_auth := g_auth c; g_ciph := (g_ciph c + Z.of_nat (length src)) mod 2 ^ 64 |}, o).
(** src/crypt/gcm.c:186-191 cry_gcm_update *)
Definition gcm_update (c : gcm) (aad : list Z) : gcm :=
  {| g_iv := g_iv c; g_ctr := g_ctr c; g_hs := gcm_hash (g_hs c) (g_key c) aad; g_key := g_key c;
     g_auth := (g_auth c + Z.of_nat (length aad)) mod 2 ^ 64; g_ciph := g_ciph c |}.
(** src/crypt/gcm.c:193-203 cry_gcm_digest; more than 16 bytes are read outside
    the block *)
Definition gcm_digest (E : list Z -> list Z) (c : gcm) (size : nat) : res (list Z) :=
  if Nat.ltb 16 size then UB
  else Ok (firstn size (xorl (gcm_hash_sizes (g_hs c) (g_key c) (g_auth c) (g_ciph c)) (E (g_iv c)))).

(** * CMAC *)
(** include/cry/cmac.h; of [blk] only the first blklen bytes are read before
    being overwritten, the model keeps those *)
Record cmac := { cm_blk : list Z; cm_mac : list Z }.
(** src/crypt/cmac.c:44-52 cry_cmac_init *)
Definition cmac_init : cmac := {| cm_blk := []; cm_mac := repeat 0 16 |}.
(** src/crypt/cmac.c:25-29 and 34-38: shift left by one bit *)
Fixpoint cmac_shl (l : list Z) : list Z :=
  match l with
  | [] => []
  | [b] => [(2 * b) mod 256]
  | b :: ((c :: _) as r) =>
      (if Z.land c 128 =? 0 then (2 * b) mod 256 else Z.lor ((2 * b) mod 256) 1) :: cmac_shl r
  end.
(** src/crypt/cmac.c:24-31 and 33-41 *)
Definition cmac_dbl (l : list Z) : list Z :=
  let s := cmac_shl l in
  if Z.land (nth 0 l 0) 128 =? 0 then s else upd s 15 (Z.lxor (nth 15 s 0) 135).
(** src/crypt/cmac.c:15-42 cbc_compute_subkeys *)
Definition cmac_subkeys (E : list Z -> list Z) : list Z * list Z :=
  let k1 := cmac_dbl (E (repeat 0 16)) in (k1, cmac_dbl k1).
(** src/crypt/cmac.c:79-83: [n] blocks *)
Fixpoint cmac_rounds (E : list Z -> list Z) (n : nat) (mac data : list Z) : list Z :=
  match n with
  | O => mac
  | S n => cmac_rounds E n (E (xorl mac (firstn 16 data))) (skipn 16 data)
  end.
(** src/crypt/cmac.c:71-90 *)
Definition cmac_rest (E : list Z -> list Z) (c : cmac) (data : list Z) : cmac :=
  let n := Nat.div (length data + 15) 16 in
  match n with
  | O => c
  | S n => {| cm_mac := cmac_rounds E n (cm_mac c) data; cm_blk := skipn (16 * n) data |}
  end.
(** src/crypt/cmac.c:54-91 cry_cmac_update *)
Definition cmac_update (E : list Z -> list Z) (c : cmac) (data : list Z) : cmac :=
  if Nat.eqb (length (cm_blk c)) 0 then cmac_rest E c data
  else
    let n := Nat.min (length data) (16 - length (cm_blk c)) in
    let blk := cm_blk c ++ firstn n data in
    let data := skipn n data in
    if (Nat.ltb (length blk) 16 || Nat.eqb (length data) 0)%bool then {| cm_blk := blk; cm_mac := cm_mac c |}
    else cmac_rest E {| cm_blk := blk; cm_mac := E (xorl (cm_mac c) blk) |} data.
(** src/crypt/cmac.c:93-121 pad and cry_cmac_digest *)
Definition cmac_digest (E : list Z -> list Z) (c : cmac) : list Z :=
  let '(k1, k2) := cmac_subkeys E in
  let last := if Nat.eqb (length (cm_blk c)) 16 then xorl (cm_blk c) k1
              else xorl (cm_blk c ++ 128 :: repeat 0 (15 - length (cm_blk c))) k2 in
  E (xorl (cm_mac c) last).
