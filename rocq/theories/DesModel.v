(** Model of src/crypt/des.c.  Buffers are lists of bytes. *)
From Verif Require Import Base DesTables.

(** src/crypt/des.c:134-138 *)
Definition get_bit (buf : list Z) (bit : nat) : bool := negb (Z.land (nth (bit / 8) buf 0) (Z.shiftr 0x80 (Z.of_nat (bit mod 8))) =? 0).
Definition set_bit (buf : list Z) (bit : nat) : list Z :=
  upd buf (bit / 8) (Z.lor (nth (bit / 8) buf 0) (Z.shiftr 0x80 (Z.of_nat (bit mod 8)))).
(** src/crypt/des.c:148-158 *)
Definition permute (src : list Z) (tab : list nat) (len : nat) : list Z :=
  fold_left (fun dst i => if get_bit src (nth i tab 0%nat - 1) then set_bit dst i else dst) (seq 0 (len * 8)) (repeat 0 len).
(** src/crypt/des.c:166-184; a store to an unsigned char keeps 8 bits *)
Definition rol (buf : list Z) : list Z :=
  let b i := nth i buf 0 in
  let carry_left := Z.shiftr (Z.land (b 0%nat) 0x80) 3 in
  let sh i := Z.lor (Z.shiftl (b i) 1) (Z.shiftr (Z.land (b (i + 1)%nat) 0x80) 7) in
  let carry_right := Z.shiftr (Z.land (b 3%nat) 0x08) 3 in
  [sh 0%nat mod 256; sh 1%nat mod 256; sh 2%nat mod 256;
   Z.lor (Z.land (sh 3%nat) (Z.lnot 0x10)) carry_left mod 256;
   sh 4%nat mod 256; sh 5%nat mod 256; Z.lor (Z.shiftl (b 6%nat) 1) carry_right mod 256].
(** src/crypt/des.c:186-203 *)
Definition ror (buf : list Z) : list Z :=
  let b i := nth i buf 0 in
  let carry_right := Z.shiftl (Z.land (b 6%nat) 0x01) 3 in
  let sh i := Z.lor (Z.shiftr (b i) 1) (Z.shiftl (Z.land (b (i - 1)%nat) 0x01) 7) in
  let carry_left := Z.shiftl (Z.land (b 3%nat) 0x10) 3 in
  [Z.lor (Z.shiftr (b 0%nat) 1) carry_left mod 256; sh 1%nat mod 256; sh 2%nat mod 256;
   Z.lor (Z.land (sh 3%nat) (Z.lnot 0x08)) carry_right mod 256;
   sh 4%nat mod 256; sh 5%nat mod 256; sh 6%nat mod 256].
(** src/crypt/des.c:262-282 *)
Definition des_sub (e : list Z) : list Z :=
  let b i := nth i e 0 in
  let s k i := nth (Z.to_nat i) (nth k des_sbox []) 0 in
  [Z.lor (Z.shiftl (s 0%nat (Z.shiftr (Z.land (b 0%nat) 0xFC) 2)) 4 mod 256)
         (s 1%nat (Z.lor (Z.shiftl (Z.land (b 0%nat) 0x03) 4) (Z.shiftr (Z.land (b 1%nat) 0xF0) 4)));
   Z.lor (Z.shiftl (s 2%nat (Z.lor (Z.shiftl (Z.land (b 1%nat) 0x0F) 2) (Z.shiftr (Z.land (b 2%nat) 0xC0) 6))) 4 mod 256)
         (s 3%nat (Z.land (b 2%nat) 0x3F));
   Z.lor (Z.shiftl (s 4%nat (Z.shiftr (Z.land (b 3%nat) 0xFC) 2)) 4 mod 256)
         (s 5%nat (Z.lor (Z.shiftl (Z.land (b 3%nat) 0x03) 4) (Z.shiftr (Z.land (b 4%nat) 0xF0) 4)));
   Z.lor (Z.shiftl (s 6%nat (Z.lor (Z.shiftl (Z.land (b 4%nat) 0x0F) 2) (Z.shiftr (Z.land (b 5%nat) 0xC0) 6))) 4 mod 256)
         (s 7%nat (Z.land (b 5%nat) 0x3F))].
(** src/crypt/des.c:229-292: one round; [blk] is ip_block, [k] is pc1key *)
Definition des_round (encrypt : bool) (s : list Z * list Z) (round : nat) : list Z * list Z :=
  let '(blk, k) := s in
  let e := permute (skipn 4 blk) des_exp 6 in
  let k := if encrypt then
             let k := rol k in if (Nat.leb round 1 || Nat.eqb round 8 || Nat.eqb round 15)%bool then k else rol k
           else k in
  let subkey := permute k des_pc2 6 in
  let k := if encrypt then k else
             let k := ror k in if (Nat.leb 14 round || Nat.eqb round 7 || Nat.eqb round 0)%bool then k else ror k in
  let pbox := permute (des_sub (xorl e subkey)) des_p 4 in
  (skipn 4 blk ++ xorl (firstn 4 blk) pbox, k).
(** src/crypt/des.c:212-301 *)
Definition des_block (encrypt : bool) (key src : list Z) : list Z :=
  let '(blk, _) := fold_left (des_round encrypt) (seq 0 16) (permute src des_ip 8, permute key des_pc1 7) in
  permute (skipn 4 blk ++ firstn 4 blk) des_fp 8.

(** include/cry/des.h struct cry_des_ctx *)
Record des := { des_keylen : nat; des_key : list Z }.
(** src/crypt/des.c:335-343 *)
Definition des_key_set (key : list Z) : des :=
  let size := Nat.min (length key) 24 in
  {| des_keylen := size; des_key := firstn size key ++ repeat 0 (24 - size) |}.
Definition key_at (c : des) (i : nat) : list Z := firstn 8 (skipn (8 * i) (des_key c)).
(** src/crypt/des.c:303-316.  If the size is not a multiple of 8 it wraps below 0
    and the loop runs out of both buffers. *)
Definition des_encrypt (c : des) (src : list Z) : res (list Z) :=
  if Nat.eqb (length src mod 8) 0 then
    Ok (concat (map (fun b =>
      let d := des_block true (key_at c 0) b in
      if Nat.eqb (des_keylen c) 24 then des_block true (key_at c 2) (des_block false (key_at c 1) d) else d) (chunks 8 src)))
  else UB.
(** src/crypt/des.c:318-333 *)
Definition des_decrypt (c : des) (src : list Z) : res (list Z) :=
  if Nat.eqb (length src mod 8) 0 then
    Ok (concat (map (fun b =>
      if Nat.eqb (des_keylen c) 24 then des_block false (key_at c 0) (des_block true (key_at c 1) (des_block false (key_at c 2) b))
      else des_block false (key_at c 0) b) (chunks 8 src)))
  else UB.
