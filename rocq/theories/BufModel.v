(** Model of the modes of operation on a flat memory: the source, the
    destination, the chaining value in the context and the local buffers all are
    bytes at addresses, and source and destination may overlap in any way.
    Memory is a total function, so what is modelled is which bytes are read and
    written and in which order, not whether an address is mapped. *)
From Verif Require Import Base MemxorModel ModesModel GcmModel Arc4Model.

(** the [n] bytes at address [a] *)
Definition read (m : mem) (a : Z) (n : nat) : list Z := map (fun i => m (a + Z.of_nat i)) (seq 0 n).
(** store bytes from address [a] on *)
Fixpoint write (m : mem) (a : Z) (l : list Z) : mem :=
  match l with
  | [] => m
  | b :: r => write (put m a b) (a + 1) r
  end.
(** memcpy; undefined when the two areas overlap *)
Definition memcpy (m : mem) (dst src : Z) (n : nat) : res mem :=
  if (Nat.eqb n 0 || (dst + Z.of_nat n <=? src) || (src + Z.of_nat n <=? dst))%bool
  then Ok (copy n m dst src) else UB.
(** include/cry/ciph.h cry_ciph_encrypt_f and cry_ciph_decrypt_f on [k] blocks of
    [n] bytes: src/crypt/aes.c:423-458 and 473-508 and src/crypt/des.c:306-315 and
    321-332.  Each round reads a whole block before it writes one. *)
Fixpoint crypt_m (k n : nat) (E : list Z -> list Z) (m : mem) (dst src : Z) : mem :=
  match k with
  | O => m
  | S k => crypt_m k n E (write m dst (E (read m src n))) (dst + Z.of_nat n) (src + Z.of_nat n)
  end.

(** * CBC.  [n] is ctx->ctrlen and [V] the address of ctx->ctr. *)
(** src/crypt/cbc.c:51-59; see [cbc_enc_f] of ModesModel.v for the underflow *)
Fixpoint cbc_enc_m (fuel : nat) (E : list Z -> list Z) (n : nat) (V : Z) (m : mem) (dst src : Z) (size : nat) : res mem :=
  if Nat.eqb size 0 then Ok m
  else if Nat.ltb size n then UB
  else match fuel with
       | O => Fuel
       | S f =>
           let m := memxor m V src n in
           let m := crypt_m 1 n E m dst V in
           do m <- memcpy m V dst n;
           cbc_enc_m f E n V m (dst + Z.of_nat n) (src + Z.of_nat n) (size - n)
       end.
(** src/crypt/cbc.c:43-60 cry_cbc_encrypt *)
Definition cbc_encrypt_m (E : list Z -> list Z) (n : nat) (V : Z) (m : mem) (dst src : Z) (size : nat) : res mem :=
  let size := cbc_size n size in cbc_enc_m (S size) E n V m dst src size.

(** src/crypt/cbc.c:95-100 and 106-114: one buffer.  [I]: address of init_iv,
    [T]: what malloc gives to cry_memxor2 if that asks for memory. *)
Definition cbc_piece_m (D : list Z -> list Z) (n : nat) (V I : Z) (T : option Z) (m : mem) (buf dst src : Z) (size : nat) : res mem :=
  let m := crypt_m (size / n) n D m buf src in
  do m <- memcpy m I V n;
  do m <- memcpy m V (src + Z.of_nat size - Z.of_nat n) n;
  do m <- memxor2 T m (dst + Z.of_nat n) (buf + Z.of_nat n) src (size - n);
  memxor2 T m dst buf I n.
(** src/crypt/cbc.c:94-114 *)
Fixpoint cbc_inplace_m (fuel : nat) (D : list Z -> list Z) (n : nat) (V I : Z) (T : option Z) (m : mem) (buf dst src : Z) (size bs : nat) : res mem :=
  if Nat.ltb bs size then
    match fuel with
    | O => Fuel
    | S f =>
        do m <- cbc_piece_m D n V I T m buf dst src bs;
        cbc_inplace_m f D n V I T m buf (dst + Z.of_nat bs) (src + Z.of_nat bs) (size - bs) bs
    end
  else cbc_piece_m D n V I T m buf dst src size.
(** src/crypt/cbc.c:64-119 cry_cbc_decrypt.  [F]: address of fallback, [H]: what
    the malloc of line 88 returns. *)
Definition cbc_decrypt_m (D : list Z -> list Z) (n : nat) (V I F : Z) (H T : option Z) (m : mem) (dst src : Z) (size : nat) : res mem :=
  let size := cbc_size n size in
  if Nat.ltb size n then UB
  else if src =? dst then
    let '(buf, bs) := match H with Some b => (b, Nat.min size 512) | None => (F, 16%nat) end in
    cbc_inplace_m (S size) D n V I T m buf dst src size bs
  else
    let m := crypt_m (size / n) n D m dst src in
    let m := memxor m dst V n in
    let m := memxor m (dst + Z.of_nat n) src (size - n) in
    memcpy m V (src + Z.of_nat size - Z.of_nat n) n.

(** * CFB.  [n] is ctx->vlen and [V] the address of ctx->v. *)
(** src/crypt/cfb.c:40-60 cry_cfb_crypt; with vlen = 0 it does not end, see [cfb_crypt_f] *)
Fixpoint cfb_crypt_m (fuel : nat) (E : list Z -> list Z) (n : nat) (V : Z) (T : option Z) (m : mem) (dst src : Z) (len : nat) : res mem :=
  if Nat.leb n len then
    match fuel with
    | O => UB
    | S f =>
        let m := crypt_m 1 n E m V V in
        do m <- memxor2 T m dst src V n;
        do m <- memcpy m V dst n;
        cfb_crypt_m f E n V T m (dst + Z.of_nat n) (src + Z.of_nat n) (len - n)
    end
  else if Nat.eqb len 0 then Ok m
  else
    let m := crypt_m 1 n E m V V in
    do m <- memxor2 T m dst src V len;
    memcpy m V dst n.

(** src/crypt/cfb.c:72-81; [B]: address of buf.  The position and the memory. *)
Fixpoint cfb8_enc_m (len : nat) (E : list Z -> list Z) (n : nat) (V B : Z) (m : mem) (pos : nat) (dst src : Z) : res (nat * mem) :=
  match len with
  | O => Ok (pos, m)
  | S len =>
      do ' (pos, m) <- (if Nat.eqb pos n then do m <- memcpy m B (B + Z.of_nat n) n; Ok (O, m) else Ok (pos, m));
      let m := crypt_m 1 n E m V (B + Z.of_nat pos) in
      let c := Z.lxor (m src) (m V) in
      let m := put (put m dst c) (B + Z.of_nat pos + Z.of_nat n) c in
      cfb8_enc_m len E n V B m (S pos) (dst + 1) (src + 1)
  end.
(** src/crypt/cfb.c:62-83 cry_cfb8_encrypt *)
Definition cfb8_encrypt_m (E : list Z -> list Z) (n : nat) (V B : Z) (m : mem) (dst src : Z) (len : nat) : res mem :=
  do m <- memcpy m B V n;
  do ' (pos, m) <- cfb8_enc_m len E n V B m 0 dst src;
  memcpy m V (B + Z.of_nat pos) n.

(** src/crypt/cfb.c:98-99: [k] rounds; [O]: obuf + i, [B]: buf + i *)
Fixpoint cfb8_keys_m (k : nat) (E : list Z -> list Z) (n : nat) (m : mem) (O B : Z) : mem :=
  match k with
  | O => m
  | S k => cfb8_keys_m k E n (crypt_m 1 n E m O B) (O + 1) (B + 1)
  end.
(** src/crypt/cfb.c:97-106; [O]: address of obuf *)
Fixpoint cfb8_dec_m (fuel : nat) (E : list Z -> list Z) (n : nat) (B O : Z) (T : option Z) (m : mem) (i : nat) (dst src : Z) (len : nat) : res (nat * mem) :=
  if Nat.eqb len 0 then Ok (i, m)
  else match fuel with
       | O => Fuel
       | S f =>
           let i := Nat.min len n in
           let m := cfb8_keys_m i E n m O B in
           do m <- memxor2 T m dst src O i;
           let len := (len - i)%nat in
           let src := src + Z.of_nat i in
           let dst := dst + Z.of_nat i in
           do m <- memcpy m B (B + Z.of_nat n) n;
           do m <- memcpy m (B + Z.of_nat n) src (Nat.min len n);
           cfb8_dec_m f E n B O T m i dst src len
       end.
(** src/crypt/cfb.c:85-108 cry_cfb8_decrypt *)
Definition cfb8_decrypt_m (E : list Z -> list Z) (n : nat) (V B O : Z) (T : option Z) (m : mem) (dst src : Z) (len : nat) : res mem :=
  do m <- memcpy m B V n;
  do m <- memcpy m (B + Z.of_nat n) src (Nat.min len n);
  do ' (i, m) <- cfb8_dec_m (S len) E n B O T m 0 dst src len;
  memcpy m V (B + Z.of_nat i) n.

(** * CTR.  [n] is ctx->ctrlen, [V] the address of ctx->ctr, [B] that of buf. *)
(** src/misc.h:28-32 CRY_INCREMENT_BE on the counter *)
Definition inc_m (m : mem) (V : Z) (n : nat) : res mem :=
  do l <- increment_be (read m V n); Ok (write m V l).
(** src/crypt/ctr.c:54-58, 71-75 and 85-89: [k] counter blocks from [p] on *)
Fixpoint ctr_fill (k n : nat) (V : Z) (m : mem) (p : Z) : res mem :=
  match k with
  | O => Ok m
  | S k => do m <- memcpy m p V n;
           do m <- inc_m m V n;
           ctr_fill k n V m (p + Z.of_nat n)
  end.
(** src/crypt/ctr.c:53-67 *)
Definition ctr_apart_m (E : list Z -> list Z) (n : nat) (V B : Z) (T : option Z) (m : mem) (dst src : Z) (len : nat) : res mem :=
  let k := (len / n)%nat in
  let r := (len - k * n)%nat in
  do m <- ctr_fill k n V m dst;
  let m := crypt_m k n E m dst dst in
  let m := memxor m dst src (k * n) in
  if Nat.eqb r 0 then Ok m
  else
    let m := crypt_m 1 n E m B V in
    do m <- inc_m m V n;
    memxor2 T m (dst + Z.of_nat (k * n)) (src + Z.of_nat (k * n)) B r.
(** src/crypt/ctr.c:69-92; counter blocks beyond the 64 bytes of buf overflow it *)
Fixpoint ctr_inplace_m (fuel : nat) (E : list Z -> list Z) (n : nat) (V B : Z) (T : option Z) (m : mem) (dst src : Z) (len : nat) : res mem :=
  if Nat.leb 64 len then
    match fuel with
    | O => Fuel
    | S f =>
        do m <- ctr_fill 4 n V m B;
        let m := crypt_m (64 / n) n E m B B in
        do m <- memxor2 T m dst src B 64;
        ctr_inplace_m f E n V B T m (dst + 64) (src + 64) (len - 64)
    end
  else if Nat.eqb len 0 then Ok m
  else
    let k := ((len + n - 1) / n)%nat in
    if Nat.ltb 64 (k * n) then UB
    else
      do m <- ctr_fill k n V m B;
      let m := crypt_m k n E m B B in
      memxor2 T m dst src B len.
(** src/crypt/ctr.c:43-94 cry_ctr_encrypt *)
Definition ctr_encrypt_m (E : list Z -> list Z) (n : nat) (V B : Z) (T : option Z) (m : mem) (dst src : Z) (len : nat) : res mem :=
  if Nat.eqb n 0 then UB
  else if src =? dst then ctr_inplace_m (S len) E n V B T m dst src len
  else ctr_apart_m E n V B T m dst src len.

(** * GCM.  The context is a value, apart from all buffers; [B]: address of the
    local buffer. *)
(** src/crypt/gcm.c:145-167 gcm_operate; [same]: src == dst on entry *)
Fixpoint gcm_operate_m (fuel : nat) (E : list Z -> list Z) (same : bool) (B : Z) (T : option Z) (ctr : list Z) (m : mem) (dst src : Z) (size : nat) : res (list Z * mem) :=
  if Nat.leb 16 size then
    match fuel with
    | O => Fuel
    | S f =>
        do m <- (if same
                 then memxor2 T (write m B (E ctr)) dst src B 16
                 else Ok (memxor (write m dst (E ctr)) dst src 16));
        do ctr <- inc_last4 ctr;
        gcm_operate_m f E same B T ctr m (dst + 16) (src + 16) (size - 16)
    end
  else if Nat.eqb size 0 then Ok (ctr, m)
  else
    do m <- memxor2 T (write m B (E ctr)) dst src B size;
    do ctr <- inc_last4 ctr;
    Ok (ctr, m).
(** src/crypt/gcm.c:170-176 cry_gcm_encrypt *)
Definition gcm_encrypt_m (E : list Z -> list Z) (B : Z) (T : option Z) (c : gcm) (m : mem) (dst src : Z) (size : nat) : res (gcm * mem) :=
  do ' (ctr, m) <- gcm_operate_m (S size) E (src =? dst) B T (g_ctr c) m dst src size;
  Ok ({| g_iv := g_iv c; g_ctr := ctr; g_hs := gcm_hash (g_hs c) (g_key c) (read m dst size); g_key := g_key c;
         g_auth := g_auth c; g_ciph := (g_ciph c + Z.of_nat size) mod 2 ^ 64 |}, m).
(** src/crypt/gcm.c:178-184 cry_gcm_decrypt *)
Definition gcm_decrypt_m (E : list Z -> list Z) (B : Z) (T : option Z) (c : gcm) (m : mem) (dst src : Z) (size : nat) : res (gcm * mem) :=
  let hs := gcm_hash (g_hs c) (g_key c) (read m src size) in
  do ' (ctr, m) <- gcm_operate_m (S size) E (src =? dst) B T (g_ctr c) m dst src size;
  Ok ({| g_iv := g_iv c; g_ctr := ctr; g_hs := hs; g_key := g_key c;
         g_auth := g_auth c; g_ciph := (g_ciph c + Z.of_nat size) mod 2 ^ 64 |}, m).

(** * ARC4, the context being a value *)
(** src/crypt/arc4.c:41-63 cry_arc4_crypt *)
Fixpoint arc4_crypt_m (size : nat) (c : arc4) (m : mem) (dst src : Z) : arc4 * mem :=
  match size with
  | O => (c, m)
  | S size =>
      let '(c, k) := arc4_next c in
      arc4_crypt_m size c (put m dst (Z.lxor (m src) k)) (dst + 1) (src + 1)
  end.
