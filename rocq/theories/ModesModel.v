(** Model of src/crypt/cbc.c, cfb.c and ctr.c over an arbitrary block cipher.
    The cipher is given by what its interface does to one block ([E], [D]); a
    call on several blocks treats them one after the other (see the models of
    cry_aes_encrypt and cry_des_encrypt).  The block size is the length of the
    initialisation vector, as it is in the code. *)
From Verif Require Import Base.

(** cry_ciph_itf: encrypt/decrypt called on whole blocks of [n] bytes *)
Definition ecb (n : nat) (f : list Z -> list Z) (l : list Z) : list Z := concat (map f (chunks n l)).

(** * CBC *)
(** include/cry/cbc.h struct cry_cbc_ctx; only the first ctrlen bytes of [ctr]
    are ever used, the model keeps those. *)
Record cbc := { cbc_ctr : list Z; cbc_len : nat }.
(** src/crypt/cbc.c:35-41 cry_cbc_iv_set *)
Definition cbc_iv_set (iv : list Z) : cbc :=
  let n := Nat.min 16 (length iv) in {| cbc_ctr := firstn n iv; cbc_len := n |}.
(** src/crypt/cbc.c:49 and 70: size &= ~(ctrlen - 1) *)
Definition cbc_size (n : nat) (size : nat) : nat :=
  Z.to_nat (Z.land (Z.of_nat size) (Z.lnot (Z.of_nat n - 1))).
(** src/crypt/cbc.c:51-59.  A rest shorter than the block (possible only when
    ctrlen is no power of two) underflows [size] and runs out of the buffers. *)
Fixpoint cbc_enc_f (fuel : nat) (E : list Z -> list Z) (n : nat) (ctr src : list Z) (size : nat) : res (list Z * list Z) :=
  if Nat.eqb size 0 then Ok (ctr, [])
  else if Nat.ltb size n then UB
  else match fuel with
       | O => Fuel
       | S f =>
           let c := E (xorl ctr (firstn n src)) in
           do ' (ctr', o) <- cbc_enc_f f E n c (skipn n src) (size - n);
           Ok (ctr', c ++ o)
       end.
(** src/crypt/cbc.c:43-60 cry_cbc_encrypt: new context and the bytes written *)
Definition cbc_encrypt (E : list Z -> list Z) (c : cbc) (src : list Z) : res (cbc * list Z) :=
  let size := cbc_size (cbc_len c) (length src) in
  do ' (ctr, o) <- cbc_enc_f (S size) E (cbc_len c) (cbc_ctr c) src size;
  Ok ({| cbc_ctr := ctr; cbc_len := cbc_len c |}, o).

(** src/crypt/cbc.c:73-76, and 95-100 and 106-114 for one buffer of the in-place variant:
    [size] >= ctrlen bytes are decrypted, the first block is XORed with the
    chaining value and the others with the preceding ciphertext.  In place the
    last XOR overlaps its source by all but one block; cry_memxor2 gets that
    placement right (lemma [cbc_overlap] in Modes.v). *)
Definition cbc_dec_piece (D : list Z -> list Z) (n : nat) (ctr src : list Z) (size : nat) : list Z * list Z :=
  let buf := ecb n D (firstn size src) in
  (firstn n (skipn (size - n) src),
   xorl (firstn n buf) ctr ++ xorl (skipn n buf) (firstn (size - n) src)).
(** src/crypt/cbc.c:94-114 *)
Fixpoint cbc_dec_inplace (fuel : nat) (D : list Z -> list Z) (n : nat) (ctr src : list Z) (size buf_siz : nat) : res (list Z * list Z) :=
  if Nat.ltb buf_siz size then
    match fuel with
    | O => Fuel
    | S f =>
        let '(ctr1, o1) := cbc_dec_piece D n ctr src buf_siz in
        do ' (ctr2, o2) <- cbc_dec_inplace f D n ctr1 (skipn buf_siz src) (size - buf_siz) buf_siz;
        Ok (ctr2, o1 ++ o2)
    end
  else Ok (cbc_dec_piece D n ctr src size).
(** src/crypt/cbc.c:64-119 cry_cbc_decrypt.  [inplace]: src = dst (otherwise the
    buffers are disjoint); [mem]: malloc succeeds.  With less than one block,
    size - ctrlen wraps around (lines 75, 112). *)
Definition cbc_decrypt (D : list Z -> list Z) (inplace mem : bool) (c : cbc) (src : list Z) : res (cbc * list Z) :=
  let n := cbc_len c in
  let size := cbc_size n (length src) in
  if Nat.ltb size n then UB
  else
    do ' (ctr, o) <- (if inplace
                      then cbc_dec_inplace (S size) D n (cbc_ctr c) src size (if mem then Nat.min size 512 else 16)
                      else Ok (cbc_dec_piece D n (cbc_ctr c) src size));
    Ok ({| cbc_ctr := ctr; cbc_len := n |}, o).

(** * CFB *)
(** include/cry/cfb.h; again only the first vlen bytes of [v] matter *)
Record cfb := { cfb_v : list Z; cfb_len : nat }.
(** src/crypt/cfb.c:32-38 cry_cfb_iv_set *)
Definition cfb_iv_set (iv : list Z) : cfb :=
  let n := Nat.min 16 (length iv) in {| cfb_v := firstn n iv; cfb_len := n |}.
(** src/crypt/cfb.c:40-60 cry_cfb_crypt, used both to encrypt and to decrypt.
    [after]: the bytes that follow the output in the destination buffer, read
    by the memcpy of line 58 when the last block is short.  vlen = 0 never
    terminates (reported as UB, like every read outside a buffer). *)
Fixpoint cfb_crypt_f (fuel : nat) (E : list Z -> list Z) (n : nat) (v src after : list Z) : res (list Z * list Z) :=
  if Nat.leb n (length src) then
    match fuel with
    | O => UB
    | S f =>
        let o := xorl (firstn n src) (E v) in
        do ' (v', r) <- cfb_crypt_f f E n o (skipn n src) after;
        Ok (v', o ++ r)
    end
  else match src with
       | [] => Ok (v, [])
       | _ =>
           let o := xorl src (E v) in
           if Nat.ltb (length after) (n - length src) then UB
           else Ok (o ++ firstn (n - length src) after, o)
       end.
Definition cfb_crypt (E : list Z -> list Z) (c : cfb) (src after : list Z) : res (cfb * list Z) :=
  do ' (v, o) <- cfb_crypt_f (S (length src)) E (cfb_len c) (cfb_v c) src after;
  Ok ({| cfb_v := v; cfb_len := cfb_len c |}, o).

(** src/crypt/cfb.c:62-83 cry_cfb8_encrypt.  [buf]: the 2*vlen byte window
    (its upper half starts uninitialised), [pos] the position in it. *)
Fixpoint cfb8_enc_f (E : list Z -> list Z) (n : nat) (buf : list Z) (pos : nat) (src : list Z) : list Z * nat * list Z :=
  match src with
  | [] => (buf, pos, [])
  | x :: r =>
      let '(buf, pos) := if Nat.eqb pos n then (skipn n buf ++ skipn n buf, O) else (buf, pos) in
      let v := E (firstn n (skipn pos buf)) in
      let c := Z.lxor x (nth 0 v 0) in
      let '(b, p, o) := cfb8_enc_f E n (upd buf (pos + n) c) (S pos) r in
      (b, p, c :: o)
  end.
Definition cfb8_encrypt (E : list Z -> list Z) (junk : list Z) (c : cfb) (src : list Z) : cfb * list Z :=
  let n := cfb_len c in
  let '(buf, pos, o) := cfb8_enc_f E n (cfb_v c ++ firstn n (junk ++ repeat 0 n)) 0 src in
  ({| cfb_v := firstn n (skipn pos buf); cfb_len := n |}, o).

(** src/crypt/cfb.c:98-99: key bytes for the first [i] positions of the window *)
Definition cfb8_keys (E : list Z -> list Z) (n : nat) (buf : list Z) (i : nat) : list Z :=
  map (fun k => nth 0 (E (firstn n (skipn k buf))) 0) (seq 0 i).
(** memcpy of [l] over the start of the upper half of the window *)
Definition cfb8_fill (n : nat) (buf l : list Z) : list Z :=
  firstn n buf ++ firstn n l ++ skipn (n + length (firstn n l)) buf.
(** src/crypt/cfb.c:97-106 *)
Fixpoint cfb8_dec_f (fuel : nat) (E : list Z -> list Z) (n : nat) (buf : list Z) (i : nat) (src : list Z) : res (list Z * nat * list Z) :=
  match src with
  | [] => Ok (buf, i, [])
  | _ =>
      match fuel with
      | O => Fuel
      | S f =>
          let i := Nat.min n (length src) in
          let o := xorl (firstn i src) (cfb8_keys E n buf i) in
          let src := skipn i src in
          let buf := cfb8_fill n (skipn n buf ++ skipn n buf) src in
          do ' (b, i, r) <- cfb8_dec_f f E n buf i src;
          Ok (b, i, o ++ r)
      end
  end.
(** src/crypt/cfb.c:85-108 cry_cfb8_decrypt *)
Definition cfb8_decrypt (E : list Z -> list Z) (junk : list Z) (c : cfb) (src : list Z) : res (cfb * list Z) :=
  let n := cfb_len c in
  let buf := cfb8_fill n (cfb_v c ++ firstn n (junk ++ repeat 0 n)) src in
  do ' (b, i, o) <- cfb8_dec_f (S (length src)) E n buf 0 src;
  Ok ({| cfb_v := firstn n (skipn i b); cfb_len := n |}, o).

(** * CTR *)
(** src/misc.h:28-32 CRY_INCREMENT_BE, on the bytes most significant last.
    [inc_rest]: lines 31, walking towards the most significant byte. *)
Fixpoint inc_rest (l : list Z) : list Z :=
  match l with
  | [] => []
  | b :: r => let b' := (b + 1) mod 256 in
              if b' =? 0 then b' :: inc_rest r else b' :: r
  end.
Definition increment_be (l : list Z) : res (list Z) :=
  match rev l with
  | [] => UB
  | b :: r => let b' := (b + 1) mod 256 in
              if b' =? 0
              then match r with [] => UB | _ => Ok (rev (b' :: inc_rest r)) end
              else Ok (rev (b' :: r))
  end.
Record ctr := { ctr_v : list Z; ctr_len : nat }.
(** src/crypt/ctr.c:35-41 cry_ctr_iv_set *)
Definition ctr_iv_set (iv : list Z) : ctr :=
  let n := Nat.min 16 (length iv) in {| ctr_v := firstn n iv; ctr_len := n |}.
(** [k] successive counter values, src/crypt/ctr.c:54-58, 71-75 and 85-89 *)
Fixpoint ctr_blocks (k : nat) (v : list Z) : res (list Z * list Z) :=
  match k with
  | O => Ok (v, [])
  | S k => do v1 <- increment_be v;
           do ' (v2, o) <- ctr_blocks k v1;
           Ok (v2, v ++ o)
  end.
(** src/crypt/ctr.c:53-67: destination apart from the source *)
Definition ctr_apart (E : list Z -> list Z) (n : nat) (v src : list Z) : res (list Z * list Z) :=
  let k := Nat.div (length src) n in
  do ' (v, cs) <- ctr_blocks k v;
  let o := xorl (ecb n E cs) (firstn (k * n) src) in
  let rest := skipn (k * n) src in
  match rest with
  | [] => Ok (v, o)
  | _ => do v1 <- increment_be v;
         Ok (v1, o ++ xorl rest (E v))
  end.
(** src/crypt/ctr.c:69-92: in place, by 64-byte buffers of four counter blocks.
    [junk]: former content of the buffer, of which 64 - 4*ctrlen bytes are used.
    The counter blocks of a short rest may be longer than the buffer of 64 bytes. *)
Fixpoint ctr_inplace (fuel : nat) (E : list Z -> list Z) (junk : list Z) (n : nat) (v src : list Z) : res (list Z * list Z) :=
  if Nat.leb 64 (length src) then
    match fuel with
    | O => Fuel
    | S f =>
        do ' (v, cs) <- ctr_blocks 4 v;
        let buf := ecb n E (cs ++ firstn (64 - 4 * n) junk) in
        do ' (v, o) <- ctr_inplace f E (skipn (4 * n) buf) n v (skipn 64 src);
        Ok (v, xorl (firstn 64 src) buf ++ o)
    end
  else match src with
       | [] => Ok (v, [])
       | _ => let k := Nat.div (length src + n - 1) n in
              if Nat.ltb 64 (k * n) then UB
              else do ' (v, cs) <- ctr_blocks k v;
                   Ok (v, xorl src (ecb n E cs))
       end.
(** src/crypt/ctr.c:43-94 cry_ctr_encrypt, also cry_ctr_decrypt.  ctrlen = 0
    loops forever or reads outside the counter. *)
Definition ctr_encrypt (E : list Z -> list Z) (inplace : bool) (junk : list Z) (c : ctr) (src : list Z) : res (ctr * list Z) :=
  let n := ctr_len c in
  if Nat.eqb n 0 then UB
  else
    do ' (v, o) <- (if inplace then ctr_inplace (S (length src)) E junk n (ctr_v c) src
                    else ctr_apart E n (ctr_v c) src);
    Ok ({| ctr_v := v; ctr_len := n |}, o).
