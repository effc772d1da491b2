(** Model of src/prng/prng_aes.c and src/prng/prng_lfsr113.c.  The static
    variables are the state; [None] is init = 0. *)
From Verif Require Import Base AesModel.

(** * prng_aes.c *)
(** src/prng/prng_aes.c:8-13 struct prng_bc_ctx *)
Record prng := { paes : aes; pix : nat; pctr : list Z; plo : list Z }.
(** src/prng/prng_aes.c:18-40 cry_prng_aes_init; a NULL seed is the empty one.
    lo keeps its old contents [lo]. *)
Definition prng_init (lo seed : list Z) : res prng :=
  let sz := Nat.min (length seed) 16 in
  do c <- aes_key_set (firstn sz seed ++ repeat 0 (16 - sz));
  let seed := skipn sz seed in
  let sz := Nat.min (length seed) 16 in
  Ok {| paes := c; pix := 0; pctr := firstn sz seed ++ repeat 0 (16 - sz); plo := lo |}.
(** src/prng/prng_aes.c:42-46 CTR_INC, on the bytes in reverse order *)
Fixpoint ctr_inc_rev (l : list Z) : list Z :=
  match l with
  | [] => []
  | b :: r => let b := (b + 1) mod 256 in if b =? 0 then b :: ctr_inc_rev r else b :: r
  end.
Definition ctr_inc (l : list Z) : list Z := rev (ctr_inc_rev (rev l)).
(** src/prng/prng_aes.c:54-57: bytes given, ix, bytes left to give *)
Fixpoint prng_residual (siz ix : nat) (lo : list Z) : list Z * nat * nat :=
  match siz with
  | O => ([], ix, O)
  | S s => match ix with
           | O => ([], ix, siz)
           | _ => let '(o, ix', s') := prng_residual s (Nat.modulo (ix + 1) 16) lo in (nth ix lo 0 :: o, ix', s')
           end
  end.
(** src/prng/prng_aes.c:60-65: [n] whole blocks *)
Fixpoint prng_main (n : nat) (c : aes) (ctr : list Z) : list Z * aes * list Z :=
  match n with
  | O => ([], c, ctr)
  | S n => let '(c, b) := aes_encrypt c ctr in
           let '(o, c, ctr) := prng_main n c (ctr_inc ctr) in (b ++ o, c, ctr)
  end.
(** src/prng/prng_aes.c:48-76 cry_prng_aes_rand *)
Definition prng_rand (st : option prng) (siz : nat) : res (prng * list Z) :=
  do p <- match st with None => prng_init (repeat 0 16) [] | Some p => Ok p end;
  let '(o1, ix, siz) := prng_residual siz (pix p) (plo p) in
  let '(o2, c, ctr) := prng_main (siz / 16) (paes p) (pctr p) in
  let siz := Nat.modulo siz 16 in
  match siz with
  | O => Ok ({| paes := c; pix := ix; pctr := ctr; plo := plo p |}, o1 ++ o2)
  | _ => let '(c, lo) := aes_encrypt c ctr in
         Ok ({| paes := c; pix := siz; pctr := ctr_inc ctr; plo := lo |}, o1 ++ o2 ++ firstn siz lo)
  end.
(** a sequence of requests *)
Fixpoint prng_rands (st : option prng) (sizes : list nat) : res (list (list Z)) :=
  match sizes with
  | [] => Ok []
  | n :: ns => do ' (p, o) <- prng_rand st n; do os <- prng_rands (Some p) ns; Ok (o :: os)
  end.

(** * prng_lfsr113.c *)
Definition lfsr := (Z * Z * Z * Z)%type.
Definition sh32 (v n : Z) : Z := Z.shiftl v n mod 2 ^ 32.
(** src/prng/prng_lfsr113.c:23-33 RAND_GET: the new registers and r *)
Definition lfsr_get (z : lfsr) : lfsr * Z :=
  let '(z0, z1, z2, z3) := z in
  let r := Z.shiftr (Z.lxor (sh32 z0 6) z0) 13 in
  let z0 := Z.lxor (sh32 (Z.land z0 4294967294) 18) r in
  let r := Z.shiftr (Z.lxor (sh32 z1 2) z1) 27 in
  let z1 := Z.lxor (sh32 (Z.land z1 4294967288) 2) r in
  let r := Z.shiftr (Z.lxor (sh32 z2 13) z2) 21 in
  let z2 := Z.lxor (sh32 (Z.land z2 4294967280) 7) r in
  let r := Z.shiftr (Z.lxor (sh32 z3 3) z3) 12 in
  let z3 := Z.lxor (sh32 (Z.land z3 4294967168) 13) r in
  ((z0, z1, z2, z3), Z.lxor (Z.lxor (Z.lxor z0 z1) z2) z3).
(** the bytes of z in memory, on a little-endian machine *)
Definition le4 (v : Z) : list Z := [v mod 256; v / 256 mod 256; v / 65536 mod 256; v / 16777216 mod 256].
Definition of_le4 (l : list Z) (o : nat) : Z := nth o l 0 + 256 * nth (o + 1) l 0 + 65536 * nth (o + 2) l 0 + 16777216 * nth (o + 3) l 0.
Definition lfsr_mem (z : lfsr) : list Z := let '(z0, z1, z2, z3) := z in le4 z0 ++ le4 z1 ++ le4 z2 ++ le4 z3.
(** src/prng/prng_lfsr113.c:18 *)
Definition default_seed : Z := 987654321.
(** src/prng/prng_lfsr113.c:35-53 cry_prng_lfsr113_init from the old registers; a
    seed of more than 16 bytes makes memset write beyond z.  Up to 16 bytes the
    index i % sizeof(z) is i. *)
Definition lfsr_init (z : lfsr) (seed : list Z) : res lfsr :=
  if Nat.ltb 16 (length seed) then UB
  else
    let p := repeat 0 (length seed) ++ skipn (length seed) (lfsr_mem z) in
    let p := fold_left (fun p i => upd p i (Z.lxor (nth i p 0) (nth i seed 0))) (seq 0 (length seed)) p in
    let z0 := of_le4 p 0 in let z1 := of_le4 p 4 in let z2 := of_le4 p 8 in let z3 := of_le4 p 12 in
    Ok (if z0 <? 1 then default_seed else z0, if z1 <? 7 then default_seed else z1,
        if z2 <? 15 then default_seed else z2, if z3 <? 127 then default_seed else z3).
(** src/prng/prng_lfsr113.c:65-68 *)
Definition word_bytes (r : Z) : list Z := map (fun s => Z.land (Z.shiftr r s) 255) [24; 16; 8; 0].
(** src/prng/prng_lfsr113.c:63-69 *)
Fixpoint lfsr_words (n : nat) (z : lfsr) : lfsr * list Z :=
  match n with
  | O => (z, [])
  | S n => let '(z, r) := lfsr_get z in let '(z, o) := lfsr_words n z in (z, word_bytes r ++ o)
  end.
(** src/prng/prng_lfsr113.c:73-76 *)
Fixpoint lfsr_tail (i : nat) (r : Z) : list Z :=
  match i with
  | O => []
  | S i => Z.land (Z.shiftr r 24) 255 :: lfsr_tail i (sh32 r 8)
  end.
(** src/prng/prng_lfsr113.c:55-79 cry_prng_lfsr113_rand *)
Definition lfsr_rand (st : option lfsr) (siz : nat) : res (lfsr * list Z) :=
  do z <- match st with None => lfsr_init (0, 0, 0, 0) [] | Some z => Ok z end;
  let '(z, o) := lfsr_words (siz / 4) z in
  match Nat.modulo siz 4 with
  | O => Ok (z, o)
  | i => let '(z, r) := lfsr_get z in Ok (z, o ++ lfsr_tail i r)
  end.
Fixpoint lfsr_rands (st : option lfsr) (sizes : list nat) : res (list (list Z)) :=
  match sizes with
  | [] => Ok []
  | n :: ns => do ' (p, o) <- lfsr_rand st n; do os <- lfsr_rands (Some p) ns; Ok (o :: os)
  end.
