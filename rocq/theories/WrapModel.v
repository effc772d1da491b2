(** Model of src/utils/aes_wrap.c.  The buffers in and out do not overlap.  A
    buffer is the list of its bytes; [blk r j] are the bytes at r + 8 (j - 1).
    The pointer r of cry_aes_unwrap is one block before out at the end of each
    pass (line 78); that this arithmetic is undefined in C is ignored. *)
From Verif Require Import Base AesModel.

Definition blk (r : list Z) (j : nat) : list Z := firstn 8 (skipn (8 * (j - 1)) r).
Definition set_blk (r : list Z) (j : nat) (v : list Z) : list Z := firstn (8 * (j - 1)) r ++ v ++ skipn (8 * j) r.
(** src/utils/aes_wrap.c:44 and 73: [x[7] ^= blks * i + j] in size_t, then cut to a byte *)
Definition xor7 (x : list Z) (blks i j : nat) : list Z :=
  upd x 7 (Z.lxor (nth 7 x 0) ((Z.of_nat blks * Z.of_nat i + Z.of_nat j) mod 2 ^ 64) mod 256).
(** src/utils/aes_wrap.c:40-46 *)
Definition wrap_step (blks i : nat) (st : aes * list Z * list Z) (j : nat) : aes * list Z * list Z :=
  let '(c, a, r) := st in
  let '(c, b) := aes_encrypt c (a ++ blk r j) in
  (c, xor7 (firstn 8 b) blks i j, set_blk r j (skipn 8 b)).
(** src/utils/aes_wrap.c:20-50 cry_aes_wrap; the result is the len + 8 bytes of out *)
Definition cry_aes_wrap (inp key : list Z) : res (list Z) :=
  do c <- aes_key_set key;
  let blks := (length inp / 8)%nat in
  let '(c, a, r) := fold_left (fun st i => fold_left (wrap_step blks i) (seq 1 blks) st) (seq 0 6) (c, repeat 0xA6 8, inp) in
  Ok (a ++ r).
(** src/utils/aes_wrap.c:72-77; [b]: None until it has been written *)
Definition unwrap_step (blks i : nat) (st : aes * list Z * list Z * option (list Z)) (j : nat) : aes * list Z * list Z * option (list Z) :=
  let '(c, a, r, _) := st in
  let '(c, b) := aes_decrypt c (xor7 a blks i j ++ blk r j) in
  (c, firstn 8 b, set_blk r j (skipn 8 b), Some b).
(** src/utils/aes_wrap.c:52-90 cry_aes_unwrap: return code and the len bytes of out.
    [inp] are the len + 8 bytes of in. *)
Definition cry_aes_unwrap (inp key : list Z) : res (Z * list Z) :=
  if Nat.ltb (length inp) 8 then UB
  else
    do c <- aes_key_set key;
    let len := (length inp - 8)%nat in
    let blks := (len / 8)%nat in
    let '(c, a, r, b) := fold_left (fun st i => fold_left (unwrap_step blks i) (rev (seq 1 blks)) st) (rev (seq 0 6)) (c, firstn 8 inp, skipn 8 inp, None) in
    match b with
    | None => UB
    | Some b => if forallb (Z.eqb 0xA6) (firstn 8 b) then Ok (0, r) else Ok (-1, repeat 0 len)
    end.
