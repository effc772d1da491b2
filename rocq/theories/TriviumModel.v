(** Model of src/crypt/trivium.c.  The ten 32-bit words s11 .. s34 are a list;
    bytes are read and written by [read_le]/[write_le] (src/misc.h:74-78). *)
From Verif Require Import Base HashModel.

Definition w32 (x : Z) : Z := x mod 2 ^ 32.
(** src/crypt/trivium.c:36-37 (S64, S96) on the words of one register *)
Definition S64 (s2 s3 : Z) (b : Z) : Z := Z.lor (w32 (Z.shiftl s3 (96 - b))) (Z.shiftr s2 (b - 64)).
Definition S96 (s3 s4 : Z) (b : Z) : Z := Z.lor (w32 (Z.shiftl s4 (128 - b))) (Z.shiftr s3 (b - 96)).
(** src/crypt/trivium.c:39-60 (UPDATE, ROTATE): the output word and the new state *)
Definition tri_step (s : list Z) : Z * list Z :=
  match s with
  | [s11; s12; s13; s21; s22; s23; s31; s32; s33; s34] =>
      let t1 := Z.lxor (S64 s12 s13 66) (S64 s12 s13 93) in
      let t2 := Z.lxor (S64 s22 s23 69) (S64 s22 s23 84) in
      let t3 := Z.lxor (S64 s32 s33 66) (S96 s33 s34 111) in
      let z := Z.lxor (Z.lxor t1 t2) t3 in
      let t1 := Z.lxor t1 (Z.lxor (Z.land (S64 s12 s13 91) (S64 s12 s13 92)) (S64 s22 s23 78)) in
      let t2 := Z.lxor t2 (Z.lxor (Z.land (S64 s22 s23 82) (S64 s22 s23 83)) (S64 s32 s33 87)) in
      let t3 := Z.lxor t3 (Z.lxor (Z.land (S96 s33 s34 109) (S96 s33 s34 110)) (S64 s12 s13 69)) in
      (z, [t3; s11; s12; t1; s21; s22; t2; s31; s32; s33])
  | _ => (0, s)
  end.
(** src/crypt/trivium.c:10-33 (LOAD, STORE) *)
Definition tri_load (s : list Z) : list Z := map (fun i => read_le 4 s (4 * i)) (seq 0 10).
Definition tri_store (w : list Z) : list Z := concat (map (write_le 4) w).

(** include/cry/trivium.h struct cry_trivium_ctx *)
Record tri := { tri_key : list Z; tri_s : list Z }.
(** src/crypt/trivium.c:63-66 *)
Definition tri_init : tri := {| tri_key := repeat 0 10; tri_s := repeat 0 40 |}.
(** src/crypt/trivium.c:73-85 *)
Definition tri_key_set (c : tri) (key : list Z) : tri :=
  let size := Nat.min (length key) 10 in
  {| tri_key := firstn size key ++ repeat 0 (10 - size); tri_s := tri_s c |}.
(** src/crypt/trivium.c:87-133; bytes 38 and 39 of the state keep what they held *)
Definition tri_iv_set (c : tri) (iv : list Z) : tri :=
  let size := Nat.min (length iv) 10 in
  let s := firstn 10 (tri_key c) ++ [0; 0] ++ firstn size iv ++ repeat 0 (12 - size) ++ repeat 0 13 ++ [0x70] ++ skipn 38 (tri_s c) in
  let w := Nat.iter 36 (fun w => snd (tri_step w)) (tri_load s) in
  {| tri_key := tri_key c; tri_s := tri_store w |}.
(** src/crypt/trivium.c:151-159: whole words; reading and writing four bytes at
    a time, so dst may be src *)
Fixpoint tri_words (n : nat) (w : list Z) (src : list Z) (i : nat) : list Z * list Z :=
  match n with
  | O => ([], w)
  | S n => let '(z, w) := tri_step w in
           let x := Z.lxor (read_le 4 src (4 * i)) z in
           let '(out, w) := tri_words n w src (S i) in
           (write_le 4 x ++ out, w)
  end.
(** src/crypt/trivium.c:136-172 *)
Definition tri_crypt (c : tri) (src : list Z) : list Z * tri :=
  let size := length src in
  let '(out, w) := tri_words (size / 4) (tri_load (tri_s c)) src 0 in
  let i := (size / 4 * 4)%nat in
  let '(tail, w) :=
    if Nat.ltb i size then
      let '(z, w) := tri_step w in
      (map (fun j => Z.lxor (nth (i + j) src 0) (Z.land (Z.shiftr z (8 * Z.of_nat j)) 255)) (seq 0 (size - i)), w)
    else ([], w) in
  (out ++ tail, {| tri_key := tri_key c; tri_s := tri_store w |}).
(** successive calls on one context *)
Fixpoint tri_calls (c : tri) (ms : list (list Z)) : list (list Z) :=
  match ms with
  | [] => []
  | m :: ms => let '(o, c) := tri_crypt c m in o :: tri_calls c ms
  end.
