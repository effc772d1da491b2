(** Model of src/crypt/arc4.c and src/crypt/affine.c. *)
From Verif Require Import Base MpiModel MpiAlgModel.

(** include/cry/arc4.h: struct cry_arc4_ctx *)
Record arc4 := { a4x : Z; a4y : Z; a4s : list Z }.

(** src/crypt/arc4.c:30-38.  [n] rounds left, round number [i], key index [k]. *)
Fixpoint arc4_sched (n i : nat) (s : list Z) (j : Z) (k : nat) (key : list Z) : list Z :=
  match n with
  | O => s
  | S n' =>
      let a := nth i s 0 in
      let j := (j + a + nth k key 0) mod 256 in
      let s := upd s i (nth (Z.to_nat j) s 0) in
      let s := upd s (Z.to_nat j) a in
      arc4_sched n' (S i) s j (if Nat.eqb (S k) (length key) then O else S k) key
  end.
(** src/crypt/arc4.c:16-39 cry_arc4_key_set, [size] being the length of [key].
    Every field is overwritten, so the previous state is no argument.  With
    size 0 the loop reads key[0..255], outside the key. *)
Definition arc4_key_set (key : list Z) : res arc4 :=
  match key with
  | [] => UB
  | _ => Ok {| a4x := 0; a4y := 0; a4s := arc4_sched 256 0 (map Z.of_nat (seq 0 256)) 0 0 key |}
  end.

(** src/crypt/arc4.c:51-59, one round: new state and key-stream byte *)
Definition arc4_next (c : arc4) : arc4 * Z :=
  let x := (a4x c + 1) mod 256 in
  let a := nth (Z.to_nat x) (a4s c) 0 in
  let y := (a4y c + a) mod 256 in
  let b := nth (Z.to_nat y) (a4s c) 0 in
  let s := upd (a4s c) (Z.to_nat x) b in
  let s := upd s (Z.to_nat y) a in
  ({| a4x := x; a4y := y; a4s := s |}, nth (Z.to_nat ((a + b) mod 256)) s 0).
(** src/crypt/arc4.c:41-63 cry_arc4_crypt.  src[i] is read before dst[i] is
    written, so dst = src is covered. *)
Fixpoint arc4_crypt (c : arc4) (src : list Z) : arc4 * list Z :=
  match src with
  | [] => (c, [])
  | m :: r =>
      let '(c, k) := arc4_next c in
      let '(c, o) := arc4_crypt c r in
      (c, Z.lxor m k :: o)
  end.

(** include/cry/affine.h: the three arrays have CRY_AFFINE_KEYMAX = 32 entries *)
Record affine := { afa : list Z; afi : list Z; afb : list Z; afn : nat }.
Definition keymax : nat := 32.

(** reading entry [k] of one of the arrays *)
Definition at_ (l : list Z) (k : nat) : res Z :=
  match nth_error l k with Some v => Ok v | None => UB end.

(** src/crypt/affine.c:5-17 cry_affine_encrypt, [k] the key index *)
Fixpoint affine_enc (c : affine) (k : nat) (l : list Z) : res (list Z) :=
  match l with
  | [] => Ok []
  | x :: r =>
      do a <- at_ (afa c) k;
      do b <- at_ (afb c) k;
      do o <- affine_enc c (if Nat.eqb (S k) (afn c) then O else S k) r;
      Ok ((x * a + b) mod 256 :: o)
  end.
Definition affine_encrypt (c : affine) (l : list Z) := affine_enc c 0 l.
(** src/crypt/affine.c:19-31 cry_affine_decrypt; the product of two ints, reduced
    by the cast to unsigned char *)
Fixpoint affine_dec (c : affine) (k : nat) (l : list Z) : res (list Z) :=
  match l with
  | [] => Ok []
  | x :: r =>
      do b <- at_ (afb c) k;
      do i <- at_ (afi c) k;
      do o <- affine_dec c (if Nat.eqb (S k) (afn c) then O else S k) r;
      Ok (((x - b) * i) mod 256 :: o)
  end.
Definition affine_decrypt (c : affine) (l : list Z) := affine_dec c 0 l.

(** src/crypt/affine.c:46-53: inverses of the multipliers, -1 at the first even one *)
Fixpoint affine_invs (l : list Z) : res (list Z) :=
  match l with
  | [] => Ok []
  | a :: r =>
      if negb (Z.land a 1 =? 1) then Err (-1)
      else do i <- long_inv a 256;
           do o <- affine_invs r;
           Ok (i mod 256 :: o)
  end.
Definition pad32 (l : list Z) : list Z := l ++ repeat 0 (keymax - length l).
(** src/crypt/affine.c:33-55 cry_affine_init; both keys have [keylen] bytes *)
Definition affine_init (keya keyb : list Z) : res affine :=
  let n := Nat.min keymax (length keya) in
  let ka := firstn n keya in
  let kb := firstn n keyb in
  do inv <- affine_invs ka;
  Ok {| afa := pad32 ka; afi := pad32 inv; afb := pad32 kb; afn := n |}.
