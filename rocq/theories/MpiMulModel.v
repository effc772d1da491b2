(** Executable model of multiplication and squaring (src/mpi/mpi_mul*.c,
    src/mpi/mpi_sqr*.c), shipped configuration: COMBA, KARATSUBA and TOOM3 are
    all defined (include/cry/config.h).

    [rs] is the sign held by the destination before the call, where the C code
    leaves it in place; a destination aliasing an operand gets a fresh object
    with sign 0 in the Comba routines, so aliased calls pass [false]. *)
From Verif Require Import Base MpiModel.

(** src/mpi/mpi_pvt.h:112-119 MULADD (ANSI C version; the assembly versions
    compute the same three words).  Simplification: the top word [c2] is not
    reduced modulo 2^64; it counts at most one carry per term, so it cannot
    reach 2^64 for operands that fit in memory ([muladd_w] below is the wrapped
    version, and MpiMul.v proves that the two agree). *)
Definition muladd (c : Z * Z * Z) (i j : Z) : Z * Z * Z :=
  let '(c0, c1, c2) := c in
  let t := c0 + i * j in
  let u := c1 + t / B in
  (t mod B, u mod B, c2 + u / B).

Definition muladd_w (c : Z * Z * Z) (i j : Z) : Z * Z * Z :=
  let '(c0, c1, c2) := c in
  let t := c0 + i * j in
  let u := c1 + t / B in
  (t mod B, u mod B, (c2 + u / B) mod B).

(** src/mpi/mpi_mul_comba.c:49-54: the inner loop over [n] terms, from digit
    [tx] of [a] upwards and digit [ty] of [b] downwards. *)
Fixpoint comba_col (ma : Z * Z * Z -> Z -> Z -> Z * Z * Z)
    (a b : list Z) (tx ty n : nat) (c : Z * Z * Z) : Z * Z * Z :=
  match n with
  | O => c
  | S n' => comba_col ma a b (S tx) (Nat.pred ty) n' (ma c (nth tx a 0) (nth ty b 0))
  end.

(** src/mpi/mpi_mul_comba.c:29-58: the columns [ix], [ix]+1, ... ([k] of them);
    (c1, c2) is the accumulator carried over. *)
Fixpoint comba_loop (ma : Z * Z * Z -> Z -> Z -> Z * Z * Z)
    (a b : list Z) (k ix : nat) (c1 c2 : Z) : list Z :=
  match k with
  | O => []
  | S k' =>
      let ty := Nat.min ix (length b - 1) in
      let tx := (ix - ty)%nat in
      let iy := Nat.min (length a - tx) (ty + 1) in
      let '(d0, d1, d2) := comba_col ma a b tx ty iy (c1, c2, 0) in
      d0 :: comba_loop ma a b k' (S ix) d1 d2
  end.

(** src/mpi/mpi_mul_comba.c:4-66 *)
Definition mul_comba_gen ma (rs : bool) (a b : mpi) : mpi :=
  if (is_zero a || is_zero b)%bool then mzero
  else mkmpi rs (adjust (comba_loop ma (dg a) (dg b) (used a + used b) 0 0 0)).
Definition mul_comba := mul_comba_gen muladd.
Definition mul_comba_w := mul_comba_gen muladd_w.

(** src/mpi/mpi_mul_baseline.c:36-51: add [x] times [b] into [t]. *)
Fixpoint base_row (x : Z) (b t : list Z) (u : Z) : list Z :=
  match b, t with
  | y :: b', d :: t' =>
      let dw := d + x * y + u in
      dw mod B :: base_row x b' t' (dw / B)
  | [], _ :: t' => u :: t'
  | _, [] => []
  end.

(** src/mpi/mpi_mul_baseline.c:27-52: the outer loop; the digits below the
    current row are final. *)
Fixpoint base_rows (a b t : list Z) : list Z :=
  match a with
  | [] => t
  | x :: a' =>
      match base_row x b t 0 with
      | [] => []
      | d :: t' => d :: base_rows a' b t'
      end
  end.

(** src/mpi/mpi_mul_baseline.c:5-57: the result is swapped in from a fresh
    object, so its sign is 0. *)
Definition mul_baseline (a b : mpi) : mpi :=
  if (is_zero a || is_zero b)%bool then mzero
  else mkmpi false (adjust (base_rows (dg a) (dg b) (repeat 0 (used a + used b)))).

(** src/mpi/mpi_mul_karatsuba.c:5-72 ([mulabs] is the recursive entry
    cry_mpi_mul_abs). *)
Definition karatsuba (mulabs : bool -> mpi -> mpi -> res mpi) (a b : mpi) : res mpi :=
  if (is_zero a || is_zero b)%bool then Ok mzero
  else
    let hB := Nat.div2 (Nat.min (used a) (used b)) in
    let Bd := (2 * hB)%nat in
    let x0 := mkmpi false (adjust (firstn hB (dg a))) in
    let y0 := mkmpi false (adjust (firstn hB (dg b))) in
    let x1 := mkmpi false (skipn hB (dg a)) in
    let y1 := mkmpi false (skipn hB (dg b)) in
    do z0 <- mulabs false x0 y0;
    do z2 <- mulabs false x1 y1;
    do z1 <- add x1 x0;
    do x0 <- add y1 y0;
    do z1 <- mulabs false z1 x0;
    do x0 <- add z0 z2;
    do z1 <- sub z1 x0;
    let z1 := shld z1 hB in
    let z2 := shld z2 Bd in
    do z1 <- add z0 z1;
    add z1 z2.

(** src/mpi/mpi_mul_toom3.c:4-33 *)
Definition mod_2e (a : mpi) (e : Z) : mpi :=
  if e =? 0 then mzero
  else if 64 * Z.of_nat (used a) <=? e then a
  else
    let n := Z.to_nat (e / 64) in
    mkmpi (neg a)
      (adjust (firstn n (dg a)
               ++ Z.land (nth n (dg a) 0) (Z.shiftl 1 (e mod 64) - 1)
               :: repeat 0 (used a - n - 1))).

(** src/mpi/mpi_mul_toom3.c:68-71: the fix-up loop (at most two rounds). *)
Fixpoint div3_fix (fuel : nat) (t w : Z) : option (Z * Z) :=
  if 3 <=? w then
    match fuel with
    | O => None
    | S f => div3_fix f (t + 1) (w - 3)
    end
  else Some (t, w).

(** src/mpi/mpi_mul_toom3.c:57-76: digits from the most significant down;
    second component: the running remainder [w]. *)
Fixpoint div3_loop (l : list Z) : option (list Z * Z) :=
  match l with
  | [] => Some ([], 0)
  | d :: l' =>
      match div3_loop l' with
      | None => None
      | Some (q, w) =>
          let w := Z.lor (Z.shiftl w 64) d in
          if 3 <=? w then
            let t := Z.shiftr (w * (B / 3)) 64 in
            match div3_fix 4 t (w - (t + t + t)) with
            | None => None
            | Some (t, w) => Some (t mod B :: q, w)
            end
          else Some (0 :: q, w)
      end
  end.

(** src/mpi/mpi_mul_toom3.c:39-82 *)
Definition div3 (a : mpi) : res mpi :=
  match div3_loop (dg a) with
  | None => Fuel
  | Some (q, _) => Ok (mkmpi (neg a) (adjust q))
  end.

(** src/mpi/mpi_mul.c:3-12, over a given magnitude multiplication. *)
Definition mul_gen (mulabs : bool -> mpi -> mpi -> res mpi) (rs : bool) (a b : mpi) : res mpi :=
  do r <- mulabs rs a b;
  Ok (if is_zero r then r else set_sign (xorb (neg a) (neg b)) r).

(** src/mpi/mpi_mul_toom3.c:90-220 *)
Definition toom3 (mulabs : bool -> mpi -> mpi -> res mpi) (a b : mpi) : res mpi :=
  if (is_zero a || is_zero b)%bool then Ok mzero
  else
    let n := (Nat.min (used a) (used b) / 3)%nat in
    let e := 64 * Z.of_nat n in
    let a0 := mod_2e a e in
    let a1 := mod_2e (shrd a n) e in
    let a2 := shrd a (n * 2) in
    let b0 := mod_2e b e in
    let b1 := mod_2e (shrd b n) e in
    let b2 := shrd b (n * 2) in
    do t1 <- add a0 a2;
    do t2 <- add b0 b2;
    do w1 <- add t1 a1;
    do w2 <- add t2 b1;
    do w1 <- mul_gen mulabs false w1 w2;
    do t1 <- sub t1 a1;
    do t2 <- sub t2 b1;
    do w2 <- mul_gen mulabs (neg w2) t1 t2;
    do t1 <- add t1 a2;
    let t1 := shl t1 1 in
    do t1 <- sub t1 a0;
    do t2 <- add t2 b2;
    let t2 := shl t2 1 in
    do t2 <- sub t2 b0;
    do w3 <- mul_gen mulabs false t1 t2;
    do w0 <- mul_gen mulabs false a0 b0;
    do w4 <- mul_gen mulabs false a2 b2;
    do w3 <- sub w3 w1;
    do w3 <- div3 w3;
    do w1 <- sub w1 w2;
    let w1 := shr w1 1 in
    do w2 <- sub w2 w0;
    do w3 <- sub w2 w3;
    let w3 := shr w3 1 in
    let t1 := shl w4 1 in
    do w3 <- add w3 t1;
    do w2 <- add w2 w1;
    do w2 <- sub w2 w4;
    do w1 <- sub w1 w3;
    let w1 := shld w1 (1 * n) in
    let w2 := shld w2 (2 * n) in
    let w3 := shld w3 (3 * n) in
    let w4 := shld w4 (4 * n) in
    do r <- add w0 w1;
    do t1 <- add w2 w3;
    do t1 <- add w4 t1;
    add t1 r.

(** src/mpi/mpi_mul_abs.c:5-25: the dispatcher, KARATSUBA_CUTOFF 64 and
    TOOM3_CUTOFF 300.  [fuel] bounds the depth of the recursion. *)
Fixpoint mul_abs_f (fuel : nat) (rs : bool) (a b : mpi) : res mpi :=
  match fuel with
  | O => Fuel
  | S f =>
      let m := Nat.min (used a) (used b) in
      if (300 <? m)%nat then toom3 (mul_abs_f f) a b
      else if (64 <? m)%nat then karatsuba (mul_abs_f f) a b
      else Ok (mul_comba rs a b)
  end.

Definition mul_abs (rs : bool) (a b : mpi) : res mpi :=
  mul_abs_f (S (Nat.min (used a) (used b))) rs a b.

(** src/mpi/mpi_mul.c:3-12 *)
Definition mul (rs : bool) (a b : mpi) : res mpi := mul_gen mul_abs rs a b.

(** src/mpi/mpi_mul.c:15-24: the digit is passed as a one-digit number even
    when it is zero. *)
Definition mul_dig (rs : bool) (a : mpi) (b : Z) : res mpi := mul rs a (mkmpi false [b]).

(** *** Squaring *)

(** src/mpi/mpi_sqr_comba.c:53-72: double the inner product and add it. *)
Definition dbl_add (c t : Z * Z * Z) : Z * Z * Z :=
  let '(c0, c1, c2) := c in
  let '(t0, t1, t2) := t in
  let t2 := Z.lor (Z.shiftl t2 1) (Z.shiftr t1 63) in
  let t1 := Z.lor (Z.shiftl t1 1 mod B) (Z.shiftr t0 63) in
  let t0 := Z.shiftl t0 1 mod B in
  let cc0 := c0 + t0 in
  let cc1 := c1 + t1 + cc0 / B in
  let cc2 := c2 + t2 + cc1 / B in
  (cc0 mod B, cc1 mod B, cc2).

(** src/mpi/mpi_sqr_comba.c:30-82.  Simplification: the top words [t2] and [c2]
    are not reduced modulo 2^64 (see [muladd]). *)
Fixpoint sqr_loop (a : list Z) (k ix : nat) (c1 c2 : Z) : list Z :=
  match k with
  | O => []
  | S k' =>
      let ty := Nat.min ix (length a - 1) in
      let tx := (ix - ty)%nat in
      let iy := Nat.min (length a - tx) (ty + 1) in
      let iy := Nat.min iy (Nat.div2 (ty + 1 - tx)) in
      let c := (c1, c2, 0) in
      let c := if Nat.eqb iy 0 then c
               else dbl_add c (comba_col muladd a a tx ty iy (0, 0, 0)) in
      let c := if Nat.even ix
               then muladd c (nth (Nat.div2 ix) a 0) (nth (Nat.div2 ix) a 0)
               else c in
      let '(d0, d1, d2) := c in
      d0 :: sqr_loop a k' (S ix) d1 d2
  end.

(** src/mpi/mpi_sqr_comba.c:4-91 *)
Definition sqr_comba (rs : bool) (a : mpi) : mpi :=
  if is_zero a then mzero
  else mkmpi rs (adjust (sqr_loop (dg a) (used a + used a) 0 0 0)).

(** src/mpi/mpi_sqr_karatsuba.c:3-59 *)
Definition sqr_karatsuba (sq : bool -> mpi -> res mpi) (a : mpi) : res mpi :=
  if is_zero a then Ok mzero
  else
    let hB := Nat.div2 (used a) in
    let Bd := (2 * hB)%nat in
    let x0 := mkmpi false (adjust (firstn hB (dg a))) in
    let x1 := mkmpi false (skipn hB (dg a)) in
    do z0 <- sq false x0;
    do z2 <- sq false x1;
    do z1 <- add x1 x0;
    do z1 <- sq false z1;
    do x0 <- add z0 z2;
    do z1 <- sub z1 x0;
    let z1 := shld z1 hB in
    let z2 := shld z2 Bd in
    do z1 <- add z0 z1;
    add z1 z2.

(** src/mpi/mpi_sqr.c:7-19, KARATSUBA_CUTOFF 64. *)
Fixpoint sqr_f (fuel : nat) (rs : bool) (a : mpi) : res mpi :=
  match fuel with
  | O => Fuel
  | S f => if (64 <? used a)%nat then sqr_karatsuba (sqr_f f) a
           else Ok (sqr_comba rs a)
  end.
Definition sqr (rs : bool) (a : mpi) : res mpi := sqr_f (S (used a)) rs a.

(** src/mpi/mpi_sqr_baseline.c:53-57: propagate the carry; [None] is a write
    past the end of the array. *)
Fixpoint sqb_prop (t : list Z) (fuel : nat) (c : Z) : option (list Z) :=
  if c =? 0 then Some t
  else match fuel, t with
       | S f, d :: t' =>
           match sqb_prop t' f ((d + c) / B) with
           | None => None
           | Some r => Some ((d + c) mod B :: r)
           end
       | _, _ => None
       end.

(** src/mpi/mpi_sqr_baseline.c:36-50: the row of double products, in 128-bit
    arithmetic, then the carry. *)
Fixpoint sqb_row (x : Z) (a t : list Z) (c : Z) : option (list Z) :=
  match a, t with
  | [], _ => sqb_prop t (length t) c
  | y :: a', d :: t' =>
      let dd := x * y in
      let ch := Z.shiftr (Z.land dd (Z.shiftl 1 127)) 63 in
      let dd := Z.shiftl dd 1 mod (B * B) in
      let dd := (dd + (d + c)) mod (B * B) in
      let ch := if ((ch =? 0) && (dd <? d + c))%bool then B else ch in
      match sqb_row x a' t' (Z.lor ch (dd / B)) with
      | None => None
      | Some r => Some (dd mod B :: r)
      end
  | _ :: _, [] => None
  end.

(** src/mpi/mpi_sqr_baseline.c:23-58 *)
Fixpoint sqb_rows (a t : list Z) : option (list Z) :=
  match a with
  | [] => Some t
  | x :: a' =>
      match t with
      | [] => None
      | d :: t' =>
          let dd := d + x * x in
          match sqb_row x a' t' (dd / B) with
          | Some (d1 :: t1) =>
              match sqb_rows a' t1 with
              | None => None
              | Some r => Some (dd mod B :: d1 :: r)
              end
          | _ => None
          end
      end
  end.

(** src/mpi/mpi_sqr_baseline.c:3-64 (not selected by the shipped config). *)
Definition sqr_baseline (a : mpi) : res mpi :=
  if is_zero a then Ok mzero
  else match sqb_rows (dg a) (repeat 0 (2 * used a + 1)) with
       | None => UB
       | Some t => Ok (mkmpi false (adjust t))
       end.
